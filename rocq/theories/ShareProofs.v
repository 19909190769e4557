(** Proofs about concurrent calls of Marshal (Share.v). *)
From Verif Require Import Base IETypes IE Spec IEProofs Header HeaderProofs MsgProofs2 Share.
Set Implicit Arguments.

Section P.
Variable g : N -> bool.
Variable h : header.
Variable ies : list ie.
Notation base := (base h).
Notation step := (step g h ies).
Notation run := (run g h ies).
Notation body_len := (body_len g ies).
Notation next := (next (*z*)).

Definition hx (x : N) (p : list N) : header := mkH (h_flags h) (h_type h) x (h_seid h) (h_seq h) (h_prio h) p.
(** the octets before the IEs, with x in the Length field *)
Definition hd (x : N) : list N := henc (hx x []).
Lemma hx_mlen x p : h_mlen (hx x p) = base + length p.
Proof. unfold h_mlen, Share.base, has_seid. cbn [hx h_payload h_flags]. destruct (has1 (h_flags h)); lia. Qed.
Lemma hd_length x : length (hd x) = base.
Proof. unfold hd. rewrite henc_length, hx_mlen. cbn. lia. Qed.
Lemma henc_hd x p : henc (hx x p) = hd x ++ p.
Proof. unfold hd, henc. cbn [hx h_flags h_type h_length h_seid h_seq h_prio h_payload]. change (has_seid (hx x p)) with (has_seid (hx x [])). rewrite <- !app_assoc. cbn [app]. reflexivity. Qed.

Lemma body_len_lens : body_len = lens g ies.
Proof. unfold Share.body_len, lens. now rewrite fold_left_add. Qed.

(** ** Writing the header *)
Lemma put_min b n s b' : put b n s = Ok b' -> n + length s <= length b /\ length b' = length b.
Proof. intros H. split; [|now apply put_length in H]. unfold put in H. destruct (Nat.leb_spec (n + length s) (length b)); [assumption|discriminate]. Qed.
Lemma emit_eq x n p b : emit h x n p b = (b' <- h_marshal_to (hx x []) b ;; copy_range b' base (base + n) p).
Proof.
  unfold emit, h_marshal_to. change (has_seid (hx x [])) with (has_seid h). rewrite hx_mlen. cbn [hx h_flags h_type h_length h_seid h_seq h_prio h_payload length]. unfold Share.base.
  destruct (put b 0 [h_flags h]) as [b1|?| |]; try reflexivity. cbn [bind].
  destruct (put b1 1 [h_type h]) as [b2|?| |]; try reflexivity. cbn [bind].
  destruct (put b2 2 (be 2 x)) as [b3|?| |]; try reflexivity. cbn [bind].
  destruct (has_seid h).
  - destruct (put b3 4 (be 8 (h_seid h))) as [b4|?| |]; try reflexivity. cbn [bind]. change (4 + 8) with 12.
    destruct (copy_range b4 12 (12 + 3) (uint32To24 (h_seq h))) as [b5|?| |]; try reflexivity. cbn [bind].
    destruct (put b5 (12 + 3) [h_prio h]) as [b6|?| |] eqn:E; try reflexivity. cbn [bind]. apply put_min in E. cbn [length] in E.
    change (12 + 4) with 16. change (16 + 0) with 16. rewrite (@copy_range_ok b6 16 16) by lia. rewrite Nat.sub_diag. change (firstn 0 []) with (@nil N). cbn [bind app length]. rewrite Nat.add_0_r, firstn_skipn. f_equal; lia.
  - cbn [bind].
    destruct (copy_range b3 4 (4 + 3) (uint32To24 (h_seq h))) as [b5|?| |]; try reflexivity. cbn [bind].
    destruct (put b5 (4 + 3) [h_prio h]) as [b6|?| |] eqn:E; try reflexivity. cbn [bind]. apply put_min in E. cbn [length] in E.
    change (4 + 4) with 8. change (8 + 0) with 8. rewrite (@copy_range_ok b6 8 8) by lia. rewrite Nat.sub_diag. change (firstn 0 []) with (@nil N). cbn [bind app length]. rewrite Nat.add_0_r, firstn_skipn. f_equal; lia.
Qed.
Lemma emit_ok x n p z : base + n <= z -> emit h x n p (make z) = Ok (hd x ++ firstn n p ++ make (z - base - length (firstn n p))).
Proof.
  intros Hz. rewrite emit_eq. unfold make. rewrite h_marshal_to_fits by (rewrite hx_mlen, repeat_length; cbn [length]; lia). fold (hd x). cbn [bind]. rewrite hx_mlen. cbn [length]. rewrite Nat.add_0_r.
  rewrite copy_range_ok by (rewrite ?app_length, ?hd_length, ?skipn_length, ?repeat_length; lia).
  rewrite firstn_app_exact by (symmetry; apply hd_length). replace (base + n - base) with n by lia.
  assert (S : forall a c, skipn a (repeat 0%N c) = repeat 0%N (c - a)).
  { clear. induction a as [|a IH]; intros [|c]; cbn; auto. }
  rewrite S. f_equal. f_equal. f_equal. rewrite skipn_app, hd_length. rewrite skipn_all2 by (rewrite hd_length; lia). cbn [app]. rewrite S. f_equal. lia.
Qed.
Lemma emit_short x n p z : z < base + n -> emit h x n p (make z) = Fault.
Proof.
  intros Hz. rewrite emit_eq. destruct (Nat.lt_ge_cases z base) as [L|L].
  - rewrite h_marshal_to_short; [reflexivity|]. unfold make. rewrite hx_mlen, repeat_length. cbn [length]. lia.
  - unfold make. rewrite h_marshal_to_fits by (rewrite hx_mlen, repeat_length; cbn [length]; lia). fold (hd x). cbn [bind]. rewrite hx_mlen. cbn [length]. rewrite Nat.add_0_r. unfold copy_range.
    destruct (Nat.leb_spec base (base + n)); [|lia]. rewrite app_length, hd_length, skipn_length, repeat_length. destruct (Nat.leb_spec (base + n) (base + (z - base))); [lia|reflexivity].
Qed.

(** ** Every schedule *)
(** each octet is the right one or 0 *)
Definition partial (arr : list N) : Prop := forall n x, nth_error arr n = Some x -> x = 0%N \/ nth_error (encs g ies) n = Some x.
Lemma nth_repeat0 n c (x : N) : nth_error (repeat 0%N c) n = Some x -> x = 0%N.
Proof. revert n. induction c as [|c IH]; intros [|n]; cbn; try discriminate; [congruence|apply IH]. Qed.
Lemma partial_make n : partial (make n).
Proof. intros m x H. left. exact (nth_repeat0 _ _ H). Qed.
Lemma partial_nil : partial []. Proof. intros [|n] x; discriminate. Qed.
Lemma partial_cut n m p : partial p -> partial (firstn n p ++ make m).
Proof.
  intros H k x E. destruct (Nat.lt_ge_cases k (length (firstn n p))) as [L|L].
  - rewrite nth_error_app1 in E by exact L. apply H. rewrite <- E. clear - L. revert n p L. induction k as [|k IH]; intros [|n] [|y p]; cbn; try lia; [reflexivity|]. intros L. apply IH. lia.
  - rewrite nth_error_app2 in E by exact L. left. exact (nth_repeat0 _ _ E).
Qed.
Lemma nth_error_firstn' {A} k n (l : list A) : k < n -> nth_error (firstn n l) k = nth_error l k.
Proof. revert n l. induction k as [|k IH]; intros [|n] [|y l] L; cbn; try lia; try reflexivity. apply IH. lia. Qed.
Lemma nth_error_skipn' {A} k n (l : list A) : nth_error (skipn n l) k = nth_error l (n + k).
Proof. revert l. induction n as [|n IH]; intros [|y l]; cbn; try reflexivity; [now destruct k|apply IH]. Qed.
Lemma partial_store pre i post arr : ies = pre ++ i :: post -> partial arr -> lens g pre + mlen g i <= length arr ->
  partial (firstn (lens g pre) arr ++ enc g i ++ skipn (mlen g i) (skipn (lens g pre) arr)).
Proof.
  intros E P L k x H. destruct (Nat.lt_ge_cases k (lens g pre)) as [L1|L1].
  - rewrite nth_error_app1 in H by (rewrite firstn_length; lia). rewrite nth_error_firstn' in H by exact L1. exact (P _ _ H).
  - rewrite nth_error_app2 in H by (rewrite firstn_length; lia). rewrite firstn_length, Nat.min_l in H by lia.
    destruct (Nat.lt_ge_cases (k - lens g pre) (mlen g i)) as [L2|L2].
    + right. rewrite nth_error_app1 in H by (rewrite enc_length; exact L2). rewrite E, encs_app. rewrite nth_error_app2 by (rewrite encs_length; exact L1). rewrite encs_length.
      change (encs g (i :: post)) with (enc g i ++ encs g post). rewrite nth_error_app1 by (rewrite enc_length; exact L2). exact H.
    + rewrite nth_error_app2 in H by (rewrite enc_length; exact L2). rewrite enc_length, !nth_error_skipn' in H.
      replace (lens g pre + (mlen g i + (k - lens g pre - mlen g i))) with k in H by lia. exact (P _ _ H).
Qed.

Variable n0 : nat.      (* arrays made before *)
Definition new_ref (a : option nat) : Prop := match a with None => True | Some n => n0 <= n end.
Definition inv (s : shared) : Prop := n0 <= length (s_arrays s) /\ forall n, n0 <= n -> partial (nth n (s_arrays s) []).
Definition at_ie (off : nat) (i : ie) (r : list ie) : Prop := exists pre, ies = pre ++ i :: r /\ off = lens g pre.
Definition damaged (w : list N) : Prop := exists x q, w = hd x ++ q /\ partial q.
Definition okpc (s : shared) (p : pc) : Prop :=
  match p with
  | Load _ off i r => new_ref (s_ref s) /\ at_ie off i r
  | Store _ off i r a => new_ref (s_ref s) /\ at_ie off i r /\ new_ref a
  | Set1 _ | Set2 _ _ | Add1 _ | Add2 _ _ | Out1 _ | Out2 _ _ | Out3 _ _ _ => new_ref (s_ref s)
  | Out4 _ _ _ a => new_ref (s_ref s) /\ new_ref a
  | Fin (Ok w) => damaged w
  | _ => True
  end.
Hypothesis Hg : forall t, g t = true -> vendor t = false.

Lemma new_contents s a : inv s -> new_ref a -> partial (contents s a).
Proof. intros [_ I]. destruct a; cbn; [apply I|intros _; apply partial_nil]. Qed.
Lemma okpc_next s z off r : new_ref (s_ref s) -> (exists pre, ies = pre ++ r /\ off = lens g pre) -> okpc s (Share.next z off r).
Proof. intros R H. destruct r as [|i r]; cbn; [exact R|]. split; [exact R|exact H]. Qed.
Lemma nth_set_nth n x l m : nth m (set_nth n x l) [] = if (n =? m) && (n <? length l) then x else nth m l [].
Proof.
  revert l m. induction n as [|n IH]; intros [|y l] [|m]; cbn [set_nth nth]; try reflexivity.
  - cbn. now rewrite andb_false_r.
  - rewrite IH. reflexivity.
Qed.
Lemma set_nth_length n x l : length (set_nth n x l) = length l.
Proof. revert l. induction n as [|n IH]; intros [|y l]; cbn; congruence. Qed.

(** a step keeps the invariant, and never makes Payload refer to an old array again *)
Lemma step_inv s p s' p' : inv s -> okpc s p -> step s p = (s', p') -> inv s' /\ okpc s' p' /\ (new_ref (s_ref s) -> new_ref (s_ref s')).
Proof.
  intros I O E. destruct p; cbn [Share.step] in E; try (injection E as <- <-).
  - auto.
  - unfold sized. destruct (_ <? 0)%Z; cbn; auto.
  - destruct (s_ref s); cbn; auto.
  - cbn. auto.
  - cbn. auto.
  - cbn. auto.
  - unfold sized. destruct (_ <? 0)%Z; cbn; auto.
  - assert (I' : inv (alloc s n)).
    { destruct I as [I1 I2]. split; [cbn; rewrite app_length; lia|]. intros m Hm. cbn. destruct (Nat.lt_ge_cases m (length (s_arrays s))).
      - rewrite app_nth1 by assumption. now apply I2.
      - rewrite app_nth2 by assumption. destruct (m - length (s_arrays s)) as [|[|?]]; cbn; [apply partial_make|apply partial_nil|apply partial_nil]. }
    assert (R : new_ref (s_ref (alloc s n))) by (cbn; apply I). split; [exact I'|]. split; [|auto]. apply okpc_next; [exact R|]. exists []. auto.
  - destruct O as [R A]. cbn. auto.
  - destruct O as (R & A & Ra). destruct (from (contents s a) off) as [t|?| |] eqn:F; [|injection E as <- <-; cbn; auto ..].
    destruct (marshal_to g i t) as [t'|?| |] eqn:M; [|injection E as <- <-; cbn; auto ..]. injection E as <- <-.
    destruct A as (pre & Ei & ->). unfold from in F. destruct (Nat.leb_spec (lens g pre) (length (contents s a))) as [L|]; [|discriminate]. injection F as <-.
    assert (L2 : mlen g i <= length (skipn (lens g pre) (contents s a))).
    { apply Nat.nlt_ge. intros X. exact (@marshal_to_short g i Hg _ X _ M). }
    rewrite marshal_to_fits in M by exact L2. injection M as <-. rewrite skipn_length in L2.
    pose proof (new_contents a I Ra) as P. pose proof (@partial_store pre i r _ Ei P ltac:(lia)) as P'. set (arr := firstn _ _ ++ _) in *.
    assert (I' : inv (set_array s a arr)).
    { destruct a as [n|]; cbn; [|exact I]. destruct I as [I1 I2]. split; cbn; [now rewrite set_nth_length|]. intros m Hm. rewrite nth_set_nth. destruct ((n =? m) && _); [exact P'|now apply I2]. }
    assert (R' : new_ref (s_ref (set_array s a arr))) by (destruct a; exact R). split; [exact I'|]. split; [|auto]. apply okpc_next; [exact R'|]. exists (pre ++ [i]). rewrite <- app_assoc. split; [exact Ei|].
    rewrite lens_app. unfold lens. cbn. lia.
  - cbn. auto.
  - cbn in *. destruct (has_seid h); auto.
  - cbn in *. auto.
  - cbn in *. auto.
  - cbn in *. auto.
  - cbn in *. auto.
  - cbn in *. auto.
  - destruct O as [R Ra]. split; [exact I|]. split; [|auto]. cbn [okpc]. destruct (Nat.lt_ge_cases z (base + n)) as [L|L]; [now rewrite emit_short|]. rewrite emit_ok by exact L.
    eexists _, _. split; [reflexivity|]. apply partial_cut. now apply new_contents.
  - auto.
Qed.

Lemma replace_nth n p l m q : nth_error (replace n p l) m = Some q -> nth_error l m = Some q \/ q = p.
Proof. revert l m. induction n as [|n IH]; intros [|y l] [|m]; cbn; auto; try discriminate. intros [= <-]. auto. Qed.
Lemma okpc_stable s s' p : (new_ref (s_ref s) -> new_ref (s_ref s')) -> okpc s p -> okpc s' p.
Proof. intros S. destruct p as [| | | | | | | | | | | | | | | | | |[]]; cbn; tauto. Qed.
Lemma run_inv sched : forall s ps s' ps', inv s -> Forall (okpc s) ps -> run s ps sched = (s', ps') -> inv s' /\ Forall (okpc s') ps'.
Proof.
  induction sched as [|t r IH]; intros s ps s' ps' I O E; cbn in E; [injection E as <- <-; auto|].
  unfold tick in E. destruct (nth_error ps t) as [p|] eqn:N; [|exact (IH _ _ _ _ I O E)].
  destruct (step s p) as [s1 p1] eqn:S. pose proof (proj1 (Forall_forall _ _) O) as O'.
  destruct (@step_inv s p s1 p1 I (O' _ (nth_error_In _ _ N)) S) as (I1 & O1 & St).
  refine (IH _ _ _ _ I1 _ E). apply Forall_forall. intros q Hq. apply In_nth_error in Hq. destruct Hq as [m Hm]. destruct (replace_nth _ _ _ _ Hm) as [Hm'| ->]; [|exact O1].
  apply (okpc_stable s s1 q St). exact (O' _ (nth_error_In _ _ Hm')).
Qed.
End P.
