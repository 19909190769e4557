(** Proofs about concurrent calls of Marshal (Share.v): calls that finish, calls left alone, and schedules that go wrong. *)
From Verif Require Import Base IETypes IE Spec IEProofs Header HeaderProofs MsgProofs2 Share ShareProofs.
Set Implicit Arguments.

Section P2.
Variable g : N -> bool.
Variable h : header.
Variable ies : list ie.
Notation base := (base h).
Notation step := (step g h ies).
Notation run := (run g h ies).
Notation tick := (tick g h ies).
Notation body_len := (body_len g ies).
Notation hd := (hd h).
Notation L := (lens g ies).
Definition flen : N := if has_seid h then u16 (u16 (4 + N.of_nat L) + 8) else u16 (4 + N.of_nat L).
Definition right_out : list N := hd flen ++ encs g ies.

(** ** Every call finishes *)
Definition rank (p : pc) : nat :=
  let k := 2 * length ies in
  match p with
  | Len1 => 16 + k | Len2 _ => 15 + k | Nil _ => 14 + k | Clear _ => 13 + k | Size1 _ => 12 + k | Size2 _ _ => 11 + k | Size3 _ _ _ => 10 + k | Make _ _ => 9 + k
  | Load _ _ _ r => 10 + 2 * length r | Store _ _ _ r _ => 9 + 2 * length r
  | Set1 _ => 8 | Set2 _ _ => 7 | Add1 _ => 6 | Add2 _ _ => 5 | Out1 _ => 4 | Out2 _ _ => 3 | Out3 _ _ _ => 2 | Out4 _ _ _ _ => 1 | Fin _ => 0
  end.
Lemma rank_next z off r : rank (next z off r) = 8 + 2 * length r.
Proof. destruct r; cbn; lia. Qed.
Lemma rank_step s p : rank p <> 0 -> rank (snd (step s p)) < rank p.
Proof.
  destruct p; cbn [Share.step snd rank]; intros H; try (cbn; lia).
  - unfold sized. destruct (_ <? _)%Z; cbn; lia.
  - destruct (s_ref s); cbn; lia.
  - unfold sized. destruct (_ <? _)%Z; cbn; lia.
  - rewrite rank_next. lia.
  - destruct (from _ _) as [t|?| |]; try (cbn; lia). destruct (marshal_to g i t); cbn [snd]; rewrite ?rank_next; cbn; lia.
  - destruct (has_seid h); cbn; lia.
Qed.
Lemma rank_fin p : rank p = 0 -> exists r, p = Fin r.
Proof. destruct p; cbn; intros H; try lia. eauto. Qed.
Lemma step_fin s r : step s (Fin r) = (s, Fin r). Proof. reflexivity. Qed.

Lemma nth_replace t p l m : nth_error (replace t p l) m = if (t =? m) && (t <? length l) then Some p else nth_error l m.
Proof.
  revert l m. induction t as [|t IH]; intros [|y l] [|m]; cbn [replace nth_error]; try reflexivity.
  - cbn. now rewrite andb_false_r.
  - rewrite IH. reflexivity.
Qed.
Lemma replace_length t p l : length (replace t p l) = length l.
Proof. revert l. induction t as [|t IH]; intros [|y l]; cbn; congruence. Qed.
Lemma nth_replace_same t p q l : nth_error l t = Some q -> nth_error (replace t p l) t = Some p.
Proof. intros H. rewrite nth_replace, Nat.eqb_refl. assert (t < length l) by (apply nth_error_Some; congruence). destruct (Nat.ltb_spec t (length l)); [reflexivity|lia]. Qed.
Lemma nth_replace_other t p l m : t <> m -> nth_error (replace t p l) m = nth_error l m.
Proof. intros H. rewrite nth_replace. destruct (Nat.eqb_spec t m); [contradiction|reflexivity]. Qed.

Lemma run_rank sched : forall s ps s' ps' t p, run s ps sched = (s', ps') -> nth_error ps t = Some p ->
  exists p', nth_error ps' t = Some p' /\ rank p' <= rank p - count_occ Nat.eq_dec sched t.
Proof.
  induction sched as [|u r IH]; intros s ps s' ps' t p E H; cbn [Share.run] in E.
  - injection E as <- <-. exists p. split; [exact H|cbn; lia].
  - unfold Share.tick in E. cbn [count_occ]. destruct (nth_error ps u) as [q|] eqn:U.
    + destruct (step s q) as [s1 q1] eqn:S. destruct (Nat.eq_dec u t) as [->|D].
      * rewrite U in H. injection H as ->. destruct (IH _ _ _ _ t q1 E (nth_replace_same _ _ _ U)) as (p' & P1 & P2). exists p'. split; [exact P1|].
        destruct (Nat.eq_dec (rank p) 0) as [Z|Z].
        -- destruct (rank_fin _ Z) as [x ->]. cbn in S. injection S as <- <-. cbn in *. lia.
        -- pose proof (rank_step s p Z) as R. rewrite S in R. cbn [snd] in R. lia.
      * apply (IH _ _ _ _ t p E). now rewrite nth_replace_other.
    + destruct (Nat.eq_dec u t) as [->|D]; [congruence|]. exact (IH _ _ _ _ t p E H).
Qed.

(** ** One call on its own *)
Fixpoint steps (n : nat) (s : shared) (p : pc) : shared * pc :=
  match n with O => (s, p) | S n => let '(s', p') := step s p in steps n s' p' end.
Lemma replace_same t p l : nth_error l t = Some p -> replace t p l = l.
Proof. revert l. induction t as [|t IH]; intros [|y l]; cbn; try discriminate; [congruence|]. intros H. f_equal. now apply IH. Qed.
Lemma replace_replace t p q l : replace t p (replace t q l) = replace t p l.
Proof. revert l. induction t as [|t IH]; intros [|y l]; cbn; try reflexivity. f_equal. apply IH. Qed.
Lemma run_steps t n : forall s ps p, nth_error ps t = Some p -> run s ps (repeat t n) = (fst (steps n s p), replace t (snd (steps n s p)) ps).
Proof.
  induction n as [|n IH]; intros s ps p H; cbn [repeat Share.run steps].
  - cbn. now rewrite replace_same.
  - unfold Share.tick. rewrite H. destruct (step s p) as [s1 p1]. rewrite (IH _ _ p1) by exact (nth_replace_same _ _ _ H). now rewrite replace_replace.
Qed.
Lemma steps_fin n s r : steps n s (Fin r) = (s, Fin r).
Proof. induction n as [|n IH]; [reflexivity|exact IH]. Qed.
Lemma steps_add n m s p : steps (n + m) s p = let '(s', p') := steps n s p in steps m s' p'.
Proof. revert s p. induction n as [|n IH]; intros s p; cbn; [reflexivity|]. destruct (step s p). apply IH. Qed.
Lemma steps_rank n s p : rank (snd (steps n s p)) <= rank p - n.
Proof.
  revert s p. induction n as [|n IH]; intros s p; cbn [steps]; [cbn; lia|]. destruct (step s p) as [s1 p1] eqn:S. specialize (IH s1 p1).
  destruct (Nat.eq_dec (rank p) 0) as [Z|Z].
  - destruct (rank_fin _ Z) as [x ->]. cbn in S. injection S as <- <-. cbn in *. lia.
  - pose proof (rank_step s p Z) as R. rewrite S in R. cbn [snd] in R. lia.
Qed.
Lemma steps_done n m s p s' r : steps n s p = (s', Fin r) -> rank p <= m -> steps m s p = (s', Fin r).
Proof.
  intros H R. pose proof (steps_rank m s p) as K. destruct (rank_fin (snd (steps m s p)) ltac:(lia)) as [r' E].
  pose proof (steps_add n m s p) as A. rewrite H, steps_fin in A. rewrite Nat.add_comm, steps_add in A. destruct (steps m s p) as [s1 p1]. cbn [snd] in E. subst p1. now rewrite steps_fin in A.
Qed.

Inductive moves : shared -> pc -> shared -> pc -> Prop :=
| mv0 s p : moves s p s p
| mvS s p s1 p1 s2 p2 : step s p = (s1, p1) -> moves s1 p1 s2 p2 -> moves s p s2 p2.
Lemma mv1 s p s1 p1 : step s p = (s1, p1) -> moves s p s1 p1.
Proof. intros H. econstructor; [exact H|constructor]. Qed.
Lemma mv_trans s p s1 p1 s2 p2 : moves s p s1 p1 -> moves s1 p1 s2 p2 -> moves s p s2 p2.
Proof. induction 1; auto. intros M. econstructor; eauto. Qed.
Lemma mv_steps s p s' p' : moves s p s' p' -> exists n, steps n s p = (s', p').
Proof. induction 1 as [|s p s1 p1 s2 p2 E M [n IH]]; [now exists 0|]. exists (S n). cbn. now rewrite E. Qed.

Lemma body_L : body_len = L. Proof. apply body_len_lens. Qed.
Lemma sized_ok z n k : z = Z.of_nat n -> sized z k = k n.
Proof. intros ->. unfold sized. destruct (Z.ltb_spec (Z.of_nat n) 0); [lia|]. now rewrite Nat2Z.id. Qed.
Lemma mv_len s : moves s Len1 s (Nil (base + L)).
Proof. eapply mvS; [reflexivity|]. apply mv1. cbn [Share.step]. rewrite body_L. rewrite sized_ok with (n := base + L) by lia. reflexivity. Qed.
Lemma mv_clear s z : moves s (Nil z) (set_ref s None) (Size1 z).
Proof.
  destruct s as [[a|] l ar].
  - eapply mvS; [reflexivity|]. now apply mv1.
  - now apply mv1.
Qed.
Lemma mv_size s z : s_ref s = None -> moves s (Size1 z) s (Make z L).
Proof.
  intros R. assert (P : plen s = 0) by (unfold plen; now rewrite R). eapply mvS; [reflexivity|]. eapply mvS; [reflexivity|]. apply mv1. cbn [Share.step]. rewrite !P, body_L.
  rewrite sized_ok with (n := L) by lia. reflexivity.
Qed.
(** up to the point where the new array has been made *)
Definition made (s : shared) : shared := alloc (set_ref s None) L.
Lemma mv_cleared s : moves s Len1 (set_ref s None) (Size1 (base + L)).
Proof. eapply mv_trans; [apply mv_len|apply mv_clear]. Qed.
Lemma mv_remade s z : s_ref s = None -> moves s (Size1 z) (alloc s L) (next z 0 ies).
Proof. intros R. eapply mv_trans; [apply mv_size; exact R|]. now apply mv1. Qed.
Lemma mv_made s : moves s Len1 (made s) (next (base + L) 0 ies).
Proof. eapply mv_trans; [apply mv_cleared|]. now apply mv_remade. Qed.

(** the array Payload refers to holds the octets [c] *)
Definition holds (s : shared) (c : list N) : Prop := exists a, s_ref s = Some a /\ a < length (s_arrays s) /\ nth a (s_arrays s) [] = c.
Definition with_contents (s : shared) (c : list N) : shared := set_array s (s_ref s) c.
Lemma holds_alloc s n : holds (alloc s n) (make n).
Proof. exists (length (s_arrays s)). cbn. split; [reflexivity|]. split; [rewrite app_length; cbn; lia|]. now rewrite app_nth2, Nat.sub_diag by lia. Qed.
Lemma holds_contents s c : holds s c -> contents s (s_ref s) = c.
Proof. intros (a & -> & _ & H). exact H. Qed.
Lemma holds_plen s c : holds s c -> plen s = length c.
Proof. intros H. unfold plen. now rewrite (holds_contents H). Qed.
Lemma holds_with s c c' : holds s c -> holds (with_contents s c') c'.
Proof.
  intros (a & R & A & H). exists a. unfold with_contents. rewrite R. cbn. split; [exact R|]. split; [now rewrite set_nth_length|]. rewrite nth_set_nth, Nat.eqb_refl. destruct (Nat.ltb_spec a (length (s_arrays s))); [reflexivity|lia].
Qed.
Lemma set_nth_set_nth n x y l : set_nth n x (set_nth n y l) = set_nth n x l.
Proof. revert l. induction n as [|n IH]; intros [|z l]; cbn; try reflexivity. now rewrite IH. Qed.
Lemma with_with s c c' : with_contents (with_contents s c) c' = with_contents s c'.
Proof. destruct s as [[a|] l ar]; [|reflexivity]. cbn. unfold with_contents. cbn. now rewrite set_nth_set_nth. Qed.
Lemma set_nth_nth n c l : n < length l -> nth n l [] = c -> set_nth n c l = l.
Proof. revert l. induction n as [|n IH]; intros [|y l]; cbn; intros A E; try lia; [congruence|]. f_equal. apply IH; [lia|exact E]. Qed.
Lemma with_same s c : holds s c -> with_contents s c = s.
Proof. intros (a & R & A & H). unfold with_contents. rewrite R. destruct s as [r l ar]. cbn in *. rewrite set_nth_nth by assumption. congruence. Qed.
Lemma set_nth_app_last (l : list (list N)) x y : set_nth (length l) x (l ++ [y]) = l ++ [x].
Proof. induction l as [|z l IH]; cbn; [reflexivity|now rewrite IH]. Qed.

Lemma marshal_to_rest i r (c : list N) : length c = mlen g i + r -> marshal_to g i c = Ok (enc g i ++ skipn (mlen g i) c).
Proof. intros H. apply marshal_to_fits. lia. Qed.
(** writing one IE *)
Lemma mv_ie s z pre i r n : holds s (encs g pre ++ make n) -> mlen g i <= n ->
  moves s (Load z (lens g pre) i r) (with_contents s (encs g (pre ++ [i]) ++ make (n - mlen g i))) (next z (lens g (pre ++ [i])) r).
Proof.
  intros H Hn. eapply mvS; [reflexivity|]. apply mv1. cbn [Share.step]. rewrite (holds_contents H).
  rewrite from_ok by (rewrite app_length, encs_length; lia). rewrite skipn_app_exact by (symmetry; apply encs_length). rewrite firstn_app_exact by (symmetry; apply encs_length).
  rewrite marshal_to_fits by (unfold make; rewrite repeat_length; exact Hn).
  assert (S : skipn (mlen g i) (make n) = make (n - mlen g i)).
  { unfold make. clear. generalize (mlen g i). intros a. revert n. induction a as [|a IH]; intros [|n]; cbn; auto. }
  assert (A1 : encs g (pre ++ [i]) = encs g pre ++ enc g i) by (rewrite encs_app; unfold encs at 2; cbn; now rewrite app_nil_r).
  assert (A2 : lens g (pre ++ [i]) = lens g pre + mlen g i) by (rewrite lens_app; unfold lens at 2; cbn; lia).
  rewrite S, A1, A2, <- app_assoc. reflexivity.
Qed.
Lemma mv_ies r : forall s z pre, ies = pre ++ r -> holds s (encs g pre ++ make (lens g r)) ->
  moves s (next z (lens g pre) r) (with_contents s (encs g ies)) (Set1 z).
Proof.
  induction r as [|i r IH]; intros s z pre E H.
  - rewrite app_nil_r in E. subst pre. cbn in H. rewrite app_nil_r in H. rewrite (with_same H). apply mv0.
  - cbn [next]. rewrite lens_cons in H. eapply mv_trans; [apply (@mv_ie s z pre i r _ H); lia|]. replace (mlen g i + lens g r - mlen g i) with (lens g r) by lia.
    set (s1 := with_contents _ _). replace (with_contents s (encs g ies)) with (with_contents s1 (encs g ies)) by (unfold s1; apply with_with).
    apply IH; [now rewrite <- app_assoc|]. unfold s1. exact (holds_with _ H).
Qed.
Lemma mv_all s z : holds s (make L) -> moves s (next z 0 ies) (with_contents s (encs g ies)) (Set1 z).
Proof. intros H. apply (@mv_ies ies s z []); [reflexivity|exact H]. Qed.
(** SetLength *)
Lemma mv_set s z : plen s = L -> moves s (Set1 z) (set_len s (u16 (4 + N.of_nat L))) (if has_seid h then Add1 z else Out1 z).
Proof. intros P. eapply mvS; [reflexivity|]. apply mv1. cbn [Share.step]. now rewrite P. Qed.
Lemma mv_add s z : moves s (Add1 z) (set_len s (u16 (s_length s + 8))) (Out1 z).
Proof. eapply mvS; [reflexivity|]. now apply mv1. Qed.
Lemma mv_length s z : plen s = L -> moves s (Set1 z) (set_len s flen) (Out1 z).
Proof.
  intros P. eapply mv_trans; [now apply mv_set|]. unfold flen. destruct (has_seid h); [|apply mv0]. exact (mv_add _ z).
Qed.
(** Header.MarshalTo *)
Lemma mv_out s z c : holds s c -> base + length c = z -> moves s (Out1 z) s (Fin (Ok (hd (s_length s) ++ c))).
Proof.
  intros H <-. eapply mvS; [reflexivity|]. eapply mvS; [reflexivity|]. eapply mvS; [reflexivity|]. apply mv1. cbn [Share.step]. rewrite (holds_contents H), (holds_plen H).
  rewrite (@emit_ok g) by apply Nat.le_refl. rewrite firstn_all. rewrite Nat.add_comm, Nat.add_sub, Nat.sub_diag. cbn. now rewrite app_nil_r.
Qed.
Lemma holds_set_len s c x : holds s c -> holds (set_len s x) c.
Proof. exact (fun H => H). Qed.
Lemma mv_rest s : holds s (make L) -> exists s', moves s (next (base + L) 0 ies) s' (Fin (Ok right_out)) /\ s_ref s' = s_ref s.
Proof.
  intros H. pose proof (holds_with (encs g ies) H) as H1. set (s1 := with_contents s (encs g ies)) in *. exists (set_len s1 flen). split.
  - eapply mv_trans; [now apply mv_all|]. fold s1. eapply mv_trans; [apply mv_length; rewrite (holds_plen H1); apply encs_length|].
    refine (mv_out (holds_set_len _ H1) _). now rewrite encs_length.
  - unfold s1, with_contents. now destruct (s_ref s) eqn:E.
Qed.
Lemma mv_whole s : exists s', moves s Len1 s' (Fin (Ok right_out)).
Proof.
  destruct (@mv_rest (made s)) as (s' & M & _); [apply holds_alloc|]. exists s'. eapply mv_trans; [apply mv_made|exact M].
Qed.

(** ** Two calls *)
Definition reach s ps s' ps' := exists sched, run s ps sched = (s', ps').
Lemma run_app a : forall s ps b, run s ps (a ++ b) = let '(s', ps') := run s ps a in run s' ps' b.
Proof. induction a as [|t a IH]; intros s ps b; cbn; [reflexivity|]. destruct (tick s ps t). apply IH. Qed.
Lemma reach_trans s ps s1 ps1 s2 ps2 : reach s ps s1 ps1 -> reach s1 ps1 s2 ps2 -> reach s ps s2 ps2.
Proof. intros [a A] [b B]. exists (a ++ b). now rewrite run_app, A. Qed.
Lemma reach_l s p q s' p' : moves s p s' p' -> reach s [p; q] s' [p'; q].
Proof. intros M. destruct (mv_steps M) as [n E]. exists (repeat 0 n). rewrite (@run_steps 0 n s [p; q] p eq_refl), E. reflexivity. Qed.
Lemma reach_r s p q s' q' : moves s q s' q' -> reach s [p; q] s' [p; q'].
Proof. intros M. destruct (mv_steps M) as [n E]. exists (repeat 1 n). rewrite (@run_steps 1 n s [p; q] q eq_refl), E. reflexivity. Qed.

(** the second call clears Payload when the first has just made it *)
Lemma race_error s : ies <> [] -> exists s', reach s [Len1; Len1] s' [Fin (Err EInvalidLength); Fin (Ok right_out)].
Proof.
  intros N. set (s1 := made s). set (s2 := set_ref s1 None).
  destruct (@mv_rest (alloc s2 L)) as (s' & M & _); [apply holds_alloc|]. exists s'.
  eapply reach_trans; [apply reach_l, mv_made|]. eapply reach_trans; [apply reach_r, mv_cleared|]. fold s1 s2.
  eapply reach_trans.
  { apply reach_l. destruct ies as [|i r] eqn:E; [contradiction|]. cbn [next]. eapply mvS; [reflexivity|]. apply mv1. cbn [Share.step]. cbn [s2 set_ref s_ref contents]. cbn [from length Nat.leb skipn].
    rewrite marshal_to_tiny by (cbn; lia). reflexivity. }
  apply reach_r. eapply mv_trans; [now apply mv_remade|]. exact M.
Qed.
(** the second call clears Payload after the first has written an IE *)
Lemma race_panic s : 2 <= length ies -> exists s', reach s [Len1; Len1] s' [Fin Fault; Fin (Ok right_out)].
Proof.
  intros N. assert (exists i j r, ies = i :: j :: r) as (i & j & r & E) by (destruct ies as [|i [|j r]]; cbn in N; try lia; eauto).
  set (s1 := made s). set (s1' := with_contents s1 (encs g [i] ++ make (L - mlen g i))). set (s2 := set_ref s1' None).
  destruct (@mv_rest (alloc s2 L)) as (s' & M & _); [apply holds_alloc|]. exists s'.
  eapply reach_trans; [apply reach_l, mv_made|].
  eapply reach_trans.
  { apply reach_l. fold s1. rewrite E at 2. cbn [next]. apply (@mv_ie s1 (base + L) [] i (j :: r) L); [apply holds_alloc|]. rewrite E, lens_cons. lia. }
  fold s1'. cbn [app]. eapply reach_trans; [apply reach_r, mv_cleared|]. fold s2.
  eapply reach_trans.
  { apply reach_l. cbn [next]. eapply mvS; [reflexivity|]. apply mv1. cbn [Share.step]. cbn [s2 set_ref s_ref contents]. unfold from. cbn [length].
    destruct (Nat.leb_spec (lens g [i]) 0) as [X|X]; [|reflexivity]. rewrite lens_cons in X. pose proof (mlen_ge4 g i). lia. }
  apply reach_r. eapply mv_trans; [now apply mv_remade|]. exact M.
Qed.
(** the second call makes a new array when the first is about to copy the old one *)
Lemma race_zeros s : exists s', reach s [Len1; Len1] s' [Fin (Ok (hd flen ++ make L)); Fin (Ok right_out)].
Proof.
  set (s1 := made s). assert (H1 : holds s1 (make L)) by apply holds_alloc. set (s2 := with_contents s1 (encs g ies)). assert (H2 : holds s2 (encs g ies)) by exact (holds_with _ H1).
  set (s3 := set_len s2 flen). set (s4 := alloc (set_ref s3 None) L). assert (H4 : holds s4 (make L)) by apply holds_alloc.
  destruct (@mv_rest s4 H4) as (s' & M & _). exists s'.
  eapply reach_trans; [apply reach_l, mv_made|]. fold s1. eapply reach_trans; [apply reach_l, mv_all; exact H1|]. fold s2.
  eapply reach_trans; [apply reach_l, mv_length; rewrite (holds_plen H2); apply encs_length|]. fold s3.
  eapply reach_trans; [apply reach_r, mv_cleared|]. eapply reach_trans; [apply reach_r; now apply mv_remade|]. fold s4.
  eapply reach_trans; [apply reach_l; refine (mv_out H4 _); unfold make; now rewrite repeat_length|]. apply reach_r. exact M.
Qed.
(** both calls add 8 to Length *)
Lemma race_length s : has_seid h = true -> exists s', let w := hd (u16 (flen + 8)) ++ encs g ies in reach s [Len1; Len1] s' [Fin (Ok w); Fin (Ok w)].
Proof.
  intros HS. set (s1 := made s). assert (H1 : holds s1 (make L)) by apply holds_alloc. set (s2 := with_contents s1 (encs g ies)). assert (H2 : holds s2 (encs g ies)) by exact (holds_with _ H1).
  set (s3 := set_len s2 (u16 (4 + N.of_nat L))).
  set (t1 := made s3). assert (T1 : holds t1 (make L)) by apply holds_alloc. set (t2 := with_contents t1 (encs g ies)). assert (T2 : holds t2 (encs g ies)) by exact (holds_with _ T1).
  set (t3 := set_len t2 (u16 (4 + N.of_nat L))). set (t4 := set_len t3 (u16 (s_length t3 + 8))). set (t5 := set_len t4 (u16 (s_length t4 + 8))).
  assert (T5 : holds t5 (encs g ies)) by exact T2. exists t5. intros w.
  assert (W : w = hd (s_length t5) ++ encs g ies). { unfold w, flen. rewrite HS. reflexivity. }
  eapply reach_trans; [apply reach_l, mv_made|]. fold s1. eapply reach_trans; [apply reach_l, mv_all; exact H1|]. fold s2.
  eapply reach_trans; [apply reach_l, mv_set; rewrite (holds_plen H2); apply encs_length|]. fold s3. rewrite HS.
  eapply reach_trans; [apply reach_r, mv_made|]. fold t1. eapply reach_trans; [apply reach_r, mv_all; exact T1|]. fold t2.
  eapply reach_trans; [apply reach_r, mv_set; rewrite (holds_plen T2); apply encs_length|]. fold t3. rewrite HS.
  eapply reach_trans; [apply reach_l, mv_add|]. fold t4. eapply reach_trans; [apply reach_r, mv_add|]. fold t5.
  eapply reach_trans; [apply reach_l; refine (mv_out T5 _); now rewrite encs_length|].
  rewrite W. apply reach_r. refine (mv_out T5 _). now rewrite encs_length.
Qed.

(** ** A message without IEs and SEID *)
Hypothesis E0 : ies = [].
Hypothesis E1 : has_seid h = false.
Definition sok (s : shared) : Prop := contents s (s_ref s) = [].
Definition pok (s : shared) (p : pc) : Prop :=
  match p with
  | Len1 => True
  | Len2 n => n = 0
  | Nil z | Clear z | Size1 z => z = base
  | Size2 z n => z = base /\ n = 0
  | Size3 z n m => z = base /\ n = 0 /\ m = 0
  | Make z n => z = base /\ n = 0
  | Set1 z => z = base
  | Set2 z n => z = base /\ n = 0
  | Out1 z => z = base /\ s_length s = 4%N
  | Out2 z x => z = base /\ x = 4%N
  | Out3 z x n => z = base /\ x = 4%N /\ n = 0
  | Out4 z x n a => z = base /\ x = 4%N /\ n = 0
  | Fin r => r = Ok (hd 4)
  | _ => False
  end.
Lemma sok_plen s : sok s -> plen s = 0.
Proof. unfold plen, sok. now intros ->. Qed.
Lemma step_ok s p s' p' : sok s -> pok s p -> step s p = (s', p') -> sok s' /\ pok s' p' /\ (s_length s = 4%N -> s_length s' = 4%N).
Proof.
  intros I O E. pose proof (sok_plen I) as P. assert (B : body_len = 0) by (rewrite body_L, E0; reflexivity).
  destruct p; cbn [Share.step pok] in *; try contradiction; injection E as <- <-; rewrite ?P, ?B, ?E0, ?E1; cbn [next pok].
  - cbn; auto.
  - subst n1. rewrite sized_ok with (n := base) by lia. cbn; auto.
  - destruct (s_ref s); cbn; auto.
  - cbn. repeat split; auto; discriminate.
  - cbn; auto.
  - destruct O as [-> ->]. cbn; auto.
  - destruct O as (-> & -> & ->). rewrite sized_ok with (n := 0) by lia. cbn; auto.
  - destruct O as [-> ->]. split; [|cbn; auto]. unfold sok. cbn. now rewrite app_nth2, Nat.sub_diag by lia.
  - cbn; auto.
  - destruct O as [-> ->]. cbn. cbn; auto.
  - destruct O as [-> ->]. cbn; auto.
  - destruct O as [-> ->]. cbn; auto.
  - destruct O as (-> & -> & ->). cbn; auto.
  - destruct O as (-> & -> & ->). rewrite (@emit_ok g) by lia. cbn. split; [exact I|]. split; [|auto]. rewrite !Nat.sub_0_r, Nat.sub_diag. cbn. now rewrite app_nil_r.
  - cbn; auto.
Qed.
Lemma pok_stable s s' p : (s_length s = 4%N -> s_length s' = 4%N) -> pok s p -> pok s' p.
Proof. intros S. destruct p; cbn; tauto. Qed.
Lemma run_ok sched : forall s ps s' ps', sok s -> Forall (pok s) ps -> run s ps sched = (s', ps') -> sok s' /\ Forall (pok s') ps'.
Proof.
  induction sched as [|t r IH]; intros s ps s' ps' I O E; cbn in E; [injection E as <- <-; auto|].
  unfold Share.tick in E. destruct (nth_error ps t) as [p|] eqn:N; [|exact (IH _ _ _ _ I O E)].
  destruct (step s p) as [s1 p1] eqn:S. pose proof (proj1 (Forall_forall _ _) O) as O'.
  destruct (@step_ok s p s1 p1 I (O' _ (nth_error_In _ _ N)) S) as (I1 & O1 & St).
  refine (IH _ _ _ _ I1 _ E). apply Forall_forall. intros q Hq. apply In_nth_error in Hq. destruct Hq as [m Hm]. destruct (replace_nth _ _ _ _ Hm) as [Hm'| ->]; [|exact O1].
  apply (@pok_stable s s1 q St). exact (O' _ (nth_error_In _ _ Hm')).
Qed.
End P2.
