(** Aliasing, continued: messages, grouped constructors and later writes. *)
From Verif Require Import Base IE IEProofs IEProofs2 Header HeaderSpec HeaderProofs Message MsgSpec MsgProofs MsgProofs2 MsgProps Alias AliasProofs.
Local Open Scope nat_scope.
Local Open Scope list_scope.

(** ** Later writes *)
Lemma do_write_frame h w b : valid h (through w) -> within (through w) b -> frame h (do_write h w) b.
Proof.
  destruct w as [s pos v]. cbn [through do_write]. intros V Wn.
  destruct (Nat.ltb_spec pos (slen s)) as [L|L]; [|apply frame_refl].
  assert (P : 0 < slen s) by lia. assert (L1 : pos + length [v] <= slen s) by (cbn; lia).
  destruct (poke_frame h s pos [v] V L1 P) as [F1 F2]. split; [exact F1|]. split; [exact F2|].
  intros t D. apply poke_other; auto. apply disjoint_part; [|exact L1].
  eapply disjoint_within; eauto.
Qed.
Lemma do_writes_frame ws b : forall h, Forall (fun w => valid h (through w) /\ within (through w) b) ws -> frame h (do_writes h ws) b.
Proof.
  induction ws as [|w ws IH]; intros h H; [apply frame_refl|].
  inversion H as [|? ? [V Wn] H']; subst. change (do_writes h (w :: ws)) with (do_writes (do_write h w) ws). pose proof (do_write_frame h w b V Wn) as F.
  eapply frame_trans; [exact F|]. apply IH. eapply Forall_impl; [|exact H']. cbn. intros w' [V' W'].
  split; [eapply valid_frame; eauto|exact W'].
Qed.
(** a slice that none of the writes touches *)
Lemma do_writes_other ws s : forall h, Forall (fun w => valid h (through w) /\ disjoint s (through w)) ws ->
  rd (do_writes h ws) s = rd h s.
Proof.
  induction ws as [|w ws IH]; intros h H; [reflexivity|].
  inversion H as [|? ? [V D] H']; subst. change (do_writes h (w :: ws)) with (do_writes (do_write h w) ws).
  pose proof (do_write_frame h w (through w) V (within_refl _)) as F.
  rewrite IH; [destruct F as (_ & _ & F); now apply F|].
  eapply Forall_impl; [|exact H']. cbn. intros w' [V' W']. split; [eapply valid_frame; eauto|exact W'].
Qed.
(** writes keep every slice valid *)
Lemma do_writes_valid ws s : forall h, Forall (fun w => valid h (through w)) ws -> valid h s -> valid (do_writes h ws) s.
Proof.
  induction ws as [|w ws IH]; intros h H V; [exact V|].
  inversion H as [|? ? Vw H']; subst. change (do_writes h (w :: ws)) with (do_writes (do_write h w) ws).
  pose proof (do_write_frame h w (through w) Vw (within_refl _)) as F. apply IH; [|eapply valid_frame; eauto].
  eapply Forall_impl; [|exact H']. cbn. intros w' V'. eapply valid_frame; eauto.
Qed.

(** ** A decoded IE is a fixed set of windows on the buffer *)
Inductive win := mkWin (t l e : N) (o n : nat) (ks : list win).
Fixpoint fill (b : list N) (w : win) : ie :=
  match w with mkWin t l e o n ks => mkIE t l e (firstn n (skipn o b)) (map (fill b) ks) end.
Fixpoint windows (w : win) : list (nat * nat) :=
  match w with mkWin t l e o n ks => (o, n) :: flat_map windows ks end.
Definition inside (w : win) (len : nat) : Prop := forall o n, In (o, n) (windows w) -> o + n <= len.

Lemma rd_within s b : within s b -> exists o n, o + n <= slen b /\ forall h, rd h s = firstn n (skipn o (rd h b)).
Proof.
  intros [Z|(E & H1 & H2)].
  - exists 0, 0. split; [lia|]. intros h. now rewrite rd_empty.
  - exists (off s - off b), (slen s). split; [lia|]. intros h. rewrite <- rd_part by lia.
    f_equal. destruct s; cbn in *. subst. f_equal. lia.
Qed.
Lemma win_of i b : (forall s, In s (slices i) -> within s b) ->
  exists w, inside w (slen b) /\ forall h, view h i = fill (rd h b) w.
Proof.
  induction i as [t l e p cs IH] using sie_ind'. intros H.
  assert (Hc : forall c, In c cs -> forall s, In s (slices c) -> within s b).
  { intros c Hc s Hs. apply H. rewrite slices_eq. right. apply in_flat_map. eauto. }
  assert (exists ks, (forall k, In k ks -> inside k (slen b)) /\ forall h, map (view h) cs = map (fill (rd h b)) ks) as (ks & K1 & K2).
  { clear H. induction IH as [|c cs Hw _ IH2].
    - exists []. split; [intros k []|reflexivity].
    - destruct (Hw (Hc c (or_introl eq_refl))) as (w & W1 & W2).
      destruct IH2 as (ks & K1 & K2); [intros c' Hc'; apply Hc; now right|].
      exists (w :: ks). split; [intros k [<-|Hk]; auto|]. intros h. cbn [map]. now rewrite W2, K2. }
  destruct (rd_within p b) as (o & n & L & R); [apply H; rewrite slices_eq; now left|].
  exists (mkWin t l e o n ks). split.
  - intros o' n' [[= <- <-]|Hk]; [exact L|]. apply in_flat_map in Hk. destruct Hk as (k & Hk & Hi). now apply (K1 k Hk).
  - intros h. rewrite view_eq. cbn [fill]. now rewrite R, K2.
Qed.

Section G.
Variable g : N -> bool.

Lemma rmap_ok {A B} (f : A -> B) r b : rmap f r = Ok b -> exists a, r = Ok a /\ f a = b.
Proof. destruct r; cbn; try discriminate. intros [= <-]. eauto. Qed.

Theorem parse_windows h b x : valid h b -> parse g (rd h b) = Ok x ->
  exists i w, sparse g h b = Ok i /\ view h i = x /\ inside w (slen b) /\
    (forall h', view h' i = fill (rd h' b) w).
Proof.
  intros V E. pose proof (sparse_sim g h b V) as S. rewrite E in S. apply rmap_ok in S. destruct S as (i & Ei & Ev).
  destruct (sparse_within g h b i V Ei) as [_ Wn]. destruct (win_of i b Wn) as (w & W1 & W2).
  exists i, w. auto.
Qed.
Theorem parseMulti_windows h b xs : valid h b -> parseMultiIEs g (rd h b) = Ok xs ->
  exists is ws, sparseMultiIEs g h b = Ok is /\ map (view h) is = xs /\ Forall (fun w => inside w (slen b)) ws /\
    (forall h', map (view h') is = map (fill (rd h' b)) ws).
Proof.
  intros V E. pose proof (sparseMulti_sim g h b V) as S. rewrite E in S. apply rmap_ok in S. destruct S as (is & Ei & Ev).
  exists is. assert (H : forall i, In i is -> forall s, In s (slices i) -> within s b).
  { intros i Hi. now apply (sparseMulti_within g h b is i V Ei Hi). }
  assert (exists ws, Forall (fun w => inside w (slen b)) ws /\ forall h', map (view h') is = map (fill (rd h' b)) ws) as (ws & W1 & W2).
  { clear Ei Ev E. induction is as [|i is IH].
    - exists []. split; [constructor|reflexivity].
    - destruct IH as (ws & K1 & K2); [intros j Hj; apply H; now right|].
      destruct (win_of i b (H i (or_introl eq_refl))) as (w & W1 & W2).
      exists (w :: ws). split; [now constructor|]. intros h'. cbn. now rewrite W2, K2. }
  exists ws. auto.
Qed.

(** the message's IEs *)
Lemma header_payload b hd : bytes b -> parse_header b = Ok hd ->
  h_payload hd = skipn (length b - length (h_payload hd)) b /\ length (h_payload hd) <= length b.
Proof.
  intros Hb E. apply parse_header_iff in E; [|exact Hb].
  assert (exists p, b = p ++ h_payload hd) as (p & ->).
  { inversion E; subst; cbn [h_payload]; [exists ([fl; tp] ++ be 2 ln ++ be 8 sd ++ be 3 sq ++ [pr])|exists ([fl; tp] ++ be 2 ln ++ be 3 sq ++ [pr])];
    now rewrite <- !app_assoc. }
  rewrite app_length. split; [|lia]. replace (length p + _ - _) with (length p) by lia. now rewrite skipn_app, skipn_all, Nat.sub_diag.
Qed.
Theorem message_windows h b k m : valid h b -> bytes (rd h b) -> parse_msg g (rd h b) = Ok (k, m) ->
  exists hd is ws, sparse_body g h b = Ok (hd, is) /\ m = message_of k hd (map (view h) is) /\
    Forall (fun w => inside w (slen b)) ws /\ (forall h', map (view h') is = map (fill (rd h' b)) ws).
Proof.
  intros V Hb E. destruct (Nat.lt_ge_cases (length (rd h b)) 2) as [L|L].
  { rewrite parse_msg_short in E by exact L. discriminate. }
  destruct (parse_msg_eq g _ L) as (c & Nc & Ek). rewrite E in Ek. clear E.
  rewrite msg_parse_eq in Ek by apply kind_consistent, kind_of_in.
  unfold sparse_body. destruct (parse_header (rd h b)) as [hd| | |] eqn:Eh; try discriminate. cbn [bind] in *.
  destruct (header_payload _ _ Hb Eh) as [Ep Lp]. rewrite (rd_length _ _ V) in Ep, Lp.
  set (o := slen b - length (h_payload hd)) in *. rewrite tail_ok by lia. cbn [bind slen].
  set (p := mkSl (arr b) (off b + o) (slen b - o)). replace (slen b - o) with (length (h_payload hd)) by lia.
  assert (Vp : valid h p) by (apply valid_part; [lia|exact V]).
  assert (Rp : forall h, rd h p = firstn (slen b - o) (skipn o (rd h b))) by (intros; unfold p; now rewrite rd_part by lia).
  assert (Rh : rd h p = h_payload hd) by (rewrite Rp, Ep at 1; apply firstn_all2; rewrite skipn_length, (rd_length _ _ V); lia).
  destruct (length (h_payload hd) <? 2) eqn:L2; cbn [bind] in *.
  - injection Ek as -> ->. exists hd, [], []. repeat split; auto.
  - destruct (parseMultiIEs g (h_payload hd)) as [xs| | |] eqn:Ex; try discriminate. cbn [bind] in Ek.
    injection Ek as -> ->. rewrite <- Rh in Ex.
    destruct (parseMulti_windows h p xs Vp Ex) as (is & _ & Ei & Ev & _). rewrite Ei. cbn [bind].
    exists hd, is. assert (H : forall i, In i is -> forall s, In s (slices i) -> within s b).
    { intros i Hi s Hs. eapply within_part; [now apply (sparseMulti_within g h p is i Vp Ei Hi)|lia]. }
    assert (exists ws, Forall (fun w => inside w (slen b)) ws /\ forall h', map (view h') is = map (fill (rd h' b)) ws) as (ws & W1 & W2).
    { clear Ei Ev Ex. induction is as [|i is IH].
      - exists []. split; [constructor|reflexivity].
      - destruct IH as (ws & K1 & K2); [intros j Hj; apply H; now right|].
        destruct (win_of i b (H i (or_introl eq_refl))) as (w & W1 & W2).
        exists (w :: ws). split; [now constructor|]. intros h'. cbn. now rewrite W2, K2. }
    exists ws. rewrite Ev. auto.
Qed.

(** ** Marshal *)
Theorem marshal_fresh h i : all_valid h i ->
  exists s h1, smarshal g i h = Ok (s, h1) /\ marshal g (view h i) = Ok (rd h1 s) /\
    (forall a, a < length h -> array h1 a = array h a) /\
    (forall ws, Forall (fun w => valid h (through w)) ws -> rd (do_writes h1 ws) s = rd h1 s) /\
    (forall ws, Forall (fun w => within (through w) s) ws -> forall t, valid h t -> rd (do_writes h1 ws) t = rd h t).
Proof.
  intros V. rewrite (smarshal_ok g i h V). eexists _, _. split; [reflexivity|].
  assert (L : length (enc g (view h i)) = mlen g (view h i)) by apply enc_length.
  set (s := mkSl (length h) 0 (mlen g (view h i))). set (h1 := h ++ [enc g (view h i)]).
  split. { rewrite marshal_ok. f_equal. unfold h1, s. rewrite rd_new. symmetry. apply firstn_all2. lia. }
  split. { intros a La. now apply array_app. }
  assert (Vs : valid h1 s).
  { right. unfold h1, s. cbn. rewrite app_length. cbn. split; [lia|]. unfold array. rewrite app_nth2, Nat.sub_diag by lia. cbn. lia. }
  split.
  - intros ws H. apply do_writes_other. eapply Forall_impl; [|exact H]. cbn. intros w Hw.
    split; [now apply valid_app|]. unfold disjoint. destruct Hw as [Z|[A _]]; [now (right; left)|].
    right. right. left. cbn. lia.
  - intros ws H t Vt. rewrite do_writes_other; [now apply rd_app|]. eapply Forall_impl; [|exact H]. cbn. intros w Hw.
    split; [eapply within_valid; eauto|]. apply disjoint_within with (b := s); [|exact Hw].
    unfold disjoint. destruct Vt as [Z|[A _]]; [now left|]. right. right. left. cbn. lia.
Qed.

(** ** a message's Marshal *)
Lemma sbody_skids p is : forall o h, sbody_to g p is o h = skids_to g p is o h.
Proof.
  induction is as [|i is IH]; intros o h; [reflexivity|]. cbn [sbody_to skids_to]. destruct (tail p o) as [t| | |]; try reflexivity. cbn [bind].
  destruct (smarshal_to g i t h) as [h1| | |]; try reflexivity. cbn [bind]. apply IH.
Qed.
Lemma smlens h is : (forall i, In i is -> all_valid h i) -> list_sum (map (smlen g) is) = lens g (map (view h) is).
Proof.
  unfold lens. intros V. rewrite map_map. f_equal. apply map_ext_in. intros i Hi. apply smlen_view. auto.
Qed.
Lemma sbody_ok h p is : valid h p -> (forall i, In i is -> clear_of h i p) -> slen p = lens g (map (view h) is) ->
  exists h', sbody_to g p is 0 h = Ok h' /\ rd h' p = encs g (map (view h) is) /\ frame h h' p.
Proof.
  intros V C L. rewrite sbody_skids.
  assert (A : agree h p (marshal_children g (map (view h) is) 0 (rd h p)) (skids_to g p is 0 h)).
  { apply skids_agree; [|exact V|exact C|apply frame_refl]. apply Forall_forall. intros c _ b' h'. apply smarshal_to_agree. }
  pose proof (@marshal_children_ok g (map (view h) is)
    ltac:(apply Forall_forall; intros c _ b' Lb; now apply marshal_to_fits) [] (rd h p) 0 eq_refl) as M. cbn [app] in M. rewrite M in A.
  2:{ rewrite (rd_length _ _ V), L. unfold lens. lia. }
  cbn [agree] in A. destruct A as (h' & E & R & F). exists h'. split; [exact E|]. split; [|exact F].
  rewrite R. unfold encs. rewrite skipn_all2, app_nil_r; [reflexivity|]. rewrite (rd_length _ _ V), L. unfold lens. lia.
Qed.

Lemma upd_mid {A} (h : list A) x y r : upd (h ++ x :: r) (length h) y = h ++ y :: r.
Proof. induction h as [|z h IH]; cbn; [reflexivity|]. now rewrite IH. Qed.
Lemma hbase_mlen hd : h_mlen (with_payload hd []) = hbase hd.
Proof. rewrite h_mlen_base. cbn [with_payload h_payload length]. rewrite Nat.add_0_r. reflexivity. Qed.
Theorem smsg_marshal_ok hd is h : (forall i, In i is -> all_valid h i) ->
  let body := encs g (map (view h) is) in
  let bs := henc (h_set_length (with_payload hd body)) in
  smsg_marshal g hd is h =
    Ok (mkSl (length h) 0 (length bs), mkSl (S (length h)) 0 (length body), h ++ [bs; body]).
Proof.
  intros V body bs. unfold smsg_marshal, halloc. rewrite hbase_mlen, (smlens h is V).
  set (n := lens g (map (view h) is)). set (nb := hbase hd + n).
  assert (Ln : length body = n) by (unfold body; apply encs_length).
  set (h0 := h ++ [make nb]). set (p := mkSl (length h0) 0 n). set (b := mkSl (length h) 0 nb).
  assert (Lm : forall k, length (make k) = k) by (intros k; unfold make; apply repeat_length).
  assert (L0 : length h0 = S (length h)) by (unfold h0; rewrite app_length; cbn; lia).
  assert (Vp : valid (h0 ++ [make n]) p).
  { right. cbn [p arr off slen]. rewrite app_length. cbn. split; [lia|]. unfold array. rewrite app_nth2, Nat.sub_diag by lia. cbn. rewrite Lm. lia. }
  assert (Ev : map (view (h0 ++ [make n])) is = map (view h) is).
  { apply map_ext_in. intros i Hi. apply view_same. intros s Hs. unfold h0. rewrite !rd_app; auto; try apply valid_app; eapply V; eauto. }
  destruct (sbody_ok (h0 ++ [make n]) p is Vp) as (h2 & E & R & F).
  { intros i Hi s Hs. pose proof (V i Hi s Hs) as Vs. split; [unfold h0; now repeat apply valid_app|].
    unfold disjoint. destruct Vs as [Z|[A _]]; [now left|]. right. right. left. cbn. lia. }
  { rewrite Ev. reflexivity. }
  rewrite Ev in R. fold body in R. rewrite E. cbn [bind].
  assert (E2 : h2 = h0 ++ [body]).
  { pose proof (frame_last h0 (make n) h2) as K. rewrite Lm in K. fold p in K. rewrite (K F), R. reflexivity. }
  subst h2. rewrite R.
  assert (Rb : rd (h0 ++ [body]) b = make nb).
  { unfold rd, array. cbn [b arr off slen skipn]. rewrite app_nth1 by lia. unfold h0. rewrite app_nth2, Nat.sub_diag by lia. cbn [nth].
    apply firstn_all2. rewrite Lm. lia. }
  rewrite Rb. set (fh := h_set_length (with_payload hd body)) in *.
  assert (Lb : h_mlen fh = nb).
  { unfold nb. rewrite <- Ln, h_mlen_base. reflexivity. }
  pose proof (h_marshal_ok fh) as HM. unfold h_marshal in HM. rewrite Lb in HM. rewrite HM. cbn [bind]. fold bs.
  assert (Lbs : length bs = nb) by (unfold bs; rewrite henc_length; exact Lb).
  rewrite Lbs, Ln. unfold p. rewrite L0. f_equal. f_equal.
  unfold poke. cbn [b arr off]. unfold h0. rewrite <- app_assoc. cbn [app].
  unfold array. rewrite app_nth2, Nat.sub_diag by lia. cbn [nth].
  unfold splice. cbn [Nat.add firstn app]. rewrite Lbs, skipn_all2, app_nil_r by (rewrite Lm; lia).
  apply upd_mid.
Qed.

(** ** newGroupedIE *)
Lemma smarshal_all_ok is : forall acc h, (forall i, In i is -> all_valid h i) ->
  exists h', smarshal_all g is acc h = Ok (acc ++ encs g (map (view h) is), h') /\
    length h <= length h' /\ (forall a, a < length h -> array h' a = array h a).
Proof.
  induction is as [|i is IH]; intros acc h V.
  - exists h. cbn. rewrite app_nil_r. auto.
  - cbn [smarshal_all]. rewrite (smarshal_ok g i h) by (apply V; now left). cbn [bind].
    rewrite rd_new, firstn_all2 by (rewrite enc_length; lia).
    set (h1 := h ++ [enc g (view h i)]).
    assert (Ev : map (view h1) is = map (view h) is).
    { apply map_ext_in. intros j Hj. apply view_same. intros s Hs. unfold h1. apply rd_app. eapply V; [right; exact Hj|exact Hs]. }
    destruct (IH (acc ++ enc g (view h i)) h1) as (h' & E & L & A).
    { intros j Hj s Hs. unfold h1. apply valid_app. eapply V; [right; exact Hj|exact Hs]. }
    assert (L1 : length h1 = S (length h)) by (unfold h1; rewrite app_length; cbn; lia).
    exists h'. rewrite E, Ev, <- app_assoc. split; [reflexivity|]. split; [lia|].
    intros a La. rewrite A by lia. unfold h1. now apply array_app.
Qed.
Lemma rd_array h h' s : (forall a, a < length h -> array h' a = array h a) -> valid h s -> rd h' s = rd h s.
Proof. intros A [Z|[V _]]; [now rewrite !rd_empty|]. unfold rd. now rewrite A. Qed.
Theorem snew_grouped_ok t e is h : (forall i, In i is -> all_valid h i) ->
  exists i h', snew_grouped g t e is h = Ok (i, h') /\
    view h' i = mkIE t (u16 ((if vendor t then 2 else 0) + lenN (encs g (map (view h) is)))%N) e (encs g (map (view h) is)) (map (view h) is) /\
    (forall s, valid h s -> rd h' s = rd h s) /\
    (forall ws, Forall (fun w => valid h (through w)) ws ->
       view (do_writes h' ws) i = mkIE t (len (view h' i)) e (payload (view h' i)) (map (view (do_writes h' ws)) is)).
Proof.
  intros V. destruct (smarshal_all_ok is [] h V) as (h1 & E & L & A). cbn [app] in E.
  unfold snew_grouped. rewrite E. cbn [bind]. set (bs := encs g (map (view h) is)).
  eexists _, _. split; [reflexivity|]. rewrite !view_eq. rewrite rd_new, firstn_all2 by lia.
  assert (R : forall s, valid h s -> rd (h1 ++ [bs]) s = rd h s).
  { intros s Vs. rewrite <- (rd_array h h1 s A Vs). apply rd_app. destruct Vs as [Z|[B1 B2]]; [now left|].
    right. rewrite A by exact B1. split; [lia|exact B2]. }
  split. { f_equal. apply map_ext_in. intros i Hi. apply view_same. intros s Hs. apply R. now apply (V i Hi). }
  split; [exact R|]. intros ws H. rewrite view_eq. cbn [len payload]. f_equal.
  rewrite do_writes_other; [rewrite rd_new; apply firstn_all2; lia|].
  eapply Forall_impl; [|exact H]. cbn. intros w Vw. split.
  - apply valid_app. destruct Vw as [Z|[B1 B2]]; [now left|]. right. rewrite A by exact B1. split; [lia|exact B2].
  - unfold disjoint. cbn. destruct Vw as [Z|[B1 B2]]; [now (right; left)|]. right. right. left. lia.
Qed.
End G.
