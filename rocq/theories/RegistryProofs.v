(** The codec when the registry changes between questions. *)
From Verif Require Import Base IETypes IE Spec IEProofs Header HeaderProofs Message MsgProofs MsgTables MsgProps Registry.

Lemma run_bind {A B} o (p : prog A) (f : A -> prog B) n :
  run o n (pbind p f) =
  match run o n p with
  | (Ok a, n') => run o n' (f a)
  | (Err e, n') => (Err e, n')
  | (Fault, n') => (Fault, n')
  | (Fuel, n') => (Fuel, n')
  end.
Proof. revert n. induction p as [[a|e| |]|t k IH]; intros n; cbn; auto. Qed.
Lemma run_le {A} o (p : prog A) n : n <= snd (run o n p).
Proof. revert n. induction p as [r|t k IH]; intros n; cbn; auto. specialize (IH (o n t) (S n)). lia. Qed.

(** ** A registry that does not change: exactly the codec of IE.v *)
Section Const.
Variable g : N -> bool.
Definition same {A} (p : prog A) (r : res A) : Prop := forall n, fst (run (fun _ => g) n p) = r.
Lemma same_done {A} (r : res A) : same (Done r) r.
Proof. intros n. reflexivity. Qed.
Lemma same_bind {A B} (p : prog A) r (f : A -> prog B) f' :
  same p r -> (forall a, same (f a) (f' a)) -> same (pbind p f) (bind r f').
Proof.
  intros H K n. rewrite run_bind. specialize (H n). destruct (run (fun _ => g) n p) as [r' n'].
  cbn in H. subst r'. destruct r; cbn; auto. apply K.
Qed.
Lemma same_ask {A} t (k : bool -> prog A) r : same (k (g t)) r -> same (Ask t k) r.
Proof. intros H n. cbn. apply H. Qed.

Lemma mlen_same i : same (mlen_p i) (Ok (mlen g i)).
Proof.
  induction i as [t l e p cs IH] using ie_ind'.
  cbn [mlen_p mlen ty children payload]. apply same_ask. destruct (g t).
  - generalize (if vendor t then 4 + 2 else 4). induction IH as [|c cs Hc _ IH2]; intros n; cbn [fold_left].
    + apply same_done.
    + intros n0. rewrite run_bind. specialize (Hc n0). destruct (run _ n0 (mlen_p c)) as [r' n']. cbn in Hc. subst r'.
      apply IH2.
  - apply same_done.
Qed.
Lemma marshal_to_same i : forall b, same (marshal_to_p i b) (marshal_to g i b).
Proof.
  induction i as [t l e p cs IH] using ie_ind'. intros b.
  cbn [marshal_to_p marshal_to ty len eid children payload].
  destruct (length b <? 4); [apply same_done|].
  apply same_bind; [apply same_done|]. intros b1.
  apply same_bind; [apply same_done|]. intros b2.
  apply same_bind; [apply same_done|]. intros [b3 off].
  apply same_ask. destruct (g t) eqn:G.
  - revert off b3. induction IH as [|c cs Hc _ IH2]; intros off b3; [apply same_done|].
    apply same_bind; [apply same_done|]. intros s.
    apply same_bind; [apply Hc|]. intros s'.
    intros n. rewrite run_bind. pose proof (mlen_same c n) as M. destruct (run _ n (mlen_p c)) as [r' n'].
    cbn in M. subst r'. apply IH2.
  - intros n. rewrite run_bind. pose proof (mlen_same (mkIE t l e p cs) n) as M.
    destruct (run _ n (mlen_p (mkIE t l e p cs))) as [r' n']. cbn [fst] in M. subst r'. reflexivity.
Qed.
Lemma marshal_same i : same (marshal_p i) (marshal g i).
Proof.
  intros n. unfold marshal_p. rewrite run_bind. pose proof (mlen_same i n) as M.
  destruct (run _ n (mlen_p i)) as [r' n']. cbn [fst] in M. subst r'. apply marshal_to_same.
Qed.
Lemma unmarshal_same n : (forall i0 b, same (unmarshal_p n i0 b) (unmarshal g n i0 b)) /\
  (forall b, same (parse_multi_p n b) (parse_multi g n b)).
Proof.
  induction n as [|n [IHu IHm]]; [split; intros; apply same_done|]. split.
  - intros i0 b. cbn [unmarshal_p unmarshal]. destruct (length b <? 4); [apply same_done|].
    apply same_bind; [apply same_done|]. intros t.
    apply same_bind; [apply same_done|]. intros ln.
    apply same_bind; [apply same_done|]. intros [[e off] fin].
    destruct (length b <=? off); [apply same_done|].
    destruct (length b <? off + fin); [apply same_done|].
    apply same_bind; [apply same_done|]. intros p.
    apply same_ask. destruct (g t); [|apply same_done].
    apply same_bind; [apply IHm|]. intros cs. apply same_done.
  - intros b. cbn [parse_multi_p parse_multi]. destruct (length b =? 0); [apply same_done|].
    apply same_bind; [apply IHu|]. intros i.
    intros k. rewrite run_bind. pose proof (mlen_same i k) as M. destruct (run _ k (mlen_p i)) as [r' n'].
    cbn [fst] in M. subst r'. revert n'.
    change (same (b' <~ Done (from b (mlen g i)) ;; is <~ parse_multi_p n b' ;; ret (i :: is))
                 (b' <- from b (mlen g i) ;; is <- parse_multi g n b' ;; Ok (i :: is))).
    apply same_bind; [apply same_done|]. intros b'.
    apply same_bind; [apply IHm|]. intros is. apply same_done.
Qed.
Lemma parse_same b : same (parse_p b) (parse g b).
Proof. apply unmarshal_same. Qed.
Lemma parseMulti_same b : same (parseMultiIEs_p b) (parseMultiIEs g b).
Proof. apply unmarshal_same. Qed.
Lemma parse_msg_same b : same (parse_msg_p b) (parse_msg g b).
Proof.
  unfold parse_msg_p, parse_msg, parse_message. destruct (length b <? 2); [apply same_done|].
  apply same_bind; [apply same_done|]. intros c. unfold msg_parse, msg_unmarshal.
  set (k := match lookup c dispatch with Some k => k | None => K_Generic end).
  intros n. rewrite run_bind. cbn [run fst]. destruct (parse_header b) as [h|e| |]; try reflexivity. cbn [bind].
  destruct (length (h_payload h) <? 2); [reflexivity|].
  rewrite run_bind. pose proof (parseMulti_same (h_payload h) n) as M.
  destruct (run _ n (parseMultiIEs_p (h_payload h))) as [r' n']. cbn [fst] in M. rewrite <- M.
  destruct r' as [ies|e| |]; try reflexivity. cbn [bind]. rewrite run_bind. cbn [run].
  destruct (match k_mode k with IReplace => _ | IAppend => _ end); reflexivity.
Qed.
End Const.

(** ** A growing registry *)
Section Grow.
Variable o : nat -> N -> bool.
Hypothesis Ho : growing o.

Fixpoint shr (n : nat) (i : ie) : Prop :=
  (o n (ty i) = true \/ list_sum (map (mlen (o n)) (children i)) <= length (payload i)) /\
  (fix all (cs : list ie) : Prop := match cs with [] => True | c :: cs' => shr n c /\ all cs' end) (children i).
Lemma shr_eq n i : shr n i <->
  (o n (ty i) = true \/ list_sum (map (mlen (o n)) (children i)) <= length (payload i)) /\ Forall (shr n) (children i).
Proof.
  destruct i as [t l e p cs]. cbn [shr ty children payload].
  assert (E : (fix all (cs : list ie) : Prop := match cs with [] => True | c :: cs' => shr n c /\ all cs' end) cs <-> Forall (shr n) cs).
  { induction cs as [|c cs IH]; [split; auto|]. rewrite IH. split; [intros [? ?]; now constructor|intros H; now inversion H]. }
  now rewrite E.
Qed.

Lemma sum_le (f f' : ie -> nat) cs : Forall (fun c => f c <= f' c) cs -> list_sum (map f cs) <= list_sum (map f' cs).
Proof. induction 1; simpl; lia. Qed.

Lemma mlen_anti i : forall n p q, shr n i -> n <= p -> p <= q -> mlen (o q) i <= mlen (o p) i.
Proof.
  induction i as [t l e pl cs IH] using ie_ind'. intros n p q H Hp Hq.
  apply shr_eq in H. destruct H as [H1 H2]. cbn [ty children payload] in *.
  assert (S : forall p q, n <= p -> p <= q -> list_sum (map (mlen (o q)) cs) <= list_sum (map (mlen (o p)) cs)).
  { intros p' q' ? ?. apply sum_le. rewrite Forall_forall in *. intros c Hc. eapply IH; eauto. }
  rewrite !mlen_eq. cbn [ty children payload].
  destruct (o p t) eqn:Ep.
  - rewrite (@Ho _ _ _ Hq Ep). specialize (S p q Hp Hq). lia.
  - destruct (o q t) eqn:Eq; [|lia].
    destruct H1 as [H1|H1].
    + rewrite (@Ho _ _ _ Hp H1) in Ep. discriminate.
    + specialize (S n q (le_n _) ltac:(lia)). lia.
Qed.
Lemma shr_mono i : forall n p, shr n i -> n <= p -> shr p i.
Proof.
  induction i as [t l e pl cs IH] using ie_ind'. intros n p H Hp.
  apply shr_eq in H. destruct H as [H1 H2]. cbn [ty children payload] in *. apply shr_eq. cbn [ty children payload].
  split.
  - destruct H1 as [H1|H1]; [left; eauto|right].
    assert (list_sum (map (mlen (o p)) cs) <= list_sum (map (mlen (o n)) cs)); [|lia].
    apply sum_le. rewrite Forall_forall in *. intros c Hc. eapply mlen_anti; eauto.
  - rewrite Forall_forall in *. intros c Hc. eapply IH; eauto.
Qed.

Lemma mlen_run i : forall n p, shr n i -> n <= p ->
  exists m q, run o p (mlen_p i) = (Ok m, q) /\ p <= q /\ mlen (o q) i <= m <= mlen (o p) i /\ hdr (ty i) <= m.
Proof.
  induction i as [t l e pl cs IH] using ie_ind'. intros n p H Hp.
  pose proof H as H0. apply shr_eq in H. destruct H as [H1 H2]. cbn [ty children payload] in *.
  assert (L : forall a p, n <= p -> exists m q,
    run o p ((fix go (cs : list ie) (l : nat) : prog nat :=
         match cs with [] => ret l | c :: cs' => m <~ mlen_p c ;; go cs' (l + m) end) cs a) = (Ok m, q) /\ p <= q /\
    a + list_sum (map (mlen (o q)) cs) <= m <= a + list_sum (map (mlen (o p)) cs)).
  { clear H0 H1 p Hp. induction cs as [|c cs IHc]; intros a p Hp.
    - exists a, p. split; [reflexivity|]. simpl. lia.
    - inversion IH; subst. inversion H2; subst. rewrite run_bind.
      destruct (H1 n p H4 Hp) as (m1 & q1 & E1 & Q1 & M1 & _). rewrite E1.
      destruct (IHc H3 H5 (a + m1) q1) as (m & q & E & Q & M); [lia|]. exists m, q. split; [exact E|].
      pose proof (@mlen_anti c n q1 q H4 ltac:(lia) Q) as A1.
      assert (A2 : list_sum (map (mlen (o q1)) cs) <= list_sum (map (mlen (o p)) cs)).
      { apply sum_le. rewrite Forall_forall in *. intros x Hx. eapply mlen_anti; eauto. }
      simpl. lia. }
  cbn [mlen_p ty children payload run].
  destruct (o p t) eqn:Ep.
  - destruct (L (if vendor t then 4 + 2 else 4) (S p)) as (m & q & E & Q & M); [lia|]. exists m, q. split; [exact E|].
    split; [lia|]. rewrite !mlen_eq. cbn [ty children payload]. rewrite Ep, (@Ho p q t ltac:(lia) Ep).
    assert (A2 : list_sum (map (mlen (o (S p))) cs) <= list_sum (map (mlen (o p)) cs)).
    { apply sum_le. rewrite Forall_forall in *. intros x Hx. eapply mlen_anti; eauto. }
    unfold hdr. destruct (vendor t); lia.
  - do 2 eexists. split; [reflexivity|]. split; [lia|].
    pose proof (@mlen_anti (mkIE t l e pl cs) n p (S p) H0 Hp ltac:(lia)) as A1.
    rewrite (mlen_eq (o p)) in *. cbn [ty children payload] in *. rewrite Ep in *.
    unfold hdr in *. destruct (vendor t); lia.
Qed.

(** *** Parse *)
Lemma getr_some b lo : lo + 2 <= length b -> exists v, getr 2 b lo (lo + 2) = Ok v.
Proof.
  intros H. unfold getr, slice. replace (lo <=? lo + 2) with true by (symmetry; apply Nat.leb_le; lia).
  replace (lo + 2 <=? length b) with true by (symmetry; apply Nat.leb_le; lia). cbn [andb bind].
  unfold getn. rewrite firstn_length, skipn_length.
  replace (2 <=? min (lo + 2 - lo) (length b - lo)) with true by (symmetry; apply Nat.leb_le; lia). eauto.
Qed.
Lemma unmarshal_p_cases n b :
  (exists e, unmarshal_p (S n) zeroIE b = Done (Err e)) \/
  (exists t ln e, unmarshal_p (S n) zeroIE b = Done (Ok (mkIE t ln e [] [])) /\ hdr t <= length b) \/
  (exists t ln e p, unmarshal_p (S n) zeroIE b =
     Ask t (fun gr => if gr then cs <~ parse_multi_p n p ;; ret (mkIE t ln e p cs) else ret (mkIE t ln e p [])) /\
     hdr t + length p <= length b).
Proof.
  cbn [unmarshal_p]. destruct (Nat.ltb_spec (length b) 4) as [L|L]; [left; eauto|].
  destruct (@getr_some b 0 ltac:(lia)) as [t Et]. change (0 + 2) with 2 in Et. rewrite Et. cbn [pbind].
  destruct (@getr_some b 2 ltac:(lia)) as [ln El]. change (2 + 2) with 4 in El. rewrite El. cbn [pbind].
  assert (F : forall e off fin, 4 <= off -> hdr t = off ->
    let p := if length b <=? off then ret (mkIE t ln e [] []) else
      if length b <? off + fin then Done (Err EUnexpectedEOF) else
      p <~ Done (slice b off (off + fin)) ;;
      Ask t (fun gr => if gr then cs <~ parse_multi_p n p ;; ret (mkIE t ln e p cs) else ret (mkIE t ln e p [])) in
    off <= length b ->
    (exists x, p = Done (Err x)) \/ (exists t ln e, p = Done (Ok (mkIE t ln e [] [])) /\ hdr t <= length b) \/
    (exists t ln e q, p = Ask t (fun gr => if gr then cs <~ parse_multi_p n q ;; ret (mkIE t ln e q cs) else ret (mkIE t ln e q [])) /\
       hdr t + length q <= length b)).
  { intros e off fin H4 Hh p Hl. subst p. destruct (length b <=? off); [right; left; do 3 eexists; split; [reflexivity|lia]|].
    destruct (Nat.ltb_spec (length b) (off + fin)) as [M|M]; [left; eauto|]. right. right.
    unfold slice. replace (off <=? off + fin) with true by (symmetry; apply Nat.leb_le; lia).
    replace (off + fin <=? length b) with true by (symmetry; apply Nat.leb_le; lia). cbn [andb pbind].
    do 4 eexists. split; [reflexivity|]. rewrite firstn_length. lia. }
  destruct (vendor t) eqn:V.
  - destruct (Nat.ltb_spec (length b) 6) as [L6|L6]; [left; cbn; eauto|].
    destruct (N.to_nat ln <? 2); [left; cbn; eauto|].
    destruct (@getr_some b 4 ltac:(lia)) as [e Ee]. change (4 + 2) with 6 in Ee. rewrite Ee. cbn [pbind bind].
    apply F; try lia. unfold hdr. now rewrite V.
  - cbn [pbind]. apply F; try lia. unfold hdr. now rewrite V.
Qed.

Lemma unmarshal_grow n :
  (forall b k, length b + 1 <= n ->
     (exists i q, run o k (unmarshal_p n zeroIE b) = (Ok i, q) /\ k <= q /\ shr q i /\ mlen (o q) i <= length b) \/
     (exists e q, run o k (unmarshal_p n zeroIE b) = (Err e, q))) /\
  (forall b k, length b + 2 <= n ->
     (exists is q, run o k (parse_multi_p n b) = (Ok is, q) /\ k <= q /\ Forall (shr q) is /\
        list_sum (map (mlen (o q)) is) <= length b) \/
     (exists e q, run o k (parse_multi_p n b) = (Err e, q))).
Proof.
  induction n as [|n [IHu IHm]]; [split; intros; lia|]. split.
  - intros b k Hn. destruct (unmarshal_p_cases n b) as [[e E]|[(t & ln & e & E & Hh)|(t & ln & e & p & E & Hh)]]; rewrite E.
    + right. cbn. eauto.
    + left. cbn. do 2 eexists. split; [reflexivity|]. split; [lia|]. split.
      * apply shr_eq. cbn. split; [right; lia|constructor].
      * rewrite mlen_eq. cbn. destruct (o k t); cbn; lia.
    + cbn [run]. destruct (o k t) eqn:Ek.
      * rewrite run_bind. pose proof (hdr_pos t).
        destruct (IHm p (S k)) as [(cs & q & Ec & Hq & Hs & Hm)|(x & q & Ec)]; [lia| |]; rewrite Ec.
        -- left. cbn. do 2 eexists. split; [reflexivity|]. split; [lia|].
           assert (o q t = true) by (apply (@Ho k q t); [lia|auto]). split.
           ++ apply shr_eq. cbn [ty children payload]. split; [now left|exact Hs].
           ++ rewrite mlen_eq. cbn [ty children payload]. rewrite H0. lia.
        -- right. eauto.
      * left. cbn. do 2 eexists. split; [reflexivity|]. split; [lia|]. split.
        -- apply shr_eq. cbn. split; [right; lia|constructor].
        -- rewrite mlen_eq. cbn [ty children payload]. destruct (o (S k) t); simpl; lia.
  - intros b k Hn. cbn [parse_multi_p]. destruct (Nat.eqb_spec (length b) 0) as [Z|Z].
    + left. cbn. do 2 eexists. split; [reflexivity|]. split; [lia|]. split; [constructor|simpl; lia].
    + rewrite run_bind. destruct (IHu b k) as [(i & q1 & E1 & Q1 & S1 & M1)|(e & q & E)]; [lia| |rewrite E; right; eauto].
      rewrite E1. rewrite run_bind. destruct (@mlen_run i q1 q1 S1 (le_n _)) as (m & q2 & E2 & Q2 & M2 & H2).
      rewrite E2. rewrite run_bind. cbn [run]. pose proof (hdr_pos (ty i)).
      unfold from. replace (m <=? length b) with true by (symmetry; apply Nat.leb_le; lia).
      rewrite run_bind. destruct (IHm (skipn m b) q2) as [(is & q3 & E3 & Q3 & S3 & M3)|(e & q & E)].
      * rewrite skipn_length. lia.
      * rewrite E3. left. cbn. do 2 eexists. split; [reflexivity|]. split; [lia|]. rewrite skipn_length in M3. split.
        -- constructor; [|exact S3]. eapply shr_mono; [exact S1|lia].
        -- simpl. pose proof (@mlen_anti i q1 q2 q3 S1 Q2 Q3). lia.
      * rewrite E. right. eauto.
Qed.

(** *** Marshal *)
Definition marshal_children_p : list ie -> nat -> list N -> prog (list N) :=
  fix go (cs : list ie) (offset : nat) (b : list N) : prog (list N) :=
    match cs with
    | [] => ret b
    | c :: cs' =>
        s <~ Done (from b offset) ;;
        s' <~ marshal_to_p c s ;;
        m <~ mlen_p c ;;
        go cs' (offset + m) (firstn offset b ++ s')
    end.
Lemma header_writes_p i b : hdr (ty i) <= length b ->
  exists b', marshal_to_p i b =
    Ask (ty i) (fun gr => if gr then marshal_children_p (children i) (hdr (ty i)) b'
                else m <~ mlen_p i ;; Done (copy_range b' (hdr (ty i)) m (payload i))) /\ length b' = length b.
Proof.
  intros H. pose proof (hdr_pos (ty i)) as H4. unfold hdr in *.
  destruct i as [t l e p cs]. cbn [ty children payload] in *.
  cbn [marshal_to_p ty len eid children payload].
  destruct (Nat.ltb_spec (length b) 4) as [L|L]; [lia|].
  assert (P : forall b0 lo v, lo + 2 <= length b0 -> exists b1, put b0 lo (be 2 v) = Ok b1 /\ length b1 = length b0).
  { intros b0 lo v Hl. rewrite put_ok by (rewrite be_length; lia). eexists. split; [reflexivity|].
    rewrite !app_length, firstn_length, skipn_length, be_length. lia. }
  destruct (P b 0 t) as (b1 & E1 & L1); [lia|]. rewrite E1. cbn [pbind].
  destruct (P b1 2 l) as (b2 & E2 & L2); [lia|]. rewrite E2. cbn [pbind].
  destruct (vendor t) eqn:V; cbn [andb].
  - replace (6 <=? length b) with true by (symmetry; apply Nat.leb_le; lia).
    destruct (P b2 4 e) as (b3 & E3 & L3); [lia|]. rewrite E3. cbn [pbind bind].
    exists b3. split; [reflexivity|lia].
  - cbn [pbind]. exists b2. split; [reflexivity|lia].
Qed.
Lemma marshal_to_run i : forall n p b, shr n i -> n <= p -> mlen (o p) i <= length b ->
  exists b' q, run o p (marshal_to_p i b) = (Ok b', q) /\ p <= q /\ length b' = length b.
Proof.
  induction i as [t l e pl cs IH] using ie_ind'. intros n p b H Hp Hb.
  set (i := mkIE t l e pl cs) in *.
  pose proof (mlen_ge (o p) i) as Hg. destruct (@header_writes_p i b ltac:(lia)) as (b1 & E & L1). rewrite E. cbn [run].
  pose proof H as H0. apply shr_eq in H. destruct H as [H1 H2]. rewrite mlen_eq in Hb. cbn [ty children payload i] in *.
  destruct (o p t) eqn:Ep.
  - assert (L : forall off k b, n <= k -> off + list_sum (map (mlen (o k)) cs) <= length b ->
      exists b' q, run o k (marshal_children_p cs off b) = (Ok b', q) /\ k <= q /\ length b' = length b).
    { clear - IH H2 Ho. induction cs as [|c cs IHc]; intros off k b Hk Hl.
      - exists b, k. split; [reflexivity|]. lia.
      - inversion IH; subst. inversion H2; subst. simpl in Hl.
        change (marshal_children_p (c :: cs) off b) with
          (s <~ Done (from b off) ;; s' <~ marshal_to_p c s ;; m <~ mlen_p c ;; marshal_children_p cs (off + m) (firstn off b ++ s')).
        unfold from. replace (off <=? length b) with true by (symmetry; apply Nat.leb_le; lia). cbn [pbind].
        rewrite run_bind. destruct (H1 n k (skipn off b) H4 Hk) as (s' & q1 & E1 & Q1 & L1).
        { rewrite skipn_length. lia. }
        rewrite E1, run_bind. destruct (@mlen_run c n q1 H4 ltac:(lia)) as (m & q2 & E2 & Q2 & M2 & _). rewrite E2.
        destruct (IHc H3 H5 (off + m) q2 (firstn off b ++ s')) as (b' & q & E & Q & L); [lia| |].
        + rewrite app_length, firstn_length, L1, skipn_length.
          pose proof (@mlen_anti c n k q1 H4 Hk Q1).
          assert (list_sum (map (mlen (o q2)) cs) <= list_sum (map (mlen (o k)) cs)).
          { apply sum_le. rewrite Forall_forall in *. intros x Hx. eapply (@mlen_anti x n); eauto. lia. }
          lia.
        + exists b', q. split; [exact E|]. split; [lia|]. rewrite L, app_length, firstn_length, L1, skipn_length. lia. }
    destruct (L (hdr t) (S p) b1) as (b' & q & Eq & Q & Lq); [lia| |exists b', q; split; [exact Eq|split; lia]].
    assert (list_sum (map (mlen (o (S p))) cs) <= list_sum (map (mlen (o p)) cs)).
    { apply sum_le. rewrite Forall_forall in *. intros x Hx. eapply (@mlen_anti x n); eauto. }
    lia.
  - rewrite run_bind. destruct (@mlen_run i n (S p) H0 ltac:(lia)) as (m & q & Eq & Q & M & Hm). rewrite Eq. cbn [run].
    pose proof (@mlen_anti i n p (S p) H0 Hp ltac:(lia)) as A. rewrite (mlen_eq (o p)) in A. cbn [ty children payload i] in A, Hm. rewrite Ep in A.
    unfold copy_range. replace (hdr t <=? m) with true by (symmetry; apply Nat.leb_le; lia).
    replace (m <=? length b1) with true by (symmetry; apply Nat.leb_le; lia). cbn [andb].
    do 2 eexists. split; [reflexivity|]. split; [lia|].
    rewrite !app_length, firstn_length, skipn_length, firstn_length. lia.
Qed.
Lemma marshal_run i n p : shr n i -> n <= p ->
  exists b q, run o p (marshal_p i) = (Ok b, q) /\ p <= q /\ length b <= mlen (o p) i.
Proof.
  intros H Hp. unfold marshal_p. rewrite run_bind. destruct (@mlen_run i n p H Hp) as (m & q & E & Q & M & _). rewrite E.
  destruct (@marshal_to_run i n q (make m) H ltac:(lia)) as (b & q' & E' & Q' & L').
  { unfold make. rewrite repeat_length. lia. }
  exists b, q'. split; [exact E'|]. split; [lia|]. rewrite L'. unfold make. rewrite repeat_length. lia.
Qed.

(** *** the public calls *)
Theorem parse_grow b k : returns (fst (run o k (parse_p b))).
Proof.
  destruct (proj1 (unmarshal_grow (S (S (length b)))) b k ltac:(lia)) as [(i & q & E & _)|(e & q & E)];
    unfold parse_p; rewrite E; cbn; [left|right]; eauto.
Qed.
Theorem parseMulti_grow b k : returns (fst (run o k (parseMultiIEs_p b))).
Proof.
  destruct (proj2 (unmarshal_grow (S (S (length b)))) b k ltac:(lia)) as [(i & q & E & _)|(e & q & E)];
    unfold parseMultiIEs_p; rewrite E; cbn; [left|right]; eauto.
Qed.
Theorem parse_msg_grow b k : bytes b -> returns (fst (run o k (parse_msg_p b))).
Proof.
  intros Hb. unfold parse_msg_p. destruct (Nat.ltb_spec (length b) 2); [right; cbn; eauto|].
  destruct (@index_ok b 1) as (c & E & _); [lia|]. rewrite E. rewrite run_bind. cbn [run].
  change (match lookup c dispatch with Some k => k | None => K_Generic end) with (kind_of c).
  set (kd := kind_of c). rewrite run_bind. cbn [run].
  destruct (parse_header_total Hb) as [(h & -> & W)|[-> _]]; [|right; cbn; eauto].
  destruct (length (h_payload h) <? 2); [left; cbn; eauto|].
  rewrite run_bind.
  destruct (parseMulti_grow (h_payload h) k) as [[is Ei]|[e Ee]];
    destruct (run o k (parseMultiIEs_p (h_payload h))) as [r q]; cbn [fst] in *; subst r; [|right; cbn; eauto].
  rewrite run_bind. cbn [run]. pose proof (@kind_consistent kd (kind_of_in c)) as C.
  destruct (k_mode kd).
  - rewrite (@store_all_ok kd C); [left; cbn; eauto|]. apply zero_shaped.
  - left. cbn. eauto.
Qed.
(** and the IE decoded can be encoded again, at any later moment *)
Theorem parse_marshal_grow b k i q : run o k (parse_p b) = (Ok i, q) ->
  forall p, q <= p -> exists w, fst (run o p (marshal_p i)) = Ok w.
Proof.
  intros E p Hp. destruct (proj1 (unmarshal_grow (S (S (length b)))) b k ltac:(lia)) as [(i' & q' & E' & _ & S & _)|(e & q' & E')];
    unfold parse_p in E; rewrite E in E'; [|discriminate]. injection E' as <- <-.
  destruct (@marshal_run i q p S Hp) as (w & q2 & E2 & _). exists w. now rewrite E2.
Qed.
End Grow.

(** An IE whose payload covers its children never overflows its own buffer, under any growth. *)
Fixpoint covered (g : N -> bool) (i : ie) : Prop :=
  (g (ty i) = true \/ list_sum (map (mlen g) (children i)) <= length (payload i)) /\
  (fix all (cs : list ie) : Prop := match cs with [] => True | c :: cs' => covered g c /\ all cs' end) (children i).
Lemma covered_shr o n i : covered (o n) i -> shr o n i.
Proof.
  induction i as [t l e p cs IH] using ie_ind'. cbn. intros [H1 H2]. split; [exact H1|]. clear H1.
  induction IH as [|c cs Hc _ IH2]; [exact I|]. destruct H2 as [H2 H3]. split; [exact (Hc H2)|exact (IH2 H3)].
Qed.
Theorem marshal_grow o n i : growing o -> covered (o n) i -> exists w, fst (run o n (marshal_p i)) = Ok w.
Proof.
  intros Ho H. destruct (@marshal_run o Ho i n n (@covered_shr o n i H) (le_n _)) as (w & q & E & _). exists w. now rewrite E.
Qed.
