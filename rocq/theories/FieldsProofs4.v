(** Proofs about PFD Contents. *)
From Verif Require Import Base Bits Codec Codec2 HeaderProofs Fields3 Fields4 FieldsSpec4.
Set Implicit Arguments.

Lemma unbe2_lt q : bytes q -> 2 <= length q -> (unbe (firstn 2 q) < 65536)%N.
Proof.
  intros B L. pose proof (unbe_bound (bytes_firstn 2 B)) as U. unfold lenN in U. rewrite firstn_length_le in U by lia. exact U.
Qed.
Lemma split2 q : bytes q -> 2 <= length q -> q = be 2 (unbe (firstn 2 q)) ++ skipn 2 q.
Proof.
  intros B L. rewrite be_unbe; [symmetry; apply firstn_skipn|now apply bytes_firstn|rewrite firstn_length_le; lia].
Qed.
Lemma be2_inj m n (r s : list N) : (m < 65536)%N -> (n < 65536)%N -> be 2 m ++ r = be 2 n ++ s -> m = n /\ r = s.
Proof.
  intros Hm Hn E. apply app_inj_len in E; [|now rewrite !be_length]. destruct E as [E ->]. split; [|reflexivity].
  rewrite <- (@unbe_be_small 2 m), <- (@unbe_be_small 2 n) by assumption. now rewrite E.
Qed.

(** * one field *)
Lemma rd16s_app st c p s q : short c 65536 s -> (c = true -> st = true -> length p + (length p + 2) <= length (p ++ seg16 c s ++ q)) ->
  rd16s st c (p ++ seg16 c s ++ q) (length p) = Ok (lenN s, s, length (p ++ seg16 c s)).
Proof.
  unfold rd16s, seg16, short. destruct c; [|intros -> _; now rewrite app_nil_r]. intros [B L] G.
  rewrite from_app by reflexivity. cbn [bind].
  destruct (Nat.ltb_spec (length ((be 2 (lenN s) ++ s) ++ q)) ((if st then length p else 0) + 2)) as [C|_].
  { exfalso. rewrite !app_length, be_length in *. destruct st; [specialize (G eq_refl eq_refl)|]; lia. }
  rewrite <- app_assoc. rewrite getr_app by exact L. cbn [bind]. rewrite app_assoc.
  rewrite slice_app by (rewrite app_length, be_length, ?lenN_nat; lia). cbn [bind]. do 2 f_equal. rewrite !app_length, be_length, lenN_nat. lia.
Qed.
Lemma rd16s_inv st c p q n s o : rd16s st c (p ++ q) (length p) = Ok (n, s, o) -> bytes q ->
  exists q', p ++ q = (p ++ seg16 c s) ++ q' /\ q = seg16 c s ++ q' /\ o = length (p ++ seg16 c s) /\ short c 65536 s /\ n = lenN s /\ bytes q'
    /\ (c = true -> st = true -> length p + (length p + 2) <= length (p ++ q)).
Proof.
  unfold rd16s, seg16, short. destruct c; intros H Hq.
  - rewrite from_app in H by reflexivity. cbn [bind] in H.
    destruct (Nat.ltb_spec (length q) ((if st then length p else 0) + 2)) as [|G]; [discriminate|].
    apply bind_ok in H. destruct H as (n' & E & H). apply getr_inv in E; [|reflexivity|exact Hq]. destruct E as (q' & Eq & Ln & Bq).
    rewrite Eq in H. apply bind_ok in H. destruct H as (s' & E & H).
    assert (n' = n /\ s' = s /\ length p + (2 + N.to_nat n') = o) as (-> & -> & <-) by (repeat split; congruence). clear H.
    unfold slice in E. rewrite app_length, app_length, be_length in E. destruct (Nat.leb_spec (length p + 2) (length p + 2 + N.to_nat n)); [|lia].
    destruct (Nat.leb_spec (length p + 2 + N.to_nat n) (length p + 2 + length q')) as [K|]; [|discriminate]. cbn [andb] in E.
    rewrite skipn_app_exact in E by (rewrite app_length, be_length; lia). replace (length p + 2 + N.to_nat n - (length p + 2)) with (N.to_nat n) in E by lia.
    assert (Es : firstn (N.to_nat n) q' = s) by congruence. clear E.
    assert (Ll : length s = N.to_nat n) by (rewrite <- Es; rewrite firstn_length_le; lia).
    assert (En : lenN s = n) by (unfold lenN; lia).
    assert (Eq' : q' = s ++ skipn (N.to_nat n) q') by (rewrite <- Es at 1; now rewrite firstn_skipn).
    exists (skipn (N.to_nat n) q'). rewrite En. rewrite <- app_assoc in Eq. apply app_inv_head in Eq.
    split; [rewrite Eq; rewrite Eq' at 1; now rewrite <- !app_assoc|].
    split; [rewrite Eq; rewrite Eq' at 1; now rewrite <- !app_assoc|].
    split; [rewrite !app_length, be_length; lia|]. split; [split; [rewrite <- Es; now apply bytes_firstn|exact Ln]|]. split; [reflexivity|].
    split; [now apply bytes_skipn|]. intros _ ->. rewrite app_length. lia.
  - assert (0%N = n /\ [] = s /\ length p = o) as (<- & <- & <-) by (repeat split; congruence). exists q. rewrite app_nil_r.
    refine (conj _ (conj _ (conj _ (conj _ (conj _ (conj _ _)))))); auto. discriminate.
Qed.
Lemma rd16s_fault st c p q : bytes q -> rd16s st c (p ++ q) (length p) = Fault <->
  c = true /\ exists n r, q = be 2 n ++ r /\ (n < 65536)%N /\ (lenN r < n)%N /\ (st = true -> length p <= length r).
Proof.
  intros B. unfold rd16s. destruct c; [|split; [discriminate|intros [? _]; discriminate]].
  rewrite from_app by reflexivity. cbn [bind].
  destruct (Nat.ltb_spec (length q) ((if st then length p else 0) + 2)) as [G|G].
  - split; [discriminate|]. intros (_ & n & r & -> & _ & _ & H). rewrite app_length, be_length in G. destruct st; [specialize (H eq_refl)|]; lia.
  - assert (E := split2 B ltac:(lia)). set (n := unbe (firstn 2 q)) in *. set (r := skipn 2 q) in *. assert (Ln : (n < 65536)%N) by (apply unbe2_lt; [exact B|lia]).
    clearbody n r. subst q. rewrite getr_app by exact Ln. cbn [bind].
    rewrite app_length, be_length in G.
    destruct (N.lt_ge_cases (lenN r) n) as [L|L].
    + split; [|now unfold slice; rewrite !app_length, be_length; intros _; destruct (Nat.leb_spec (length p + 2 + N.to_nat n) (length p + (2 + length r)));
        [unfold lenN in L; lia|rewrite andb_false_r]].
      intros _. split; [reflexivity|]. exists n, r. refine (conj eq_refl (conj Ln (conj L _))). intros ->. lia.
    + rewrite slice_ok by (rewrite ?app_length, ?be_length; unfold lenN in L; lia). cbn [bind]. split; [discriminate|].
      intros (_ & n' & r' & E & Ln' & L' & _). apply be2_inj in E; [|assumption..]. destruct E as [-> ->]. lia.
Qed.
Lemma rd16s_cases st c b o : bytes b -> o <= length b ->
  rd16s st c b o = Fault \/ rd16s st c b o = Err EUnexpectedEOF \/ exists v, rd16s st c b o = Ok v.
Proof.
  intros B L. rewrite <- (firstn_skipn o b). set (p := firstn o b). set (q := skipn o b). assert (Hp : length p = o) by (apply firstn_length_le; exact L).
  assert (Hq : bytes q) by now apply bytes_skipn. clearbody p q. subst o. unfold rd16s. destruct c; [|right; right; eauto].
  rewrite from_app by reflexivity. cbn [bind].
  destruct (Nat.ltb_spec (length q) ((if st then length p else 0) + 2)) as [G|G]; [auto|].
  rewrite (split2 Hq) by lia. rewrite getr_app by (apply unbe2_lt; [exact Hq|lia]). cbn [bind]. unfold slice.
  match goal with |- context [if ?x then _ else _] => destruct x end; cbn [bind]; eauto.
Qed.

(** * a sequence of fields *)
Fixpoint rdall (l : list (bool * bool)) (b : list N) (o : nat) : res (list (list N)) :=
  match l with
  | [] => Ok []
  | (c, st) :: l => '(_, s, o) <- rd16s st c b o ;; r <- rdall l b o ;; Ok (s :: r)
  end.
Lemma rdall_app l : forall ss p q, shorts l ss -> roomy l ss (length p) (length (p ++ wires l ss ++ q)) ->
  rdall l (p ++ wires l ss ++ q) (length p) = Ok ss.
Proof.
  induction l as [|[c st] l IH]; intros [|s ss] p q; cbn [shorts roomy wires rdall]; try contradiction; [reflexivity|].
  intros [Hs Hss] [G R]. rewrite <- !app_assoc in *. rewrite rd16s_app by assumption. cbn [bind].
  rewrite (app_assoc p). rewrite IH; [reflexivity|assumption|]. rewrite app_length at 1. rewrite <- app_assoc. exact R.
Qed.
Lemma rdall_inv l : forall ss p q, rdall l (p ++ q) (length p) = Ok ss -> bytes q ->
  exists q', q = wires l ss ++ q' /\ shorts l ss /\ roomy l ss (length p) (length (p ++ q)) /\ bytes q'.
Proof.
  induction l as [|[c st] l IH]; intros ss p q H Hq; cbn [rdall] in H.
  - assert (ss = []) as -> by congruence. exists q. cbn. auto.
  - apply bind_ok in H. destruct H as ([[n s] o] & E & H). apply rd16s_inv in E; [|exact Hq].
    destruct E as (q1 & Eq & Eq1 & -> & Sh & _ & B1 & G). rewrite Eq in H. apply bind_ok in H. destruct H as (r & E & H).
    assert (ss = s :: r) as -> by congruence. clear H. apply IH in E; [|exact B1]. destruct E as (q2 & Eq2 & Shs & R & B2).
    exists q2. cbn [wires shorts roomy]. split; [rewrite Eq1, Eq2; apply app_assoc|]. split; [auto|]. split; [|exact B2]. split; [exact G|].
    rewrite app_length in R at 1. now rewrite <- Eq in R.
Qed.
Lemma rdall_fault l : forall p q, bytes q -> rdall l (p ++ q) (length p) = Fault <->
  exists l1 st l2 ss n r, l = l1 ++ (true, st) :: l2 /\ q = wires l1 ss ++ be 2 n ++ r /\ shorts l1 ss /\ roomy l1 ss (length p) (length (p ++ q))
    /\ (st = true -> length p + length (wires l1 ss) <= length r) /\ (n < 65536)%N /\ (lenN r < n)%N.
Proof.
  induction l as [|[c st] l IH]; intros p q Hq; cbn [rdall].
  - split; [discriminate|]. intros ([|] & ? & ? & ? & ? & ? & E & _); discriminate.
  - split.
    + intros H. destruct (rd16s st c (p ++ q) (length p)) as [[[n s] o]| e | |] eqn:E; cbn [bind] in H; try discriminate.
      * apply rd16s_inv in E; [|exact Hq]. destruct E as (q1 & Eq & Eq1 & -> & Sh & _ & B1 & G). rewrite Eq in H.
        assert (F : rdall l ((p ++ seg16 c s) ++ q1) (length (p ++ seg16 c s)) = Fault) by (destruct (rdall l ((p ++ seg16 c s) ++ q1) (length (p ++ seg16 c s))); cbn in H; congruence).
        clear H. apply IH in F; [|exact B1]. destruct F as (l1 & st' & l2 & ss & n' & r & -> & Eq2 & Shs & R & L & Ln & Lr).
        exists ((c, st) :: l1), st', l2, (s :: ss), n', r. cbn [app wires shorts roomy].
        refine (conj eq_refl (conj _ (conj (conj Sh Shs) (conj (conj G _) (conj _ (conj Ln Lr)))))).
        -- rewrite Eq1, Eq2. now rewrite <- !app_assoc.
        -- rewrite app_length in R at 1. now rewrite <- Eq in R.
        -- intros Est. specialize (L Est). rewrite !app_length in *. lia.
      * apply (proj1 (@rd16s_fault st c p q Hq)) in E. destruct E as (-> & n & r & -> & Ln & Lr & L).
        exists [], st, l, [], n, r. cbn. rewrite Nat.add_0_r. auto 10.
    + intros (l1 & st' & l2 & ss & n & r & El & Eq & Shs & R & L & Ln & Lr). destruct l1 as [|[c1 st1] l1].
      * cbn [app] in El. assert (c = true /\ st = st' /\ l = l2) as (-> & -> & ->) by (repeat split; congruence).
        destruct ss; [|contradiction]. cbn [wires app length] in *. rewrite Nat.add_0_r in L.
        assert (E : rd16s st' true (p ++ q) (length p) = Fault) by (apply rd16s_fault; [exact Hq|split; [reflexivity|exists n, r; auto]]).
        now rewrite E.
      * cbn [app] in El. assert (c = c1 /\ st = st1 /\ l = l1 ++ (true, st') :: l2) as (<- & <- & ->) by (repeat split; congruence). clear El.
        destruct ss as [|s ss]; [contradiction|]. cbn [wires shorts roomy] in *. destruct Shs as [Sh Shs]. destruct R as [G R].
        rewrite <- app_assoc in Eq. rewrite Eq in *. rewrite rd16s_app by assumption. cbn [bind].
        assert (F : rdall (l1 ++ (true, st') :: l2) (p ++ seg16 c s ++ wires l1 ss ++ be 2 n ++ r) (length (p ++ seg16 c s)) = Fault).
        { rewrite app_assoc. apply IH; [now apply bytes_app in Hq|]. exists l1, st', l2, ss, n, r.
          refine (conj eq_refl (conj eq_refl (conj Shs (conj _ (conj _ (conj Ln Lr)))))).
          - rewrite app_length at 1. rewrite <- app_assoc. exact R.
          - intros Est. specialize (L Est). rewrite !app_length in *. lia. }
        now rewrite F.
Qed.
Lemma rdall_cases l : forall b o, bytes b -> o <= length b ->
  rdall l b o = Fault \/ rdall l b o = Err EUnexpectedEOF \/ exists v, rdall l b o = Ok v.
Proof.
  induction l as [|[c st] l IH]; intros b o B L; cbn [rdall]; [eauto|].
  destruct (@rd16s_cases st c b o B L) as [->|[->|[[[n s] o'] E]]]; cbn [bind]; auto.
  rewrite E. cbn [bind].
  assert (L' : o' <= length b).
  { rewrite <- (firstn_skipn o b) in E. assert (Hp : length (firstn o b) = o) by (apply firstn_length_le; exact L).
    rewrite <- Hp in E at 3. apply rd16s_inv in E; [|now apply bytes_skipn]. destruct E as (q' & Eq & _ & -> & _).
    rewrite firstn_skipn in Eq. apply (f_equal (@length N)) in Eq. rewrite (app_length _ q') in Eq. lia. }
  destruct (IH b o' B L') as [->|[->|[v ->]]]; cbn [bind]; eauto.
Qed.

(** * the strings of a list *)
Lemma items_cons a l : items (a :: l) = seg16 true a ++ items l. Proof. reflexivity. Qed.
Lemma items_app a l : items (a ++ l) = items a ++ items l. Proof. unfold items. now rewrite map_app, concat_app. Qed.
Lemma pfd_items_from_ok fuel : forall p q, length q < fuel -> bytes q -> exists ls, pfd_items_from fuel (p ++ q) (length p) = Ok ls /\ pfd_list q ls.
Proof.
  induction fuel as [|fuel IH]; intros p q F B; [lia|]. cbn [pfd_items_from].
  destruct (Nat.leb_spec (length (p ++ q)) (length p + 2)) as [L|L]; rewrite app_length in L.
  - exists []. split; [reflexivity|]. exists q. refine (conj eq_refl (conj _ (conj _ _))); [constructor| |left; lia].
    intros [_ (ls' & E)]. now destruct ls'.
  - assert (Eq := split2 B ltac:(lia)). set (n := unbe (firstn 2 q)) in *. set (r := skipn 2 q) in *.
    assert (Ln : (n < 65536)%N) by (apply unbe2_lt; [exact B|lia]). clearbody n r. subst q. apply bytes_app in B. destruct B as [_ B].
    rewrite getr_app by exact Ln. cbn [bind]. rewrite !app_length, be_length in *.
    destruct (Nat.ltb_spec (length p + (2 + length r)) (length p + 2 + N.to_nat n)) as [K|K].
    + exists []. split; [reflexivity|]. exists (be 2 n ++ r). refine (conj eq_refl (conj _ (conj _ _))); [constructor| |right].
      * intros [_ (ls' & E)]. now destruct ls'.
      * exists n, r. unfold lenN. split; [reflexivity|]. split; [exact Ln|lia].
    + assert (Er := firstn_skipn (N.to_nat n) r). set (s := firstn (N.to_nat n) r) in *. set (q := skipn (N.to_nat n) r) in *.
      assert (Ls : length s = N.to_nat n) by (unfold s; rewrite firstn_length_le; lia). clearbody s q. subst r.
      assert (En : n = lenN s) by (unfold lenN; lia). apply bytes_app in B. destruct B as [Bs Bq].
      rewrite (app_assoc p). rewrite slice_app by (rewrite app_length, be_length; lia). cbn [bind].
      replace (length p + (2 + N.to_nat n)) with (length ((p ++ be 2 n) ++ s)) by (rewrite !app_length, be_length; lia).
      rewrite (app_assoc (p ++ be 2 n)). rewrite !app_length in F, L.
      destruct (@IH ((p ++ be 2 n) ++ s) q ltac:(lia) Bq) as (ls & -> & r & Eq & Sh & T & R). cbn [bind].
      exists (s :: ls). split; [reflexivity|]. exists r. rewrite items_cons. unfold seg16. rewrite <- En.
      split; [rewrite Eq; now rewrite <- !app_assoc|]. split; [constructor; [now rewrite <- En|exact Sh]|]. split; [|exact R].
      intros [-> (ls' & E)]. destruct ls' as [|x ls']; cbn [app] in E.
      * assert (s = [] /\ ls = []) as [-> ->] by (split; congruence). subst q. cbn in *. lia.
      * apply T. split; [reflexivity|]. exists ls'. congruence.
Qed.
Lemma pfd_items_ok p : bytes p -> exists ls, pfd_items p = Ok ls /\ pfd_list p ls.
Proof. intros B. apply (@pfd_items_from_ok (S (length p)) [] p); [lia|exact B]. Qed.
Lemma seg16_cons_nonnil a : length (seg16 true a) = 2 + length a. Proof. now rewrite seg16_length. Qed.
Lemma pfd_list_fun p : forall l1 l2, bytes p -> pfd_list p l1 -> pfd_list p l2 -> l1 = l2.
Proof.
  assert (Half : forall p l1 l2 r1 r2, p = items l1 ++ r1 -> p = items l2 ++ r2 ->
     Forall (fun s => (lenN s < 65536)%N) l1 -> Forall (fun s => (lenN s < 65536)%N) l2 ->
     ~ (r1 = [] /\ exists ls', l1 = ls' ++ [[]]) -> ~ (r2 = [] /\ exists ls', l2 = ls' ++ [[]]) ->
     (length r1 <= 2 \/ exists n r', r1 = be 2 n ++ r' /\ (n < 65536)%N /\ (lenN r' < n)%N) ->
     (length r2 <= 2 \/ exists n r', r2 = be 2 n ++ r' /\ (n < 65536)%N /\ (lenN r' < n)%N) -> l1 = l2).
  { clear p. intros p l1. revert p. assert (Z : forall a l r r', items (a :: l) ++ r = r' -> (lenN a < 65536)%N -> ~ (r = [] /\ exists ls', a :: l = ls' ++ [[]]) ->
      (length r' <= 2 \/ exists n r'', r' = be 2 n ++ r'' /\ (n < 65536)%N /\ (lenN r'' < n)%N) -> False).
    { intros a l r r' E La T R. rewrite items_cons in E. unfold seg16 in E. rewrite <- !app_assoc in E. destruct R as [R|(n & r'' & E' & Ln & Lr)].
      - rewrite <- E in R. rewrite !app_length, be_length in R. assert (length a = 0 /\ length (items l) = 0 /\ length r = 0) as (H1 & H2 & H3) by lia.
        destruct a; [|discriminate]. destruct r; [|discriminate]. destruct l; [|rewrite items_cons, app_length, seg16_cons_nonnil in H2; lia].
        apply T. split; [reflexivity|]. now exists [].
      - rewrite E' in E. apply be2_inj in E; [|assumption..]. destruct E as [<- <-]. unfold lenN in Lr. rewrite app_length in Lr. lia. }
    assert (Tail : forall a l (r : list N), ~ (r = [] /\ exists ls', a :: l = ls' ++ [[]]) -> ~ (r = [] /\ exists ls' : list (list N), l = ls' ++ [[]])).
    { intros a l r T [-> (ls' & ->)]. apply T. split; [reflexivity|]. now exists (a :: ls'). }
    induction l1 as [|a l1 IH]; intros p l2 r1 r2 E1 E2 F1 F2 T1 T2 R1 R2.
    - destruct l2 as [|b l2]; [reflexivity|exfalso]. inversion F2; subst. cbn [items map concat app] in *. now apply (@Z b l2 r2 r1).
    - destruct l2 as [|b l2]; [exfalso|].
      + inversion F1; subst. cbn [items map concat app] in *. now apply (@Z a l1 r1 r2).
      + inversion F1 as [|? ? La F1']; subst x l. inversion F2 as [|? ? Lb F2']; subst x l. rewrite items_cons in E1, E2. unfold seg16 in E1, E2.
        rewrite E1 in E2. rewrite <- !app_assoc in E2. apply be2_inj in E2; [|assumption..]. destruct E2 as [El E2].
        assert (Ll : length a = length b) by (unfold lenN in El; lia). apply app_inj_len in E2; [|exact Ll]. destruct E2 as [-> E2].
        f_equal. apply (IH (items l1 ++ r1) l2 r1 r2); auto; eapply Tail; eassumption. }
  intros l1 l2 _ (r1 & E1 & F1 & T1 & R1) (r2 & E2 & F2 & T2 & R2). exact (@Half p l1 l2 r1 r2 E1 E2 F1 F2 T1 T2 R1 R2).
Qed.
Lemma pfd_items_exact p ls : bytes p -> (pfd_items p = Ok ls <-> pfd_list p ls).
Proof.
  intros B. destruct (pfd_items_ok B) as (l & -> & H). split; [congruence|]. intros H'. f_equal. exact (pfd_list_fun B H H').
Qed.
