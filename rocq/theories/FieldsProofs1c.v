From Verif Require Import Base Bits Codec Fields1 FieldsSpec1 FieldsProofs1 FieldsProofs1b.
Set Implicit Arguments.
(** * Remote GTP-U Peer *)
Lemma lenN_nat {A} (l : list A) n : lenN l = n -> length l = N.to_nat n.
Proof. unfold lenN. intros <-. now rewrite Nat2N.id. Qed.
Lemma rpeer_parse_wire f pad r : rpeer_wf f -> (N.testbit (rg_flags f) 2 = true -> rpeer_pad f pad) ->
  2 <= length (rpeer_wire f pad ++ r) -> rpeer_parse (rpeer_wire f pad ++ r) = Ok f.
Proof.
  destruct f as [fl v4 v6 dl di nl ni]. unfold rpeer_parse, rpeer_wf, rpeer_wire, rpeer_pad. cbn [rg_flags rg_v4 rg_v6 rg_dilen rg_di rg_nilen rg_ni].
  intros (Hfl & H1 & H2 & H3 & H4) Hp Hl. rewrite (proj2 (Nat.ltb_ge _ _) Hl). rewrite <- !app_assoc, index0_app. cbn [bind]. bits. enter fl. do 2 fwd1. pres.
  match goal with |- context [rdn true 2 (?P ++ _) _ 0] => set (p := P) end.
  assert (G : forall q, (if N.testbit fl 2 then '(n, o) <- rdn true 2 (p ++ opts (N.testbit fl 2) (be 2 dl ++ [di] ++ pad) ++ q) (length p) 0 ;;
      need (o + N.to_nat n) in (p ++ opts (N.testbit fl 2) (be 2 dl ++ [di] ++ pad) ++ q) ;;
      x <- index (p ++ opts (N.testbit fl 2) (be 2 dl ++ [di] ++ pad) ++ q) o ;; Ok (n, x, o + N.to_nat n) else Ok (0%N, 0%N, length p)) =
      Ok (dl, di, length (p ++ opts (N.testbit fl 2) (be 2 dl ++ [di] ++ pad)))).
  { intros q. destruct (N.testbit fl 2); cbn [opts].
    - destruct H3 as [H3 Ho]. specialize (Hp eq_refl). rewrite <- !app_assoc. rewrite (@rdn_app true 2 p dl) by (apply H3). cbn [bind optn].
      rewrite (app_assoc p (be 2 dl)).
      assert (N.to_nat dl = 1 + length pad) as -> by (unfold lenN in Hp; lia).
      destruct (Nat.ltb_spec (length ((p ++ be 2 dl) ++ [di] ++ pad ++ q)) (length (p ++ be 2 dl) + (1 + length pad))) as [X|_].
      + rewrite !app_length in X. cbn in X. lia.
      + change ([di] ++ pad ++ q) with (di :: pad ++ q). rewrite index_app by reflexivity. cbn [bind]. do 2 f_equal. rewrite !app_length. cbn [length]. lia.
    - destruct H3 as [-> ->]. now rewrite app_nil_r. }
  rewrite G. cbn [bind]. clear G. rewrite app_assoc. set (p' := p ++ _). clearbody p'. clear p.
  destruct (N.testbit fl 3); cbn [opts].
  - destruct H4 as (H4 & B & L). rewrite <- app_assoc. rewrite (@rdn_app true 2 p' nl) by exact H4. cbn [bind optn]. rewrite (app_assoc p').
    change (ni ++ r) with (opts true ni ++ r). rewrite rds_app; [reflexivity|]. split; [now apply lenN_nat|exact B].
  - destruct H4 as [-> ->]. reflexivity.
Qed.
Lemma rpeer_parse_inv b f : bytes b -> rpeer_parse b = Ok f -> (N.testbit (rg_flags f) 2 = true -> rg_dilen f <> 0%N) ->
  rpeer_wf f /\ 2 <= length b /\ exists pad r, (N.testbit (rg_flags f) 2 = true -> rpeer_pad f pad) /\ b = rpeer_wire f pad ++ r.
Proof.
  unfold rpeer_parse, rpeer_wf, rpeer_wire, rpeer_pad. intros Hb H Hz. destruct (Nat.ltb_spec (length b) 2) as [|Hl]; [discriminate|].
  start_inv fl q Hb H. do 2 inv1 H Hq.
  match type of H with context [rdn true 2 (?P ++ ?Q) _ 0] => set (p := P) in *; set (qq := Q) in * end.
  apply bind_ok in H. destruct H as (((dl & di) & o) & E & H).
  apply bind_ok in H. destruct H as ((nl & ni) & E2 & H). injection H as <-.
  cbn [rg_flags rg_v4 rg_v6 rg_dilen rg_di rg_nilen rg_ni] in *. pres.
  assert (G : exists pad q', p ++ qq = (p ++ opts (N.testbit fl 2) (be 2 dl ++ [di] ++ pad)) ++ q' /\ bytes q' /\ o = length (p ++ opts (N.testbit fl 2) (be 2 dl ++ [di] ++ pad))
     /\ (N.testbit fl 2 = true -> (lenN pad + 1 = dl)%N) /\ if N.testbit fl 2 then (0 < dl < 65536)%N /\ octet di else dl = 0%N /\ di = 0%N).
  { destruct (N.testbit fl 2); cbn [opts].
    - specialize (Hz eq_refl). inv1 E Hq. rename v1 into n. set (p1 := p ++ optn true 2 n) in *.
      destruct (Nat.ltb_spec (length (p1 ++ q2)) (length p1 + N.to_nat n)) as [|L]; [discriminate|].
      apply bind_ok in E. destruct E as (x & E & E'). injection E' as -> -> <-.
      unfold index in E. rewrite nth_error_app2, Nat.sub_diag in E by lia. rewrite app_length in L.
      destruct q2 as [|y q2]; [discriminate|]. cbn in E. injection E as ->. inversion Hq; subst.
      exists (firstn (N.to_nat dl - 1) q2), (skipn (N.to_nat dl - 1) q2). cbn [length] in L.
      assert (Lp : length (firstn (N.to_nat dl - 1) q2) = N.to_nat dl - 1) by (rewrite firstn_length; lia).
      split; [|split; [now apply bytes_skipn|split; [|split]]].
      + subst p1. rewrite <- !app_assoc. cbn [app optn]. now rewrite firstn_skipn.
      + subst p1; unfold p. cbn [optn]. rewrite !app_length, !be_length, Lp. cbn [length]. lia.
      + intros _. unfold lenN. rewrite Lp. lia.
      + cbn [ranged] in P1. change (256 ^ N.of_nat 2)%N with 65536%N in P1. split; [lia|assumption].
    - injection E as <- <- <-. exists [], qq. rewrite app_nil_r. repeat split; auto; discriminate. }
  destruct G as (pad & q' & G1 & Hq' & -> & G3 & G4). rewrite G1 in *. clear G1 Hq qq E.
  set (p' := p ++ _) in *.
  assert (G : exists r, p' ++ q' = (p' ++ opts (N.testbit fl 3) (be 2 nl ++ ni)) ++ r /\
    if N.testbit fl 3 then (nl < 65536)%N /\ bytes ni /\ lenN ni = nl else nl = 0%N /\ ni = []).
  { destruct (N.testbit fl 3); cbn [opts].
    - inv1 E2 Hq'. inv1 E2 Hq'. injection E2 as -> ->. destruct P2 as [L B]. eexists. split; [now rewrite <- !app_assoc|].
      split; [exact P1|]. split; [exact B|]. unfold lenN. rewrite L. now rewrite N2Nat.id.
    - injection E2 as <- <-. exists q'. now rewrite app_nil_r. }
  destruct G as (r & G1 & G2). rewrite G1 in *.
  split; [auto 10|]. split; [exact Hl|]. exists pad, r. split; [exact G3|]. subst p' p. now rewrite <- !app_assoc.
Qed.
(** it panics exactly on a Destination Interface of length 0 at the very end *)
Lemma rdn_true_inv n b o v o' d : rdn true n b o d = Ok (v, o') -> o' = o + n /\ o + n <= length b /\ v = unbe (firstn n (skipn o b)).
Proof.
  unfold rdn, rd. destruct (Nat.ltb_spec (length b) (o + n)); [discriminate|]. rewrite slice_ok by lia. cbn [bind].
  intros [= <- <-]. replace (o + n - o) with n by lia. auto.
Qed.
Lemma rdb_shape c n b o d v o' : rdb c n b o d = Ok (v, o') -> o' = o + len_if c n /\ (c = true -> o' <= length b).
Proof.
  unfold rdb, rd, len_if. destruct c; [|intros [= <- <-]; split; [lia|discriminate]].
  destruct (Nat.ltb_spec (length b) (o + n)); [discriminate|]. rewrite slice_ok by lia. cbn [bind]. intros [= <- <-]. auto.
Qed.
Lemma unbe2_0 b o : bytes b -> o + 2 = length b -> unbe (firstn 2 (skipn o b)) = 0%N -> b = firstn o b ++ [0; 0]%N.
Proof.
  intros B L E. rewrite <- (firstn_skipn o b) at 1. f_equal. assert (Ls : length (skipn o b) = 2) by (rewrite skipn_length; lia).
  rewrite firstn_all2 in E by lia. rewrite <- (@be_unbe (skipn o b) 2) by (auto using bytes_skipn). now rewrite E.
Qed.
Lemma rpeer_fault_iff b : bytes b -> rpeer_parse b = Fault <->
  exists fl a, b = [fl] ++ a ++ [0; 0]%N /\ N.testbit fl 2 = true /\ length a = len_if (N.testbit fl 1) 4 + len_if (N.testbit fl 0) 16.
Proof.
  intros Hb. split.
  - unfold rpeer_parse. destruct (Nat.ltb_spec (length b) 2) as [|Hl]; [discriminate|].
    destruct b as [|fl q]; [cbn in Hl; lia|]. cbn [index nth_error bind]. bits. intros H.
    destruct (rdb_returns (N.testbit fl 1) 4 (fl :: q) 1 None) as [[[v4 o1] E1]|[e E1]]; rewrite E1 in H; cbn [bind] in H; [|discriminate].
    destruct (rdb_returns (N.testbit fl 0) 16 (fl :: q) o1 None) as [[[v6 o2] E2]|[e E2]]; rewrite E2 in H; cbn [bind] in H; [|discriminate].
    apply rdb_shape in E1, E2. destruct E1 as [-> _]. destruct E2 as [-> _].
    destruct (N.testbit fl 2) eqn:B2.
    + set (o := 1 + _ + _) in *.
      destruct (rdn_returns true 2 (fl :: q) o 0) as [[[n o3] E]|[e E]]; rewrite E in H; cbn [bind] in H; [|discriminate].
      destruct (Nat.ltb_spec (length (fl :: q)) (o3 + N.to_nat n)) as [|L]; [discriminate|].
      apply rdn_true_inv in E. destruct E as (-> & Lo & En).
      destruct (Nat.ltb_spec (o + 2) (length (fl :: q))) as [Hi|Hi].
      * exfalso. destruct (@index_ok (fl :: q) _ Hi) as (x & Ex & _). rewrite Ex in H. cbn [bind] in H.
        destruct (N.testbit fl 3); [|discriminate].
        destruct (rdn_returns true 2 (fl :: q) (o + 2 + N.to_nat n) 0) as [[[n' o'] E']|[e E']]; rewrite E' in H; cbn [bind] in H; [|discriminate].
        destruct (rds_returns true (N.to_nat n') (fl :: q) o' []) as [[[? ?] E'']|[e E'']]; rewrite E'' in H; cbn [bind] in H; discriminate.
      * assert (Hn : n = 0%N) by (cbn [length] in *; lia). rewrite Hn in En. symmetry in En. assert (H0 := @unbe2_0 (fl :: q) o Hb ltac:(lia) En).
        assert (Ho : o = 1 + (len_if (N.testbit fl 1) 4 + len_if (N.testbit fl 0) 16)) by (subst o; lia). rewrite Ho in H0. cbn [firstn Nat.add] in H0.
        exists fl, (firstn (len_if (N.testbit fl 1) 4 + len_if (N.testbit fl 0) 16) q).
        split; [exact H0|]. split; [exact B2|]. rewrite firstn_length. cbn [length] in *. lia.
    + exfalso. cbn [bind] in H. destruct (N.testbit fl 3); [|discriminate].
      match type of H with context [rdn true 2 ?b ?o 0] => destruct (rdn_returns true 2 b o 0) as [[[n' o'] E']|[e E']]; rewrite E' in H; cbn [bind] in H; [|discriminate] end.
      destruct (rds_returns true (N.to_nat n') (fl :: q) o' []) as [[[? ?] E'']|[e E'']]; rewrite E'' in H; cbn [bind] in H; discriminate.
  - intros (fl & a & -> & B2 & La). unfold rpeer_parse.
    destruct (Nat.ltb_spec (length ([fl] ++ a ++ [0; 0]%N)) 2) as [L|_]; [rewrite !app_length in L; cbn in L; lia|].
    rewrite index0_app. cbn [bind]. bits. rewrite B2. 
    set (n4 := len_if (N.testbit fl 1) 4) in *. set (n6 := len_if (N.testbit fl 0) 16) in *.
    assert (E1 : exists v, rdb (N.testbit fl 1) 4 ([fl] ++ a ++ [0; 0]%N) 1 None = Ok (v, 1 + n4)).
    { subst n4. unfold rdb, len_if in *. destruct (N.testbit fl 1); [|eauto]. unfold rd.
      destruct (Nat.ltb_spec (length ([fl] ++ a ++ [0; 0]%N)) (1 + 4)) as [L|L]; [rewrite !app_length in L; cbn in L; lia|].
      rewrite slice_ok by lia. cbn [bind]. eauto. }
    destruct E1 as (v4 & ->). cbn [bind].
    assert (E2 : exists v, rdb (N.testbit fl 0) 16 ([fl] ++ a ++ [0; 0]%N) (1 + n4) None = Ok (v, 1 + n4 + n6)).
    { subst n6. unfold rdb, len_if in *. destruct (N.testbit fl 0); [|rewrite Nat.add_0_r; eauto]. unfold rd.
      destruct (Nat.ltb_spec (length ([fl] ++ a ++ [0; 0]%N)) (1 + n4 + 16)) as [L|L]; [rewrite !app_length in L; cbn in L; lia|].
      rewrite slice_ok by lia. cbn [bind]. eauto. }
    destruct E2 as (v6 & ->). cbn [bind].
    replace (1 + n4 + n6) with (length ([fl] ++ a)) by (rewrite app_length; cbn; lia). rewrite app_assoc.
    rewrite <- (app_nil_r (([fl] ++ a) ++ [0; 0]%N)), <- app_assoc. change ([0; 0]%N ++ []) with (optn true 2 0 ++ []).
    rewrite rdn_app by reflexivity. cbn [bind]. destruct (Nat.ltb_spec (length (([fl] ++ a) ++ optn true 2 0 ++ [])) (length (([fl] ++ a) ++ optn true 2 0) + N.to_nat 0)) as [L|_].
    { rewrite app_nil_r in L. change (N.to_nat 0) with 0 in L. lia. }
    unfold index. rewrite (proj2 (nth_error_None _ _)); [reflexivity|]. rewrite app_nil_r. lia.
Qed.
Lemma skipn_repeat' {A} (x : A) n k : skipn k (repeat x n) = repeat x (n - k).
Proof. revert k. induction n; intros [|k]; cbn; auto. Qed.
Lemma rpeer_marshal_wire f : rpeer_wf f ->
  let fl := rg_flags f in
  N.testbit fl 4 = false \/ (N.testbit fl 1 = false /\ N.testbit fl 0 = false) ->
  let pad := repeat 0%N (N.to_nat (rg_dilen f) - 1) in
  rpeer_marshal_len f = length (rpeer_wire f pad) /\
  (2 <= length (rpeer_wire f pad) -> rpeer_marshal f = Ok (rpeer_wire f pad)).
Proof.
  destruct f as [fl v4 v6 dl di nl ni]. unfold rpeer_marshal, rpeer_marshal_to, rpeer_marshal_len, rpeer_wf, rpeer_wire. cbn [rg_flags rg_v4 rg_v6 rg_dilen rg_di rg_nilen rg_ni].
  intros (Hfl & H1 & H2 & H3 & H4) H. bits. set (pad := repeat 0%N _).
  assert (A1 : N.testbit fl 1 && negb (N.testbit fl 4) = N.testbit fl 1) by (destruct H as [H|[H H']]; rewrite ?H, ?H'; now rewrite ?andb_true_r).
  assert (A0 : N.testbit fl 0 && negb (N.testbit fl 4) = N.testbit fl 0) by (destruct H as [H|[H H']]; rewrite ?H, ?H'; now rewrite ?andb_true_r).
  rewrite A1, A0. clear A1 A0 H.
  assert (Lp : N.testbit fl 2 = true -> length pad = N.to_nat dl - 1) by (intros _; apply repeat_length).
  assert (Lw : 1 + (len_if (N.testbit fl 1) 4 + (len_if (N.testbit fl 0) 16 + (len_if (N.testbit fl 2) (2 + N.to_nat dl) + len_if (N.testbit fl 3) (2 + N.to_nat nl)))) =
     length ([fl] ++ optb (N.testbit fl 1) v4 ++ optb (N.testbit fl 0) v6 ++ opts (N.testbit fl 2) (be 2 dl ++ [di] ++ pad) ++ opts (N.testbit fl 3) (be 2 nl ++ ni))).
  { lens. f_equal. f_equal. f_equal. f_equal.
    - destruct (N.testbit fl 2); [|reflexivity]. cbn [len_if]. rewrite Lp by reflexivity. lia.
    - destruct (N.testbit fl 3); [|reflexivity]. cbn [len_if]. destruct H4 as (_ & _ & L). apply lenN_nat in L. lia. }
  split; [exact Lw|]. intros Hl. rewrite <- Lw in Hl.
  set (M := len_if (N.testbit fl 1) 4 + _) in *.
  destruct (Nat.ltb_spec (length (make (1 + M))) 2) as [X|_]; [rewrite make_length in X; lia|].
  rewrite put0. cbn [bind]. enter fl. subst M. do 2 wr1.
  set (w := ([fl] ++ _) ++ _). set (z := skipn _ _). assert (Ew : w = ([fl] ++ optb (N.testbit fl 1) v4) ++ optb (N.testbit fl 0) v6) by reflexivity. clearbody w.
  assert (Lz : length z = len_if (N.testbit fl 2) (2 + N.to_nat dl) + len_if (N.testbit fl 3) (2 + N.to_nat nl)) by (subst z; lens; lia).
  assert (Zz : z = repeat 0%N (length z)).
  { subst z. unfold make. rewrite !skipn_repeat', repeat_length. reflexivity. }
  clearbody z. set (b4 := N.testbit fl 3) in *. clearbody b4.
  assert (G : exists z', (if N.testbit fl 2 then '(b, o) <- cpn true 2 dl (w ++ z) (length w) ;; b <- put b o [di] ;; Ok (b, o + N.to_nat dl) else Ok (w ++ z, length w)) =
     Ok ((w ++ opts (N.testbit fl 2) (be 2 dl ++ [di] ++ pad)) ++ z', length (w ++ opts (N.testbit fl 2) (be 2 dl ++ [di] ++ pad))) /\ length z' = len_if b4 (2 + N.to_nat nl)).
  { destruct (N.testbit fl 2); cbn [opts len_if] in *.
    - destruct H3 as [H3 _]. rewrite cpn_ok by (cbn [optn]; rewrite be_length; lia). cbn [bind optn].
      rewrite put_seg by (cbn [length]; rewrite skipn_length, be_length; lia). cbn [bind]. rewrite Zz, !skipn_repeat'.
      exists (repeat 0%N (len_if b4 (2 + N.to_nat nl))). split; [|apply repeat_length].
      f_equal. f_equal.
      + rewrite <- !app_assoc. do 4 f_equal. subst pad. rewrite <- repeat_app. f_equal. rewrite be_length, Lz. cbn [length]. lia.
      + rewrite !app_length, be_length, Lp by reflexivity. cbn [length]. lia.
    - exists z. rewrite app_nil_r. split; [reflexivity|lia]. }
  clear Lz Zz. destruct G as (z' & -> & Lz'). cbn [bind]. set (w' := w ++ _) in *. destruct b4; cbn [opts len_if] in *.
  - destruct H4 as (H4 & B & L). apply lenN_nat in L. rewrite cpn_ok by (cbn [optn]; rewrite be_length; lia). cbn [bind optn].
    rewrite copy_seg by (rewrite ?skipn_length, ?be_length; lia). f_equal.
    rewrite skipn_all_nil by (rewrite skipn_length, be_length; lia). subst w'. rewrite Ew. now rewrite app_nil_r, <- !app_assoc.
  - destruct z'; [|discriminate]. subst w'. rewrite Ew. now rewrite !app_nil_r, <- !app_assoc.
Qed.
(** with bit 5 set, MarshalLen leaves the addresses out although MarshalTo writes them *)
Lemma copy_range_cases b lo hi s : lo <= hi -> copy_range b lo hi s = Fault \/ exists b', copy_range b lo hi s = Ok b' /\ length b' = length b /\ hi <= length b.
Proof.
  intros H. destruct (le_lt_dec hi (length b)) as [L|L].
  - right. destruct (@copy_range_len b lo hi s) as (b' & E & L'); eauto.
  - left. unfold copy_range. destruct (Nat.leb_spec hi (length b)); [lia|]. now rewrite andb_false_r.
Qed.
Lemma put_cases b lo s : put b lo s = Fault \/ exists b', put b lo s = Ok b' /\ length b' = length b /\ lo + length s <= length b.
Proof.
  destruct (le_lt_dec (lo + length s) (length b)) as [L|L].
  - right. destruct (@put_len b lo s) as (b' & E & L'); eauto.
  - left. unfold put. destruct (Nat.leb_spec (lo + length s) (length b)); [lia|reflexivity].
Qed.
Lemma cpb_cases c n s b o : cpb c n s b o = Fault \/ exists b', cpb c n s b o = Ok (b', o + len_if c n) /\ length b' = length b /\ (c = true -> o + n <= length b).
Proof.
  unfold cpb, len_if. destruct c; [|right; rewrite Nat.add_0_r; eexists; repeat split; discriminate].
  destruct (@copy_range_cases b o (o + n) s) as [->|(b' & -> & L & H)]; [lia|now left|right]. cbn [bind]. eauto.
Qed.
Lemma cpn_cases c n v b o : cpn c n v b o = Fault \/ exists b', cpn c n v b o = Ok (b', o + len_if c n) /\ length b' = length b /\ (c = true -> o + n <= length b).
Proof.
  unfold cpn, len_if. destruct c; [|right; rewrite Nat.add_0_r; eexists; repeat split; discriminate].
  destruct (@put_cases b o (be n v)) as [->|(b' & -> & L & H)]; [now left|right]. rewrite be_length in H. cbn [bind]. eauto.
Qed.
Lemma rpeer_marshal_panics f : let fl := rg_flags f in
  N.testbit fl 4 = true -> N.testbit fl 1 || N.testbit fl 0 = true -> N.testbit fl 3 = true \/ (N.testbit fl 2 = true /\ rg_dilen f = 1%N) -> rpeer_marshal f = Fault.
Proof.
  destruct f as [fl v4 v6 dl di nl ni]. unfold rpeer_marshal, rpeer_marshal_to, rpeer_marshal_len. cbn [rg_flags rg_v4 rg_v6 rg_dilen rg_di rg_nilen rg_ni].
  intros H5 Ha Hn. bits. rewrite H5. cbn [negb]. rewrite !andb_false_r. cbn [len_if Nat.add].
  pose proof (make_length (S (len_if (N.testbit fl 2) (S (S (N.to_nat dl))) + len_if (N.testbit fl 3) (S (S (N.to_nat nl)))))) as L0.
  set (b := make _) in *. clearbody b.
  destruct (Nat.ltb_spec (length b) 2); [destruct Hn as [Hn|[Hn Hd]]; rewrite Hn in L0; cbn [len_if] in L0; lia|].
  destruct (@put_cases b 0 [fl]) as [->|(b1 & -> & L1 & _)]; [reflexivity|]. cbn [bind].
  destruct (@cpb_cases (N.testbit fl 1) 4 (octs v4) b1 1) as [->|(b2 & -> & L2 & _)]; [reflexivity|]. cbn [bind].
  destruct (@cpb_cases (N.testbit fl 0) 16 (octs v6) b2 (1 + len_if (N.testbit fl 1) 4)) as [->|(b3 & -> & L3 & _)]; [reflexivity|]. cbn [bind].
  assert (Hpos : 0 < len_if (N.testbit fl 1) 4 + len_if (N.testbit fl 0) 16) by (destruct (N.testbit fl 1), (N.testbit fl 0); cbn in *; discriminate || lia).
  set (o := 1 + len_if (N.testbit fl 1) 4 + len_if (N.testbit fl 0) 16) in *. assert (Ho : 1 < o) by (subst o; lia). clearbody o.
  assert (G : (if N.testbit fl 2 then '(b, o) <- cpn true 2 dl b3 o ;; b <- put b o [di] ;; Ok (b, o + N.to_nat dl) else Ok (b3, o)) = Fault \/
     exists b4, (if N.testbit fl 2 then '(b, o) <- cpn true 2 dl b3 o ;; b <- put b o [di] ;; Ok (b, o + N.to_nat dl) else Ok (b3, o)) =
     Ok (b4, o + len_if (N.testbit fl 2) (2 + N.to_nat dl)) /\ length b4 = length b /\ (N.testbit fl 2 = true -> o + 3 <= length b)).
  { destruct (N.testbit fl 2); cbn [len_if].
    - destruct (@cpn_cases true 2 dl b3 o) as [->|(b4 & -> & L4 & _)]; [now left|]. cbn [bind len_if].
      destruct (@put_cases b4 (o + 2) [di]) as [->|(b5 & -> & L5 & L6)]; [now left|right]. cbn [bind length] in *. exists b5.
      split; [do 2 f_equal; lia|]. split; [lia|]. intros _. lia.
    - right. exists b3. rewrite Nat.add_0_r. repeat split; [lia|discriminate]. }
  destruct G as [->|(b4 & -> & L4 & L4')]; [reflexivity|]. cbn [bind].
  destruct (N.testbit fl 3).
  - destruct (@cpn_cases true 2 nl b4 (o + len_if (N.testbit fl 2) (2 + N.to_nat dl))) as [->|(b5 & -> & L5 & L5')]; [reflexivity|]. cbn [bind len_if].
    match goal with |- copy_range ?b ?lo ?hi ?s = _ => destruct (@copy_range_cases b lo hi s) as [->|(b6 & _ & _ & L6)]; [lia|reflexivity|] end.
    exfalso. cbn [len_if Nat.add] in *. lia.
  - exfalso. destruct Hn as [Hn|[Hn ->]]; [discriminate|]. specialize (L4' Hn). rewrite Hn in *. cbn in *. lia.
Qed.
Lemma rpeer_new_wf fl v4 v6 di ni : octet fl -> ok4 (N.testbit fl 1) v4 -> ok16 (N.testbit fl 0) v6 -> octet di -> bytes ni -> (lenN ni < 65536)%N ->
  rpeer_wf (new_rpeer fl v4 v6 di ni) /\ rg_di (new_rpeer fl v4 v6 di ni) = if N.testbit fl 2 then (di mod 16)%N else 0%N.
Proof.
  intros H1 H2 H3 H4 H5 H6. unfold rpeer_wf, new_rpeer. cbn [rg_flags rg_v4 rg_v6 rg_dilen rg_di rg_nilen rg_ni]. bits.
  assert (D : N.land di 15 = (di mod 16)%N) by (apply (land_low di 4)). rewrite D.
  split; [|reflexivity]. split; [exact H1|]. split; [now apply canon4_present|]. split; [now apply canon16_present|]. split.
  - destruct (N.testbit fl 2); [|auto]. split; [split; reflexivity|]. unfold octet. pose proof (N.mod_lt di 16 ltac:(discriminate)). lia.
  - destruct (N.testbit fl 3); [|auto]. unfold u16. rewrite N.mod_small by exact H6. auto.
Qed.
