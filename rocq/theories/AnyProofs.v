(** Writers into a buffer of one octet, and MarshalTo of structs with arbitrary contents into it. *)
From Verif Require Import Base Bits Codec Codec2 Utils Fields1 Fields2 Fields3 Fields4 Access Reuse AnySpec.
From Verif Require Import UtilsProofs NewProofs6 FieldsProofs1c FieldsProofs3b.
Set Implicit Arguments.
Section On.
Variable z : N.
Local Notation make := (repeat z).
Local Notation fit := (AnySpec.fit z).
Local Notation str8 := (AnySpec.str8 z).
Local Notation str16 := (AnySpec.str16 z).
Local Notation conv4 := (AnySpec.conv4 z).
Local Notation conv16 := (AnySpec.conv16 z).
Local Notation raw4 := (AnySpec.raw4 z).
Local Notation raw16 := (AnySpec.raw16 z).
Local Notation rp_addrs := (AnySpec.rp_addrs z).
Local Notation mac_walk := (AnySpec.mac_walk z).
Local Notation left := (AnySpec.left z).
Local Notation expected := (expected_on z).
Lemma make_length n : length (make n) = n. Proof. apply repeat_length. Qed.

Lemma fit_length n s : length (fit n s) = n.
Proof. unfold AnySpec.fit. rewrite app_length, firstn_length, repeat_length. lia. Qed.
Lemma skip_make n k : skipn n (make k) = make (k - n).
Proof. revert k. induction n as [|n IH]; intros [|k]; cbn; auto. Qed.
Lemma make_add a b : make (a + b) = make a ++ make b.
Proof. now rewrite repeat_app. Qed.
Lemma put_room p k s : length s <= k -> put (p ++ make k) (length p) s = Ok ((p ++ s) ++ make (k - length s)).
Proof. intros H. rewrite put_app by (rewrite make_length; lia). now rewrite skip_make, app_assoc. Qed.
Lemma put_over p k s : k < length s -> put (p ++ make k) (length p) s = Fault.
Proof. intros H. unfold put. rewrite app_length, make_length. destruct (Nat.leb_spec (length p + length s) (length p + k)); [lia|reflexivity]. Qed.
Lemma copy_room p k n s : n <= k -> copy_range (p ++ make k) (length p) (length p + n) s = Ok ((p ++ fit n s) ++ make (k - n)).
Proof.
  intros H. unfold copy_range. rewrite app_length, make_length. replace (length p <=? length p + n) with true by (symmetry; apply Nat.leb_le; lia).
  replace (length p + n <=? length p + k) with true by (symmetry; apply Nat.leb_le; lia). cbn [andb]. cbv zeta. rewrite firstn_app_exact by reflexivity.
  rewrite (Nat.add_comm (length p) n), Nat.add_sub. rewrite <- skipn_skipn', skipn_app_exact, skip_make by reflexivity. unfold AnySpec.fit. rewrite <- !app_assoc. f_equal. f_equal. f_equal.
  rewrite <- make_add. f_equal. rewrite firstn_length. lia.
Qed.
Lemma copy_over p k n s : k < n -> copy_range (p ++ make k) (length p) (length p + n) s = Fault.
Proof.
  intros H. unfold copy_range. rewrite app_length, make_length. replace (length p + n <=? length p + k) with false by (symmetry; apply Nat.leb_gt; lia). now rewrite andb_false_r.
Qed.

(** ** The idioms *)
Lemma put_room2 p k s o : o = length p -> length s <= k -> put (p ++ make k) o s = Ok ((p ++ s) ++ make (k - length s)).
Proof. intros ->. apply put_room. Qed.
Lemma copy_room2 p k n s o e : o = length p -> e = o + n -> n <= k -> copy_range (p ++ make k) o e s = Ok ((p ++ fit n s) ++ make (k - n)).
Proof. intros -> ->. apply copy_room. Qed.
Lemma wrb_room c n s p k : len_if c n <= k -> wrb c n s (p ++ make k) (length p) = Ok ((p ++ opts c (fit n s)) ++ make (k - len_if c n), length (p ++ opts c (fit n s))).
Proof.
  unfold wrb, opts, len_if. destruct c; intros H; [|now rewrite app_nil_r, Nat.sub_0_r]. rewrite app_length, make_length. destruct (Nat.ltb_spec (length p + k) (length p + n)); [lia|].
  rewrite copy_room by exact H. cbn [bind]. now rewrite app_length, fit_length.
Qed.
Lemma wrb_over c n s p k : k < len_if c n -> wrb c n s (p ++ make k) (length p) = Err EUnexpectedEOF.
Proof.
  unfold wrb, len_if. destruct c; [|lia]. intros H. rewrite app_length, make_length. destruct (Nat.ltb_spec (length p + k) (length p + n)); [reflexivity|lia].
Qed.
Lemma wrn_room c n v p k : len_if c n <= k -> wrn c n v (p ++ make k) (length p) = Ok ((p ++ opts c (be n v)) ++ make (k - len_if c n), length (p ++ opts c (be n v))).
Proof.
  unfold wrn, opts, len_if. destruct c; intros H; [|now rewrite app_nil_r, Nat.sub_0_r]. rewrite app_length, make_length. destruct (Nat.ltb_spec (length p + k) (length p + n)); [lia|].
  rewrite put_room by (rewrite be_length; lia). cbn [bind]. now rewrite app_length, be_length.
Qed.
Lemma cpb_room c n s p k : len_if c n <= k -> cpb c n s (p ++ make k) (length p) = Ok ((p ++ opts c (fit n s)) ++ make (k - len_if c n), length (p ++ opts c (fit n s))).
Proof.
  unfold cpb, opts, len_if. destruct c; intros H; [|now rewrite app_nil_r, Nat.sub_0_r]. rewrite copy_room by exact H. cbn [bind]. now rewrite app_length, fit_length.
Qed.
Lemma cpb_over c n s p k : k < len_if c n -> cpb c n s (p ++ make k) (length p) = Fault.
Proof. unfold cpb, len_if. destruct c; [|lia]. intros H. now rewrite copy_over. Qed.
Lemma cpn_room c n v p k : len_if c n <= k -> cpn c n v (p ++ make k) (length p) = Ok ((p ++ opts c (be n v)) ++ make (k - len_if c n), length (p ++ opts c (be n v))).
Proof.
  unfold cpn, opts, len_if. destruct c; intros H; [|now rewrite app_nil_r, Nat.sub_0_r]. rewrite put_room by (rewrite be_length; lia). cbn [bind]. now rewrite app_length, be_length.
Qed.
Lemma cpn_over c n v p k : k < len_if c n -> cpn c n v (p ++ make k) (length p) = Fault.
Proof. unfold cpn, len_if. destruct c; [|lia]. intros H. now rewrite put_over by (rewrite be_length; lia). Qed.
Lemma str8_length n s : length (str8 n s) = 1 + N.to_nat n. Proof. unfold AnySpec.str8. cbn [length]. now rewrite fit_length. Qed.
Lemma str16_length n s : length (str16 n s) = 2 + N.to_nat n. Proof. unfold AnySpec.str16. now rewrite app_length, be_length, fit_length. Qed.
Lemma cp8s_room c n s p k : len_if c (1 + N.to_nat n) <= k ->
  cp8s c n s (p ++ make k) (length p) = Ok ((p ++ opts c (str8 n s)) ++ make (k - len_if c (1 + N.to_nat n)), length (p ++ opts c (str8 n s))).
Proof.
  unfold cp8s, opts, len_if. destruct c; intros H; [|now rewrite app_nil_r, Nat.sub_0_r]. rewrite put_room by (cbn [length]; lia). cbn [bind].
  rewrite (@copy_room2 (p ++ [n]) _ (N.to_nat n)) by (rewrite ?app_length; cbn [length]; lia). cbn [bind]. unfold AnySpec.str8. f_equal. f_equal.
  - rewrite <- !app_assoc. cbn [app length]. do 4 f_equal. lia.
  - rewrite app_length. cbn [length]. rewrite fit_length. lia.
Qed.
Lemma cp8s_over c n s p k : k < len_if c (1 + N.to_nat n) -> cp8s c n s (p ++ make k) (length p) = Fault.
Proof.
  unfold cp8s, len_if. destruct c; [|lia]. intros H. destruct (Nat.eq_dec k 0) as [->|K]; [now rewrite put_over by (cbn [length]; lia)|]. rewrite put_room by (cbn [length]; lia). cbn [bind].
  replace (length p + 1) with (length (p ++ [n])) by (rewrite app_length; reflexivity). rewrite copy_over by (cbn [length]; lia). reflexivity.
Qed.
Lemma cp16s_room c n s p k : len_if c (2 + N.to_nat n) <= k ->
  cp16s c n s (p ++ make k) (length p) = Ok ((p ++ opts c (str16 n s)) ++ make (k - len_if c (2 + N.to_nat n)), length (p ++ opts c (str16 n s))).
Proof.
  unfold cp16s, opts, len_if. destruct c; intros H; [|now rewrite app_nil_r, Nat.sub_0_r]. rewrite put_room by (rewrite be_length; lia). cbn [bind].
  rewrite (@copy_room2 (p ++ be 2 n) _ (N.to_nat n)) by (rewrite ?app_length, ?be_length; lia). cbn [bind]. unfold AnySpec.str16. f_equal. f_equal.
  - rewrite <- !app_assoc. rewrite be_length. do 4 f_equal. lia.
  - rewrite !app_length, be_length, fit_length. lia.
Qed.

(** ** Tactics *)
Ltac room :=
  match goal with
  | |- context [wrb ?c ?n ?s (?p ++ make ?k) (length ?p)] => rewrite (@wrb_room c n s p k) by (cbn [len_if]; lia); cbn [bind]
  | |- context [wrn ?c ?n ?s (?p ++ make ?k) (length ?p)] => rewrite (@wrn_room c n s p k) by (cbn [len_if]; lia); cbn [bind]
  | |- context [cpb ?c ?n ?s (?p ++ make ?k) (length ?p)] => rewrite (@cpb_room c n s p k) by (cbn [len_if]; lia); cbn [bind]
  | |- context [cpn ?c ?n ?s (?p ++ make ?k) (length ?p)] => rewrite (@cpn_room c n s p k) by (cbn [len_if]; lia); cbn [bind]
  | |- context [cp8s ?c ?n ?s (?p ++ make ?k) (length ?p)] => rewrite (@cp8s_room c n s p k) by (cbn [len_if]; lia); cbn [bind]
  | |- context [cp16s ?c ?n ?s (?p ++ make ?k) (length ?p)] => rewrite (@cp16s_room c n s p k) by (cbn [len_if]; lia); cbn [bind]
  end.
Ltac at1 fl :=
  repeat match goal with
  | |- context [wrb ?c ?n ?s ?b 1] => change (wrb c n s b 1) with (wrb c n s b (length [fl]))
  | |- context [wrn ?c ?n ?s ?b 1] => change (wrn c n s b 1) with (wrn c n s b (length [fl]))
  | |- context [cpb ?c ?n ?s ?b 1] => change (cpb c n s b 1) with (cpb c n s b (length [fl]))
  | |- context [cpn ?c ?n ?s ?b 1] => change (cpn c n s b 1) with (cpn c n s b (length [fl]))
  | |- context [cp8s ?c ?n ?s ?b 1] => change (cp8s c n s b 1) with (cp8s c n s b (length [fl]))
  end.
Lemma need_make {A} n k (x y : A) : n <= k -> (if length (make k) <? n then x else y) = y.
Proof. intros H. rewrite make_length. destruct (Nat.ltb_spec k n); [lia|reflexivity]. Qed.
Lemma start n fl : put (make (1 + n)) 0 [fl] = Ok ([fl] ++ make n). Proof. reflexivity. Qed.
Lemma ok_tail w k w' : k = 0 -> w = w' -> Ok (w ++ make k) = Ok w'. Proof. intros -> ->. now rewrite app_nil_r. Qed.
Lemma ok_tail2 w k w' k' : k = k' -> w = w' -> Ok (w ++ make k) = Ok (w' ++ make k'). Proof. now intros -> ->. Qed.
Ltac begin fl := rewrite need_make by lia; rewrite start; cbn [bind]; at1 fl.
Ltac bitn := unfold bit; bits.
Ltac fin := apply ok_tail; [lia|bitn; rewrite <- ?app_assoc; reflexivity].

(** ** Structs whose Marshal always succeeds *)
Lemma fteid_any f : fteid_marshal_to f (make (fteid_marshal_len f)) = expected (F_fteid f).
Proof.
  unfold fteid_marshal_to, fteid_marshal_len. cbn [expected_on]. bitn. destruct (N.testbit (ft_flags f) 2) eqn:E.
  - begin (ft_flags f). destruct (N.testbit (ft_flags f) 3) eqn:E3; [|reflexivity]. cbn [len_if]. reflexivity.
  - begin (ft_flags f). room. set (a := N.testbit (ft_flags f) 0). set (b := N.testbit (ft_flags f) 1). cbn [len_if].
    assert (len_if (a && notnil (ft_v4 f)) 4 + len_if (a && negb (notnil (ft_v4 f))) 4 = len_if a 4) by (destruct a, (notnil (ft_v4 f)); reflexivity).
    assert (len_if (b && notnil (ft_v6 f)) 16 + len_if (b && negb (notnil (ft_v6 f))) 16 = len_if b 16) by (destruct b, (notnil (ft_v6 f)); reflexivity).
    room. room. f_equal. rewrite <- !app_assoc. cbn [app]. do 4 f_equal. unfold AnySpec.left. f_equal. lia.
Qed.
Lemma fseid_any f : fseid_marshal_to f (make (fseid_marshal_len f)) = expected (F_fseid f).
Proof.
  unfold fseid_marshal_to, fseid_marshal_len. cbn [expected_on]. bitn. set (a := N.testbit (fs_flags f) 1). set (b := N.testbit (fs_flags f) 0).
  change (9 + ?x) with (1 + (8 + x)). begin (fs_flags f). room. cbn [len_if].
  assert (len_if (a && notnil (fs_v4 f)) 4 + len_if (negb a && notnil (fs_v4 f)) 4 = len_if (notnil (fs_v4 f)) 4) by (destruct a, (notnil (fs_v4 f)); reflexivity).
  assert (len_if (b && notnil (fs_v6 f)) 16 + len_if (negb b && notnil (fs_v6 f)) 16 = len_if (notnil (fs_v6 f)) 16) by (destruct b, (notnil (fs_v6 f)); reflexivity).
  room. room. f_equal. rewrite <- !app_assoc. cbn [app opts]. do 4 f_equal. unfold AnySpec.left. f_equal. lia.
Qed.
Lemma ueip_any f : ueip_marshal_to f (make (ueip_marshal_len f)) = expected (F_ueip f).
Proof. unfold ueip_marshal_to, ueip_marshal_len. cbn [expected_on]. begin (ue_flags f). do 4 room. fin. Qed.
Lemma altip_any f : altip_marshal_to f (make (altip_marshal_len f)) = expected (F_altip f).
Proof. unfold altip_marshal_to, altip_marshal_len. cbn [expected_on]. begin (ai_flags f). do 2 room. fin. Qed.
Lemma srcip_any f : srcip_marshal_to f (make (srcip_marshal_len f)) = expected (F_srcip f).
Proof.
  unfold srcip_marshal_to, srcip_marshal_len. cbn [expected_on]. begin (si_flags f). do 2 room. destruct (has3 (si_flags f)) eqn:E.
  - cbn [len_if]. rewrite app_length. match goal with |- context [?a <? ?b] => destruct (Nat.ltb_spec a b) as [L|_] end; [rewrite ?make_length in L; lia|]. rewrite put_room by (cbn [length]; lia). rewrite has3_testbit in E. unfold bit at 3. rewrite E. cbn [length]. fin.
  - rewrite has3_testbit in E. unfold bit at 3. rewrite E. cbn [opts len_if]. rewrite app_nil_r. fin.
Qed.
Lemma ulip_any f : ulip_marshal_to f (make (ulip_marshal_len f)) = expected (F_ulip f).
Proof. unfold ulip_marshal_to, ulip_marshal_len. cbn [expected_on]. begin (ul_flags f). do 4 room. fin. Qed.
Lemma mptcp_any f : mptcp_marshal_to f (make (mptcp_marshal_len f)) = expected (F_mptcp f).
Proof.
  unfold mptcp_marshal_to, mptcp_marshal_len. cbn [expected_on]. rewrite need_make by lia. set (n := len_if _ _ + len_if _ _). set (p := [mp_flags f; mp_type f] ++ be 2 (mp_port f)).
  change (put (make (1 + 1 + 2 + n)) 0 [mp_flags f]) with (Ok (mp_flags f :: z :: z :: z :: make n)). cbn [bind].
  change (put (mp_flags f :: z :: z :: z :: make n) 1 [mp_type f]) with (Ok (mp_flags f :: mp_type f :: z :: z :: make n)). cbn [bind].
  change (put (mp_flags f :: mp_type f :: z :: z :: make n) 2 (be 2 (mp_port f))) with (Ok (p ++ make n)). cbn [bind].
  change (wrb ?c ?n ?s (p ++ ?b) 4) with (wrb c n s (p ++ b) (length p)). subst n. do 2 room. fin.
Qed.
Lemma pmf_any f : pmf_marshal_to f (make (pmf_marshal_len f)) = expected (F_pmf f).
Proof. unfold pmf_marshal_to, pmf_marshal_len. cbn [expected_on]. begin (pm_flags f). do 2 room. do 4 (room; cbn [len_if opts]). fin. Qed.
Lemma volm_any f : volm_marshal_to f (make (volm_marshal_len f)) = expected (F_volm f).
Proof. unfold volm_marshal_to, volm_marshal_len. cbn [expected_on]. begin (vm_flags f). do 6 room. fin. Qed.
Lemma vol3_any f : vol3_marshal_to f (make (vol3_marshal_len f)) = expected (F_vol3 f).
Proof. unfold vol3_marshal_to, vol3_marshal_len. cbn [expected_on]. begin (v3_flags f). do 3 room. fin. Qed.
Lemma nue_any f : nue_marshal_to f (make (nue_marshal_len f)) = expected (F_nue f).
Proof. unfold nue_marshal_to, nue_marshal_len. cbn [expected_on]. begin (nu_flags f). do 2 room. fin. Qed.
Lemma delays_any f : delays_marshal_to f (make (delays_marshal_len f)) = expected (F_delays f).
Proof. unfold delays_marshal_to, delays_marshal_len. cbn [expected_on]. begin (dy_flags f). do 3 room. fin. Qed.
Lemma prate_any f : prate_marshal_to f (make (prate_marshal_len f)) = expected (F_prate f).
Proof.
  unfold prate_marshal_to, prate_marshal_len. cbn [expected_on]. bitn. destruct (N.testbit (pr_flags f) 0), (N.testbit (pr_flags f) 1); reflexivity.
Qed.
Lemma dlfl_any f : dlfl_marshal_to f (make (dlfl_marshal_len f)) = expected (F_dlfl f).
Proof.
  unfold dlfl_marshal_to, dlfl_marshal_len. cbn [expected_on]. bitn. destruct (N.testbit (dm_flags f) 0), (N.testbit (dm_flags f) 1); reflexivity.
Qed.
Lemma prstat_any f : prstat_marshal_to f (make (prstat_marshal_len f)) = expected (F_prstat f).
Proof. unfold prstat_marshal_to, prstat_marshal_len. cbn [expected_on]. begin (ps_flags f). do 4 room. room. cbn [len_if opts]. fin. Qed.
Lemma tag_any f : tag_marshal_to f (make (tag_marshal_len f)) = expected (F_tag f).
Proof. reflexivity. Qed.
Lemma sdf_any f : sdf_marshal_to f (make (sdf_marshal_len f)) = expected (F_sdf f).
Proof.
  unfold sdf_marshal_to, sdf_marshal_len. cbn [expected_on]. rewrite <- !Nat.add_assoc. rewrite need_make by lia. set (n := len_if _ _ + _).
  change (put (make (2 + n)) 0 [sd_flags f]) with (Ok ([sd_flags f; z] ++ make n)). cbn [bind].
  change (cp16s ?c ?x ?s ?b 2) with (cp16s c x s b (length [sd_flags f; z])). subst n. do 5 room. fin.
Qed.
Lemma redir_any f : redir_marshal_to f (make (redir_marshal_len f)) = expected (F_redir f).
Proof.
  unfold redir_marshal_to, redir_marshal_len. cbn [expected_on]. set (n := N.to_nat (ri_len f)). set (m := N.to_nat (ri_olen f)). rewrite make_length.
  replace (3 + n + 2 + m) with (1 + (2 + n + 2 + m)) by lia. destruct (Nat.ltb_spec (1 + (2 + n + 2 + m)) 1); [lia|]. rewrite start. cbn [bind]. destruct (Nat.ltb_spec (1 + (2 + n + 2 + m)) (1 + n)); [lia|].
  rewrite (@put_room2 [ri_type f]) by (rewrite ?be_length; reflexivity || lia). cbn [bind]. rewrite (@copy_room2 ([ri_type f] ++ be 2 (ri_len f)) _ n) by (rewrite ?app_length, ?be_length; cbn [length]; lia). cbn [bind].
  rewrite be_length. set (p := _ ++ fit n _). assert (P : length p = 1 + 2 + n) by (unfold p; rewrite !app_length, be_length, fit_length; reflexivity).
  assert (R : put (p ++ make (2 + n + 2 + m - 2 - n)) (1 + 2 + n) (be 2 (ri_olen f)) = Ok ((p ++ be 2 (ri_olen f)) ++ make m)).
  { rewrite put_room2 by (rewrite ?be_length; lia). rewrite be_length. do 3 f_equal. lia. }
  assert (Q : (ri_type f :: str16 (ri_len f) (ri_addr f) ++ str16 (ri_olen f) (ri_other f)) = (p ++ be 2 (ri_olen f)) ++ fit m (ri_other f)).
  { unfold p, AnySpec.str16. fold n m. rewrite <- !app_assoc. reflexivity. }
  rewrite Q. destruct (ri_other f) as [|x l] eqn:O.
  - rewrite R. f_equal. f_equal. unfold AnySpec.fit. rewrite firstn_nil. cbn [length app]. now rewrite Nat.sub_0_r.
  - rewrite <- O in *. destruct (Nat.ltb_spec (1 + (2 + n + 2 + m)) (1 + 2 + n + m)); [lia|]. rewrite R. cbn [bind]. rewrite (@copy_room2 (p ++ be 2 (ri_olen f)) m m) by (rewrite ?app_length, ?be_length; lia). rewrite Nat.sub_diag. cbn [repeat]. now rewrite app_nil_r.
Qed.


Lemma fit_full n s : length s = n -> fit n s = s.
Proof. intros <-. unfold AnySpec.fit. now rewrite firstn_all, Nat.sub_diag, app_nil_r. Qed.
Lemma be43 v : skipn 1 (be 4 v) = be 3 v. Proof. reflexivity. Qed.
Lemma ohc_any f : ohc_marshal_to f (make (ohc_marshal_len f)) = expected (F_ohc f).
Proof.
  unfold ohc_marshal_to, ohc_marshal_len. cbn [expected_on]. rewrite <- !Nat.add_assoc. rewrite need_make by lia. set (o := oct5 (oh_desc f)). rewrite !be43.
  match goal with |- context [put (make ?k) 0 ?s] => change (put (make k) 0 s) with (put ([] ++ make k) 0 s) end.
  rewrite (@put_room2 [] _ (be 2 (oh_desc f)) 0) by (rewrite ?be_length; reflexivity || lia). cbn [bind app]. rewrite be_length.
  change (cpn ?c ?x ?s ?b 2) with (cpn c x s b (length (be 2 (oh_desc f)))). do 3 room. set (p := _ ++ opts _ (fit 16 _)).
  match goal with |- context [make ?k] => replace k with (len_if (oh_has_port o) 2 + (len_if (has7 o) 3 + len_if (has8 o) 3)) by lia end.
  assert (F : forall v, fit 3 (be 3 v) = be 3 v) by (intros v; apply fit_full, be_length).
  transitivity (Ok (p ++ if has7 o || has8 o then opts (has7 o) (be 3 (oh_ctag f)) ++ opts (has8 o) (be 3 (oh_stag f)) ++ left (len_if (oh_has_port o) 2) else opts (oh_has_port o) (be 2 (oh_port f)))).
  2: { subst p. bitn. rewrite <- !app_assoc. reflexivity. }
  destruct (oh_has_port o) eqn:P.
  - rewrite cpn_room by (cbn [len_if]; lia). cbn [bind opts len_if]. replace (2 + (len_if (has7 o) 3 + len_if (has8 o) 3) - 2) with (len_if (has7 o) 3 + len_if (has8 o) 3) by lia.
    assert (X : forall s k, length s = 3 -> 1 <= k -> cpb true 3 s ((p ++ be 2 (oh_port f)) ++ make k) (length p) = Ok ((p ++ s) ++ make (k - 1), length (p ++ s))).
    { intros s k L K. unfold cpb. rewrite <- app_assoc. rewrite copy_range_app by (rewrite ?app_length, ?be_length, ?make_length; lia). cbn [bind]. f_equal. f_equal; [|rewrite app_length; lia].
      rewrite <- app_assoc. f_equal. f_equal. destruct k as [|k]; [lia|]. cbn [Nat.sub]. rewrite Nat.sub_0_r. reflexivity. }
    destruct (has7 o).
    + rewrite X by (rewrite ?be_length; cbn [len_if]; lia). cbn [bind]. rewrite cpb_room by (cbn [len_if]; lia). cbn [bind]. rewrite F. cbn [orb opts]. f_equal. rewrite <- !app_assoc. do 3 f_equal. unfold AnySpec.left. f_equal. cbn [len_if]. lia.
    + unfold cpb at 1. cbn [bind]. destruct (has8 o).
      * rewrite X by (rewrite ?be_length; cbn [len_if]; lia). cbn [bind orb opts len_if app]. f_equal. rewrite <- !app_assoc. reflexivity.
      * cbn [cpb bind orb opts len_if]. cbn [repeat Nat.add]. rewrite app_nil_r. reflexivity.
  - unfold cpn at 1. cbn [bind]. rewrite cpb_room by (cbn [len_if]; lia). cbn [bind]. rewrite cpb_room by (cbn [len_if]; lia). cbn [bind]. rewrite !F. f_equal. cbn [len_if opts repeat].
    match goal with |- context [make ?k] => replace k with 0 by lia end. cbn [repeat]. rewrite !app_nil_r. destruct (has7 o), (has8 o); cbn [orb opts]; rewrite ?app_nil_r, <- ?app_assoc; reflexivity.
Qed.
(** BCD members *)
Lemma swapped_verdict s : match str_to_swapped s ascii_f with Ok _ => ishexs s = true | Err e => ishexs s = false /\ e = EHex | _ => False end.
Proof.
  assert (HE : forall s, match hex_decode s with Ok _ => True | Err e => e = EHex | _ => False end).
  { clear. intros s. assert (H : forall n s, length s <= n -> match hex_decode s with Ok _ => True | Err e => e = EHex | _ => False end); [|exact (H _ s (le_n _))].
    clear. induction n as [|n IH]; intros [|a [|b r]] L; cbn [hex_decode length] in *; try lia; auto. destruct (hexval a), (hexval b); try reflexivity. specialize (IH r ltac:(lia)). destruct (hex_decode r); cbn [bind]; auto. }
  unfold str_to_swapped. destruct (Nat.even (length s)) eqn:E.
  - pose proof (hex_verdict s) as V. specialize (HE s). destruct (hex_decode s); cbn [bind]; rewrite ?E, ?andb_true_r in V; auto.
  - pose proof (hex_verdict (s ++ ascii_f)) as V. specialize (HE (s ++ ascii_f)). assert (X : ishexs (s ++ ascii_f) && Nat.even (length (s ++ ascii_f)) = ishexs s).
    { unfold ishexs, ascii_f. rewrite forallb_app, app_length. cbn [length]. rewrite Nat.add_1_r, Nat.even_succ, <- Nat.negb_even, E. cbn [negb]. rewrite andb_true_r. cbn. now rewrite andb_true_r. }
    rewrite X in V. destruct (hex_decode (s ++ ascii_f)); cbn [bind]; auto.
Qed.
Lemma bcd_any c s : bcd_octets c s = if negb c || digits_ok s then Ok (if c then bcd s else []) else Err EHex.
Proof.
  unfold bcd_octets, bcd, digits_ok. destruct c; [|reflexivity]. cbn [negb orb]. pose proof (swapped_verdict s) as V. destruct (str_to_swapped s ascii_f); try contradiction; [now rewrite V|destruct V as [-> ->]; reflexivity].
Qed.
Lemma opts_if c n s : opts c (str8 n (if c then s else [])) = opts c (str8 n s). Proof. now destruct c. Qed.
Lemma userid_any f : userid_marshal_to f (make (userid_marshal_len f)) = expected (F_userid f).
Proof.
  rewrite userid_pre_ok by (unfold make; rewrite repeat_length; lia). unfold userid_pre, userid_marshal_len. cbn [expected_on]. rewrite <- !Nat.add_assoc. bitn. begin (ui_flags f). rewrite !bcd_any.
  destruct (negb _ || digits_ok (ui_imsi f)); [|reflexivity]. cbn [bind andb]. at1 (ui_flags f). room.
  destruct (negb _ || digits_ok (ui_imei f)); [|reflexivity]. cbn [bind andb]. room.
  destruct (negb _ || digits_ok (ui_msisdn f)); [|reflexivity]. cbn [bind andb]. room. room. rewrite !opts_if. fin.
Qed.
Lemma henr_any f : henr_marshal_to f (make (henr_marshal_len f)) = expected (F_henr f).
Proof.
  unfold henr_marshal_to, henr_marshal_len. cbn [expected_on]. set (n := N.to_nat (he_namelen f)). set (m := N.to_nat (he_vallen f)).
  replace (3 + length (he_name f) + length (he_val f)) with (1 + (2 + (length (he_name f) + length (he_val f)))) by lia. set (r := length (he_name f) + length (he_val f)).
  begin (he_type f). destruct (Nat.ltb_spec r (n + m)) as [H|H].
  - destruct (Nat.ltb_spec (2 + r) (1 + n)) as [K|K]; [rewrite cp8s_over by (fold n; cbn [len_if]; lia); reflexivity|]. rewrite cp8s_room by (fold n; cbn [len_if]; lia). cbn [bind].
    rewrite cp8s_over by (fold n m; cbn [len_if]; lia). reflexivity.
  - rewrite cp8s_room by (fold n; cbn [len_if]; lia). cbn [bind]. rewrite cp8s_room by (fold n m; cbn [len_if]; lia). cbn [bind opts]. f_equal. rewrite <- !app_assoc. cbn [app]. do 3 f_equal. unfold AnySpec.left. f_equal. fold n m. cbn [len_if]. lia.
Qed.
Lemma mcast_any f : mcast_marshal_to f (make (mcast_marshal_len f)) = expected (F_mcast f).
Proof.
  unfold mcast_marshal_to, mcast_marshal_len. cbn [expected_on]. 
  match goal with |- context [make (1 + ?k)] => set (r := k) end. match goal with |- context [left ?k] => replace k with r by (unfold r; lia) end. match goal with |- context [?k <? length (opts _ _ ++ _)] => replace k with r by (unfold r; lia) end.
  begin (mc_flags f). bitn. destruct (N.testbit (mc_flags f) 3); [reflexivity|]. set (a := N.testbit (mc_flags f) 1). set (b := N.testbit (mc_flags f) 0). set (c := N.testbit (mc_flags f) 2).
  assert (L : length (opts a (conv4 (mc_sv4 f)) ++ opts b (conv16 (mc_sv6 f)) ++ opts (c && a) (conv4 (mc_ev4 f)) ++ opts (c && b) (conv16 (mc_ev6 f))) = len_if a 4 + (len_if b 16 + (len_if (c && a) 4 + len_if (c && b) 16))).
  { unfold AnySpec.conv4, conv16. rewrite !app_length, !opts_length, !fit_length. reflexivity. }
  rewrite L. destruct (Nat.ltb_spec r (len_if a 4 + (len_if b 16 + (len_if (c && a) 4 + len_if (c && b) 16)))) as [H|H].
  - destruct (Nat.ltb_spec r (len_if a 4)); [now rewrite wrb_over by lia|]. room. destruct (Nat.ltb_spec r (len_if a 4 + len_if b 16)); [now rewrite wrb_over by lia|]. room.
    destruct (Nat.ltb_spec r (len_if a 4 + len_if b 16 + len_if (c && a) 4)); [now rewrite wrb_over by lia|]. room. now rewrite wrb_over by lia.
  - do 4 room. f_equal. rewrite <- !app_assoc. cbn [app]. do 5 f_equal. unfold AnySpec.left. f_equal. lia.
Qed.
Lemma wrmac_any c a p k : wrmac c a (p ++ make k) (length p) =
  if c then if k <? 6 then Err EUnexpectedEOF else if length (octs a) <? 6 then Fault else Ok ((p ++ firstn 6 (octs a)) ++ make (k - 6), length (p ++ firstn 6 (octs a))) else Ok (p ++ make k, length p).
Proof.
  unfold wrmac. destruct c; [|reflexivity]. rewrite app_length, make_length. destruct (Nat.ltb_spec (length p + k) (length p + 6)), (Nat.ltb_spec k 6); try lia; [reflexivity|].
  destruct (Nat.ltb_spec (length (octs a)) 6) as [K|K].
  - unfold slice. replace (6 <=? length (octs a)) with false by (symmetry; apply Nat.leb_gt; lia). reflexivity.
  - rewrite slice_ok by lia. cbn [bind skipn Nat.sub]. assert (L : length (firstn 6 (octs a)) = 6) by (rewrite firstn_length; lia). change (firstn 6 (skipn 0 (octs a))) with (firstn 6 (octs a)).
    rewrite copy_room by lia. cbn [bind]. rewrite fit_full by exact L. now rewrite app_length, L.
Qed.
Lemma macaddr_any f : macaddr_marshal_to f (make (macaddr_marshal_len f)) = expected (F_macaddr f).
Proof.
  unfold macaddr_marshal_to, macaddr_marshal_len. cbn [expected_on]. 
  set (k := len_if (notnil (ma_src f)) 6 + len_if (notnil (ma_dst f)) 6 + len_if (notnil (ma_usrc f)) 6 + len_if (notnil (ma_udst f)) 6).
  match goal with |- context [make ?n] => replace n with (1 + k) by (unfold k; lia) end. begin (ma_flags f). bitn.
  change (wrmac ?c ?x ?b 1) with (wrmac c x b (length [ma_flags f])). cbn [AnySpec.mac_walk]. generalize (N.testbit (ma_flags f) 0), (N.testbit (ma_flags f) 1), (N.testbit (ma_flags f) 2), (N.testbit (ma_flags f) 3). intros c1 c2 c3 c4.
  generalize [ma_flags f]. clearbody k. intros p. change left with make.
  rewrite wrmac_any. destruct c1; [destruct (k <? 6); [reflexivity|]; destruct (length (octs (ma_src f)) <? 6); [reflexivity|]|]; cbn [bind];
  rewrite wrmac_any; (destruct c2; [match goal with |- context [?a <? 6] => destruct (a <? 6); [reflexivity|] end; match goal with |- context [?a <? 6] => destruct (a <? 6); [reflexivity|] end|]); cbn [bind];
  rewrite wrmac_any; (destruct c3; [match goal with |- context [?a <? 6] => destruct (a <? 6); [reflexivity|] end; match goal with |- context [?a <? 6] => destruct (a <? 6); [reflexivity|] end|]); cbn [bind];
  rewrite wrmac_any; (destruct c4; [match goal with |- context [?a <? 6] => destruct (a <? 6); [reflexivity|] end; match goal with |- context [?a <? 6] => destruct (a <? 6); [reflexivity|] end|]); reflexivity.
Qed.
Lemma upri_any f : upri_marshal_to f (make (upri_marshal_len f)) = expected (F_upri f).
Proof.
  unfold upri_marshal_to, upri_marshal_len. cbn [expected_on]. rewrite <- !Nat.add_assoc. bitn. set (w := opts _ _ ++ _).
  assert (L : length w = len_if (teidri (up_flags f)) 1 + (len_if (N.testbit (up_flags f) 0) 4 + (len_if (N.testbit (up_flags f) 1) 16 + (len_if (N.testbit (up_flags f) 5) (length (up_ni f)) + len_if (N.testbit (up_flags f) 6) 1)))).
  { unfold w, AnySpec.raw4, raw16. rewrite !app_length, !opts_length, !fit_length, !be_length. reflexivity. }
  rewrite <- L. destruct w as [|x w'] eqn:W; [reflexivity|]. rewrite <- W in *. rewrite need_make by (rewrite W; cbn [length]; lia). rewrite start. cbn [bind]. at1 (up_flags f). do 5 room. rewrite (fit_full _ eq_refl). apply ok_tail; [lia|]. subst w. rewrite <- !app_assoc. reflexivity.
Qed.


Lemma ok_pair (a b : list N) x y (n m : nat) : a = b -> x = y -> n = m -> Ok (a ++ make x, n) = Ok (b ++ make y, m). Proof. intros -> -> ->. reflexivity. Qed.
Ltac pairs := apply ok_pair; [rewrite <- ?app_assoc; reflexivity|lia|rewrite ?app_length, ?app_assoc; lia].

(** ** MAC lists *)
Lemma cp_macs_room l : forall p k, 6 * length l <= k -> cp_macs l (p ++ make k) (length p) = Ok ((p ++ concat (map (fit 6) l)) ++ make (k - 6 * length l), length (p ++ concat (map (fit 6) l))).
Proof.
  induction l as [|m l IH]; intros p k H; cbn [cp_macs map concat length] in *; [now rewrite app_nil_r, Nat.mul_0_r, Nat.sub_0_r|].
  rewrite copy_room by lia. cbn [bind]. replace (length p + 6) with (length (p ++ fit 6 m)) by (rewrite app_length, fit_length; reflexivity). rewrite IH by lia. pairs.
Qed.
Lemma cp_macs_over l : forall p k, k < 6 * length l -> cp_macs l (p ++ make k) (length p) = Fault.
Proof.
  induction l as [|m l IH]; intros p k H; cbn [cp_macs length] in *; [lia|]. destruct (Nat.ltb_spec k 6); [now rewrite copy_over|]. rewrite copy_room by lia. cbn [bind].
  replace (length p + 6) with (length (p ++ fit 6 m)) by (rewrite app_length, fit_length; reflexivity). apply IH. lia.
Qed.
Lemma macl_any f : macl_marshal_to f (make (macl_marshal_len f)) = expected (F_macl f).
Proof.
  unfold macl_marshal_to, macl_marshal_len. cbn [expected_on]. set (n := N.to_nat (ml_n f)). set (c := N.to_nat (ml_ctlen f)). set (t := N.to_nat (ml_stlen f)). set (l := length (ml_macs f)).
  replace (3 + n * 6 + c + t) with (1 + (6 * n + (1 + c) + (1 + t))) by lia. begin (ml_n f). change (cp_macs ?l ?b 1) with (cp_macs l b (length [ml_n f])).
  destruct (Nat.ltb_spec n l) as [H|H].
  - destruct (Nat.ltb_spec (6 * n + (1 + c) + (1 + t)) (6 * l)) as [K|K]; [now rewrite cp_macs_over|]. rewrite cp_macs_room by exact K. cbn [bind]. fold l.
    destruct (Nat.ltb_spec (6 * n + (1 + c) + (1 + t) - 6 * l) (1 + c)) as [M|M]; [now rewrite cp8s_over by (fold c; exact M)|]. rewrite cp8s_room by exact M. cbn [bind]. now rewrite cp8s_over by (fold c t; cbn [len_if]; lia).
  - rewrite cp_macs_room by (fold l; lia). cbn [bind]. fold l. rewrite cp8s_room by (fold c; cbn [len_if]; lia). cbn [bind]. rewrite cp8s_room by (fold c t; cbn [len_if]; lia). cbn [bind opts]. fold c t. f_equal. rewrite <- !app_assoc. cbn [app]. do 4 f_equal. unfold AnySpec.left. f_equal. cbn [len_if]. lia.
Qed.

(** ** PFD Contents *)
Lemma items_cons a l : items (a :: l) = be 2 (lenN a) ++ a ++ items l. Proof. unfold items. cbn [map concat]. now rewrite app_assoc. Qed.
Lemma items_len_cons a l : items_len (a :: l) = 2 + length a + items_len l. Proof. unfold items_len. rewrite items_cons, !app_length, be_length. lia. Qed.
Lemma cp_items_room l : forall p k, items_len l <= k -> cp_items l (p ++ make k) (length p) = Ok ((p ++ items l) ++ make (k - items_len l), length (p ++ items l)).
Proof.
  induction l as [|a l IH]; intros p k H; cbn [cp_items]; [unfold items, items_len; cbn [map concat length]; now rewrite app_nil_r, Nat.sub_0_r|].
  rewrite items_len_cons in *. rewrite put_room by (rewrite be_length; lia). cbn [bind]. rewrite be_length. set (p1 := p ++ be 2 (lenN a)).
  rewrite (@copy_room2 p1 _ (length a)) by (unfold p1; rewrite ?app_length, ?be_length; lia). cbn [bind]. rewrite (fit_full a eq_refl).
  replace (length p + (2 + length a)) with (length (p1 ++ a)) by (unfold p1; rewrite !app_length, be_length; lia). rewrite IH by lia. rewrite items_cons. unfold p1. pairs.
Qed.
Lemma cp_items_over l : forall p k, k < items_len l -> cp_items l (p ++ make k) (length p) = Fault.
Proof.
  induction l as [|a l IH]; intros p k H; cbn [cp_items]; [cbn in H; lia|]. rewrite items_len_cons in H. destruct (Nat.ltb_spec k 2); [now rewrite put_over by (rewrite be_length; lia)|].
  rewrite put_room by (rewrite be_length; lia). cbn [bind]. rewrite be_length. set (p1 := p ++ be 2 (lenN a)). replace (length p + 2) with (length p1) by (unfold p1; rewrite !app_length, be_length; lia).
  destruct (Nat.ltb_spec (k - 2) (length a)); [now rewrite copy_over|]. rewrite copy_room by lia. cbn [bind]. rewrite (fit_full a eq_refl).
  replace (length p + (2 + length a)) with (length (p1 ++ a)) by (unfold p1; rewrite !app_length, be_length; lia). apply IH. lia.
Qed.
Lemma cp16l_room c n l p k : len_if c (2 + items_len l) <= k -> cp16l c n l (p ++ make k) (length p) = Ok ((p ++ opts c (be 2 n ++ items l)) ++ make (k - len_if c (2 + items_len l)), length (p ++ opts c (be 2 n ++ items l))).
Proof.
  unfold cp16l, opts, len_if. destruct c; intros H; [|now rewrite app_nil_r, Nat.sub_0_r]. rewrite put_room by (rewrite be_length; lia). cbn [bind]. rewrite be_length.
  replace (length p + 2) with (length (p ++ be 2 n)) by (rewrite !app_length, be_length; lia). rewrite cp_items_room by lia. pairs.
Qed.
Lemma cp16l_over c n l p k : k < len_if c (2 + items_len l) -> cp16l c n l (p ++ make k) (length p) = Fault.
Proof.
  unfold cp16l, len_if. destruct c; [|lia]. intros H. destruct (Nat.ltb_spec k 2); [now rewrite put_over by (rewrite be_length; lia)|].
  rewrite put_room by (rewrite be_length; lia). cbn [bind]. rewrite be_length. replace (length p + 2) with (length (p ++ be 2 n)) by (rewrite !app_length, be_length; lia). apply cp_items_over. lia.
Qed.
Lemma len_if_plus c n : len_if c (2 + n) = len_if c 2 + len_if c n. Proof. destruct c; reflexivity. Qed.
Lemma pfdc_any f : pfdc_marshal_to f (make (pfdc_marshal_len f)) = expected (F_pfdc f).
Proof.
  unfold pfdc_marshal_to, pfdc_marshal_len. cbn [expected_on]. rewrite <- !Nat.add_assoc. rewrite need_make by lia. set (n := len_if _ _ + _).
  change (put (make (2 + n)) 0 [pc_flags f]) with (Ok ([pc_flags f; z] ++ make n)). cbn [bind]. change (cp16s ?c ?x ?s ?b 2) with (cp16s c x s b (length [pc_flags f; z])). subst n. do 5 room.
  set (p := _ ++ opts _ _). 
  set (a := has6 (pc_flags f)). set (b := has7 (pc_flags f)). set (c := has8 (pc_flags f)).
  match goal with |- context [make ?k] => replace k with (len_if a (2 + N.to_nat (pc_afdlen f)) + (len_if b (2 + N.to_nat (pc_aurllen f)) + len_if c (2 + N.to_nat (pc_adnplen f)))) by lia end.
  assert (S : pfd_said f = len_if a (N.to_nat (pc_afdlen f)) + len_if b (N.to_nat (pc_aurllen f)) + len_if c (N.to_nat (pc_adnplen f))).
  { unfold pfd_said, pfd_lists. cbn [map list_sum fold_right]. unfold a, b, c. bitn. lia. }
  assert (R : pfd_real f = len_if a (items_len (pc_afd f)) + len_if b (items_len (pc_aurl f)) + len_if c (items_len (pc_adnp f))).
  { unfold pfd_real, pfd_lists. cbn [map list_sum fold_right]. unfold a, b, c. bitn. lia. }
  rewrite S, R. rewrite !len_if_plus. set (k := len_if a 2 + _ + _). assert (K : k = len_if a 2 + len_if a (N.to_nat (pc_afdlen f)) + (len_if b 2 + len_if b (N.to_nat (pc_aurllen f)) + (len_if c 2 + len_if c (N.to_nat (pc_adnplen f))))) by reflexivity. clearbody k.
  match goal with |- context [?x <? ?y] => destruct (Nat.ltb_spec x y) as [H|H] end.
  - destruct (Nat.ltb_spec k (len_if a (2 + items_len (pc_afd f)))) as [H1|H1]; [now rewrite cp16l_over|]. rewrite cp16l_room by exact H1. cbn [bind].
    destruct (Nat.ltb_spec (k - len_if a (2 + items_len (pc_afd f))) (len_if b (2 + items_len (pc_aurl f)))) as [H2|H2]; [now rewrite cp16l_over|]. rewrite cp16l_room by exact H2. cbn [bind].
    rewrite cp16l_over; [reflexivity|]. rewrite !len_if_plus in *. lia.
  - assert (H1 : len_if a (2 + items_len (pc_afd f)) <= k) by (rewrite !len_if_plus; lia). rewrite cp16l_room by exact H1. cbn [bind].
    assert (H2 : len_if b (2 + items_len (pc_aurl f)) <= k - len_if a (2 + items_len (pc_afd f))) by (rewrite !len_if_plus; lia). rewrite cp16l_room by exact H2. cbn [bind].
    assert (H3 : len_if c (2 + items_len (pc_adnp f)) <= k - len_if a (2 + items_len (pc_afd f)) - len_if b (2 + items_len (pc_aurl f))) by (rewrite !len_if_plus; lia). rewrite cp16l_room by exact H3. cbn [bind].
    match goal with |- context [make ?x] => replace x with (len_if a (N.to_nat (pc_afdlen f)) + len_if b (N.to_nat (pc_aurllen f)) + len_if c (N.to_nat (pc_adnplen f)) - (len_if a (items_len (pc_afd f)) + len_if b (items_len (pc_aurl f)) + len_if c (items_len (pc_adnp f)))) by (rewrite !len_if_plus in *; lia) end.
    f_equal. unfold p, a, b, c. bitn. rewrite <- !app_assoc. reflexivity.
Qed.

(** ** Trace Information *)
Lemma swapped_len s v : str_to_swapped s ascii_f = Ok v -> length v = Nat.div2 (S (length s)).
Proof.
  assert (H : forall n s v, length s <= n -> hex_decode s = Ok v -> length v + length v = length s).
  { clear. induction n as [|n IH]; intros [|a [|b r]] v L; cbn [hex_decode length] in *; try lia; try discriminate; try (intros [= <-]; reflexivity). destruct (hexval a), (hexval b); try discriminate.
    destruct (hex_decode r) eqn:E; cbn [bind]; try discriminate. intros [= <-]. cbn [length]. specialize (IH r _ ltac:(lia) E). lia. }
  assert (W : forall l, length (swap l) = length l) by (intros l; unfold swap; now rewrite map_length).
  unfold str_to_swapped. destruct (Nat.even (length s)) eqn:E.
  - destruct (hex_decode s) as [r| | |] eqn:X; cbn [bind]; try discriminate. intros [= <-]. rewrite W. apply (H _ _ _ (le_n _)) in X. rewrite <- X. replace (S (length r + length r)) with (S (2 * length r)) by lia. now rewrite Nat.div2_succ_double.
  - destruct (hex_decode (s ++ ascii_f)) as [r| | |] eqn:X; cbn [bind]; try discriminate. intros [= <-]. rewrite W. apply (H _ _ _ (le_n _)) in X. rewrite app_length in X. cbn [length ascii_f] in X. replace (S (length s)) with (2 * length r) by lia. now rewrite Nat.div2_double.
Qed.
Lemma div2_2 n : 2 <= Nat.div2 (S n) <-> 3 <= n. Proof. destruct n as [|[|[|n]]]; cbn; lia. Qed.
Lemma plmn_any mcc mnc : encode_plmn mcc mnc = if digits_ok mcc && digits_ok mnc then
    if (length mnc =? 2) || (3 <=? length mcc) && (3 <=? length mnc) then Ok (match encode_plmn mcc mnc with Ok p => p | _ => [] end) else Fault else Err EHex.
Proof.
  unfold encode_plmn, digits_ok. pose proof (swapped_verdict mcc) as V1. pose proof (swapped_verdict mnc) as V2. pose proof (@swapped_len mcc) as L1. pose proof (@swapped_len mnc) as L2.
  destruct (str_to_swapped mcc ascii_f) as [c|e| |]; try contradiction; cbn [bind]; [rewrite V1|destruct V1 as [-> ->]; reflexivity].
  destruct (str_to_swapped mnc ascii_f) as [n|e| |]; try contradiction; cbn [bind]; [rewrite V2|destruct V2 as [-> ->]; reflexivity]. cbn [andb].
  destruct (length mnc =? 2); [reflexivity|]. cbn [orb]. specialize (L1 _ eq_refl). specialize (L2 _ eq_refl). pose proof (div2_2 (length mcc)) as D1. pose proof (div2_2 (length mnc)) as D2. rewrite <- L1 in D1. rewrite <- L2 in D2. clear L1 L2.
  destruct (Nat.leb_spec 3 (length mcc)) as [A|A]; cbn [andb].
  - destruct c as [|c0 [|c1 c]]; cbn [length] in D1; try lia. cbn [index nth_error bind]. destruct (Nat.leb_spec 3 (length mnc)) as [B|B].
    + destruct n as [|n0 [|n1 n]]; cbn [length] in D2; try lia. reflexivity.
    + destruct n as [|n0 [|n1 n]]; cbn [length] in D2; try lia; reflexivity.
  - destruct c as [|c0 [|c1 c]]; cbn [length] in D1; try lia; reflexivity.
Qed.
Lemma wr1x_room x p k : 1 <= k -> wr1x x (p ++ make k) (length p) = Ok ((p ++ [x]) ++ make (k - 1), length (p ++ [x])).
Proof.
  intros H. unfold wr1x. rewrite app_length, make_length. destruct (Nat.ltb_spec (length p + k) (length p)); [lia|]. rewrite put_room by (cbn [length]; lia). cbn [bind]. now rewrite app_length.
Qed.
Lemma trace_any f : trace_marshal_to f (make (trace_marshal_len f)) = expected (F_trace f).
Proof.
  unfold trace_marshal_to, trace_marshal_len. cbn [expected_on]. set (e := N.to_nat (ti_evlen f)). set (i := N.to_nat (ti_iflen f)). set (a := N.to_nat (ti_iplen f)). rewrite need_make by lia.
  rewrite (plmn_any (ti_mcc f) (ti_mnc f)) at 1. destruct (digits_ok (ti_mcc f) && digits_ok (ti_mnc f)); [|reflexivity]. destruct (_ || _); [|reflexivity]. cbn [bind].
  set (pl := match encode_plmn _ _ with Ok p => p | _ => [] end). clearbody pl.
  match goal with |- context [make ?k] => set (K := k); change (make K) with ([] ++ make K); assert (EK : K = 10 + e + i + a) by (unfold K; lia); clearbody K end.
  rewrite (@copy_room2 [] K 3) by (cbn [length]; lia). cbn [bind app]. rewrite (@copy_room2 (fit 3 pl) _ 3) by (rewrite ?fit_length; lia). cbn [bind].
  set (p := fit 3 pl ++ fit 3 (ti_id f)). assert (P : length p = 6) by (unfold p; now rewrite app_length, !fit_length). change (wr1x ?x ?b 6) with (wr1x x b 6). replace 6 with (length p) at 1 by exact P.
  rewrite wr1x_room by lia. cbn [bind]. rewrite wrb_room by (fold e; cbn [len_if]; lia). cbn [bind opts]. fold e. cbn [len_if].
  rewrite wr1x_room by lia. cbn [bind]. rewrite wr1x_room by lia. cbn [bind]. rewrite wrb_room by (fold i; cbn [len_if]; lia). cbn [bind opts]. fold i. cbn [len_if].
  rewrite wr1x_room by lia. cbn [bind]. rewrite wrb_room by (fold a; cbn [len_if]; lia). cbn [bind opts]. fold a. cbn [len_if]. apply ok_tail; [lia|]. unfold p, AnySpec.str8. fold e i a. rewrite <- !app_assoc. reflexivity.
Qed.

(** ** Remote GTP-U Peer *)
Definition di_step dl di (b : list N) o : res (list N * nat) := '(b, o) <- cpn true 2 dl b o ;; b <- put b o [di] ;; Ok (b, o + N.to_nat dl).
Definition ni_step nl ni (b : list N) o : res (list N) := '(b, o) <- cpn true 2 nl b o ;; copy_range b o (o + N.to_nat nl) ni.
Lemma di_over dl di p k : k < 3 -> di_step dl di (p ++ make k) (length p) = Fault.
Proof.
  intros H. unfold di_step. destruct (Nat.ltb_spec k 2); [now rewrite cpn_over|]. rewrite cpn_room by (cbn [len_if]; lia). cbn [bind]. rewrite put_over by (cbn [length len_if]; lia). reflexivity.
Qed.
Lemma di_room dl di p k : 3 <= k -> di_step dl di (p ++ make k) (length p) = Ok ((p ++ be 2 dl) ++ di :: make (k - 3), length (p ++ be 2 dl) + N.to_nat dl).
Proof.
  intros H. unfold di_step. rewrite cpn_room by (cbn [len_if]; lia). cbn [bind opts len_if]. rewrite put_room by (cbn [length]; lia). cbn [bind length]. rewrite <- (app_assoc _ [di]). cbn [app]. do 5 f_equal. lia.
Qed.
(** the octet is within what the length announces *)
Lemma di_fits di n k : 1 <= n <= 1 + k -> di :: make k = fit n [di] ++ make (1 + k - n).
Proof.
  intros H. destruct n as [|n]; [lia|]. unfold AnySpec.fit. cbn [firstn length app]. rewrite firstn_nil. cbn [Nat.sub length app]. f_equal. rewrite Nat.sub_0_r. rewrite <- make_add. f_equal. lia.
Qed.
Lemma ni_over nl ni b o : length b < o + 2 + N.to_nat nl -> ni_step nl ni b o = Fault.
Proof.
  intros H. unfold ni_step. destruct (@cpn_cases true 2 nl b o) as [->|(b' & -> & L & _)]; [reflexivity|]. cbn [bind len_if].
  destruct (@copy_range_cases b' (o + 2) (o + 2 + N.to_nat nl) ni) as [->|(b2 & _ & _ & L2)]; [lia|reflexivity|lia].
Qed.
Lemma ni_room nl ni p r : 2 + N.to_nat nl = length r -> skipn 2 r = make (N.to_nat nl) -> ni_step nl ni (p ++ r) (length p) = Ok (p ++ str16 nl ni).
Proof.
  intros L Z. unfold ni_step, cpn. rewrite put_app by (rewrite be_length; lia). cbn [bind]. rewrite be_length, Z, app_assoc. rewrite (@copy_room2 (p ++ be 2 nl) _ (N.to_nat nl)) by (rewrite ?app_length, ?be_length; lia).
  rewrite Nat.sub_diag. cbn [repeat]. unfold AnySpec.str16. now rewrite app_nil_r, <- app_assoc.
Qed.
Lemma rpeer_any f : rpeer_marshal_to f (make (rpeer_marshal_len f)) = expected (F_rpeer f).
Proof.
  unfold rpeer_marshal_to, rpeer_marshal_len. cbn [expected_on]. cbv zeta. unfold rp_rest, AnySpec.rp_addrs, AnySpec.raw4, raw16. bitn. set (fl := rg_flags f).
  set (b1 := N.testbit fl 1). set (b0 := N.testbit fl 0). set (b2 := N.testbit fl 2). set (b3 := N.testbit fl 3). set (b4 := N.testbit fl 4).
  set (dl := rg_dilen f). set (nl := rg_nilen f). clearbody b0 b1 b2 b3 b4 dl nl. set (w1 := fit 4 (octs (rg_v4 f))). set (w0 := fit 16 (octs (rg_v6 f))).
  assert (L1 : length w1 = 4) by apply fit_length. assert (L0 : length w0 = 16) by apply fit_length.
  set (R := len_if b2 (2 + N.to_nat dl) + len_if b3 (2 + N.to_nat nl)).
  assert (E : len_if (b1 && negb b4) 4 + (len_if (b0 && negb b4) 16 + R) = len_if (negb b4) (len_if b1 4 + len_if b0 16) + R) by (destruct b1, b0, b4; cbn; lia). rewrite E. clear E.
  set (A := len_if b1 4 + len_if b0 16) in *. set (M := len_if (negb b4) A + R).
  assert (G : (R =? 0) && (b4 || negb (b1 || b0)) = (length (make (1 + M)) <? 2)).
  { rewrite make_length. unfold M, A. destruct (Nat.eqb_spec R 0) as [->|NR]; cbn [andb]; [destruct b4, b1, b0; reflexivity|]. symmetry. apply Nat.ltb_ge. lia. }
  rewrite G. destruct (length (make (1 + M)) <? 2) eqn:E2; [reflexivity|]. assert (M1 : 1 <= M) by (rewrite make_length in E2; apply Nat.ltb_ge in E2; lia). clear E2 G. rewrite start. cbn [bind]. at1 fl.
  assert (Steps : forall b o, (' (b, o) <- (if b2 then di_step dl (rg_di f) b o else Ok (b, o)) ;; if b3 then ni_step nl (rg_ni f) b o else Ok b) =
     (' (b, o) <- (if b2 then '(b, o) <- cpn true 2 dl b o ;; b <- put b o [rg_di f] ;; Ok (b, o + N.to_nat dl) else Ok (b, o)) ;; if b3 then '(b, o) <- cpn true 2 nl b o ;; copy_range b o (o + N.to_nat nl) (rg_ni f) else Ok b)) by reflexivity.
  destruct (Nat.ltb_spec M A) as [HM|HM].
  - (* no room for the addresses *)
    assert (b4 = true) as B4 by (unfold M in HM; destruct b4; cbn [negb len_if] in HM; [reflexivity|lia]). unfold M in *. subst b4. cbn [negb len_if Nat.add] in *.
    assert (F : forall K, bind (cpb b1 4 (octs (rg_v4 f)) ([fl] ++ make R) (length [fl])) (fun p => let '(b, o) := p in bind (cpb b0 16 (octs (rg_v6 f)) b o) K) = Fault :> res (list N)).
    { intros K. destruct (Nat.ltb_spec R (len_if b1 4)); [now rewrite cpb_over|]. rewrite cpb_room by lia. cbn [bind]. rewrite cpb_over by (unfold A in HM; lia). reflexivity. }
    rewrite F. cbn [andb]. assert (b1 || b0 = true) as -> by (unfold A in HM; destruct b1, b0; cbn in *; reflexivity || lia).
    destruct b3; [reflexivity|]. cbn [negb andb]. match goal with |- context [?x <? ?y] => destruct (Nat.ltb_spec x y) as [X|X] end; [exfalso|reflexivity].
    rewrite app_length in X. unfold R, A in HM, M1. destruct b1, b0, b2; cbn [opts len_if length Nat.add] in *; lia.
  - rewrite cpb_room by (unfold A in HM; lia). cbn [bind]. rewrite cpb_room by (unfold A in HM; lia). cbn [bind]. rewrite <- Steps. clear Steps. fold w1 w0.
    set (p := ([fl] ++ opts b1 w1) ++ opts b0 w0). replace (M - len_if b1 4 - len_if b0 16) with (M - A) by (unfold A; lia).
    assert (P : length p = 1 + A) by (unfold p, A; rewrite !app_length; destruct b1, b0; cbn [opts len_if length]; lia).
    assert (Pw : p = fl :: opts b1 w1 ++ opts b0 w0) by (unfold p; now rewrite <- app_assoc). clearbody p.
    assert (LA : length (opts b1 w1 ++ opts b0 w0) = A) by (rewrite app_length; unfold A; destruct b1, b0; cbn [opts len_if length]; lia).
    destruct (b4 && (b1 || b0)) eqn:B4.
    + apply andb_prop in B4. destruct B4 as [B4 BA]. assert (HA : 0 < A) by (unfold A; destruct b1, b0; cbn in *; lia || discriminate). unfold M in *. subst b4. cbn [negb len_if Nat.add] in *.
      assert (NI : b3 = true -> (' (b, o) <- (if b2 then di_step dl (rg_di f) (p ++ make (R - A)) (length p) else Ok (p ++ make (R - A), length p)) ;; if b3 then ni_step nl (rg_ni f) b o else Ok b) = Fault).
      { intros B3. subst b3. destruct b2.
        - destruct (Nat.ltb_spec (R - A) 3); [now rewrite di_over|]. rewrite di_room by assumption. cbn [bind]. apply ni_over. rewrite !app_length, be_length, P. cbn [length]. rewrite make_length. unfold R in *. cbn [len_if] in *. lia.
        - cbn [bind]. apply ni_over. rewrite !app_length, make_length, P. unfold R in *. cbn [len_if] in *. lia. }
      destruct b3; [rewrite NI by reflexivity; reflexivity|]. clear NI. cbn [negb andb]. rewrite LA.
      assert (B2 : b2 = true) by (unfold R in HM; destruct b2; cbn in HM; [reflexivity|lia]). subst b2. unfold R in *. cbn [len_if] in *.
      destruct (Nat.ltb_spec A (N.to_nat dl)) as [X|X].
      * rewrite di_room by lia. cbn [bind]. f_equal. rewrite Pw. replace (S (S (N.to_nat dl)) + 0 - A - 3) with (N.to_nat dl - A - 1) by lia. cbn [app]. rewrite <- !app_assoc. reflexivity.
      * rewrite di_over by lia. reflexivity.
    + assert (HR : M - A = R). { unfold M in *. apply andb_false_iff in B4. destruct B4 as [B4|B4]; [rewrite B4; cbn [negb len_if]; lia|]. assert (A = 0) as -> by (unfold A; destruct b1, b0; cbn in *; reflexivity || discriminate). destruct b4; cbn; lia. }
      rewrite HR. unfold R. destruct b2; cbn [len_if negb andb opts].
      * destruct (N.eqb_spec dl 0) as [D|D]; cbn [andb].
        -- destruct b3; cbn [negb andb opts len_if].
           ++ rewrite di_room by lia. cbn [bind]. rewrite D. change (N.to_nat 0) with 0. rewrite (Nat.add_0_r (length _)). rewrite ni_room.
              ** f_equal. rewrite Pw. cbn [app AnySpec.fit firstn length repeat Nat.sub]. rewrite <- !app_assoc. reflexivity.
              ** cbn [length]. rewrite make_length. lia.
              ** match goal with |- skipn 2 (_ :: ?m) = _ => change (skipn 1 m = make (N.to_nat nl)) end. rewrite skip_make. f_equal. lia.
           ++ rewrite D. rewrite di_over by (cbn; lia). reflexivity.
        -- rewrite andb_false_r. assert (0 < N.to_nat dl) by lia. rewrite di_room by lia. cbn [bind]. set (k := len_if b3 (2 + N.to_nat nl)). rewrite (@di_fits _ (N.to_nat dl)) by lia. rewrite app_assoc.
           replace (length (p ++ be 2 dl) + N.to_nat dl) with (length ((p ++ be 2 dl) ++ fit (N.to_nat dl) [rg_di f])) by (rewrite (app_length (p ++ _)), fit_length; reflexivity).
           set (q := (p ++ be 2 dl) ++ _). match goal with |- context [make ?x] => replace x with k by lia end. destruct b3; cbn [len_if opts] in *.
           ++ rewrite ni_room by (unfold k; rewrite ?skip_make, ?make_length; f_equal; lia). f_equal. unfold q. rewrite Pw. cbn [app]. rewrite <- !app_assoc. reflexivity.
           ++ unfold k, q. rewrite app_nil_r. f_equal. rewrite Pw. cbn [app]. rewrite <- !app_assoc. now rewrite app_nil_r.
      * cbn [bind]. destruct b3; cbn [len_if opts Nat.add].
        -- rewrite ni_room by (rewrite ?skip_make, ?make_length; f_equal; lia). f_equal. rewrite Pw. cbn [app]. now rewrite <- !app_assoc.
        -- f_equal. rewrite Pw. cbn [repeat]. now rewrite !app_nil_r.
Qed.

(** * Every struct *)
Theorem fields_on f : marshal_to_fields f (make (marshal_len_fields f)) = expected f.
Proof.
  destruct f as [x|x|x|x|x|x|x|x|x|x|x|x|x|x|x|x|x|x|x|x|x|x|x|x|x|x|x|x].
  - exact (fteid_any x).
  - exact (fseid_any x).
  - exact (ueip_any x).
  - exact (altip_any x).
  - exact (srcip_any x).
  - exact (ulip_any x).
  - exact (mptcp_any x).
  - exact (pmf_any x).
  - exact (rpeer_any x).
  - exact (mcast_any x).
  - exact (volm_any x).
  - exact (vol3_any x).
  - exact (nue_any x).
  - exact (delays_any x).
  - exact (prate_any x).
  - exact (dlfl_any x).
  - exact (prstat_any x).
  - exact (tag_any x).
  - exact (sdf_any x).
  - exact (ohc_any x).
  - exact (userid_any x).
  - exact (henr_any x).
  - exact (redir_any x).
  - exact (macaddr_any x).
  - exact (upri_any x).
  - exact (trace_any x).
  - exact (pfdc_any x).
  - exact (macl_any x).
Qed.
End On.
Theorem fields_any f : marshal_fields f = expected_on 0 f.
Proof. rewrite <- fields_on. destruct f; reflexivity. Qed.
