From Verif Require Import Base Bits Codec Codec2 Fields3 FieldsSpec3 FieldsProofs1.
Set Implicit Arguments.

(** reading a length-prefixed string in two octets *)
Lemma seg16_shape s r : seg16 true s ++ r = be 2 (lenN s) ++ s ++ r.
Proof. unfold seg16. now rewrite <- app_assoc. Qed.
Lemma slice_mid p s q lo hi : lo = length p -> hi = lo + length s -> slice (p ++ s ++ q) lo hi = Ok s.
Proof. intros -> ->. now apply slice_app. Qed.
Lemma unbe2 x y : unbe [x; y] = (x * 256 + y)%N.
Proof. cbn. lia. Qed.
Lemma be2_bytes x y : octet x -> octet y -> be 2 (x * 256 + y) = [x; y].
Proof.
  intros Hx Hy. rewrite <- unbe2. rewrite be_unbe; [reflexivity| |reflexivity]. repeat constructor; assumption.
Qed.
Lemma rdsf_ret c n b o d : o <= length b -> (exists x o', rdsf c n b o d = Ok (x, o') /\ o' <= length b) \/ exists e, rdsf c n b o d = Err e.
Proof.
  intros H. unfold rdsf, rdf. destruct c; [|eauto]. rewrite from_ok by exact H. cbn [bind]. rewrite skipn_length.
  destruct (Nat.ltb_spec (length b - o) n); [right; eexists; reflexivity|]. rewrite slice_ok by lia. cbn [bind]. left. do 2 eexists. split; [reflexivity|lia].
Qed.
Lemma rdnf_ret c n b o d : o <= length b -> (exists x o', rdnf c n b o d = Ok (x, o') /\ o' <= length b) \/ exists e, rdnf c n b o d = Err e.
Proof.
  intros H. unfold rdnf, rdf. destruct c; [|eauto]. rewrite from_ok by exact H. cbn [bind]. rewrite skipn_length.
  destruct (Nat.ltb_spec (length b - o) n); [right; eexists; reflexivity|]. rewrite slice_ok by lia. cbn [bind]. left. do 2 eexists. split; [reflexivity|lia].
Qed.
Ltac ret1 :=
  match goal with
  | L : ?o <= length ?b |- returns (bind (rdsf ?c ?n ?b ?o ?d) _) =>
      let x := fresh "x" in let o' := fresh "o" in let L' := fresh "L" in let e := fresh "e" in
      destruct (@rdsf_ret c n b o d L) as [(x & o' & -> & L')|(e & ->)]; cbn [bind]; [|apply returns_err]
  | L : ?o <= length ?b |- returns (bind (rdnf ?c ?n ?b ?o ?d) _) =>
      let x := fresh "x" in let o' := fresh "o" in let L' := fresh "L" in let e := fresh "e" in
      destruct (@rdnf_ret c n b o d L) as [(x & o' & -> & L')|(e & ->)]; cbn [bind]; [|apply returns_err]
  end.
Lemma returns_not_fault {A} (r : res A) : returns r -> r <> Fault.
Proof. intros [[a ->]|[e ->]]; discriminate. Qed.

(** * SDF Filter *)
Ltac csd := cbn [sd_flags sd_fdlen sd_fd sd_ttc sd_spi sd_fl sd_fid].
(** a payload whose announced flow description is longer than what is left, and no other, makes the decoder run past its end *)
Lemma sdf_fault b : bytes b -> (sdf_parse b = Fault <->
  exists fl sp n r, b = [fl; sp] ++ be 2 n ++ r /\ N.testbit fl 0 = true /\ (n < 65536)%N /\ 1 <= length r /\ (lenN r < n)%N).
Proof.
  intros Hb. split.
  - intros H. unfold sdf_parse in H. destruct b as [|fl [|sp [|x q]]]; try discriminate.
    change (length (fl :: sp :: x :: q) <? 3) with false in H. cbn match in H. change (index (fl :: sp :: x :: q) 0) with (Ok fl) in H. unfold bind at 1 in H. bits.
    destruct (N.testbit fl 0) eqn:F.
    + change (from (fl :: sp :: x :: q) 2) with (Ok (x :: q)) in H. unfold bind at 2 in H.
      destruct (Nat.ltb_spec (length (x :: q)) 3) as [|L]; [discriminate|]. destruct q as [|y [|z q]]; try (cbn [length] in L; lia).
      change (getr 2 (fl :: sp :: x :: y :: z :: q) 2 (2 + 2)) with (Ok (unbe [x; y])) in H. unfold bind at 2 in H. rewrite unbe2 in H.
      inversion Hb as [|? ? Hfl Hb1]; subst. inversion Hb1 as [|? ? Hsp Hb2]; subst. inversion Hb2 as [|? ? Hx Hb3]; subst. inversion Hb3 as [|? ? Hy Hb4]; subst.
      exists fl, sp, (x * 256 + y)%N, (z :: q). rewrite be2_bytes by assumption. unfold octet in *. repeat split; auto; try (cbn [length]; lia).
      unfold slice in H. destruct (Nat.leb_spec (2 + 2) (2 + 2 + N.to_nat (x * 256 + y))); [|lia]. cbn [andb] in H.
      destruct (Nat.leb_spec (2 + 2 + N.to_nat (x * 256 + y)) (length (fl :: sp :: x :: y :: z :: q))) as [L2|L2].
      * unfold bind at 2 in H. unfold bind at 1 in H. exfalso. revert H. apply returns_not_fault.
        assert (L3 : 2 + (2 + N.to_nat (x * 256 + y)) <= length (fl :: sp :: x :: y :: z :: q)) by lia. repeat ret1. apply returns_ok.
      * cbn [length] in L2. unfold lenN. cbn [length]. lia.
    + unfold bind at 1 in H. exfalso. revert H. apply returns_not_fault. assert (L3 : 2 <= length (fl :: sp :: x :: q)) by (cbn [length]; lia). repeat ret1. apply returns_ok.
  - intros (fl & sp & n & r & -> & F & Hn & L1 & L2). unfold sdf_parse.
    assert (LL : length ([fl; sp] ++ be 2 n ++ r) = 4 + length r) by (rewrite !app_length, be_length; cbn [length]; lia).
    destruct (Nat.ltb_spec (length ([fl; sp] ++ be 2 n ++ r)) 3); [lia|]. change (index ([fl; sp] ++ be 2 n ++ r) 0) with (Ok fl). unfold bind at 1. bits. rewrite F.
    change (from ([fl; sp] ++ be 2 n ++ r) 2) with (from ([fl; sp] ++ be 2 n ++ r) (length [fl; sp])). rewrite from_app by reflexivity. unfold bind at 2.
    destruct (Nat.ltb_spec (length (be 2 n ++ r)) 3) as [L|_]; [rewrite app_length, be_length in L; lia|].
    change (getr 2 ([fl; sp] ++ be 2 n ++ r) 2 (2 + 2)) with (getr 2 ([fl; sp] ++ be 2 n ++ r) (length [fl; sp]) (length [fl; sp] + 2)). rewrite getr_app by (change (256 ^ N.of_nat 2)%N with 65536%N; exact Hn).
    unfold bind at 2. unfold slice. rewrite LL. unfold lenN in L2. destruct (Nat.leb_spec (2 + 2 + N.to_nat n) (4 + length r)); [lia|]. rewrite andb_false_r. reflexivity.
Qed.
Lemma sdf_returns b : bytes b -> sdf_parse b <> Fault -> returns (sdf_parse b).
Proof.
  intros Hb H. unfold sdf_parse in *. destruct b as [|fl [|sp [|x q]]]; try (right; eexists; reflexivity).
  change (length (fl :: sp :: x :: q) <? 3) with false in *. cbn match in *. change (index (fl :: sp :: x :: q) 0) with (Ok fl) in *. unfold bind at 1 in H. unfold bind at 1.
  destruct (has1 fl).
  - change (from (fl :: sp :: x :: q) 2) with (Ok (x :: q)) in *. unfold bind at 2 in H. unfold bind at 2.
    destruct (Nat.ltb_spec (length (x :: q)) 3) as [|L]; [right; eexists; reflexivity|]. destruct q as [|y [|z q]]; try (cbn [length] in L; lia).
    change (getr 2 (fl :: sp :: x :: y :: z :: q) 2 (2 + 2)) with (Ok (unbe [x; y])) in *. unfold bind at 2 in H. unfold bind at 2.
    unfold slice in *. destruct ((2 + 2 <=? 2 + 2 + N.to_nat (unbe [x; y])) && (2 + 2 + N.to_nat (unbe [x; y]) <=? length (fl :: sp :: x :: y :: z :: q))) eqn:E; [|now elim H].
    unfold bind at 2. unfold bind at 1. apply andb_prop in E. destruct E as [_ E]. apply Nat.leb_le in E.
    assert (L3 : 2 + (2 + N.to_nat (unbe [x; y])) <= length (fl :: sp :: x :: y :: z :: q)) by lia. repeat ret1. apply returns_ok.
  - unfold bind at 1. assert (L3 : 2 <= length (fl :: sp :: x :: q)) by (cbn [length]; lia). repeat ret1. apply returns_ok.
Qed.
Lemma sdf_parse_wire f sp r : sdf_wf f -> 3 <= length (sdf_wire f sp ++ r) -> (N.testbit (sd_flags f) 0 = true -> 5 <= length (sdf_wire f sp ++ r)) ->
  sdf_parse (sdf_wire f sp ++ r) = Ok f.
Proof.
  intros W L3 L5. unfold sdf_parse. destruct (Nat.ltb_spec (length (sdf_wire f sp ++ r)) 3); [lia|].
  destruct f as [fl fdl fd ttc spi flab fid]. unfold sdf_wf, sdf_wire in *. cbn [sd_flags sd_fdlen sd_fd sd_ttc sd_spi sd_fl sd_fid] in *. destruct W as (Hfl & Hfd & -> & H1 & H2 & H3 & H4).
  rewrite <- ?app_assoc in *. change (index ([fl; sp] ++ ?x) 0) with (Ok fl). unfold bind at 1. bits.
  destruct (N.testbit fl 0) eqn:F.
  - rewrite seg16_shape in *. cbn [short] in Hfd. destruct Hfd as [Bfd Lfd]. specialize (L5 eq_refl).
    change (from ([fl; sp] ++ ?x) 2) with (from ([fl; sp] ++ x) (length [fl; sp])). rewrite from_app by reflexivity. unfold bind at 2.
    match goal with |- context [length ?x <? 3] => destruct (Nat.ltb_spec (length x) 3) as [L|_] end; [revert L L5; rewrite !app_length; cbn [length]; lia|].
    change (getr 2 ([fl; sp] ++ ?x) 2 (2 + 2)) with (getr 2 ([fl; sp] ++ x) (length [fl; sp]) (length [fl; sp] + 2)). rewrite getr_app by (change (256 ^ N.of_nat 2)%N with 65536%N; exact Lfd).
    unfold bind at 2. rewrite lenN_nat. rewrite (app_assoc [fl; sp]). rewrite slice_mid by (rewrite ?app_length, ?be_length; reflexivity). unfold bind at 2. unfold bind at 1.
    rewrite (app_assoc ([fl; sp] ++ _)).
    replace (2 + (2 + length fd)) with (length (([fl; sp] ++ be 2 (lenN fd)) ++ fd)) by (rewrite !app_length, be_length; cbn [length]; lia).
    repeat fwd2. reflexivity.
  - cbn [short seg16] in *. subst fd. unfold bind at 1. change ([] ++ ?x) with x.
    change (rdsf ?c 2 ?b 2 ?d) with (rdsf c 2 b (length [fl; sp]) d). repeat fwd2. reflexivity.
Qed.
Lemma sdf_parse_inv b f : bytes b -> sdf_parse b = Ok f ->
  sdf_wf f /\ 3 <= length b /\ (N.testbit (sd_flags f) 0 = true -> 5 <= length b) /\ exists sp r, octet sp /\ bytes r /\ b = sdf_wire f sp ++ r.
Proof.
  intros Hb H. unfold sdf_parse in H. destruct b as [|fl [|sp [|x q]]]; try discriminate.
  change (length (fl :: sp :: x :: q) <? 3) with false in H. cbn match in H. change (index (fl :: sp :: x :: q) 0) with (Ok fl) in H. unfold bind at 1 in H. bits.
  inversion Hb as [|? ? Hfl Hb1]; subst. inversion Hb1 as [|? ? Hsp Hb2]; subst.
  destruct (N.testbit fl 0) eqn:F.
  - change (from (fl :: sp :: x :: q) 2) with (Ok (x :: q)) in H. unfold bind at 2 in H.
    destruct (Nat.ltb_spec (length (x :: q)) 3) as [|L]; [discriminate|]. destruct q as [|y [|z q]]; try (cbn [length] in L; lia).
    change (getr 2 (fl :: sp :: x :: y :: z :: q) 2 (2 + 2)) with (Ok (unbe [x; y])) in H. unfold bind at 2 in H. rewrite unbe2 in H.
    inversion Hb2 as [|? ? Hx Hb3]; subst. inversion Hb3 as [|? ? Hy Hb4]; subst.
    remember (x * 256 + y)%N as n eqn:En. assert (Hn : (n < 65536)%N) by (unfold octet in *; lia).
    assert (B2 : be 2 n = [x; y]) by (subst n; now apply be2_bytes). 
    destruct (slice (fl :: sp :: x :: y :: z :: q) (2 + 2) (2 + 2 + N.to_nat n)) as [s| | |] eqn:ES; try discriminate. unfold bind at 2 in H. unfold bind at 1 in H.
    unfold slice in ES. destruct (Nat.leb_spec (2 + 2) (2 + 2 + N.to_nat n)); [|lia]. cbn [andb] in ES.
    destruct (Nat.leb_spec (2 + 2 + N.to_nat n) (length (fl :: sp :: x :: y :: z :: q))) as [L2|]; [|discriminate].
    assert (Es : s = firstn (N.to_nat n) (z :: q)). { replace (2 + 2 + N.to_nat n - (2 + 2)) with (N.to_nat n) in ES by lia. cbn [Nat.add skipn] in ES. congruence. } clear ES.
    assert (Ls : length s = N.to_nat n) by (subst s; rewrite firstn_length; cbn [length] in *; lia).
    assert (Bs : bytes s) by (subst s; now apply bytes_firstn).
    remember (skipn (N.to_nat n) (z :: q)) as t eqn:Et. assert (Bt : bytes t) by (subst t; now apply bytes_skipn).
    assert (Eb : fl :: sp :: x :: y :: z :: q = ([fl; sp] ++ be 2 n ++ s) ++ t).
    { rewrite B2, <- !app_assoc. subst s t. rewrite firstn_skipn. reflexivity. }
    rewrite Eb in H |- *. replace (2 + (2 + N.to_nat n)) with (length ([fl; sp] ++ be 2 n ++ s)) in H by (rewrite !app_length, be_length; cbn [length]; lia).
    assert (LB : 5 <= length (([fl; sp] ++ be 2 n ++ s) ++ t)) by (rewrite <- Eb; cbn [length]; lia). clear Eb.
    assert (LN : n = lenN s) by (unfold lenN; lia).
    repeat inv2 H Bt. injection H as <-. unfold sdf_wf, sdf_wire. csd. rewrite F. cbn [short seg16].
    refine (conj (conj Hfl (conj (conj Bs _) (conj LN (conj _ (conj _ (conj _ _)))))) (conj _ (conj (fun _ => LB) _))); auto; try lia.
    exists sp. eexists. split; [exact Hsp|]. split; [exact Bt|]. rewrite LN, <- !app_assoc. reflexivity.
  - unfold bind at 1 in H. change (fl :: sp :: x :: q) with ([fl; sp] ++ x :: q) in *. change (rdsf ?c 2 ?b 2 ?d) with (rdsf c 2 b (length [fl; sp]) d) in H.
    assert (LB : 3 <= length ([fl; sp] ++ x :: q)) by (cbn [length app]; lia).
    repeat inv2 H Hb2. injection H as <-. unfold sdf_wf, sdf_wire. csd. rewrite F. cbn [short seg16].
    refine (conj (conj Hfl (conj eq_refl (conj eq_refl (conj _ (conj _ (conj _ _)))))) (conj LB (conj _ _))); auto; try discriminate.
    exists sp. eexists. split; [exact Hsp|]. split; [exact Hb2|]. rewrite <- !app_assoc. reflexivity.
Qed.
Lemma put0_2 x n m : n = 2 + m -> put (make n) 0 [x] = Ok ([x; 0%N] ++ make m).
Proof. intros ->. reflexivity. Qed.
Lemma sdf_len_wire f : sdf_wf f -> sdf_marshal_len f = length (sdf_wire f 0).
Proof.
  destruct f as [fl fdl fd ttc spi flab fid]. unfold sdf_wf, sdf_wire, sdf_marshal_len. csd. intros (Hfl & Hfd & -> & H1 & H2 & H3 & H4). bits.
  lens2. rewrite lenN_nat. unfold sized in *. destruct (N.testbit fl 1), (N.testbit fl 2), (N.testbit fl 3); cbn [len_if]; try apply proj1 in H1; try apply proj1 in H2; try apply proj1 in H3; subst; cbn [length]; lia.
Qed.
Lemma sdf_marshal_wire f : sdf_wf f -> sdf_marshal f = Ok (sdf_wire f 0) /\ sdf_marshal_len f = length (sdf_wire f 0).
Proof.
  intros W. pose proof (sdf_len_wire W) as E. split; [|exact E]. unfold sdf_marshal. rewrite E. clear E.
  destruct f as [fl fdl fd ttc spi flab fid]. unfold sdf_wf, sdf_wire, sdf_marshal_to in *. cbn [sd_flags sd_fdlen sd_fd sd_ttc sd_spi sd_fl sd_fid] in *. destruct W as (Hfl & Hfd & -> & H1 & H2 & H3 & H4). bits.
  rewrite app_length. cbn [length]. destruct (Nat.ltb_spec (length (make (2 + length (seg16 (N.testbit fl 0) fd ++ opts (N.testbit fl 1) ttc ++ opts (N.testbit fl 2) spi ++ opts (N.testbit fl 3) flab ++ optn (N.testbit fl 4) 4 fid)))) 1) as [L|_];
    [rewrite make_length in L; lia|].
  erewrite put0_2 by reflexivity. cbn [bind]. change (cp16s ?c ?n ?s ?b 2) with (cp16s c n s b (length [fl; 0%N])).
  assert (S1 : N.testbit fl 1 = true -> length ttc = 2) by (intros E; rewrite E in H1; apply H1).
  assert (S2 : N.testbit fl 2 = true -> length spi = 4) by (intros E; rewrite E in H2; apply H2).
  assert (S3 : N.testbit fl 3 = true -> length flab = 3) by (intros E; rewrite E in H3; apply H3).
  repeat wr2. wr_done2.
Qed.
Lemma sdf_marshal_total f : exists w, sdf_marshal f = Ok w /\ length w = sdf_marshal_len f.
Proof.
  destruct f as [fl fdl fd ttc spi flab fid]. unfold sdf_marshal, sdf_marshal_to, sdf_marshal_len. csd.
  pose proof (make_length (2 + len_if (has1 fl) (2 + N.to_nat fdl) + len_if (has2 fl) 2 + len_if (has3 fl) 4 + len_if (has4 fl) 3 + len_if (has5 fl) 4)) as L0.
  set (z := make _) in *. clearbody z. destruct (Nat.ltb_spec (length z) 1); [lia|].
  destruct (@put_len z 0 [fl]) as (b1 & -> & L1); [cbn [length]; lia|]. cbn [bind].
  destruct (@cp16s_len (has1 fl) fdl fd b1 2) as (b2 & -> & L2); [lia|]. cbn [bind].
  match goal with |- context [cpb ?c ?n ?s ?b ?o] => destruct (@cpb_len c n s b o) as (b3 & -> & L3); [lia|] end. cbn [bind].
  match goal with |- context [cpb ?c ?n ?s ?b ?o] => destruct (@cpb_len c n s b o) as (b4 & -> & L4); [lia|] end. cbn [bind].
  match goal with |- context [cpb ?c ?n ?s ?b ?o] => destruct (@cpb_len c n s b o) as (b5 & -> & L5); [lia|] end. cbn [bind].
  match goal with |- context [cpn ?c ?n ?s ?b ?o] => destruct (@cpn_len c n s b o) as (b6 & -> & L6); [lia|] end. cbn [bind].
  eexists. split; [reflexivity|]. lia.
Qed.
Lemma nonempty_len s : nonempty s = false -> s = [].
Proof. destruct s; [reflexivity|discriminate]. Qed.
Lemma new_sdf_bits fd ttc spi fl fid : let w := sd_flags (new_sdf fd ttc spi fl fid) in
  octet w /\ N.testbit w 0 = nonempty fd /\ N.testbit w 1 = nonempty ttc /\ N.testbit w 2 = nonempty spi /\ N.testbit w 3 = nonempty fl /\ N.testbit w 4 = negb (fid =? 0)%N.
Proof. cbn [new_sdf sd_flags]. destruct (nonempty fd), (nonempty ttc), (nonempty spi), (nonempty fl), (fid =? 0)%N; repeat split; reflexivity. Qed.
Definition sdf_args_ok (fd ttc spi fl : list N) (fid : N) : Prop :=
  bytes fd /\ (lenN fd < 65536)%N /\ (ttc = [] \/ (length ttc = 2 /\ bytes ttc)) /\ (spi = [] \/ (length spi = 4 /\ bytes spi)) /\ (fl = [] \/ (length fl = 3 /\ bytes fl)) /\ (fid < 2 ^ 32)%N.
Lemma new_sdf_wf fd ttc spi fl fid : sdf_args_ok fd ttc spi fl fid -> sdf_wf (new_sdf fd ttc spi fl fid).
Proof.
  intros (Bfd & Lfd & H1 & H2 & H3 & H4). pose proof (new_sdf_bits fd ttc spi fl fid) as (O & B0 & B1 & B2 & B3 & B4). unfold sdf_wf. rewrite B0, B1, B2, B3, B4.
  cbn [new_sdf sd_fdlen sd_fd sd_ttc sd_spi sd_fl sd_fid]. split; [exact O|]. split; [|split; [|split; [|split; [|split]]]].
  - destruct fd; [reflexivity|split; assumption].
  - unfold u16. destruct fd; [reflexivity|]. cbn [nonempty length Nat.eqb negb]. now apply N.mod_small.
  - destruct H1 as [-> |[L B]]; [reflexivity|]. destruct ttc; [discriminate|]. split; assumption.
  - destruct H2 as [-> |[L B]]; [reflexivity|]. destruct spi; [discriminate|]. split; assumption.
  - destruct H3 as [-> |[L B]]; [reflexivity|]. destruct fl; [discriminate|]. split; assumption.
  - destruct (N.eqb_spec fid 0) as [->|]; [reflexivity|exact H4].
Qed.
(** what NewSDFFilter is given comes back, unless it is given nothing at all *)
Lemma new_sdf_roundtrip fd ttc spi fl fid : sdf_args_ok fd ttc spi fl fid ->
  exists w, sdf_marshal (new_sdf fd ttc spi fl fid) = Ok w /\
  (sdf_parse w = Ok (new_sdf fd ttc spi fl fid) <-> ~ (fd = [] /\ ttc = [] /\ spi = [] /\ fl = [] /\ fid = 0%N)).
Proof.
  intros A. pose proof (new_sdf_wf A) as W. destruct (sdf_marshal_wire W) as [-> _]. eexists. split; [reflexivity|]. split.
  - intros P (-> & -> & -> & -> & ->). discriminate.
  - intros NE. rewrite <- (app_nil_r (sdf_wire _ _)).
    assert (K : 3 <= length (sdf_wire (new_sdf fd ttc spi fl fid) 0 ++ []) /\ (nonempty fd = true -> 5 <= length (sdf_wire (new_sdf fd ttc spi fl fid) 0 ++ []))).
    { pose proof (new_sdf_bits fd ttc spi fl fid) as (O & B0 & B1 & B2 & B3 & B4). rewrite app_nil_r. unfold sdf_wire. rewrite B0, B1, B2, B3, B4.
      cbn [new_sdf sd_fdlen sd_fd sd_ttc sd_spi sd_fl sd_fid]. lens2.
      destruct fd; [|split; [cbn; lia|intros _; cbn; lia]]. split; [|discriminate].
      destruct ttc; [|cbn; lia]. destruct spi; [|cbn; lia]. destruct fl; [|cbn; lia]. destruct (N.eqb_spec fid 0) as [->|]; [|cbn; lia]. elim NE; auto. }
    apply sdf_parse_wire; [exact W|apply K|]. destruct (new_sdf_bits fd ttc spi fl fid) as (_ & -> & _). apply K.
Qed.

(** * Outer Header Creation *)
Ltac coh := cbn [oh_desc oh_teid oh_v4 oh_v6 oh_port oh_ctag oh_stag].
Lemma oct5_ok d : (d < 65536)%N -> oct5 d = (d / 256)%N.
Proof.
  intros H. unfold oct5, u8. rewrite N.shiftr_land, N.shiftr_div_pow2. change (N.shiftr 0xff00 8) with (N.ones 8). rewrite N.land_ones. change (2 ^ 8)%N with 256%N.
  rewrite N.mod_mod by discriminate. apply N.mod_small. apply N.div_lt_upper_bound; lia.
Qed.
Lemma low8_ok d : u8 (N.land d 0xff) = (d mod 256)%N.
Proof. unfold u8. change 0xff%N with (N.ones 8). rewrite N.land_ones. change (2 ^ 8)%N with 256%N. apply N.mod_mod. discriminate. Qed.
Lemma low8_bit d i : (i < 8)%N -> N.testbit (d mod 256) i = N.testbit d i.
Proof. intros H. change 256%N with (2 ^ 8)%N. now apply N.mod_pow2_bits_low. Qed.
Ltac ohbits := unfold oh_has_teid, oh_has_v4, oh_has_v6, oh_has_port in *; bits.
Lemma getr4_3 b o : getr 4 b o (o + 3) = Fault.
Proof.
  unfold getr, slice. destruct ((o <=? o + 3) && (o + 3 <=? length b)) eqn:E; [|reflexivity]. cbn [bind]. unfold getn.
  destruct (Nat.leb_spec 4 (length (firstn (o + 3 - o) (skipn o b)))) as [L|]; [|reflexivity]. rewrite firstn_length in L. lia.
Qed.
(** the decoder up to the tags *)
Lemma ohc_parse_eq b : bytes b -> 2 <= length b -> exists h l q, octet h /\ octet l /\ bytes q /\ b = [h; l] ++ q /\ ohc_parse b =
  ('(teid, o) <- rdn (N.testbit h 0 || N.testbit h 1) 4 b 2 0%N ;;
   '(v4, o) <- rdb (N.testbit h 0 || N.testbit h 2 || N.testbit h 4) 4 b o None ;;
   '(v6, o) <- rdb (N.testbit h 1 || N.testbit h 3 || N.testbit h 5) 16 b o None ;;
   '(port, o) <- rdn (N.testbit h 2 || N.testbit h 3) 2 b o 0%N ;;
   if N.testbit l 6 || N.testbit l 7 then (if length b <? o + 3 then Err EUnexpectedEOF else Fault) else
   Ok {| oh_desc := (h * 256 + l)%N; oh_teid := teid; oh_v4 := to4 v4; oh_v6 := to16 v6; oh_port := port; oh_ctag := 0; oh_stag := 0 |}).
Proof.
  intros Hb L. destruct b as [|h [|l q]]; try (cbn [length] in L; lia). inversion Hb as [|? ? Hh Hb1]; subst. inversion Hb1 as [|? ? Hl Hq]; subst.
  exists h, l, q. split; [exact Hh|]. split; [exact Hl|]. split; [exact Hq|]. split; [reflexivity|]. unfold ohc_parse.
  change (length (h :: l :: q) <? 2) with false. cbn match. change (getr 2 (h :: l :: q) 0 2) with (Ok (unbe [h; l])). change (index (h :: l :: q) 0) with (Ok h).
  unfold bind at 1 2. rewrite unbe2, low8_ok. replace ((h * 256 + l) mod 256)%N with l by (rewrite N.add_comm, N.mod_add by discriminate; now rewrite N.mod_small by exact Hl).
  ohbits. destruct (rdn _ 4 _ 2 _) as [[teid o1]|e| |]; cbn [bind]; try reflexivity. destruct (rdb _ 4 _ o1 _) as [[v4 o2]|e| |]; cbn [bind]; try reflexivity.
  destruct (rdb _ 16 _ o2 _) as [[v6 o3]|e| |]; cbn [bind]; try reflexivity. destruct (rdn _ 2 _ o3 _) as [[port o4]|e| |]; cbn [bind]; try reflexivity.
  rewrite !getr4_3. destruct (N.testbit l 6); cbn [orb bind].
  - destruct (length (h :: l :: q) <? o4 + 3); reflexivity.
  - rewrite getr4_3. destruct (N.testbit l 7); [|reflexivity]. destruct (length (h :: l :: q) <? o4 + 3); reflexivity.
Qed.
Lemma div256 h l : octet l -> ((h * 256 + l) / 256 = h)%N.
Proof. intros H. rewrite N.div_add_l by discriminate. rewrite N.div_small by exact H. lia. Qed.
Lemma ohc_bits_low h l i : octet l -> (i < 8)%N -> N.testbit (h * 256 + l) i = N.testbit l i.
Proof. intros H Hi. rewrite <- low8_bit by exact Hi. f_equal. rewrite N.add_comm, N.mod_add by discriminate. now apply N.mod_small. Qed.
Lemma ohc_parse_wire f r : ohc_wf f -> bytes (ohc_wire f ++ r) ->
  ohc_parse (ohc_wire f ++ r) = if N.testbit (oh_desc f) 6 || N.testbit (oh_desc f) 7 then (if length r <? 3 then Err EUnexpectedEOF else Fault)
    else Ok {| oh_desc := oh_desc f; oh_teid := oh_teid f; oh_v4 := oh_v4 f; oh_v6 := oh_v6 f; oh_port := oh_port f; oh_ctag := 0; oh_stag := 0 |}.
Proof.
  intros W B. destruct f as [d teid v4 v6 port ct st]. unfold ohc_wf, ohc_wire in *. cbn [oh_desc oh_teid oh_v4 oh_v6 oh_port] in *.
  destruct W as (Hd & H1 & H2 & H3 & H4).
  assert (Ed : exists h l, octet h /\ octet l /\ d = (h * 256 + l)%N).
  { exists (d / 256)%N, (d mod 256)%N. unfold octet. split; [apply N.div_lt_upper_bound; lia|]. split; [apply N.mod_lt; discriminate|]. rewrite (N.div_mod d 256) at 1 by discriminate. lia. }
  destruct Ed as (h & l & Hh & Hl & ->). rewrite div256 in * by exact Hl. rewrite be2_bytes in * by assumption. rewrite !ohc_bits_low by (auto; reflexivity).
  destruct (@ohc_parse_eq _ B) as (h' & l' & q & _ & _ & _ & E & ->). { rewrite <- !app_assoc, app_length. cbn [length]. lia. }
  assert (h' = h /\ l' = l) as [-> ->] by (cbn [app] in E; split; congruence). clear E. rewrite <- !app_assoc.
  change (rdn ?c 4 ?b 2 ?d) with (rdn c 4 b (length [h; l]) d). repeat fwd1. rewrite (proj2 (present_to4 _ _ H2)), (proj2 (present_to16 _ _ H3)).
  destruct (N.testbit l 6 || N.testbit l 7); [|reflexivity]. rewrite (app_length (((([h; l] ++ _) ++ _) ++ _) ++ _) r).
  match goal with |- context [?x + length r <? ?x + 3] => destruct (Nat.ltb_spec (length r) 3), (Nat.ltb_spec (x + length r) (x + 3)); try lia; reflexivity end.
Qed.
Lemma ohc_parse_returns_or b : bytes b -> (exists e, ohc_parse b = Err e) \/ exists f r, ohc_wf f /\ bytes r /\ oh_ctag f = 0%N /\ oh_stag f = 0%N /\ b = ohc_wire f ++ r.
Proof.
  intros Hb. destruct (Nat.lt_ge_cases (length b) 2) as [L|L].
  { left. unfold ohc_parse. destruct (Nat.ltb_spec (length b) 2); [eauto|lia]. }
  destruct (ohc_parse_eq Hb L) as (h & l & q & Hh & Hl & Hq & E & P). rewrite P. clear P. subst b.
  change (rdn ?c 4 ?b 2 ?d) with (rdn c 4 b (length [h; l]) d).
  destruct (@rdn_returns (N.testbit h 0 || N.testbit h 1) 4 ([h; l] ++ q) (length [h; l]) 0%N) as [[[teid o] E]|[e ->]]; [|left; eexists; reflexivity].
  rewrite E. cbn [bind]. apply rdn_inv in E; [|exact Hq]. destruct E as (q1 & E & -> & P1 & Hq1). rewrite E. clear E.
  match goal with |- context [rdb ?c ?n ?b ?oo ?d] => destruct (@rdb_returns c n b oo d) as [[[v4 o] E]|[e ->]]; [|left; eexists; reflexivity] end.
  rewrite E. cbn [bind]. apply rdb_inv in E; [|exact Hq1]. destruct E as (q2 & E & -> & P2 & Hq2). rewrite E. clear E.
  match goal with |- context [rdb ?c ?n ?b ?oo ?d] => destruct (@rdb_returns c n b oo d) as [[[v6 o] E]|[e ->]]; [|left; eexists; reflexivity] end.
  rewrite E. cbn [bind]. apply rdb_inv in E; [|exact Hq2]. destruct E as (q3 & E & -> & P3 & Hq3). rewrite E. clear E.
  match goal with |- context [rdn ?c ?n ?b ?oo ?d] => destruct (@rdn_returns c n b oo d) as [[[port o] E]|[e ->]]; [|left; eexists; reflexivity] end.
  rewrite E. cbn [bind]. apply rdn_inv in E; [|exact Hq3]. destruct E as (q4 & E & -> & P4 & Hq4). rewrite E. clear E.
  right. exists {| oh_desc := (h * 256 + l)%N; oh_teid := teid; oh_v4 := v4; oh_v6 := v6; oh_port := port; oh_ctag := 0; oh_stag := 0 |}, q4.
  unfold ohc_wf, ohc_wire. coh. rewrite div256 by exact Hl. rewrite be2_bytes by assumption. 
  assert (D : (h * 256 + l < 65536)%N) by (unfold octet in *; lia).
  refine (conj (conj D (conj P1 (conj P2 (conj P3 P4)))) (conj Hq4 (conj eq_refl (conj eq_refl _)))). now rewrite <- !app_assoc.
Qed.
Lemma ohc_fault b : bytes b -> (ohc_parse b = Fault <-> exists f r, ohc_wf f /\ b = ohc_wire f ++ r /\ N.testbit (oh_desc f) 6 || N.testbit (oh_desc f) 7 = true /\ 3 <= length r).
Proof.
  intros Hb. split.
  - intros F. destruct (ohc_parse_returns_or Hb) as [[e E]|(f & r & W & Hr & _ & _ & ->)]; [congruence|]. exists f, r. rewrite (@ohc_parse_wire f r W Hb) in F.
    destruct (N.testbit (oh_desc f) 6 || N.testbit (oh_desc f) 7); [|discriminate]. destruct (Nat.ltb_spec (length r) 3); [discriminate|]. auto.
  - intros (f & r & W & -> & T & L). rewrite (@ohc_parse_wire f r W Hb), T. destruct (Nat.ltb_spec (length r) 3); [lia|reflexivity].
Qed.
Lemma ohc_ok b f : bytes b -> (ohc_parse b = Ok f <->
  ohc_wf f /\ oh_ctag f = 0%N /\ oh_stag f = 0%N /\ N.testbit (oh_desc f) 6 = false /\ N.testbit (oh_desc f) 7 = false /\ exists r, bytes r /\ b = ohc_wire f ++ r).
Proof.
  intros Hb. split.
  - intros P. destruct (ohc_parse_returns_or Hb) as [[e E]|(g & r & W & Hr & C & S & ->)]; [congruence|]. rewrite (@ohc_parse_wire g r W Hb) in P.
    destruct (N.testbit (oh_desc g) 6 || N.testbit (oh_desc g) 7) eqn:T; [destruct (length r <? 3); discriminate|]. apply orb_false_elim in T. destruct T.
    assert (f = g) as -> by (destruct g; cbn in *; congruence). eauto 10.
  - intros (W & C & S & B6 & B7 & r & Hr & ->). rewrite (@ohc_parse_wire f r W Hb), B6, B7. destruct f; cbn in *; congruence.
Qed.
