From Verif Require Import Base Bits Codec Fields1 FieldsSpec1.
Set Implicit Arguments.
(** start of the forwards direction *)
Ltac start_fwd := rewrite <- ?app_assoc; rewrite need_app by (cbn [length]; lia); rewrite index0_app; cbn [bind]; bits.
Ltac start_inv fl q Hb H :=
  apply bind_ok in H; let E := fresh in destruct H as (fl & E & H); apply index0 in E; destruct E as (q & ->);
  apply bytes_hd in Hb; destruct Hb as [Hfl Hq]; bits; enter_in fl H.
Ltac len_pos := match goal with |- context [length ?b <? ?n] => destruct (Nat.ltb_spec (length b) n) as [Hl|Hl] end.

(** * F-TEID *)
Lemma fteid_total b : returns (fteid_parse b).
Proof. unfold fteid_parse. tot. Qed.
Lemma fteid_parse_wire f r : fteid_wf f -> fteid_parse (fteid_wire f ++ r) = Ok f.
Proof.
  destruct f as [fl teid v4 v6 c]. unfold fteid_parse, fteid_wf, fteid_wire. cbn [ft_flags ft_teid ft_v4 ft_v6 ft_chid].
  intros (Hfl & H). destruct (N.testbit fl 2) eqn:E2.
  - destruct H as (-> & -> & -> & H). destruct (N.testbit fl 3) eqn:E3; cbn in H |- *; bits; rewrite E2, E3; cbn; now subst.
  - destruct H as (H1 & H2 & H3 & ->). start_fwd. rewrite E2. enter fl. repeat fwd1. reflexivity.
Qed.
Lemma fteid_parse_inv b f : bytes b -> fteid_parse b = Ok f -> fteid_wf f /\ exists r, bytes r /\ b = fteid_wire f ++ r.
Proof.
  unfold fteid_parse, fteid_wf, fteid_wire. intros Hb H. destruct (Nat.ltb_spec (length b) 1); [discriminate|].
  start_inv fl q Hb H. destruct (N.testbit fl 2) eqn:E2.
  - destruct (N.testbit fl 3) eqn:E3.
    + destruct q as [|c q]; [discriminate|]. cbn in H. injection H as <-. cbn. rewrite E2, E3. cbn. inversion Hq; subst. 
      split; [repeat split; auto|]. now exists q.
    + injection H as <-. cbn. rewrite E2, E3. cbn. split; [repeat split; auto|]. now exists q.
  - repeat inv1 H Hq. injection H as <-. cbn [ft_flags ft_teid ft_v4 ft_v6 ft_chid]. rewrite E2.
    split; [auto|]. eexists. split; [exact Hq|]. now rewrite <- !app_assoc.
Qed.
Lemma fteid_marshal_wire f : fteid_wf f -> fteid_marshal f = Ok (fteid_wire f) /\ fteid_marshal_len f = length (fteid_wire f).
Proof.
  destruct f as [fl teid v4 v6 c]. unfold fteid_marshal, fteid_marshal_to, fteid_marshal_len, fteid_wf, fteid_wire. cbn [ft_flags ft_teid ft_v4 ft_v6 ft_chid].
  intros (Hfl & H). bits. destruct (N.testbit fl 2) eqn:E2.
  - destruct H as (-> & -> & -> & H). now destruct (N.testbit fl 3).
  - destruct H as (H1 & H2 & H3 & ->). pres. split; [|lens; cbn; lia].
    rewrite put0. cbn [bind]. change (length (make (1 + ?n)) <? 1) with false. cbn match. enter fl. repeat wr1. wr_done.
Qed.
Lemma fteid_canon_wf f : fteid_args_ok f -> fteid_wf (fteid_canon f).
Proof.
  destruct f as [fl teid v4 v6 c]. unfold fteid_args_ok, fteid_wf, fteid_canon. cbn [ft_flags ft_teid ft_v4 ft_v6 ft_chid].
  intros (H1 & H2 & H3 & H4). destruct (N.testbit fl 2) eqn:E; cbn [ft_flags ft_teid ft_v4 ft_v6 ft_chid]; rewrite E; (split; [exact H1|]).
  - repeat split; auto. destruct (N.testbit fl 3); [exact H3|reflexivity].
  - destruct (H4 eq_refl). repeat split; auto using canon4_present, canon16_present.
Qed.
Lemma fteid_marshal_canon f : fteid_args_ok f -> fteid_marshal f = fteid_marshal (fteid_canon f).
Proof.
  destruct f as [fl teid v4 v6 c]. unfold fteid_args_ok, fteid_marshal, fteid_marshal_to, fteid_marshal_len, fteid_canon. cbn [ft_flags ft_teid ft_v4 ft_v6 ft_chid].
  intros (H1 & H2 & H3 & H4). bits. destruct (N.testbit fl 2) eqn:E; cbn [ft_flags ft_teid ft_v4 ft_v6 ft_chid]; bits; rewrite E.
  - now destruct (N.testbit fl 3).
  - destruct (H4 eq_refl) as [H5 H6]. pose proof (canon4_present H5) as P4. pose proof (canon16_present H6) as P6. pres.
    rewrite (ok4_notnil H5), (ok16_notnil H6). unfold canon4, canon16. now destruct (N.testbit fl 0), (N.testbit fl 1).
Qed.
(** marshalling arbitrary fields: stays inside the buffer *)
Ltac blen := cbn [length] in *; cbn [andb negb notnil len_if] in *; lia.
Ltac wln :=
  match goal with
  | |- context [if length ?b <? ?n then _ else _] => destruct (Nat.ltb_spec (length b) n); [exfalso; blen|]
  | |- context [wrb ?c ?n ?s ?b ?o] => let b' := fresh "b" in let L := fresh "L" in destruct (@wrb_len c n s b o) as (b' & -> & L); [blen|cbn [bind]]
  | |- context [wrn ?c ?n ?s ?b ?o] => let b' := fresh "b" in let L := fresh "L" in destruct (@wrn_len c n s b o) as (b' & -> & L); [blen|cbn [bind]]
  | |- context [cpb ?c ?n ?s ?b ?o] => let b' := fresh "b" in let L := fresh "L" in destruct (@cpb_len c n s b o) as (b' & -> & L); [blen|cbn [bind]]
  | |- context [cpn ?c ?n ?s ?b ?o] => let b' := fresh "b" in let L := fresh "L" in destruct (@cpn_len c n s b o) as (b' & -> & L); [blen|cbn [bind]]
  | |- context [put ?b ?o ?s] => let b' := fresh "b" in let L := fresh "L" in destruct (@put_len b o s) as (b' & -> & L); [rewrite ?be_length; blen|cbn [bind]]
  | |- exists w, Ok _ = Ok w /\ _ => eexists; split; [reflexivity|blen]
  end.
Ltac mkbuf := match goal with |- context [make ?n] => pose proof (make_length n); let z := fresh "z" in set (z := make n) in *; clearbody z end.
Lemma fteid_marshal_total f : exists w, fteid_marshal f = Ok w /\ length w = fteid_marshal_len f.
Proof.
  destruct f as [fl teid v4 v6 c]. unfold fteid_marshal, fteid_marshal_to, fteid_marshal_len. cbn [ft_flags ft_teid ft_v4 ft_v6 ft_chid].
  destruct (has3 fl), (has4 fl), (has1 fl), (has2 fl), v4, v6; mkbuf; repeat wln.
Qed.

(** * F-SEID *)
Lemma fseid_total b : returns (fseid_parse b).
Proof. unfold fseid_parse. tot. destruct (@getr_returns 8 b 1 (1 + 8)) as (v & ->); [lia..|]. apply returns_ok. Qed.
Lemma fseid_parse_wire f r : fseid_wf f -> fseid_parse (fseid_wire f ++ r) = Ok f.
Proof.
  destruct f as [fl seid v4 v6]. unfold fseid_parse, fseid_wf, fseid_wire. cbn [fs_flags fs_seid fs_v4 fs_v6].
  intros (Hfl & H1 & H2 & H3). rewrite <- ?app_assoc. rewrite (app_assoc [fl]), need_app by lenlia. rewrite <- app_assoc, index0_app. cbn [bind]. bits.
  change (getr 8 ?b 1 (1 + 8)) with (getr 8 b (length [fl]) (length [fl] + 8)).
  change (optn true 8 seid) with (be 8 seid). rewrite getr_app by exact H1. cbn [bind].
  change (1 + 8) with (length ([fl] ++ be 8 seid)). rewrite app_assoc. repeat fwd1. reflexivity.
Qed.
Lemma fseid_parse_inv b f : bytes b -> fseid_parse b = Ok f -> fseid_wf f /\ exists r, bytes r /\ b = fseid_wire f ++ r.
Proof.
  unfold fseid_parse, fseid_wf, fseid_wire. intros Hb H. destruct (Nat.ltb_spec (length b) 9); [discriminate|].
  start_inv fl q Hb H. apply bind_ok in H. destruct H as (seid & E & H).
  change (getr 8 ?b 1 (1 + 8)) with (getr 8 b (length [fl]) (length [fl] + 8)) in E.
  apply getr_inv in E; auto. clear Hq. destruct E as (q' & E & Hs & Hq). rewrite E in *. clear E.
  change (1 + 8) with (length ([fl] ++ be 8 seid)) in H. repeat inv1 H Hq. injection H as <-. cbn [fs_flags fs_seid fs_v4 fs_v6].
  split; [auto|]. eexists. split; [exact Hq|]. now rewrite <- !app_assoc.
Qed.
Lemma fseid_marshal_wire f : fseid_wf f -> fseid_marshal f = Ok (fseid_wire f) /\ fseid_marshal_len f = length (fseid_wire f).
Proof.
  destruct f as [fl seid v4 v6]. unfold fseid_marshal, fseid_marshal_to, fseid_marshal_len, fseid_wf, fseid_wire. cbn [fs_flags fs_seid fs_v4 fs_v6].
  intros (Hfl & H1 & H2 & H3). bits. pres. split; [|lens; cbn; lia].
  change (length (make (9 + ?n)) <? 9) with false. cbn match. change (9 + ?n) with (1 + (8 + n)).
  rewrite put0. cbn [bind]. enter fl. repeat wr1. wr_done.
Qed.
Lemma fseid_marshal_total f : exists w, fseid_marshal f = Ok w /\ length w = fseid_marshal_len f.
Proof.
  destruct f as [fl seid v4 v6]. unfold fseid_marshal, fseid_marshal_to, fseid_marshal_len. cbn [fs_flags fs_seid fs_v4 fs_v6].
  destruct (has1 fl), (has2 fl), v4, v6; mkbuf; repeat wln.
Qed.
(** valid address arguments of a constructor that sets the flags itself *)
Definition addr (n : nat) (v : bslice) : Prop := match v with Some x => length x = n /\ bytes x | None => True end.
Lemma addr_present n v c : addr n v -> c = notnil v -> present c n v.
Proof. intros H ->. destruct v; cbn in *; [exists l; auto|reflexivity]. Qed.
Lemma fseid_new_wf seid v4 v6 : (seid < 2 ^ 64)%N -> addr 4 v4 -> addr 16 v6 -> fseid_wf (new_fseid seid v4 v6).
Proof.
  intros Hs H4 H6. unfold fseid_wf, new_fseid. cbn [fs_flags fs_seid fs_v4 fs_v6].
  split; [destruct v4, v6; reflexivity|]. split; [exact Hs|].
  split; apply addr_present; auto; destruct v4, v6; reflexivity.
Qed.

(** * UE IP Address *)
Lemma ueip_total b : returns (ueip_parse b).
Proof. unfold ueip_parse. tot. Qed.
Lemma ueip_parse_wire f r : ueip_wf f -> ueip_parse (ueip_wire f ++ r) =
  Ok {| ue_flags := ue_flags f; ue_v4 := ue_v4 f; ue_v6 := ue_v6 f; ue_v6d := ue_v6d f;
        ue_v6pl := if N.testbit (ue_flags f) 3 && N.testbit (ue_flags f) 6 then ue_v6d f else ue_v6pl f |}.
Proof.
  destruct f as [fl v4 v6 v6d v6pl]. unfold ueip_parse, ueip_wf, ueip_wire. cbn [ue_flags ue_v4 ue_v6 ue_v6d ue_v6pl].
  intros (Hfl & H1 & H2 & H3 & H4). start_fwd. enter fl. do 2 fwd1. pres.
  destruct (N.testbit fl 3), (N.testbit fl 6); cbn [andb].
  - rewrite !rdn_app by exact H3. reflexivity.
  - rewrite rdn_app by exact H3. cbn in H4. now subst.
  - change (optn false 1 v6d ++ ?x) with x. change (rdn false 1 ?b ?o 0) with (Ok (0%N, o)). cbn [bind]. rewrite rdn_app by exact H4. cbn in H3. now subst.
  - cbn in H3, H4. now subst.
Qed.
Lemma be1 v : octet v -> be 1 v = [v].
Proof. intros H. cbn. change (256 ^ 0)%N with 1%N. rewrite N.div_1_r, N.mod_small by exact H. reflexivity. Qed.
Lemma rdn1_inv c p q v o : rdn c 1 (p ++ q) (length p) 0 = Ok (v, o) -> bytes q ->
  if c then exists q', q = v :: q' /\ octet v /\ bytes q' else v = 0%N.
Proof.
  intros H Hq. apply rdn_inv in H; [|exact Hq]. destruct H as (q' & E & _ & R & Hq'). destruct c; [|exact R].
  rewrite <- app_assoc in E. apply app_inv_head in E. cbn [optn ranged] in E, R. rewrite be1 in E by exact R. exists q'. auto.
Qed.
(** what is decoded: one octet x after the addresses serves both the delegation bits and the prefix length *)
Lemma ueip_parse_inv b f : bytes b -> ueip_parse b = Ok f ->
  let fl := ue_flags f in
  octet fl /\ present (N.testbit fl 1 && negb (N.testbit fl 4)) 4 (ue_v4 f) /\ present (N.testbit fl 0 && negb (N.testbit fl 5)) 16 (ue_v6 f) /\
  exists x r, octet x /\ bytes r /\
    ue_v6d f = (if N.testbit fl 3 then x else 0%N) /\ ue_v6pl f = (if N.testbit fl 6 then x else 0%N) /\
    b = [fl] ++ optb (N.testbit fl 1 && negb (N.testbit fl 4)) (ue_v4 f) ++ optb (N.testbit fl 0 && negb (N.testbit fl 5)) (ue_v6 f)
        ++ opts (N.testbit fl 3 || N.testbit fl 6) [x] ++ r.
Proof.
  unfold ueip_parse. intros Hb H. destruct (Nat.ltb_spec (length b) 1); [discriminate|].
  start_inv fl q Hb H. do 2 inv1 H Hq. 
  apply bind_ok in H. destruct H as ([v6d o1] & E1 & H). apply rdn1_inv in E1; [|exact Hq].
  apply bind_ok in H. destruct H as ([v6pl o2] & E2 & H). apply rdn1_inv in E2; [|exact Hq].
  injection H as <-. cbn [ue_flags ue_v4 ue_v6 ue_v6d ue_v6pl]. pres. split; [auto|]. split; [auto|]. split; [auto|].
  rewrite <- !app_assoc.
  destruct (N.testbit fl 3), (N.testbit fl 6); cbn [orb opts].
  - destruct E1 as (q2 & -> & O1 & B1). destruct E2 as (q3 & E & O2 & B2). injection E as -> ->. exists v6pl, q3. auto 10.
  - destruct E1 as (q2 & -> & O1 & B1). exists v6d, q2. auto 10.
  - destruct E2 as (q2 & -> & O1 & B1). exists v6pl, q2. auto 10.
  - eexists 0%N, _. split; [reflexivity|]. split; [exact Hq|]. auto.
Qed.
Lemma ueip_marshal_wire f : ueip_wf f -> ueip_marshal f = Ok (ueip_wire f) /\ ueip_marshal_len f = length (ueip_wire f).
Proof.
  destruct f as [fl v4 v6 v6d v6pl]. unfold ueip_marshal, ueip_marshal_to, ueip_marshal_len, ueip_wf, ueip_wire. cbn [ue_flags ue_v4 ue_v6 ue_v6d ue_v6pl].
  intros (Hfl & H1 & H2 & H3 & H4). bits. split; [|lens; cbn; lia].
  rewrite put0. cbn [bind]. change (length (make (1 + ?n)) <? 1) with false. cbn match. enter fl. repeat wr1. wr_done.
Qed.
Lemma ueip_marshal_total f : exists w, ueip_marshal f = Ok w /\ length w = ueip_marshal_len f.
Proof.
  destruct f as [fl v4 v6 v6d v6pl]. unfold ueip_marshal, ueip_marshal_to, ueip_marshal_len. cbn [ue_flags ue_v4 ue_v6 ue_v6d ue_v6pl].
  destruct (has2 fl && _), (has1 fl && _), (has4 fl), (has7 fl); mkbuf; repeat wln.
Qed.
Lemma ueip_new_wf fl v4 v6 v6d v6pl : octet fl -> octet v6d -> octet v6pl ->
  ok4 (N.testbit fl 1 && negb (N.testbit fl 4)) v4 -> ok16 (N.testbit fl 0 && negb (N.testbit fl 5)) v6 -> ueip_wf (new_ueip fl v4 v6 v6d v6pl).
Proof.
  intros. unfold new_ueip, ueip_wf. cbn [ue_flags ue_v4 ue_v6 ue_v6d ue_v6pl]. bits.
  split; [auto|]. split; [now apply canon4_present|]. split; [now apply canon16_present|].
  split; [destruct (N.testbit fl 3)|destruct (N.testbit fl 6)]; auto; reflexivity.
Qed.

(** * Alternative SMF IP Address, CP PFCP Entity IP Address *)
Lemma altip_total b : returns (altip_parse b).
Proof. unfold altip_parse. tot. Qed.
Lemma altip_parse_wire f r : altip_wf f -> 2 <= length (altip_wire f ++ r) -> altip_parse (altip_wire f ++ r) = Ok f.
Proof.
  destruct f as [fl v4 v6]. unfold altip_parse, altip_wf, altip_wire. cbn [ai_flags ai_v4 ai_v6].
  intros (Hfl & H1 & H2) Hl. rewrite (proj2 (Nat.ltb_ge _ _) Hl). rewrite <- !app_assoc, index0_app. cbn [bind]. bits. enter fl. repeat fwd1. reflexivity.
Qed.
Lemma altip_parse_inv b f : bytes b -> altip_parse b = Ok f -> altip_wf f /\ 2 <= length b /\ exists r, bytes r /\ b = altip_wire f ++ r.
Proof.
  unfold altip_parse, altip_wf, altip_wire. intros Hb H. destruct (Nat.ltb_spec (length b) 2) as [|Hl]; [discriminate|].
  start_inv fl q Hb H. repeat inv1 H Hq. injection H as <-. cbn [ai_flags ai_v4 ai_v6].
  split; [auto|]. split; [exact Hl|]. eexists. split; [exact Hq|]. now rewrite <- !app_assoc.
Qed.
Lemma altip_marshal_wire f : altip_wf f -> altip_marshal f = Ok (altip_wire f) /\ altip_marshal_len f = length (altip_wire f).
Proof.
  destruct f as [fl v4 v6]. unfold altip_marshal, altip_marshal_to, altip_marshal_len, altip_wf, altip_wire. cbn [ai_flags ai_v4 ai_v6].
  intros (Hfl & H1 & H2). bits. pres. split; [|lens; cbn; lia].
  rewrite put0. cbn [bind]. change (length (make (1 + ?n)) <? 1) with false. cbn match. enter fl. repeat wr1. wr_done.
Qed.
Lemma altip_marshal_total f : exists w, altip_marshal f = Ok w /\ length w = altip_marshal_len f.
Proof.
  destruct f as [fl v4 v6]. unfold altip_marshal, altip_marshal_to, altip_marshal_len. cbn [ai_flags ai_v4 ai_v6].
  destruct v4, v6; mkbuf; repeat wln.
Qed.
Lemma altip_new_wf v4 v6 : addr 4 v4 -> addr 16 v6 -> altip_wf (new_altip v4 v6).
Proof.
  intros H4 H6. unfold altip_wf, new_altip. cbn [ai_flags ai_v4 ai_v6].
  split; [destruct v4, v6; reflexivity|]. split; apply addr_present; auto; destruct v4, v6; reflexivity.
Qed.

(** * Source IP Address *)
Lemma srcip_parse_wire f r : srcip_wf f -> 2 <= length (srcip_wire f ++ r) -> srcip_parse (srcip_wire f ++ r) = Ok f.
Proof.
  destruct f as [fl v4 v6 m]. unfold srcip_parse, srcip_wf, srcip_wire. cbn [si_flags si_v4 si_v6 si_mpl].
  intros (Hfl & H1 & H2 & H3) Hl. rewrite (proj2 (Nat.ltb_ge _ _) Hl). rewrite <- !app_assoc, index0_app. cbn [bind]. bits. enter fl. repeat fwd1.
  destruct (N.testbit fl 2); cbn [ranged optn] in *.
  - rewrite need_app by lia. rewrite be1 by exact H3. change ([m] ++ r) with (m :: r). rewrite index_app by reflexivity. reflexivity.
  - now subst.
Qed.
Lemma srcip_parse_inv b f : bytes b -> srcip_parse b = Ok f -> srcip_wf f /\ 2 <= length b /\ exists r, bytes r /\ b = srcip_wire f ++ r.
Proof.
  unfold srcip_parse, srcip_wf, srcip_wire. intros Hb H. destruct (Nat.ltb_spec (length b) 2) as [|Hl]; [discriminate|].
  start_inv fl q Hb H. repeat inv1 H Hq. apply bind_ok in H. destruct H as (m & E & H). injection H as <-. cbn [si_flags si_v4 si_v6 si_mpl].
  destruct (N.testbit fl 2).
  - rewrite need_app in E by lia. unfold index in E. rewrite nth_error_app2 in E by lia. rewrite Nat.sub_diag in E. destruct q1 as [|x q1]; [discriminate|].
    injection E as <-. inversion Hq; subst. split; [auto|]. split; [exact Hl|]. exists q1. cbn [optn]. rewrite be1 by assumption. split; [assumption|]. now rewrite <- !app_assoc.
  - injection E as <-. split; [repeat split; auto|]. split; [exact Hl|]. eexists. split; [exact Hq|]. now rewrite <- !app_assoc.
Qed.
(** the guard in front of the mask prefix length is off by one *)
Lemma srcip_fault_iff b : srcip_parse b = Fault <->
  2 <= length b /\ exists fl q, b = fl :: q /\ N.testbit fl 2 = true /\ length q = len_if (N.testbit fl 1) 4 + len_if (N.testbit fl 0) 16.
Proof.
  unfold srcip_parse. destruct (Nat.ltb_spec (length b) 2) as [|Hl]; [split; [discriminate|lia]|].
  destruct b as [|fl q]; [cbn in Hl; lia|]. cbn [index nth_error bind]. bits.
  assert (A : (exists fl0 q0, fl :: q = fl0 :: q0 /\ N.testbit fl0 2 = true /\ length q0 = len_if (N.testbit fl0 1) 4 + len_if (N.testbit fl0 0) 16)
              <-> N.testbit fl 2 = true /\ length q = len_if (N.testbit fl 1) 4 + len_if (N.testbit fl 0) 16).
  { split; [intros (? & ? & [= <- <-] & ?); auto|eauto]. }
  rewrite A. clear A.
  assert (B : forall c n d o, rdb c n (fl :: q) o d = (if length (fl :: q) <? o + len_if c n then Err EUnexpectedEOF else
     Ok (if c then Some (firstn n (skipn o (fl :: q))) else d, o + len_if c n)) \/ c = false).
  { intros c n d o. destruct c; [left|now right]. cbn [rdb len_if]. unfold rd. destruct (Nat.ltb_spec (length (fl :: q)) (o + n)); [reflexivity|].
    rewrite slice_ok by lia. cbn [bind]. now replace (o + n - o) with n by lia. }
  cbn [length] in *.
  destruct (N.testbit fl 1), (N.testbit fl 0), (N.testbit fl 2); cbn [len_if];
    repeat match goal with
    | |- context [rdb true ?n ?b ?o ?d] => destruct (B true n d o) as [->|]; [|discriminate]; cbn [len_if]; 
        match goal with |- context [?a <? ?b] => destruct (Nat.ltb_spec a b) end; cbn [bind]
    | |- context [rdb false ?n ?b ?o ?d] => change (rdb false n b o d) with (@Ok (bslice * nat) (d, o)); cbn [bind]
    end; try (split; [discriminate|lia]).
  all: match goal with |- context [?a <? ?b] => destruct (Nat.ltb_spec a b) end; [try (split; [discriminate|lia])|].
  all: match goal with |- context [index ?b ?o] => destruct (Nat.ltb_spec o (length b)) as [Hi|Hi] end; cbn [length] in Hi.
  all: try (destruct (@index_ok (fl :: q) _ Hi) as (x & -> & _); split; [discriminate|lia]).
  all: unfold index; match goal with |- context [nth_error ?l ?i] => rewrite (proj2 (nth_error_None l i)) by (cbn [length]; lia) end; cbn [bind]; split; [intros _; lia|reflexivity].
Qed.
