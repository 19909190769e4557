From Verif Require Import Base Bits Codec Fields1 FieldsSpec1 FieldsProofs1.
Set Implicit Arguments.
Ltac start_wr fl := rewrite put0; cbn [bind]; change (length (make (1 + ?n)) <? 1) with false; cbn match; enter fl.
Lemma srcip_marshal_wire f : srcip_wf f -> srcip_marshal f = Ok (srcip_wire f) /\ srcip_marshal_len f = length (srcip_wire f).
Proof.
  destruct f as [fl v4 v6 m]. unfold srcip_marshal, srcip_marshal_to, srcip_marshal_len, srcip_wf, srcip_wire. cbn [si_flags si_v4 si_v6 si_mpl].
  intros (Hfl & H1 & H2 & H3). bits. pres. split; [|lens; cbn; lia].
  start_wr fl. repeat wr1. destruct (N.testbit fl 2); cbn [optn len_if ranged] in *.
  - rewrite need_app by lia. rewrite be1 by exact H3. rewrite put_seg by lenlia. f_equal.
    rewrite skipn_all_nil by lenlia. now rewrite app_nil_r, <- !app_assoc.
  - f_equal. rewrite skipn_all_nil by lenlia. now rewrite !app_nil_r, <- !app_assoc.
Qed.
Lemma srcip_marshal_total f : exists w, srcip_marshal f = Ok w /\ length w = srcip_marshal_len f.
Proof.
  destruct f as [fl v4 v6 m]. unfold srcip_marshal, srcip_marshal_to, srcip_marshal_len. cbn [si_flags si_v4 si_v6 si_mpl].
  destruct (has2 fl), (has1 fl), (has3 fl); mkbuf; repeat wln.
Qed.
Lemma srcip_new_wf v4 v6 m : addr 4 v4 -> addr 16 v6 -> octet m -> srcip_wf (new_srcip v4 v6 m).
Proof.
  intros H4 H6 Hm. unfold srcip_wf, new_srcip. cbn [si_flags si_v4 si_v6 si_mpl].
  destruct (N.eqb_spec m 0); cbn [negb]; (split; [destruct v4, v6; reflexivity|]);
  (split; [apply addr_present; auto; destruct v4, v6; reflexivity|]); (split; [apply addr_present; auto; destruct v4, v6; reflexivity|]).
  - replace (N.testbit _ 2) with false by (destruct v4, v6; reflexivity). exact e.
  - replace (N.testbit _ 2) with true by (destruct v4, v6; reflexivity). exact Hm.
Qed.
(** a round trip that never meets the 2-octet minimum: nothing to send *)
Lemma srcip_empty : srcip_marshal (new_srcip None None 0) = Ok [0%N] /\ srcip_parse [0%N] = Err EUnexpectedEOF.
Proof. now split. Qed.

(** * UE Link-Specific IP Address *)
Lemma ulip_total b : returns (ulip_parse b).
Proof. unfold ulip_parse. tot. Qed.
Lemma ulip_parse_wire f r : ulip_wf f -> ulip_parse (ulip_wire f ++ r) = Ok f.
Proof.
  destruct f as [fl v4 v6 nv4 nv6]. unfold ulip_parse, ulip_wf, ulip_wire. cbn [ul_flags ul_v4 ul_v6 ul_nv4 ul_nv6].
  intros (Hfl & H1 & H2 & H3 & H4). start_fwd. enter fl. repeat fwd1. reflexivity.
Qed.
Lemma ulip_parse_inv b f : bytes b -> ulip_parse b = Ok f -> ulip_wf f /\ exists r, bytes r /\ b = ulip_wire f ++ r.
Proof.
  unfold ulip_parse, ulip_wf, ulip_wire. intros Hb H. destruct (Nat.ltb_spec (length b) 1) as [|Hl]; [discriminate|].
  start_inv fl q Hb H. repeat inv1 H Hq. injection H as <-. cbn [ul_flags ul_v4 ul_v6 ul_nv4 ul_nv6].
  split; [auto 10|]. eexists. split; [exact Hq|]. now rewrite <- !app_assoc.
Qed.
Lemma ulip_marshal_wire f : ulip_wf f -> ulip_marshal f = Ok (ulip_wire f) /\ ulip_marshal_len f = length (ulip_wire f).
Proof.
  destruct f as [fl v4 v6 nv4 nv6]. unfold ulip_marshal, ulip_marshal_to, ulip_marshal_len, ulip_wf, ulip_wire. cbn [ul_flags ul_v4 ul_v6 ul_nv4 ul_nv6].
  intros (Hfl & H1 & H2 & H3 & H4). bits. pres. split; [|lens; cbn; lia]. start_wr fl. repeat wr1. wr_done.
Qed.
Lemma ulip_marshal_total f : exists w, ulip_marshal f = Ok w /\ length w = ulip_marshal_len f.
Proof.
  destruct f as [fl v4 v6 nv4 nv6]. unfold ulip_marshal, ulip_marshal_to, ulip_marshal_len. cbn [ul_flags ul_v4 ul_v6 ul_nv4 ul_nv6].
  destruct (has1 fl), (has2 fl), (has3 fl), (has4 fl); mkbuf; repeat wln.
Qed.
Lemma ulip_new_wf v4 v6 nv4 nv6 : addr 4 v4 -> addr 16 v6 -> addr 4 nv4 -> addr 16 nv6 -> ulip_wf (new_ulip v4 v6 nv4 nv6).
Proof.
  intros. unfold ulip_wf, new_ulip. cbn [ul_flags ul_v4 ul_v6 ul_nv4 ul_nv6].
  split; [destruct v4, v6, nv4, nv6; reflexivity|]. repeat split; apply addr_present; auto; destruct v4, v6, nv4, nv6; reflexivity.
Qed.

(** * MPTCP Address Information *)
Lemma mptcp_total b : returns (mptcp_parse b).
Proof. unfold mptcp_parse. tot. destruct (@getr_returns 2 b 2 4) as (v & ->); [lia..|]. apply returns_ok. Qed.
Lemma mptcp_parse_wire f r : mptcp_wf f -> mptcp_parse (mptcp_wire f ++ r) = Ok f.
Proof.
  destruct f as [fl ty port v4 v6]. unfold mptcp_parse, mptcp_wf, mptcp_wire. cbn [mp_flags mp_type mp_port mp_v4 mp_v6].
  intros (Hfl & H1 & H2 & H3 & H4). rewrite <- ?app_assoc. 
  replace (length _ <? 4) with false by (symmetry; apply Nat.ltb_ge; lens; cbn; lia).
  rewrite index0_app. cbn [bind]. bits. change (index ([fl] ++ [ty] ++ ?x) 1) with (Ok ty). cbn [bind].
  rewrite (app_assoc [fl]). change (getr 2 ?b 2 4) with (getr 2 b (length ([fl] ++ [ty])) (length ([fl] ++ [ty]) + 2)).
  change (optn true 2 port) with (be 2 port). rewrite getr_app by exact H2. cbn [bind].
  change 4 with (length (([fl] ++ [ty]) ++ be 2 port)) at 2. rewrite (app_assoc ([fl] ++ [ty])). repeat fwd1. reflexivity.
Qed.
Lemma mptcp_parse_inv b f : bytes b -> mptcp_parse b = Ok f -> mptcp_wf f /\ exists r, bytes r /\ b = mptcp_wire f ++ r.
Proof.
  unfold mptcp_parse, mptcp_wf, mptcp_wire. intros Hb H. destruct (Nat.ltb_spec (length b) 4) as [|Hl]; [discriminate|].
  start_inv fl q Hb H. destruct q as [|ty q]; [cbn in Hl; lia|]. change (index ([fl] ++ ty :: ?x) 1) with (Ok ty) in H. cbn [bind] in H.
  change (ty :: q) with ([ty] ++ q) in *. apply bytes_hd in Hq. destruct Hq as [Hty Hq]. rewrite app_assoc in *.
  apply bind_ok in H. destruct H as (port & E & H). change (getr 2 ?b 2 4) with (getr 2 b (length ([fl] ++ [ty])) (length ([fl] ++ [ty]) + 2)) in E.
  apply getr_inv in E; auto. clear Hq. destruct E as (q' & E & Hp & Hq). rewrite E in *. clear E.
  change (rdb (N.testbit fl 0) 4 ?b 4) with (rdb (N.testbit fl 0) 4 b (length (([fl] ++ [ty]) ++ be 2 port))) in H.
  repeat inv1 H Hq. injection H as <-. cbn [mp_flags mp_type mp_port mp_v4 mp_v6].
  split; [auto 10|]. eexists. split; [exact Hq|]. now rewrite <- !app_assoc.
Qed.
Lemma mptcp_marshal_wire f : mptcp_wf f -> mptcp_marshal f = Ok (mptcp_wire f) /\ mptcp_marshal_len f = length (mptcp_wire f).
Proof.
  destruct f as [fl ty port v4 v6]. unfold mptcp_marshal, mptcp_marshal_to, mptcp_marshal_len, mptcp_wf, mptcp_wire. cbn [mp_flags mp_type mp_port mp_v4 mp_v6].
  intros (Hfl & H1 & H2 & H3 & H4). bits. pres. split; [|lens; cbn; lia].
  set (n := len_if _ 4 + len_if _ 16). change (make (1 + 1 + 2 + n)) with (make (1 + (1 + (2 + n)))).
  rewrite put0. cbn [bind]. change (length (make (1 + (1 + (2 + n)))) <? 4) with false. cbn match.
  change (put ([fl] ++ ?z) 1 ?s) with (put ([fl] ++ z) (length [fl]) s). rewrite put_seg by (cbn; lia). cbn [bind].
  change (put (([fl] ++ [ty]) ++ ?z) 2 ?s) with (put (([fl] ++ [ty]) ++ z) (length ([fl] ++ [ty])) s). rewrite put_seg by (rewrite be_length; lenlia). cbn [bind].
  change (wrb ?c 4 ?s ?b 4) with (wrb c 4 s b (length (([fl] ++ [ty]) ++ be 2 port))).
  subst n. repeat wr1. wr_done.
Qed.
Lemma mptcp_marshal_total f : exists w, mptcp_marshal f = Ok w /\ length w = mptcp_marshal_len f.
Proof.
  destruct f as [fl ty port v4 v6]. unfold mptcp_marshal, mptcp_marshal_to, mptcp_marshal_len. cbn [mp_flags mp_type mp_port mp_v4 mp_v6].
  destruct (has1 fl), (has2 fl); mkbuf; repeat wln.
Qed.
Lemma mptcp_new_wf ty port v4 v6 : octet ty -> (port < 65536)%N -> addr 4 v4 -> addr 16 v6 -> mptcp_wf (new_mptcp ty port v4 v6).
Proof.
  intros. unfold mptcp_wf, new_mptcp. cbn [mp_flags mp_type mp_port mp_v4 mp_v6].
  split; [destruct v4, v6; reflexivity|]. repeat split; auto; apply addr_present; auto; destruct v4, v6; reflexivity.
Qed.

(** * PMF Address Information *)
Lemma pmf_total b : returns (pmf_parse b).
Proof. unfold pmf_parse. tot. Qed.
Lemma pmf_parse_wire f r : pmf_wf f -> pmf_parse (pmf_wire f ++ r) = Ok (pmf_forget f).
Proof.
  destruct f as [fl v4 v6 p1 p2 m1 m2]. unfold pmf_parse, pmf_wf, pmf_wire, pmf_forget. cbn [pm_flags pm_v4 pm_v6 pm_port1 pm_port2 pm_mac1 pm_mac2].
  intros (Hfl & H1 & H2 & H3 & H4 & (x1 & -> & L1 & B1) & (x2 & -> & L2 & B2)). change (optb true (Some ?x)) with (opts true x).
  assert (S1 : sized true 6 x1) by now split. assert (S2 : sized true 6 x2) by now split.
  start_fwd. enter fl. repeat fwd1. reflexivity.
Qed.
Lemma pmf_parse_inv b f : bytes b -> pmf_parse b = Ok f ->
  exists f', f = pmf_forget f' /\ pmf_wf f' /\ exists r, bytes r /\ b = pmf_wire f' ++ r.
Proof.
  unfold pmf_parse, pmf_wf, pmf_wire. intros Hb H. destruct (Nat.ltb_spec (length b) 1) as [|Hl]; [discriminate|].
  start_inv fl q Hb H. repeat inv1 H Hq. injection H as <-. destruct P3 as [L1 B1]. destruct P4 as [L2 B2].
  exists {| pm_flags := fl; pm_v4 := v; pm_v6 := v0; pm_port1 := v1; pm_port2 := v2; pm_mac1 := Some v3; pm_mac2 := Some v4 |}. split; [reflexivity|]. cbn [pm_flags pm_v4 pm_v6 pm_port1 pm_port2 pm_mac1 pm_mac2].
  split; [repeat split; auto; eexists; split; try reflexivity; split; eassumption|]. eexists. split; [exact Hq|]. now rewrite <- !app_assoc.
Qed.
Lemma pmf_marshal_wire f : pmf_wf f -> pmf_marshal f = Ok (pmf_wire f) /\ pmf_marshal_len f = length (pmf_wire f).
Proof.
  destruct f as [fl v4 v6 p1 p2 m1 m2]. unfold pmf_marshal, pmf_marshal_to, pmf_marshal_len, pmf_wf, pmf_wire. cbn [pm_flags pm_v4 pm_v6 pm_port1 pm_port2 pm_mac1 pm_mac2].
  intros (Hfl & H1 & H2 & H3 & H4 & H5 & H6). bits. pres. split; [|lens; cbn; lia]. start_wr fl. repeat wr1.
  f_equal; rewrite skipn_all_nil by (lens; cbn [len_if]; lia); rewrite app_nil_r, <- ?app_assoc; reflexivity.
Qed.
Lemma pmf_marshal_total f : exists w, pmf_marshal f = Ok w /\ length w = pmf_marshal_len f.
Proof.
  destruct f as [fl v4 v6 p1 p2 m1 m2]. unfold pmf_marshal, pmf_marshal_to, pmf_marshal_len. cbn [pm_flags pm_v4 pm_v6 pm_port1 pm_port2 pm_mac1 pm_mac2].
  destruct (has1 fl), (has2 fl); mkbuf; repeat wln.
Qed.
Lemma pmf_new_wf v4 v6 p1 p2 m1 m2 : addr 4 v4 -> addr 16 v6 -> (p1 < 65536)%N -> (p2 < 65536)%N -> present true 6 m1 -> present true 6 m2 ->
  pmf_wf (new_pmf v4 v6 p1 p2 m1 m2).
Proof.
  intros. unfold pmf_wf, new_pmf. cbn [pm_flags pm_v4 pm_v6 pm_port1 pm_port2 pm_mac1 pm_mac2].
  split; [destruct v4, v6; reflexivity|]. repeat (split; [auto; apply addr_present; auto; destruct v4, v6; reflexivity|]). auto.
Qed.

(** * IP Multicast Address *)
Lemma mcast_total b : returns (mcast_parse b).
Proof. unfold mcast_parse. tot. Qed.
Lemma mcast_parse_wire f r : mcast_wf f -> 2 <= length (mcast_wire f ++ r) -> mcast_parse (mcast_wire f ++ r) = Ok f.
Proof.
  destruct f as [fl v4 v6 nv4 nv6]. unfold mcast_parse, mcast_wf, mcast_wire. cbn [mc_flags mc_sv4 mc_sv6 mc_ev4 mc_ev6].
  intros (Hfl & H) Hl. rewrite (proj2 (Nat.ltb_ge _ _) Hl). destruct (N.testbit fl 3) eqn:E3.
  - destruct H as (-> & -> & -> & ->). rewrite index0_app. cbn [bind]. bits. now rewrite E3.
  - destruct H as (H1 & H2 & H3 & H4). rewrite <- !app_assoc, index0_app. cbn [bind]. bits. rewrite E3. enter fl. repeat fwd1. reflexivity.
Qed.
Lemma mcast_parse_inv b f : bytes b -> mcast_parse b = Ok f -> mcast_wf f /\ 2 <= length b /\ exists r, bytes r /\ b = mcast_wire f ++ r.
Proof.
  unfold mcast_parse, mcast_wf, mcast_wire. intros Hb H. destruct (Nat.ltb_spec (length b) 2) as [|Hl]; [discriminate|].
  start_inv fl q Hb H. destruct (N.testbit fl 3) eqn:E3.
  - injection H as <-. cbn [mc_flags mc_sv4 mc_sv6 mc_ev4 mc_ev6]. rewrite E3. split; [auto|]. split; [exact Hl|]. now exists q.
  - repeat inv1 H Hq. injection H as <-. cbn [mc_flags mc_sv4 mc_sv6 mc_ev4 mc_ev6]. rewrite E3.
    split; [auto 10|]. split; [exact Hl|]. eexists. split; [exact Hq|]. now rewrite <- !app_assoc.
Qed.
Lemma mcast_marshal_wire f : mcast_wf f -> mcast_marshal f = Ok (mcast_wire f) /\ mcast_marshal_len f = length (mcast_wire f).
Proof.
  destruct f as [fl v4 v6 nv4 nv6]. unfold mcast_marshal, mcast_marshal_to, mcast_marshal_len, mcast_wf, mcast_wire. cbn [mc_flags mc_sv4 mc_sv6 mc_ev4 mc_ev6].
  intros (Hfl & H). bits. destruct (N.testbit fl 3) eqn:E3.
  - destruct H as (-> & -> & -> & ->). now split.
  - destruct H as (H1 & H2 & H3 & H4). pres. split; [|lens; cbn; lia]. start_wr fl. repeat wr1. wr_done.
Qed.
(** marshalling returns bytes or an error, never panics *)
Lemma wrb_ret c n s b o : returns (wrb c n s b o) /\ forall b' o', wrb c n s b o = Ok (b', o') -> length b' = length b.
Proof.
  unfold wrb. destruct c; [|split; [apply returns_ok|now intros ? ? [= <- <-]]].
  destruct (Nat.ltb_spec (length b) (o + n)); [split; [apply returns_err|discriminate]|].
  destruct (@copy_range_len b o (o + n) s) as (b1 & -> & L); [lia..|]. cbn. split; [apply returns_ok|now intros ? ? [= <- <-]].
Qed.
Lemma mcast_marshal_returns f : returns (mcast_marshal f).
Proof.
  unfold mcast_marshal, mcast_marshal_to. set (b := make _). destruct (Nat.ltb_spec (length b) 1); [apply returns_err|].
  destruct (@put_len b 0 [mc_flags f]) as (b1 & -> & L1); [cbn; lia|]. cbn [bind]. destruct (has4 (mc_flags f)); [apply returns_ok|].
  repeat (apply returns_bind; [apply wrb_ret|intros [? ?] _]). apply returns_ok.
Qed.
(** start addresses, or a start and an end address of each given family *)
Lemma mcast_new_wf sv4 sv6 ev4 ev6 : addr 4 sv4 -> addr 16 sv6 -> addr 4 ev4 -> addr 16 ev6 ->
  (ev4 = None /\ ev6 = None) \/ (notnil ev4 = notnil sv4 /\ notnil ev6 = notnil sv6) -> mcast_wf (new_mcast sv4 sv6 ev4 ev6).
Proof.
  intros H1 H2 H3 H4 H. unfold mcast_wf, new_mcast.
  destruct sv4 as [a|], sv6 as [b|]; cbn [notnil negb andb] in *.
  4: { cbn. repeat split; reflexivity. }
  all: destruct ev4, ev6; cbn [notnil] in *; cbn; destruct H as [[H H']|[H H']]; try discriminate; cbn in *;
    (split; [reflexivity|]); repeat split; eauto; eexists; eauto.
Qed.
