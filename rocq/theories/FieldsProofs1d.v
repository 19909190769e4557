From Verif Require Import Base Bits Codec Fields1 FieldsSpec1 FieldsProofs1 FieldsProofs1b FieldsProofs1c.
Set Implicit Arguments.
(** constructors that set the flags themselves accept IPv4 addresses in either form *)
Lemma norm4 v : ok4 (notnil v) v -> notnil (to4 v) = notnil v /\ to4 (to4 v) = to4 v /\ addr 4 (to4 v).
Proof.
  destruct v as [x|]; [|now cbn]. intros H. destruct (H eq_refl) as (y & E & B). rewrite E.
  pose proof (to4_len _ E) as L. split; [reflexivity|]. split; [now apply to4_4|]. split; [exact L|]. exact (to4_bytes _ E B).
Qed.
Lemma norm16 v : ok16 (notnil v) v -> notnil (to16 v) = notnil v /\ to16 (to16 v) = to16 v /\ addr 16 (to16 v).
Proof.
  destruct v as [x|]; [|now cbn]. intros H. destruct (H eq_refl) as (y & E & B). rewrite E.
  pose proof (to16_len _ E) as L. split; [reflexivity|]. split; [now apply to16_16|]. split; [exact L|]. exact (to16_bytes _ E B).
Qed.
Ltac norms := repeat match goal with
  | H : ok4 (notnil ?v) ?v |- _ => let A := fresh in let B := fresh in let C := fresh in destruct (@norm4 v H) as (A & B & C); clear H
  | H : ok16 (notnil ?v) ?v |- _ => let A := fresh in let B := fresh in let C := fresh in destruct (@norm16 v H) as (A & B & C); clear H
  end.
Ltac rew_norms := repeat match goal with
  | H : notnil (to4 ?v) = _ |- context [notnil (to4 ?v)] => rewrite H
  | H : notnil (to16 ?v) = _ |- context [notnil (to16 ?v)] => rewrite H
  | H : to4 (to4 ?v) = _ |- context [to4 (to4 ?v)] => rewrite H
  | H : to16 (to16 ?v) = _ |- context [to16 (to16 ?v)] => rewrite H
  end.
Lemma fseid_new_roundtrip seid v4 v6 : (seid < 2 ^ 64)%N -> ok4 (notnil v4) v4 -> ok16 (notnil v6) v6 ->
  exists w, fseid_marshal (new_fseid seid v4 v6) = Ok w /\ fseid_parse w = Ok (new_fseid seid (to4 v4) (to16 v6)).
Proof.
  intros Hs H4 H6. norms. exists (fseid_wire (new_fseid seid (to4 v4) (to16 v6))).
  assert (W : fseid_wf (new_fseid seid (to4 v4) (to16 v6))) by now apply fseid_new_wf.
  split; [|rewrite <- (app_nil_r (fseid_wire _)); now apply fseid_parse_wire].
  rewrite <- (proj1 (fseid_marshal_wire W)). unfold fseid_marshal, fseid_marshal_to, fseid_marshal_len, new_fseid. cbn [fs_flags fs_seid fs_v4 fs_v6].
  rew_norms. reflexivity.
Qed.
Lemma altip_wire_len f : altip_wf f -> N.testbit (ai_flags f) 1 || N.testbit (ai_flags f) 0 = true -> 2 <= length (altip_wire f).
Proof.
  destruct f as [fl v4 v6]. unfold altip_wf, altip_wire. cbn [ai_flags ai_v4 ai_v6]. intros (Hfl & H1 & H2) H. lens.
  destruct (N.testbit fl 1), (N.testbit fl 0); try discriminate; cbn; lia.
Qed.
Lemma altip_new_roundtrip v4 v6 : ok4 (notnil v4) v4 -> ok16 (notnil v6) v6 -> notnil v4 || notnil v6 = true ->
  exists w, altip_marshal (new_altip v4 v6) = Ok w /\ altip_parse w = Ok (new_altip (to4 v4) (to16 v6)).
Proof.
  intros H4 H6 Hs. norms. exists (altip_wire (new_altip (to4 v4) (to16 v6))).
  assert (W : altip_wf (new_altip (to4 v4) (to16 v6))) by now apply altip_new_wf.
  split; [|rewrite <- (app_nil_r (altip_wire _)); apply altip_parse_wire; [exact W|rewrite app_nil_r; apply altip_wire_len; [exact W|]]].
  - rewrite <- (proj1 (altip_marshal_wire W)). unfold altip_marshal, altip_marshal_to, altip_marshal_len, new_altip. cbn [ai_flags ai_v4 ai_v6].
    rew_norms. reflexivity.
  - unfold new_altip. cbn [ai_flags]. rew_norms. destruct (notnil v4), (notnil v6); try discriminate; reflexivity.
Qed.
Lemma srcip_wire_len f : srcip_wf f -> N.testbit (si_flags f) 1 || N.testbit (si_flags f) 0 || N.testbit (si_flags f) 2 = true -> 2 <= length (srcip_wire f).
Proof.
  destruct f as [fl v4 v6 m]. unfold srcip_wf, srcip_wire. cbn [si_flags si_v4 si_v6 si_mpl]. intros (Hfl & H1 & H2 & H3) H. lens.
  destruct (N.testbit fl 1), (N.testbit fl 0), (N.testbit fl 2); try discriminate; cbn; lia.
Qed.
Lemma srcip_new_roundtrip v4 v6 m : ok4 (notnil v4) v4 -> ok16 (notnil v6) v6 -> octet m -> notnil v4 || notnil v6 || negb (m =? 0)%N = true ->
  exists w, srcip_marshal (new_srcip v4 v6 m) = Ok w /\ srcip_parse w = Ok (new_srcip (to4 v4) (to16 v6) m).
Proof.
  intros H4 H6 Hm Hs. norms. exists (srcip_wire (new_srcip (to4 v4) (to16 v6) m)).
  assert (W : srcip_wf (new_srcip (to4 v4) (to16 v6) m)) by now apply srcip_new_wf.
  split; [|rewrite <- (app_nil_r (srcip_wire _)); apply srcip_parse_wire; [exact W|rewrite app_nil_r; apply srcip_wire_len; [exact W|]]].
  - rewrite <- (proj1 (srcip_marshal_wire W)). unfold srcip_marshal, srcip_marshal_to, srcip_marshal_len, new_srcip. cbn [si_flags si_v4 si_v6 si_mpl].
    rew_norms. reflexivity.
  - unfold new_srcip. cbn [si_flags]. rew_norms. destruct (notnil v4), (notnil v6), (m =? 0)%N; try discriminate; reflexivity.
Qed.
Lemma ulip_new_roundtrip v4 v6 nv4 nv6 : ok4 (notnil v4) v4 -> ok16 (notnil v6) v6 -> ok4 (notnil nv4) nv4 -> ok16 (notnil nv6) nv6 ->
  exists w, ulip_marshal (new_ulip v4 v6 nv4 nv6) = Ok w /\ ulip_parse w = Ok (new_ulip (to4 v4) (to16 v6) (to4 nv4) (to16 nv6)).
Proof.
  intros H1 H2 H3 H4. norms. exists (ulip_wire (new_ulip (to4 v4) (to16 v6) (to4 nv4) (to16 nv6))).
  assert (W : ulip_wf (new_ulip (to4 v4) (to16 v6) (to4 nv4) (to16 nv6))) by now apply ulip_new_wf.
  split; [|rewrite <- (app_nil_r (ulip_wire _)); now apply ulip_parse_wire].
  rewrite <- (proj1 (ulip_marshal_wire W)). unfold ulip_marshal, ulip_marshal_to, ulip_marshal_len, new_ulip. cbn [ul_flags ul_v4 ul_v6 ul_nv4 ul_nv6].
  rew_norms. reflexivity.
Qed.
Lemma mptcp_new_roundtrip ty port v4 v6 : octet ty -> (port < 65536)%N -> ok4 (notnil v4) v4 -> ok16 (notnil v6) v6 ->
  exists w, mptcp_marshal (new_mptcp ty port v4 v6) = Ok w /\ mptcp_parse w = Ok (new_mptcp ty port (to4 v4) (to16 v6)).
Proof.
  intros H1 H2 H3 H4. norms. exists (mptcp_wire (new_mptcp ty port (to4 v4) (to16 v6))).
  assert (W : mptcp_wf (new_mptcp ty port (to4 v4) (to16 v6))) by now apply mptcp_new_wf.
  split; [|rewrite <- (app_nil_r (mptcp_wire _)); now apply mptcp_parse_wire].
  rewrite <- (proj1 (mptcp_marshal_wire W)). unfold mptcp_marshal, mptcp_marshal_to, mptcp_marshal_len, new_mptcp. cbn [mp_flags mp_type mp_port mp_v4 mp_v6].
  rew_norms. reflexivity.
Qed.
Lemma pmf_new_roundtrip v4 v6 p1 p2 m1 m2 : ok4 (notnil v4) v4 -> ok16 (notnil v6) v6 -> (p1 < 65536)%N -> (p2 < 65536)%N -> present true 6 m1 -> present true 6 m2 ->
  exists w, pmf_marshal (new_pmf v4 v6 p1 p2 m1 m2) = Ok w /\ pmf_parse w = Ok (new_pmf (to4 v4) (to16 v6) p1 p2 None None).
Proof.
  intros H1 H2 H3 H4 H5 H6. norms. exists (pmf_wire (new_pmf (to4 v4) (to16 v6) p1 p2 m1 m2)).
  assert (W : pmf_wf (new_pmf (to4 v4) (to16 v6) p1 p2 m1 m2)) by now apply pmf_new_wf.
  split; [|rewrite <- (app_nil_r (pmf_wire _)); now apply pmf_parse_wire].
  rewrite <- (proj1 (pmf_marshal_wire W)). unfold pmf_marshal, pmf_marshal_to, pmf_marshal_len, new_pmf. cbn [pm_flags pm_v4 pm_v6 pm_port1 pm_port2 pm_mac1 pm_mac2].
  rew_norms. reflexivity.
Qed.
Lemma mcast_wire_len a b c d : addr 4 a -> addr 16 b -> notnil a || notnil b = true -> 2 <= length (mcast_wire (new_mcast a b c d)).
Proof.
  intros H1 H2 H. unfold mcast_wire, new_mcast.
  destruct a as [a|], b as [b|], c as [c|], d as [d|]; cbn in H1, H2, H; try discriminate; lazy -[app length]; rewrite ?app_length; cbn [length]; repeat match goal with X : _ /\ _ |- _ => destruct X end; lia.
Qed.
Lemma mcast_new_roundtrip sv4 sv6 ev4 ev6 : ok4 (notnil sv4) sv4 -> ok16 (notnil sv6) sv6 -> ok4 (notnil ev4) ev4 -> ok16 (notnil ev6) ev6 ->
  notnil sv4 || notnil sv6 = true ->
  (ev4 = None /\ ev6 = None) \/ (notnil ev4 = notnil sv4 /\ notnil ev6 = notnil sv6) ->
  exists w, mcast_marshal (new_mcast sv4 sv6 ev4 ev6) = Ok w /\ mcast_parse w = Ok (new_mcast (to4 sv4) (to16 sv6) (to4 ev4) (to16 ev6)).
Proof.
  intros H1 H2 H3 H4 Hs He. norms. exists (mcast_wire (new_mcast (to4 sv4) (to16 sv6) (to4 ev4) (to16 ev6))).
  assert (W : mcast_wf (new_mcast (to4 sv4) (to16 sv6) (to4 ev4) (to16 ev6))).
  { apply mcast_new_wf; auto. rew_norms. destruct He as [[-> ->]|He]; auto. }
  assert (S : 2 <= length (mcast_wire (new_mcast (to4 sv4) (to16 sv6) (to4 ev4) (to16 ev6)))) by (apply mcast_wire_len; auto; rew_norms; exact Hs).
  split; [|rewrite <- (app_nil_r (mcast_wire _)); apply mcast_parse_wire; [exact W|now rewrite app_nil_r]].
  rewrite <- (proj1 (mcast_marshal_wire W)). unfold mcast_marshal, mcast_marshal_to, mcast_marshal_len, new_mcast. rew_norms.
  destruct (negb (notnil sv4) && negb (notnil sv6)); [reflexivity|]. cbn [mc_flags mc_sv4 mc_sv6 mc_ev4 mc_ev6].
  rew_norms. reflexivity.
Qed.
Lemma fteid_nil_v4_shifts teid x : (teid < 2 ^ 32)%N -> length x = 16 -> bytes x ->
  exists w, fteid_marshal (new_fteid 3 teid None (Some x) 0) = Ok w /\
    fteid_parse w = Ok (new_fteid 3 teid (Some (firstn 4 x)) (Some (skipn 4 x ++ [0; 0; 0; 0]%N)) 0).
Proof.
  intros Ht L B. set (f := new_fteid 3 teid (Some (firstn 4 x)) (Some (skipn 4 x ++ [0; 0; 0; 0]%N)) 0).
  assert (W : fteid_wf f).
  { split; [reflexivity|]. cbn. split; [exact Ht|]. split; [|split; [|reflexivity]].
    - eexists. split; [reflexivity|]. split; [change (length (firstn 4 x) = 4); rewrite firstn_length; lia|now apply (bytes_firstn 4)].
    - eexists. split; [reflexivity|]. split; [change (length (skipn 4 x ++ [0; 0; 0; 0]%N) = 16); rewrite app_length, skipn_length; cbn; lia|].
      apply (bytes_app (skipn 4 x)). split; [now apply (bytes_skipn 4)|repeat (constructor; [reflexivity|]); constructor]. }
  exists (fteid_wire f). split; [|rewrite <- (app_nil_r (fteid_wire f)); now apply fteid_parse_wire].
  do 17 (destruct x as [|? x]; try discriminate L). reflexivity.
Qed.
