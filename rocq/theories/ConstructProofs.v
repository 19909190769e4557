(** Proofs about Construct.v. *)
From Verif Require Import Base Bits Codec Codec2 Time TimeProofs Utils UtilsProofs Fields1 Fields2 Fields3 Fields4 FieldsSpec1 FieldsSpec2 FieldsSpec3 FieldsSpec4.
From Verif Require Import FieldsProofs1 FieldsProofs1b FieldsProofs1c FieldsProofs1d FieldsProofs2 FieldsProofs3 FieldsProofs3b FieldsProofs3c FieldsProofs3d FieldsProofs4 FieldsProofs4b FieldsProofs4c FieldsProofs4d.
From Verif Require Import PropsFields1 PropsFields2 PropsFields3 PropsFields4 Access New Construct.
Set Implicit Arguments.

Definition back (k : fkind) (a : fargs k) : Prop :=
  exists f p r, fnew k a = Ok f /\ fmarshal f = Ok p /\ reads k a r /\ fparse k p = (f <- r ;; Ok (VF f)).
Lemma ip4_ok v : ip4 v -> ok4 (notnil v) v.
Proof. intros H C. destruct v as [x|]; [|discriminate]. destruct (H x eq_refl) as [[y E] B]. exists y. auto. Qed.
Lemma ip6_ok v : ip6 v -> ok16 (notnil v) v.
Proof.
  intros H C. destruct v as [x|]; [|discriminate]. destruct (H x eq_refl) as [L B]. cbn [to16].
  destruct L as [-> | ->]; cbn [Nat.eqb]; eexists; (split; [reflexivity|exact B]).
Qed.
Lemma addr4_ok c v : (c = true -> addr4 v) -> ok4 c v.
Proof. intros H C. destruct (H C) as [[y E] B]. exists y. auto. Qed.
Lemma addr6_ok c v : (c = true -> addr6 v) -> ok16 c v.
Proof. intros H C. destruct (H C) as (x & -> & L & B). cbn [to16]. destruct L as [-> | ->]; cbn [Nat.eqb]; eexists; (split; [reflexivity|exact B]). Qed.
Lemma ip4_given v : ip4 v -> notnil (to4 v) = given v.
Proof. intros H. destruct v as [x|]; [|reflexivity]. destruct (H x eq_refl) as [[y E] B]. now rewrite E. Qed.
Lemma ip6_given v : ip6 v -> notnil (to16 v) = given v.
Proof. intros H. destruct v as [x|]; [|reflexivity]. destruct (H x eq_refl) as [L B]. cbn [to16]. now destruct L as [-> | ->]. Qed.

Ltac fin M P := eexists _, _, (Ok _); split; [reflexivity|]; split; [exact M|]; split; [|cbn [fparse]; rewrite P; reflexivity]; cbn [reads]; unfold when.
Lemma given_notnil v : notnil v = given v. Proof. now destruct v. Qed.
Ltac giv := change notnil with given; repeat match goal with H : ip4 ?v |- _ => rewrite <- ?(given_notnil (to4 v)), ?(ip4_given H); clear H | H : ip6 ?v |- _ => rewrite <- ?(given_notnil (to16 v)), ?(ip6_given H); clear H end.
Ltac gflags := repeat match goal with |- context [given ?v] => destruct (given v) end; try reflexivity.

Lemma back_fseid n v4 v6 : suited K_FSEID (n, v4, v6) -> back K_FSEID (n, v4, v6).
Proof.
  cbn [suited]. intros (H & H4 & H6). destruct (@C31_new_roundtrip n v4 v6 H (ip4_ok H4) (ip6_ok H6)) as (w & M & P).
  fin M P. unfold new_fseid. giv. gflags.
Qed.
Lemma back_altip v4 v6 : ip4 v4 /\ ip6 v6 -> exists p r, altip_marshal (new_altip v4 v6) = Ok p /\ reads K_AlternativeSMFIPAddress (v4, v6) r /\ as_f F_altip (altip_parse p) = (f <- r ;; Ok (VF f)).
Proof.
  intros (H4 & H6). destruct (given v4 || given v6) eqn:G.
  - change given with notnil in G. destruct (@C49_new_roundtrip v4 v6 (ip4_ok H4) (ip6_ok H6) G) as (w & M & P). exists w, (Ok (F_altip (new_altip (to4 v4) (to16 v6)))). split; [exact M|]. split; [|now rewrite P].
    cbn [reads]. change notnil with given in G. rewrite G. unfold new_altip. giv. gflags.
  - exists [0%N], eof. destruct v4, v6; try discriminate G. split; [reflexivity|]. split; reflexivity.
Qed.
Lemma back_tag fl pcp dei vid : suited K_CTAG (fl, pcp, dei, vid) -> exists p, tag_marshal (new_tag fl pcp dei vid) = Ok p /\
  tag_parse p = Ok {| tg_flags := fl; tg_pcp := when (N.testbit fl 0) pcp 0%N; tg_dei := when (N.testbit fl 1) dei 0%N; tg_vid := when (N.testbit fl 2) (vid / 256 * 4096 + vid mod 256)%N 0%N |}.
Proof. cbn [suited]. intros H. destruct (@tag_roundtrip (new_tag fl pcp dei vid) H) as (w & M & P). eauto. Qed.
Lemma bit_or fl a b : some_bit fl [a; b] -> N.testbit fl a || N.testbit fl b = true.
Proof. intros (i & [<- |[<- |[]]] & ->); auto using orb_true_r. Qed.
Lemma back_dlfl fl ttc sci : suited K_DLFlowLevelMarking (fl, ttc, sci) -> back K_DLFlowLevelMarking (fl, ttc, sci).
Proof. cbn [suited]. intros (H1 & H2 & H3 & B). destruct (@C60_roundtrip fl ttc sci H1 H2 H3 (bit_or B)) as (w & M & P). fin M P. reflexivity. Qed.
Lemma back_fteid fl teid v4 v6 chid : suited K_FTEID (fl, teid, v4, v6, chid) -> back K_FTEID (fl, teid, v4, v6, chid).
Proof.
  cbn [suited]. intros (H1 & H2 & H3 & H4). destruct (@C30_new_roundtrip fl teid v4 v6 chid) as (w & M & P).
  { unfold fteid_args_ok, new_fteid. cbn [ft_flags ft_teid ft_chid ft_v4 ft_v6]. split; [exact H1|]. split; [exact H2|]. split; [exact H3|].
    intros C. destruct (H4 C) as [A B]. split; [now apply addr4_ok|now apply addr6_ok]. }
  fin M P. unfold fteid_canon, new_fteid. cbn [ft_flags ft_teid ft_chid ft_v4 ft_v6]. unfold canon4, canon16. reflexivity.
Qed.
Lemma back_henr t n v : suited K_HeaderEnrichment (t, n, v) -> back K_HeaderEnrichment (t, n, v).
Proof.
  cbn [suited]. intros (H1 & H2 & H3 & H4 & H5). destruct (@C63_roundtrip t n v H1 H2 H3 H4 H5) as (w & M & _ & P).
  fin M P. unfold new_henr, u8. rewrite !N.mod_small by assumption. reflexivity.
Qed.
Lemma back_mcast a b c d : suited K_IPMulticastAddress (a, b, c, d) -> back K_IPMulticastAddress (a, b, c, d).
Proof.
  cbn [suited]. intros (A & B & C & D & H). destruct (given a || given b) eqn:G.
  - change given with notnil in G. destruct (@C55_new_roundtrip a b c d (ip4_ok A) (ip6_ok B) (ip4_ok C) (ip6_ok D) G) as (w & M & P).
    { change notnil with given. destruct H as [[-> ->]|H]; [discriminate|exact H]. }
    fin M P. change notnil with given in G. rewrite G. unfold new_mcast. giv. revert G. gflags; discriminate.
  - exists (F_mcast (new_mcast a b c d)), [8%N], eof. destruct a, b; try discriminate G. split; [reflexivity|]. split; [reflexivity|]. split; reflexivity.
Qed.
Lemma back_macaddr s d us ud : suited K_MACAddress (s, d, us, ud) -> back K_MACAddress (s, d, us, ud).
Proof.
  cbn [suited]. intros (A & B & C & D). destruct (@C65_roundtrip_exact s d us ud A B C D) as (w & M & P). destruct (given s || given d || given us || given ud) eqn:G.
  - assert (P' : macaddr_parse w = Ok (new_macaddr s d us ud)) by (apply P; intros (-> & -> & -> & ->); discriminate G).
    fin M P'. rewrite G. unfold new_macaddr. change notnil with given. cbn [fold_left fst snd]. gflags.
  - exists (F_macaddr (new_macaddr s d us ud)), [0%N], eof. destruct s, d, us, ud; try discriminate G. split; [reflexivity|]. split; [reflexivity|]. split; reflexivity.
Qed.
Lemma back_mptcp t p v4 v6 : suited K_MPTCPAddressInformation (t, p, v4, v6) -> back K_MPTCPAddressInformation (t, p, v4, v6).
Proof.
  cbn [suited]. intros (H1 & H2 & H4 & H6). destruct (@C52_new_roundtrip t p v4 v6 H1 H2 (ip4_ok H4) (ip6_ok H6)) as (w & M & P).
  fin M P. unfold new_mptcp. giv. gflags.
Qed.
Lemma back_nue fl v4 v6 : suited K_NumberOfUEIPAddresses (fl, v4, v6) -> back K_NumberOfUEIPAddresses (fl, v4, v6).
Proof. cbn [suited]. intros (H1 & H2 & H3). destruct (@C57_roundtrip fl v4 v6 H1 H2 H3) as (w & M & P). fin M P. reflexivity. Qed.
Lemma high (d i : N) : N.testbit (d / 256) i = N.testbit d (i + 8).
Proof. change 256%N with (2 ^ 8)%N. now rewrite <- N.shiftr_div_pow2, N.shiftr_spec'. Qed.
Lemma back_ohc d teid v4 v6 port ct st : suited K_OuterHeaderCreation (d, teid, v4, v6, port, ct, st) -> back K_OuterHeaderCreation (d, teid, v4, v6, port, ct, st).
Proof.
  cbn [suited]. intros (H1 & H2 & H3 & H4 & H6 & T). pose proof (@C34_roundtrip_exact d teid v4 v6 port ct st) as R. cbv zeta in R. rewrite !high in R. change (0 + 8)%N with 8%N in R. change (1 + 8)%N with 9%N in R. change (2 + 8)%N with 10%N in R. change (3 + 8)%N with 11%N in R. change (4 + 8)%N with 12%N in R. change (5 + 8)%N with 13%N in R. change (6 + 8)%N with 14%N in R. change (7 + 8)%N with 15%N in R.
  destruct R as (w & M & P); auto using addr4_ok, addr6_ok.
  eexists _, w, _; split; [reflexivity|]; split; [exact M|]. split; [cbn [reads]; reflexivity|]. cbn [fparse]. rewrite P. unfold eof, when.
  destruct (N.testbit d 6 || N.testbit d 7); [destruct (N.testbit d 14 || N.testbit d 15)|]; reflexivity.
Qed.
Lemma back_delays fl a b c : octet fl /\ (a < 2 ^ 32)%N /\ (b < 2 ^ 32)%N /\ (c < 2 ^ 32)%N -> exists p, delays_marshal (new_delays fl a b c) = Ok p /\
  delays_parse p = Ok {| dy_flags := fl; dy_dl := when (N.testbit fl 0) a 0%N; dy_ul := when (N.testbit fl 1) b 0%N; dy_rp := when (N.testbit fl 2) c 0%N |}.
Proof. intros (H & A & B & C). exact (@C58_roundtrip fl a b c H A B C). Qed.
Lemma back_prstat fl ul aul dl adl t : suited K_PacketRateStatus (fl, ul, aul, dl, adl, t) -> back K_PacketRateStatus (fl, ul, aul, dl, adl, t).
Proof. cbn [suited]. intros (H1 & H2 & H3 & H4 & H5 & H6). destruct (@C61_roundtrip fl ul aul dl adl t H1 H2 H3 H4 H5 H6) as (w & M & P). fin M P. reflexivity. Qed.
Lemma back_prate fl a b c d : suited K_PacketRate (fl, a, b, c, d) -> back K_PacketRate (fl, a, b, c, d).
Proof. cbn [suited]. intros (H1 & H2 & H3 & H4 & H5 & H6). destruct (@C59_roundtrip fl a b c d H1 H2 H3 H4 H5 (bit_or H6)) as (w & M & P). fin M P. reflexivity. Qed.
Lemma back_pmf v4 v6 p1 p2 m1 m2 : suited K_PMFAddressInformation (v4, v6, p1, p2, m1, m2) -> back K_PMFAddressInformation (v4, v6, p1, p2, m1, m2).
Proof.
  cbn [suited]. intros (H4 & H6 & A & B & (C & C') & D & D').
  assert (Z : forall m, hw m -> m <> None -> present true 6 m) by (intros [x|] W N; [exists x; destruct (W x eq_refl); auto|congruence]).
  destruct (@C53_mac_lost_refuted v4 v6 p1 p2 m1 m2 (ip4_ok H4) (ip6_ok H6) A B (Z _ C C') (Z _ D D')) as (w & M & P).
  fin M P. unfold new_pmf. giv. gflags.
Qed.

Lemma back_redir t l : suited K_RedirectInformation (t, l) -> back K_RedirectInformation (t, l).
Proof.
  cbn [suited]. intros (H1 & H2 & H3). destruct l as [|a l]; [congruence|]. inversion H3 as [|? ? [Ba La] H4]; subst. clear H2 H3.
  set (c := match l with c :: _ => c | [] => [] end).
  assert (Bc : bytes c /\ (lenN c < 65536)%N) by (unfold c; destruct l as [|c' l']; [split; [constructor|reflexivity]|now inversion H4]). destruct Bc as [Bc Lc].
  assert (N : exists f, new_redir t (a :: l) = Some f /\ redir_marshal f = Ok (redir_wire t a c)).
  { destruct (@C64_marshal t a c (tl l) La Lc) as [W W1]. unfold new_redir_ie in W, W1. unfold c in *. destruct l as [|c' l']; cbn [tl] in *.
    - cbn [new_redir] in *. eauto.
    - cbn [new_redir] in *. eauto. }
  destruct N as (f & N & M). assert (B : bytes (redir_wire t a c ++ [])).
  { rewrite app_nil_r. unfold redir_wire. cbn [seg16]. repeat (apply bytes_app; split); try apply be_bytes; auto. now repeat constructor. }
  pose proof (@redir_wire_parse t a c [] H1 B La) as P. rewrite app_nil_r in P.
  exists (F_redir f), (redir_wire t a c). eexists (Ok (F_redir _)). split; [cbn [fnew]; now rewrite N|]. split; [exact M|]. split; [|cbn [fparse]; rewrite P; reflexivity].
  cbn [reads]. fold c. rewrite app_nil_r. destruct a; reflexivity.
Qed.
Lemma back_rpeer fl v4 v6 di ni : suited K_RemoteGTPUPeer (fl, v4, v6, di, ni) -> back K_RemoteGTPUPeer (fl, v4, v6, di, ni).
Proof.
  cbn [suited]. intros (H1 & H2 & H3 & H4 & H5 & H6 & B & T). destruct (@C54_new fl v4 v6 di ni H1 (addr4_ok H5) (addr6_ok H6) H2 H3 H4) as [W D].
  pose proof (@C54_marshal _ W T) as [L M]. cbv zeta in M.
  assert (X : 2 <= length (rpeer_wire (new_rpeer fl v4 v6 di ni) (repeat 0%N (N.to_nat (rg_dilen (new_rpeer fl v4 v6 di ni)) - 1)))).
  { pose proof W as (_ & P4 & P6 & _). unfold rpeer_wire. change (rg_flags (new_rpeer fl v4 v6 di ni)) with fl in *. rewrite !app_length. cbn [length].
    destruct B as (i & I & Bi). destruct I as [<- |[<- |[<- |[<- |[]]]]]; rewrite Bi in *.
    - destruct P6 as (x & -> & Lx & _). cbn [optb octs]. lia.
    - destruct P4 as (x & -> & Lx & _). cbn [optb octs]. lia.
    - cbn [opts]. rewrite !app_length, be_length. lia.
    - cbn [opts]. rewrite !app_length, be_length. lia. }
  specialize (M X). pose proof (@C54_decode (new_rpeer fl v4 v6 di ni) (repeat 0%N (N.to_nat (rg_dilen (new_rpeer fl v4 v6 di ni)) - 1)) [] W) as P. rewrite app_nil_r in P.
  assert (Q : N.testbit (rg_flags (new_rpeer fl v4 v6 di ni)) 2 = true -> rpeer_pad (new_rpeer fl v4 v6 di ni) (repeat 0%N (N.to_nat (rg_dilen (new_rpeer fl v4 v6 di ni)) - 1))).
  { unfold rpeer_pad, new_rpeer. cbn [rg_flags rg_dilen]. bits. intros ->. reflexivity. }
  assert (P' := P Q X). fin M P'. revert D. unfold new_rpeer. cbn [rg_di]. intros ->. bits. unfold u16. rewrite (N.mod_small (lenN ni)) by exact H4. reflexivity.
Qed.
Lemma back_sdf fd ttc spi fl fid : suited K_SDFFilter (fd, ttc, spi, fl, fid) -> back K_SDFFilter (fd, ttc, spi, fl, fid).
Proof.
  cbn [suited]. intros (B & L & H1 & H2 & H3 & H4). rewrite !bytes_app in B. destruct B as (B1 & B2 & B3 & B4).
  assert (Z : forall (s : list N) n, In (length s) [0; n] -> bytes s -> s = [] \/ length s = n /\ bytes s) by (intros s n [E|[E|[]]] Bs; [left; destruct s; [reflexivity|discriminate]|right; auto]).
  destruct (@C33_roundtrip_exact fd ttc spi fl fid) as (w & M & P). { split; [exact B1|]. split; [exact L|]. auto 10. }
  destruct (text fd || text ttc || text spi || text fl || negb (fid =? 0)%N) eqn:G.
  - assert (P' : sdf_parse w = Ok (new_sdf fd ttc spi fl fid)) by (apply P; intros (-> & -> & -> & -> & ->); discriminate G).
    fin M P'. rewrite G. unfold new_sdf. cbn [fold_left fst snd]. unfold u16. rewrite N.mod_small by exact L.
    destruct fd, ttc, spi, fl, (fid =? 0)%N; reflexivity.
  - destruct fd, ttc, spi, fl; try discriminate G. cbn [text orb] in G. apply Bool.negb_false_iff, N.eqb_eq in G. subst fid. exists (F_sdf (new_sdf [] [] [] [] 0)), [0; 0]%N, eof. repeat split; reflexivity.
Qed.
Lemma back_srcip v4 v6 m : suited K_SourceIPAddress (v4, v6, m) -> back K_SourceIPAddress (v4, v6, m).
Proof.
  cbn [suited]. intros (H4 & H6 & Hm). destruct (given v4 || given v6 || negb (m =? 0)%N) eqn:G.
  - destruct (@C50_new_roundtrip v4 v6 m (ip4_ok H4) (ip6_ok H6) Hm G) as (w & M & P). fin M P. rewrite G. unfold new_srcip. giv. gflags; destruct (m =? 0)%N; reflexivity.
  - destruct v4, v6; try discriminate G. cbn [given orb] in G. apply Bool.negb_false_iff, N.eqb_eq in G. subst m. exists (F_srcip (new_srcip None None 0)), [0]%N, eof. repeat split; reflexivity.
Qed.
Lemma back_vol3 fl a b c : octet fl /\ (a < 2 ^ 64)%N /\ (b < 2 ^ 64)%N /\ (c < 2 ^ 64)%N -> exists p r, vol3_marshal (new_vol3 fl a b c) = Ok p /\ reads K_VolumeQuota (fl, a, b, c) r /\ as_f F_vol3 (vol3_parse p) = (f <- r ;; Ok (VF f)).
Proof.
  intros (H & A & B & C). destruct (N.testbit fl 0 || N.testbit fl 1 || N.testbit fl 2) eqn:G.
  - destruct (@C36_volume_roundtrip fl a b c H A B C) as (w & M & P). exists w. eexists. split; [exact M|]. split; [cbn [reads]; rewrite G; reflexivity|].
    rewrite (proj2 P); [reflexivity|]. destruct (N.testbit fl 0) eqn:B0; [exists 0%N; split; [lia|exact B0]|]. destruct (N.testbit fl 1) eqn:B1; [exists 1%N; split; [lia|exact B1]|]. exists 2%N. split; [lia|exact G].
  - destruct (vol3_marshal_wire (new_vol3 fl a b c)) as [-> _]. exists (vol3_wire (new_vol3 fl a b c)), eof. split; [reflexivity|]. split; [cbn [reads]; now rewrite G|].
    apply orb_false_iff in G. destruct G as [G G2]. apply orb_false_iff in G. destruct G as [G0 G1]. unfold vol3_wire, new_vol3. cbn [v3_flags]. rewrite G0, G1, G2. reflexivity.
Qed.
Lemma back_volm fl a b c d e h : suited K_VolumeMeasurement (fl, a, b, c, d, e, h) -> back K_VolumeMeasurement (fl, a, b, c, d, e, h).
Proof.
  cbn [suited]. intros (H & F). repeat match goal with F : Forall _ (_ :: _) |- _ => inversion F as [|? ? ? ?]; clear F; subst end.
  destruct (N.testbit fl 0 || N.testbit fl 1 || N.testbit fl 2 || N.testbit fl 3 || N.testbit fl 4 || N.testbit fl 5) eqn:G.
  - destruct (@C36_measurement_roundtrip fl a b c d e h) as (w & M & P); try assumption.
    eexists _, w, _. split; [reflexivity|]. split; [exact M|]. split; [cbn [reads]; rewrite G; reflexivity|]. cbn [fparse]. rewrite (proj2 P); [reflexivity|].
    destruct (N.testbit fl 0) eqn:B0; [exists 0%N; split; [lia|exact B0]|]. destruct (N.testbit fl 1) eqn:B1; [exists 1%N; split; [lia|exact B1]|].
    destruct (N.testbit fl 2) eqn:B2; [exists 2%N; split; [lia|exact B2]|]. destruct (N.testbit fl 3) eqn:B3; [exists 3%N; split; [lia|exact B3]|].
    destruct (N.testbit fl 4) eqn:B4; [exists 4%N; split; [lia|exact B4]|]. exists 5%N. split; [lia|exact G].
  - exists (F_volm (new_volm fl a b c d e h)), (volm_wire (new_volm fl a b c d e h)), eof. split; [reflexivity|]. split; [exact (proj1 (volm_marshal_wire _))|]. split; [cbn [reads]; now rewrite G|].
    repeat (apply orb_false_iff in G; let G' := fresh "G'" in destruct G as [G G']). unfold volm_wire, new_volm. cbn [vm_flags].
    repeat match goal with E : N.testbit _ _ = false |- _ => rewrite E; clear E end. reflexivity.
Qed.
Lemma back_trace mcc mnc id ev depth ifs ip : suited K_TraceInformation (mcc, mnc, id, ev, depth, ifs, ip) -> back K_TraceInformation (mcc, mnc, id, ev, depth, ifs, ip).
Proof.
  cbn [suited]. intros (H1 & H2 & H3 & H4 & H5 & H6 & H7 & x & -> & Lx).
  assert (X : exists y, (to4 (Some x) = Some y \/ to4 (Some x) = None /\ Some x = Some y /\ length y = 16) /\ lenN y = if given (to4 (Some x)) then 4%N else 16%N).
  { destruct (to4 (Some x)) as [y|] eqn:E.
    - exists y. split; [auto|]. unfold lenN. rewrite (to4_len _ E). reflexivity.
    - exists x. destruct Lx as [Lx|Lx]; [cbn [to4] in E; rewrite Lx in E; discriminate E|]. split; [auto|]. unfold lenN. rewrite Lx. reflexivity. }
  destruct X as (y & X & Ly). destruct (@C67_roundtrip_exact mcc mnc id ev depth ifs (Some x) y H1 H2 H3 H4 H5 H6 H7 X) as (w & M & P). rewrite Ly in P. fin M P. reflexivity.
Qed.
Lemma back_ueip fl v4 v6 d p : suited K_UEIPAddress (fl, v4, v6, d, p) -> back K_UEIPAddress (fl, v4, v6, d, p).
Proof.
  cbn [suited]. intros (H1 & H2 & H3 & H4 & H6). assert (W : ueip_wf (new_ueip fl v4 v6 d p)).
  { apply C32_new; [exact H1|exact H2|exact H3| |]; [apply addr4_ok|apply addr6_ok]; intros C; apply andb_true_iff in C; destruct C as [C C']; apply Bool.negb_true_iff in C'; auto. }
  destruct (ueip_marshal_wire W) as [M _]. pose proof (ueip_parse_wire [] W) as P. rewrite app_nil_r in P. fin M P. unfold new_ueip. cbn [ue_flags ue_v4 ue_v6 ue_v6d ue_v6pl]. bits.
  destruct (N.testbit fl 3), (N.testbit fl 6); reflexivity.
Qed.
Lemma back_ulip a b c d : suited K_UELinkSpecificIPAddress (a, b, c, d) -> back K_UELinkSpecificIPAddress (a, b, c, d).
Proof.
  cbn [suited]. intros (A & B & C & D). destruct (@C51_new_roundtrip a b c d (ip4_ok A) (ip6_ok B) (ip4_ok C) (ip6_ok D)) as (w & M & P). fin M P. unfold new_ulip. giv. gflags.
Qed.
Lemma back_upri fl rg v4 v6 ni si : suited K_UserPlaneIPResourceInformation (fl, rg, v4, v6, ni, si) -> back K_UserPlaneIPResourceInformation (fl, rg, v4, v6, ni, si).
Proof.
  cbn [suited]. intros (H1 & H2 & H3 & H4 & H5 & H6 & B).
  destruct (@C66_roundtrip_exact fl rg v4 v6 ni si H1 H2 (addr4_ok H5) (addr6_ok H6) H3 H4) as [[_ L]|(w & M & P)].
  - exfalso. pose proof (@new_upri_wf fl rg v4 v6 ni si H1 H2 (addr4_ok H5) (addr6_ok H6) H3 ltac:(unfold octet; lia)) as (_ & _ & P4 & P6 & _). revert L P4 P6. unfold upri_wire, new_upri. cbn [up_flags up_range up_v4 up_v6 up_ni up_si].
    bits. rewrite !app_length. cbn [length]. intros L P4 P6. destruct B as [(i & I & Bi)|[B5 N]].
    + destruct I as [<- |[<- |[<- |[<- |[<- |[<- |[]]]]]]]; rewrite Bi in *; rewrite ?orb_true_r in L; cbn [orb optn] in L; rewrite ?be_length in L; try lia.
      * destruct P4 as (x & E & Lx & _). rewrite E in L. cbn [optb octs] in L. lia.
      * destruct P6 as (x & E & Lx & _). rewrite E in L. cbn [optb octs] in L. lia.
    + rewrite B5 in L. destruct ni; [congruence|]. cbn [opts length] in L. lia.
  - eexists _, w, _. split; [reflexivity|]. split; [exact M|]. split; [cbn [reads]; reflexivity|]. cbn [fparse]. rewrite P. unfold eof, when, new_upri. rewrite (teidri_bits H1). bits.
    destruct (N.testbit fl 5); [destruct (N.testbit fl 6)|]; reflexivity.
Qed.

Lemma bcd_length c s v : bcd_octets c s = Ok v -> bcd_arg c s -> lenN v = when c ((lenN s + 1) / 2)%N 0%N.
Proof.
  intros O A. destruct (bcd_arg_ok A) as (v' & O' & F & _). destruct (bcd_field_cases c s) as [(C & N & E)|(_ & v'' & O'' & E & L)]; [congruence|].
  assert (v'' = v) by congruence. subst v''. unfold lenN, when. rewrite L. destruct c; cbn [len_if]; [|reflexivity].
  rewrite Nat.div2_div, Nat2N.inj_div. f_equal. lia.
Qed.
Lemma new_userid_wire fl i e m n v1 v2 v3 : bcd_arg (N.testbit fl 0) i -> bcd_arg (N.testbit fl 1) e -> bcd_arg (N.testbit fl 2) m ->
  bcd_octets (N.testbit fl 0) i = Ok v1 -> bcd_octets (N.testbit fl 1) e = Ok v2 -> bcd_octets (N.testbit fl 2) m = Ok v3 ->
  (N.testbit fl 3 = true -> bytes n /\ (lenN n < 256)%N) ->
  exists f, new_userid fl i e m n = Ok (Some f) /\ userid_marshal f = Ok (userid_wire fl v1 v2 v3 (if N.testbit fl 3 then n else [])).
Proof.
  intros A1 A2 A3 O1 O2 O3 A4. destruct (bcd_arg_ok A1) as (v1' & O1' & F1 & S1 & _). destruct (bcd_arg_ok A2) as (v2' & O2' & F2 & S2 & _). destruct (bcd_arg_ok A3) as (v3' & O3' & F3 & S3 & _).
  assert (v1' = v1) by congruence. assert (v2' = v2) by congruence. assert (v3' = v3) by congruence. subst v1' v2' v3'.
  assert (S4 : short (N.testbit fl 3) 256 (if N.testbit fl 3 then n else [])) by (destruct (N.testbit fl 3); [now apply A4|reflexivity]).
  assert (U4 : (if N.testbit fl 3 then u8 (lenN n) else 0%N) = lenN (if N.testbit fl 3 then n else [])).
  { destruct (N.testbit fl 3); [|reflexivity]. unfold u8. apply N.mod_small. now apply A4. }
  unfold new_userid. bits. rewrite F1. unfold bind at 1. rewrite F2. unfold bind at 1. rewrite F3. unfold bind at 1. rewrite U4. clear U4. eexists. split; [reflexivity|].
  rewrite userid_marshal_eq. unfold userid_pre, userid_marshal_len. cbn [ui_flags ui_imsilen ui_imsi ui_imeilen ui_imei ui_msisdnlen ui_msisdn ui_nailen ui_nai]. bits.
  assert (Z : forall c s v, bcd_octets c s = Ok v -> bcd_octets c (if c then s else []) = Ok v) by (intros [] s v; auto).
  rewrite (Z _ _ _ O1), (Z _ _ _ O2), (Z _ _ _ O3). rewrite !Codec2.lenN_nat.
  match goal with |- context [make ?k] => replace k with (1 + (length (seg8 (N.testbit fl 0) v1) + length (seg8 (N.testbit fl 1) v2) + length (seg8 (N.testbit fl 2) v3) + length (seg8 (N.testbit fl 3) (if N.testbit fl 3 then n else [])))) by (lens2; lia) end.
  match goal with |- context [length (make ?n) <? 1] => destruct (Nat.ltb_spec (length (make n)) 1) as [L|_]; [rewrite make_length in L; lia|] end.
  rewrite put0. cbn [bind]. change (cp8s ?c ?n ?s ?b 1) with (cp8s c n s b (length [fl])). repeat wr2. unfold userid_wire. wr_done2.
Qed.
Lemma back_userid fl i e m n : suited K_UserID (fl, i, e, m, n) -> back K_UserID (fl, i, e, m, n).
Proof.
  cbn [suited]. intros (Ofl & D & A4).
  assert (A1 : bcd_arg (N.testbit fl 0) i) by (intros C; exact (D 0%N i ltac:(cbn; auto) C)).
  assert (A2 : bcd_arg (N.testbit fl 1) e) by (intros C; exact (D 1%N e ltac:(cbn; auto) C)).
  assert (A3 : bcd_arg (N.testbit fl 2) m) by (intros C; exact (D 2%N m ltac:(cbn; auto) C)). clear D.
  destruct (bcd_arg_ok A1) as (v1 & O1 & F1 & S1 & B1). destruct (bcd_arg_ok A2) as (v2 & O2 & F2 & S2 & B2). destruct (bcd_arg_ok A3) as (v3 & O3 & F3 & S3 & B3).
  pose proof (bcd_length O1 A1) as L1. pose proof (bcd_length O2 A2) as L2. pose proof (bcd_length O3 A3) as L3.
  assert (S4 : short (N.testbit fl 3) 256 (if N.testbit fl 3 then n else [])) by (destruct (N.testbit fl 3); [now apply A4|reflexivity]).
  assert (U4 : (if N.testbit fl 3 then u8 (lenN n) else 0%N) = lenN (if N.testbit fl 3 then n else [])).
  { destruct (N.testbit fl 3); [|reflexivity]. unfold u8. apply N.mod_small. now apply A4. }
  destruct (@new_userid_wire fl i e m n v1 v2 v3 A1 A2 A3 O1 O2 O3 A4) as (f & Nw & M).
  assert (P := @userid_parse_wire fl v1 v2 v3 (if N.testbit fl 3 then n else []) [] (conj Ofl (conj S1 (conj S2 (conj S3 S4))))). rewrite app_nil_r in P.
  exists (F_userid f), (userid_wire fl v1 v2 v3 (if N.testbit fl 3 then n else [])), (Ok (F_userid (userid_decoded fl v1 v2 v3 (if N.testbit fl 3 then n else [])))).
  split; [cbn [fnew]; now rewrite Nw|]. split; [exact M|]. split; [|cbn [fparse]; rewrite P; reflexivity].
  cbn [reads]. unfold userid_decoded. rewrite L1, L2, L3.
  assert (Z : forall c (s : list N), short c 256 s -> swapped_to_str s true = if c then swapped_to_str s true else []) by (intros [] s S; [auto|cbn in S; subst s; auto]).
  rewrite (Z _ _ S1), (Z _ _ S2), (Z _ _ S3), B1, B2, B3. change bcd_back with digits_back. unfold when. destruct (N.testbit fl 3); reflexivity.
Qed.
Lemma back_macl ct st macs : suited K_MACAddressesDetected (ct, st, macs) -> exists f p r, new_macl ct st macs = Ok f /\ macl_marshal f = Ok p /\ reads K_MACAddressesDetected (ct, st, macs) r /\ as_f F_macl (macl_parse p) = (f <- r ;; Ok (VF f)).
Proof.
  cbn [suited]. intros (F & L & c & s & -> & -> & Bc & Bs & Lc & Ls). destruct (@C68_new c s macs L) as (f & Nw & M).
  assert (E : map fit6 macs = macs). { clear - F. induction F as [|m l [_ Lm] _ IH]; [reflexivity|]. cbn [map]. now rewrite (@C68_fit6 _ Lm), IH. }
  assert (K : forall x, (lenN x < 256)%N -> cut256 x = x) by (intros x Lx; now apply cut256_short). rewrite E, (K c Lc), (K s Ls) in M. clear E K.
  exists f, (macl_wire macs c s). unfold macl_wire. cbn [octs reads]. set (tail := (lenN c :: c) ++ lenN s :: s).
  assert (Bt : bytes tail). { unfold tail. apply bytes_app. split; constructor; assumption. }
  eexists. split; [exact Nw|]. split; [exact M|]. split; [reflexivity|]. destruct (Nat.ltb_spec (length tail) 6) as [T|T].
  - assert (Bm : bytes (concat macs)) by (clear - F; induction F as [|m l [Bm _] _ IH]; [constructor|cbn [concat]; apply bytes_app; auto]).
    rewrite (@macl_parse_short (lenN macs) (concat macs ++ tail)); [reflexivity|now apply bytes_app|]. rewrite app_length, (concat_len F), lenN_natA. lia.
  - assert (Bf : mac6 (firstn 6 tail)). { split; [|rewrite firstn_length; lia]. apply Forall_forall. intros x I. apply (proj1 (Forall_forall octet tail) Bt). rewrite <- (firstn_skipn 6 tail). apply in_or_app. auto. }
    replace (concat macs ++ tail) with (concat (macs ++ [firstn 6 tail]) ++ skipn 6 tail) by (rewrite concat_app; cbn [concat]; rewrite app_nil_r, <- app_assoc, firstn_skipn; reflexivity).
    rewrite macl_parse_form; [|apply Forall_app; split; [exact F|constructor; [exact Bf|constructor]]|rewrite app_length, lenN_natA; cbn [length]; lia].
    destruct (skipn 6 tail) as [|t q]; [reflexivity|]. destruct (Nat.leb_spec (N.to_nat t) (S (length q))) as [K|K]; destruct (N.ltb_spec (lenN q + 1) t) as [K'|K']; unfold lenN in *; try reflexivity; lia.
Qed.
Lemma back_pfdc fd url dn cp dnp afd aurl adnp : suited K_PFDContents (fd, url, dn, cp, dnp, afd, aurl, adnp) -> back K_PFDContents (fd, url, dn, cp, dnp, afd, aurl, adnp).
Proof.
  cbn [suited]. intros (F1 & F2). inversion F1 as [|? ? A1 G1]; inversion G1 as [|? ? A2 G2]; inversion G2 as [|? ? A3 G3]; inversion G3 as [|? ? A4 G4]; inversion G4 as [|? ? A5 _]. subst.
  inversion F2 as [|? ? [C1 D1] H1]; inversion H1 as [|? ? [C2 D2] H2]; inversion H2 as [|? ? [C3 D3] _]. subst. clear F1 G1 G2 G3 G4 F2 H1 H2.
  destruct (@C35_roundtrip_exact fd url dn cp dnp afd aurl adnp A1 A2 A3 A4 A5 C1 C2 C3 (conj D1 (conj D2 D3))) as (M & _ & P & P'). rewrite new_pfdc_flags in P, P'.
  set (fl := pfd_flags _) in *.
  set (fl' := flagsum [(text fd, 1); (text url, 2); (text dn, 4); (text cp, 8); (text dnp, 16); (present_list afd, 32); (present_list aurl, 64); (present_list adnp, 128)]%N).
  assert (E : fl' = fl) by (unfold fl, fl'; now destruct fd, url, dn, cp, dnp, afd, aurl, adnp).
  exists (F_pfdc (new_pfdc fd url dn cp dnp afd aurl adnp)), (pfdc_octets fd url dn cp dnp afd aurl adnp).
  exists (x <- pfdc_parse (pfdc_octets fd url dn cp dnp afd aurl adnp) ;; Ok (F_pfdc x)). split; [reflexivity|]. split; [exact M|].
  split; [|cbn [fparse]; unfold as_f; destruct (pfdc_parse _); reflexivity].
  cbn [reads]. fold (present_list afd) (present_list aurl) (present_list adnp). fold fl'. rewrite E. unfold pfdc_octets in P, P' |- *. fold fl in P, P' |- *.
  rewrite app_length in P, P'. cbn [length] in P, P'. split; intros R.
  - now rewrite (P R).
  - now rewrite (P' R).
Qed.
Theorem back_all k a : suited k a -> back k a.
Proof.
  destruct k; cbn [fargs] in a; repeat match goal with x : (_ * _)%type |- _ => destruct x end; intros H.
  all: first [now apply back_fseid | now apply back_dlfl | now apply back_fteid | now apply back_henr | now apply back_mcast | now apply back_macaddr | now apply back_mptcp
    | now apply back_nue | now apply back_ohc | now apply back_prstat | now apply back_prate | now apply back_pmf | now apply back_redir | now apply back_rpeer | now apply back_sdf
    | now apply back_srcip | now apply back_volm | now apply back_trace | now apply back_ueip | now apply back_ulip | now apply back_upri | now apply back_userid | now apply back_pfdc
    | (destruct (back_altip H) as (p & r & M & R & P); eexists (F_altip _), p, r; split; [reflexivity|]; now repeat split)
    | (destruct (back_tag H) as (p & M & P); fin M P; reflexivity)
    | (destruct (back_delays H) as (p & M & P); fin M P; reflexivity)
    | (destruct (back_vol3 H) as (p & r & M & R & P); eexists (F_vol3 _), p, r; split; [reflexivity|]; now repeat split)
    | (destruct (back_macl H) as (f & p & r & N & M & R & P); exists (F_macl f), p, r; split; [cbn [fnew]; now rewrite N|]; now repeat split)
    | idtac ].
Qed.
