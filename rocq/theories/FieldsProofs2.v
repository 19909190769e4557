From Verif Require Import Base Bits Codec Time Fields2 FieldsSpec2 FieldsProofs1 FieldsProofs1b TimeProofs.
Set Implicit Arguments.
Lemma ranged_keep c n v : (v < 256 ^ N.of_nat n)%N -> ranged c n (keep c v).
Proof. intros H. destruct c; [exact H|reflexivity]. Qed.

(** * Volume Measurement *)
Ltac cv := cbn [vm_flags vm_tvol vm_uvol vm_dvol vm_tpkt vm_upkt vm_dpkt].
Lemma volm_total b : returns (volm_parse b).
Proof. unfold volm_parse. tot. Qed.
Lemma volm_parse_wire f r : volm_wf f -> 2 <= length (volm_wire f ++ r) -> volm_parse (volm_wire f ++ r) = Ok f.
Proof.
  destruct f as [fl a b c d e g]. unfold volm_parse, volm_wf, volm_wire. cv.
  intros (Hfl & H1 & H2 & H3 & H4 & H5 & H6) L. destruct (Nat.ltb_spec (length (([fl] ++ optn (N.testbit fl 0) 8 a ++ optn (N.testbit fl 1) 8 b ++ optn (N.testbit fl 2) 8 c ++ optn (N.testbit fl 3) 8 d ++ optn (N.testbit fl 4) 8 e ++ optn (N.testbit fl 5) 8 g) ++ r)) 2); [lia|]. clear L.
  rewrite <- ?app_assoc, index0_app. cbn [bind]. bits. enter fl. repeat fwd1. reflexivity.
Qed.
Lemma volm_parse_inv b f : bytes b -> volm_parse b = Ok f -> volm_wf f /\ 2 <= length b /\ exists r, bytes r /\ b = volm_wire f ++ r.
Proof.
  unfold volm_parse, volm_wf, volm_wire. intros Hb H. destruct (Nat.ltb_spec (length b) 2) as [|Hl]; [discriminate|].
  start_inv fl q Hb H. repeat inv1 H Hq. injection H as <-. cv.
  split; [auto 10|]. split; [exact Hl|]. eexists. split; [exact Hq|]. now rewrite <- !app_assoc.
Qed.
Lemma volm_marshal_wire f : volm_marshal f = Ok (volm_wire f) /\ volm_marshal_len f = length (volm_wire f).
Proof.
  destruct f as [fl a b c d e g]. unfold volm_marshal, volm_marshal_to, volm_marshal_len, volm_wire. cv.
  bits. split; [|lens; cbn; lia]. start_wr fl. repeat wr1. wr_done.
Qed.
Lemma volm_new_wf fl a b c d e g : octet fl -> (a < 2 ^ 64)%N -> (b < 2 ^ 64)%N -> (c < 2 ^ 64)%N -> (d < 2 ^ 64)%N -> (e < 2 ^ 64)%N -> (g < 2 ^ 64)%N -> volm_wf (new_volm fl a b c d e g).
Proof. intros. unfold volm_wf, new_volm. cv. bits. repeat split; auto; now apply ranged_keep. Qed.

(** * three volumes *)
Ltac cv3 := cbn [v3_flags v3_tvol v3_uvol v3_dvol].
Lemma vol3_total b : returns (vol3_parse b).
Proof. unfold vol3_parse. tot. Qed.
Ltac skip_need := match goal with |- (if length ?b <? ?n then _ else _) = _ => destruct (Nat.ltb_spec (length b) n); [lia|] end.
Lemma vol3_parse_wire f r : vol3_wf f -> 2 <= length (vol3_wire f ++ r) -> vol3_parse (vol3_wire f ++ r) = Ok f.
Proof.
  intros W L. unfold vol3_parse. skip_need. clear L H. destruct f as [fl a b c]. unfold vol3_wf, vol3_wire in *. cbn [v3_flags v3_tvol v3_uvol v3_dvol] in *.
  destruct W as (Hfl & H1 & H2 & H3).
  rewrite <- ?app_assoc, index0_app. cbn [bind]. bits. enter fl. repeat fwd1. reflexivity.
Qed.
Lemma vol3_parse_inv b f : bytes b -> vol3_parse b = Ok f -> vol3_wf f /\ 2 <= length b /\ exists r, bytes r /\ b = vol3_wire f ++ r.
Proof.
  unfold vol3_parse, vol3_wf, vol3_wire. intros Hb H. destruct (Nat.ltb_spec (length b) 2) as [|Hl]; [discriminate|].
  start_inv fl q Hb H. repeat inv1 H Hq. injection H as <-. cv3.
  split; [auto 10|]. split; [exact Hl|]. eexists. split; [exact Hq|]. now rewrite <- !app_assoc.
Qed.
Lemma vol3_marshal_wire f : vol3_marshal f = Ok (vol3_wire f) /\ vol3_marshal_len f = length (vol3_wire f).
Proof.
  destruct f as [fl a b c]. unfold vol3_marshal, vol3_marshal_to, vol3_marshal_len, vol3_wire. cv3.
  bits. split; [|lens; cbn; lia]. start_wr fl. repeat wr1. wr_done.
Qed.
Lemma vol3_new_wf fl a b c : octet fl -> (a < 2 ^ 64)%N -> (b < 2 ^ 64)%N -> (c < 2 ^ 64)%N -> vol3_wf (new_vol3 fl a b c).
Proof. intros. unfold vol3_wf, new_vol3. cv3. bits. repeat split; auto; now apply ranged_keep. Qed.

(** * Number of UE IP Addresses *)
Ltac cnu := cbn [nu_flags nu_v4 nu_v6].
Lemma nue_total b : returns (nue_parse b).
Proof. unfold nue_parse. tot. Qed.
Lemma nue_parse_wire f r : nue_wf f -> nue_parse (nue_wire f ++ r) = Ok f.
Proof.
  destruct f as [fl a b]. unfold nue_parse, nue_wf, nue_wire. cnu. intros (Hfl & H1 & H2). start_fwd. enter fl. repeat fwd1. reflexivity.
Qed.
Lemma nue_parse_inv b f : bytes b -> nue_parse b = Ok f -> nue_wf f /\ exists r, bytes r /\ b = nue_wire f ++ r.
Proof.
  unfold nue_parse, nue_wf, nue_wire. intros Hb H. destruct (Nat.ltb_spec (length b) 1) as [|Hl]; [discriminate|].
  start_inv fl q Hb H. repeat inv1 H Hq. injection H as <-. cnu. split; [auto 10|]. eexists. split; [exact Hq|]. now rewrite <- !app_assoc.
Qed.
Lemma nue_marshal_wire f : nue_marshal f = Ok (nue_wire f) /\ nue_marshal_len f = length (nue_wire f).
Proof.
  destruct f as [fl a b]. unfold nue_marshal, nue_marshal_to, nue_marshal_len, nue_wire. cnu.
  bits. split; [|lens; cbn; lia]. start_wr fl. repeat wr1. wr_done.
Qed.
Lemma nue_drop_wf fl v4 v6 : octet fl -> (v4 < 2 ^ 32)%N -> (v6 < 2 ^ 32)%N -> nue_wf (nue_drop (new_nue fl v4 v6)) /\ nue_wire (nue_drop (new_nue fl v4 v6)) = nue_wire (new_nue fl v4 v6).
Proof.
  intros. unfold nue_wf, nue_drop, nue_wire, new_nue. cnu. split.
  - repeat split; auto; now apply ranged_keep.
  - now destruct (N.testbit fl 0), (N.testbit fl 1).
Qed.

(** * Delays *)
Ltac cdy := cbn [dy_flags dy_dl dy_ul dy_rp].
Lemma delays_total b : returns (delays_parse b).
Proof. unfold delays_parse. tot. Qed.
Lemma delays_parse_wire f r : delays_wf f -> delays_parse (delays_wire f ++ r) = Ok f.
Proof.
  destruct f as [fl a b c]. unfold delays_parse, delays_wf, delays_wire. cdy. intros (Hfl & H1 & H2 & H3). start_fwd. enter fl. repeat fwd1. reflexivity.
Qed.
Lemma delays_parse_inv b f : bytes b -> delays_parse b = Ok f -> delays_wf f /\ exists r, bytes r /\ b = delays_wire f ++ r.
Proof.
  unfold delays_parse, delays_wf, delays_wire. intros Hb H. destruct (Nat.ltb_spec (length b) 1) as [|Hl]; [discriminate|].
  start_inv fl q Hb H. repeat inv1 H Hq. injection H as <-. cdy. split; [auto 10|]. eexists. split; [exact Hq|]. now rewrite <- !app_assoc.
Qed.
Lemma delays_marshal_wire f : delays_marshal f = Ok (delays_wire f) /\ delays_marshal_len f = length (delays_wire f).
Proof.
  destruct f as [fl a b c]. unfold delays_marshal, delays_marshal_to, delays_marshal_len, delays_wire. cdy.
  bits. split; [|lens; cbn; lia]. start_wr fl. repeat wr1. wr_done.
Qed.
Lemma delays_drop_wf fl a b c : octet fl -> (a < 2 ^ 32)%N -> (b < 2 ^ 32)%N -> (c < 2 ^ 32)%N ->
  delays_wf (delays_drop (new_delays fl a b c)) /\ delays_wire (delays_drop (new_delays fl a b c)) = delays_wire (new_delays fl a b c).
Proof.
  intros. unfold delays_wf, delays_drop, delays_wire, new_delays. cdy. split.
  - repeat split; auto; now apply ranged_keep.
  - now destruct (N.testbit fl 0), (N.testbit fl 1), (N.testbit fl 2).
Qed.

(** * Packet Rate *)
Ltac cpr := cbn [pr_flags pr_uunit pr_dunit pr_urate pr_drate].
Lemma rd_rate_returns c b o : returns (rd_rate c b o).
Proof.
  unfold rd_rate. tot. destruct (@getr_returns 2 b (o + 1) (o + 3)) as (v & ->); [lia..|]. apply returns_ok.
Qed.
Lemma rd_rate_app c p u v q : ranged c 1 u -> ranged c 2 v ->
  rd_rate c (p ++ optn c 1 u ++ optn c 2 v ++ q) (length p) = Ok (u, v, length (p ++ optn c 1 u ++ optn c 2 v)).
Proof.
  unfold rd_rate, ranged, optn. destruct c; [|intros -> ->; now rewrite app_nil_r].
  intros Hu Hv. rewrite be1 by exact Hu.
  destruct (Nat.ltb_spec (length (p ++ [u] ++ be 2 v ++ q)) (length p + 3)) as [L|_]; [rewrite !app_length, be_length in L; cbn [length] in L; lia|].
  change ([u] ++ be 2 v ++ q) with (u :: (be 2 v ++ q)) at 1. rewrite index_app by reflexivity. cbn [bind]. rewrite app_assoc. replace (length p + 1) with (length (p ++ [u])) by (rewrite app_length; reflexivity).
  replace (length p + 3) with (length (p ++ [u]) + 2) by (rewrite app_length; cbn [length]; lia). rewrite getr_app by exact Hv. cbn [bind].
  do 2 f_equal. rewrite !app_length, be_length. cbn [length]. lia.
Qed.
Lemma rd_rate_inv c p q u v o : rd_rate c (p ++ q) (length p) = Ok (u, v, o) -> bytes q ->
  exists q', p ++ q = (p ++ optn c 1 u ++ optn c 2 v) ++ q' /\ o = length (p ++ optn c 1 u ++ optn c 2 v) /\ ranged c 1 u /\ ranged c 2 v /\ bytes q'.
Proof.
  unfold rd_rate, ranged, optn. destruct c; intros H Hq.
  - destruct (Nat.ltb_spec (length (p ++ q)) (length p + 3)) as [|L]; [discriminate|]. rewrite app_length in L.
    destruct q as [|u' q]; [cbn [length] in L; lia|]. rewrite index_app in H by reflexivity. cbn [bind] in H. change (u' :: q) with ([u'] ++ q) in *.
    apply bytes_hd in Hq. destruct Hq as [Hu Hq]. apply bind_ok in H. destruct H as (v' & E & H). rewrite app_assoc in E.
    replace (length p + 1) with (length (p ++ [u'])) in E by (rewrite app_length; reflexivity).
    apply getr_inv in E; [|rewrite app_length; cbn [length]; lia|exact Hq]. destruct E as (q' & E & Hv & Hq').
    assert (u' = u /\ v' = v /\ length p + 3 = o) as (-> & -> & <-) by (repeat split; congruence). clear H.
    exists q'. rewrite be1 by exact Hu. rewrite app_assoc, E, <- !app_assoc. repeat split; auto. rewrite !app_length, be_length. cbn [length]. lia.
  - injection H as <- <- <-. exists q. rewrite app_nil_r. auto.
Qed.
Lemma prate_total b : returns (prate_parse b).
Proof. unfold prate_parse. tot; try apply rd_rate_returns. Qed.
Lemma prate_parse_wire f r : prate_wf f -> 2 <= length (prate_wire f ++ r) -> prate_parse (prate_wire f ++ r) = Ok f.
Proof.
  intros W L. unfold prate_parse. skip_need. clear L H. destruct f as [fl a b c d]. unfold prate_wf, prate_wire in *. cbn [pr_flags pr_uunit pr_dunit pr_urate pr_drate] in *.
  destruct W as (Hfl & H1 & H2 & H3 & H4). rewrite <- ?app_assoc, index0_app. cbn [bind]. bits.
  change (rd_rate ?c ?b 1) with (rd_rate c b (length [fl])). rewrite rd_rate_app by assumption. cbn [bind].
  rewrite (app_assoc [fl]), (app_assoc ([fl] ++ _)). rewrite (app_assoc [fl] _ (optn (N.testbit fl 0) 2 c)). rewrite rd_rate_app by assumption. reflexivity.
Qed.
Lemma prate_parse_inv b f : bytes b -> prate_parse b = Ok f -> prate_wf f /\ 2 <= length b /\ exists r, bytes r /\ b = prate_wire f ++ r.
Proof.
  unfold prate_parse, prate_wf, prate_wire. intros Hb H. destruct (Nat.ltb_spec (length b) 2) as [|Hl]; [discriminate|].
  start_inv fl q Hb H. change (rd_rate ?c ?b 1) with (rd_rate c b (length [fl])) in H.
  apply bind_ok in H. destruct H as ([[uu ur] o] & E & H). apply rd_rate_inv in E; [|exact Hq]. destruct E as (q1 & E & -> & P1 & P2 & Hq1). rewrite E in *. clear E.
  apply bind_ok in H. destruct H as ([[du dr] o] & E & H). apply rd_rate_inv in E; [|exact Hq1]. destruct E as (q2 & E & -> & P3 & P4 & Hq2). rewrite E in *. clear E.
  injection H as <-. cpr. split; [auto 10|]. split; [exact Hl|]. exists q2. split; [exact Hq2|]. now rewrite <- !app_assoc.
Qed.
Lemma prate_marshal_wire f : prate_marshal_len f = length (prate_wire f) /\
  prate_marshal f = if N.testbit (pr_flags f) 0 || N.testbit (pr_flags f) 1 then Ok (prate_wire f) else Err EUnexpectedEOF.
Proof.
  destruct f as [fl a b c d]. unfold prate_marshal, prate_marshal_to, prate_marshal_len, prate_wire. cpr. bits.
  split; [lens; destruct (N.testbit fl 0), (N.testbit fl 1); reflexivity|].
  destruct (N.testbit fl 0) eqn:E0; cbn [orb].
  - change (length (make (1 + (len_if true 3 + ?n))) <? 2) with false. cbn match. rewrite put0. cbn [bind]. enter fl. destruct (N.testbit fl 1); repeat wr1; wr_done.
  - destruct (N.testbit fl 1) eqn:E1; [|reflexivity].
    change (length (make (1 + (len_if false 3 + len_if true 3))) <? 2) with false. cbn match. rewrite put0. cbn [bind]. enter fl. repeat wr1. wr_done.
Qed.
Lemma prate_new_wf fl a b c d : octet fl -> octet a -> (b < 65536)%N -> octet c -> (d < 65536)%N -> prate_wf (new_prate fl a b c d).
Proof. intros. unfold prate_wf, new_prate. cpr. bits. repeat split; auto; now apply ranged_keep. Qed.

(** * DL Flow Level Marking *)
Ltac cdm := cbn [dm_flags dm_ttc dm_sci].
Lemma dlfl_total b : returns (dlfl_parse b).
Proof. unfold dlfl_parse. tot. Qed.
Lemma dlfl_parse_wire f r : dlfl_wf f -> dlfl_parse (dlfl_wire f ++ r) = Ok f.
Proof. destruct f as [fl a b]. unfold dlfl_parse, dlfl_wf, dlfl_wire. cdm. intros (Hfl & H1 & H2). start_fwd. enter fl. repeat fwd1. reflexivity. Qed.
Lemma dlfl_parse_inv b f : bytes b -> dlfl_parse b = Ok f -> dlfl_wf f /\ exists r, bytes r /\ b = dlfl_wire f ++ r.
Proof.
  unfold dlfl_parse, dlfl_wf, dlfl_wire. intros Hb H. destruct (Nat.ltb_spec (length b) 1) as [|Hl]; [discriminate|].
  start_inv fl q Hb H. repeat inv1 H Hq. injection H as <-. cdm. split; [auto 10|]. eexists. split; [exact Hq|]. now rewrite <- !app_assoc.
Qed.
Lemma dlfl_marshal_wire f : dlfl_marshal_len f = length (dlfl_wire f) /\
  dlfl_marshal f = if N.testbit (dm_flags f) 0 || N.testbit (dm_flags f) 1 then Ok (dlfl_wire f) else Err EUnexpectedEOF.
Proof.
  destruct f as [fl a b]. unfold dlfl_marshal, dlfl_marshal_to, dlfl_marshal_len, dlfl_wire. cdm. bits.
  split; [lens; cbn; lia|].
  destruct (N.testbit fl 0) eqn:E0; cbn [orb].
  - change (length (make (1 + (len_if true 2 + ?n))) <? 2) with false. cbn match. rewrite put0. cbn [bind]. enter fl. repeat wr1; wr_done.
  - destruct (N.testbit fl 1) eqn:E1; [|reflexivity].
    change (length (make (1 + (len_if false 2 + len_if true 2))) <? 2) with false. cbn match. rewrite put0. cbn [bind]. enter fl. repeat wr1. wr_done.
Qed.
Lemma dlfl_new_wf fl a b : octet fl -> (a < 65536)%N -> (b < 65536)%N -> dlfl_wf (new_dlfl fl a b).
Proof. intros. unfold dlfl_wf, new_dlfl. cdm. bits. repeat split; auto; now apply ranged_keep. Qed.

(** * Packet Rate Status *)
Ltac cps := cbn [ps_flags ps_ul ps_aul ps_dl ps_adl ps_time].
Lemma prstat_total b : returns (prstat_parse b).
Proof. unfold prstat_parse. tot. Qed.
Lemma time_of_ntp64_ok x : time_of_ntp64 x = ntp_time x.
Proof.
  unfold time_of_ntp64, ntp_time, second. f_equal. unfold to_i64, u64.
  assert (E : Z.of_N ((x + (18446744073709551616 - 2208988800)) mod 18446744073709551616) = ((Z.of_N x - 2208988800) mod 2 ^ 64)%Z).
  { rewrite N2Z.inj_mod, N2Z.inj_add. change (Z.of_N 18446744073709551616) with (2 ^ 64)%Z. change (Z.of_N (18446744073709551616 - 2208988800)) with (-2208988800 + 1 * 2 ^ 64)%Z.
    rewrite Z.add_assoc, Z.mod_add by lia. reflexivity. }
  rewrite E. cbv zeta. destruct (N.ltb_spec ((x + (18446744073709551616 - 2208988800)) mod 18446744073709551616) 9223372036854775808);
  destruct (Z.ltb_spec ((Z.of_N x - 2208988800) mod 2 ^ 64) (2 ^ 63)); lia.
Qed.
Lemma prstat_parse_wire f x r : prstat_wf f -> (x < 2 ^ 64)%N -> ps_time f = ntp_time x -> prstat_parse (prstat_wire f x ++ r) = Ok f.
Proof.
  destruct f as [fl a b c d t]. unfold prstat_parse, prstat_wf, prstat_wire. cps. intros (Hfl & H1 & H2 & H3 & H4) Hx ->.
  assert (H5 : ranged true 8 x) by exact Hx. rewrite <- !app_assoc.
  match goal with |- (if length ?b <? 2 then _ else _) = _ => destruct (Nat.ltb_spec (length b) 2) as [L|_]; [revert L; lens; cbn; lia|] end.
  rewrite index0_app. cbn [bind]. bits. enter fl. repeat fwd1. now rewrite time_of_ntp64_ok.
Qed.
Lemma prstat_parse_inv b f : bytes b -> prstat_parse b = Ok f ->
  prstat_wf f /\ exists x r, (x < 2 ^ 64)%N /\ ps_time f = ntp_time x /\ bytes r /\ b = prstat_wire f x ++ r.
Proof.
  unfold prstat_parse, prstat_wf, prstat_wire. intros Hb H. destruct (Nat.ltb_spec (length b) 2) as [|Hl]; [discriminate|].
  start_inv fl q Hb H. repeat inv1 H Hq. injection H as <-. cps. split; [auto 10|]. rewrite time_of_ntp64_ok. do 2 eexists.
  split; [match goal with H : ranged true 8 ?v |- _ => exact H end|]. split; [reflexivity|]. split; [exact Hq|]. now rewrite <- !app_assoc.
Qed.
Lemma prstat_marshal_wire f : prstat_marshal f = Ok (prstat_wire f (secs1900 (ps_time f))) /\ prstat_marshal_len f = length (prstat_wire f (secs1900 (ps_time f))).
Proof.
  destruct f as [fl a b c d t]. unfold prstat_marshal, prstat_marshal_to, prstat_marshal_len, prstat_wire. cps.
  bits. split; [|lens; cbn; lia]. start_wr fl. repeat wr1. wr_done.
Qed.
Lemma secs1900_lt t : (secs1900 t < 2 ^ 64)%N.
Proof.
  unfold secs1900, to_u64. pose proof (Z.mod_pos_bound (time_sub t epoch1900) (2 ^ 64) ltac:(lia)) as B. apply N.div_lt_upper_bound; lia.
Qed.
Lemma ntp_time_secs t : (epoch1900 <= t)%Z -> (t - epoch1900 <= maxint64)%Z -> ntp_time (secs1900 t) = (t / second * second)%Z.
Proof.
  intros H1 H2. unfold ntp_time. rewrite secs1900_mid by assumption. change 1000000000%Z with second. f_equal. cbv zeta.
  replace (t / second + 2208988800 - 2208988800)%Z with (t / second)%Z by lia.
  assert (B : (- 2208988800 <= t / second < 2 ^ 62)%Z).
  { split; [apply Z.div_le_lower_bound|apply Z.div_lt_upper_bound]; unfold epoch1900, maxint64, second in *; lia. }
  destruct (Z.le_gt_cases 0 (t / second)).
  - rewrite Z.mod_small by lia. destruct (Z.ltb_spec (t / second) (2 ^ 63)); lia.
  - rewrite <- (Z.mod_add (t / second) 1) by lia. rewrite Z.mod_small by lia. destruct (Z.ltb_spec (t / second + 1 * 2 ^ 64) (2 ^ 63)); lia.
Qed.
Lemma prstat_new_wf fl a b c d t : octet fl -> (a < 65536)%N -> (b < 65536)%N -> (c < 65536)%N -> (d < 65536)%N -> prstat_wf (new_prstat fl a b c d t).
Proof. intros. unfold prstat_wf, new_prstat. cps. bits. repeat split; auto; now apply ranged_keep. Qed.
Lemma prstat_new_roundtrip fl a b c d t : octet fl -> (a < 65536)%N -> (b < 65536)%N -> (c < 65536)%N -> (d < 65536)%N ->
  (epoch1900 <= t)%Z -> (t - epoch1900 <= maxint64)%Z ->
  exists w, prstat_marshal (new_prstat fl a b c d t) = Ok w /\ prstat_parse w = Ok (new_prstat fl a b c d (t / second * second)).
Proof.
  intros Hfl Ha Hb Hc Hd T1 T2. destruct (prstat_marshal_wire (new_prstat fl a b c d t)) as [-> _]. eexists. split; [reflexivity|].
  replace (prstat_wire (new_prstat fl a b c d t) (secs1900 (ps_time (new_prstat fl a b c d t)))) with
    (prstat_wire (new_prstat fl a b c d (t / second * second)) (secs1900 t) ++ []) by (rewrite app_nil_r; reflexivity).
  apply prstat_parse_wire; [now apply prstat_new_wf|apply secs1900_lt|]. cbn [new_prstat ps_time]. now rewrite ntp_time_secs.
Qed.

(** * C-TAG and S-TAG *)
Lemma tag_total b : returns (tag_parse b).
Proof. unfold tag_parse. tot. destruct (@getr_returns 2 b 1 (1 + 2)) as (v & ->); [lia..|]. apply returns_ok. Qed.
Definition lt_check (n : nat) (P : N -> bool) : bool := forallb (fun k => P (N.of_nat k)) (seq 0 n).
Lemma lt_check_ok n P x : lt_check n P = true -> (x < N.of_nat n)%N -> P x = true.
Proof.
  intros H L. unfold lt_check in H. rewrite forallb_forall in H. specialize (H (N.to_nat x)). rewrite N2Nat.id in H. apply H. apply in_seq. lia.
Qed.
Lemma tag_word_ok f : tag_args_ok f -> tag_word f = (tag_octet1 f * 256 + tg_vid f mod 256)%N.
Proof.
  destruct f as [fl p d v]. unfold tag_args_ok, tag_word, tag_octet1. cbn [tg_flags tg_pcp tg_dei tg_vid]. intros (_ & Hp & Hd & Hv).
  assert (E1 : N.lor (u8 (N.shiftl d 3)) p = (d * 8 + p)%N).
  { assert (X : lt_check 2 (fun d => lt_check 8 (fun p => (N.lor (u8 (N.shiftl d 3)) p =? d * 8 + p)%N)) = true) by now vm_compute.
    apply (@lt_check_ok 2 _ d) in X; [|lia]. apply (@lt_check_ok 8 _ p) in X; [|lia]. now apply N.eqb_eq in X. }
  rewrite E1. unfold u16. rewrite !N.shiftl_mul_pow2. change (2 ^ 4)%N with 16%N. change (2 ^ 8)%N with 256%N.
  rewrite !N.mod_small by lia. change 0xff%N with (N.ones 8). rewrite N.land_ones. change (2 ^ 8)%N with 256%N.
  assert (E2 : N.land (v * 16) 61440 = (v / 256 * 4096)%N).
  { assert (X : lt_check (N.to_nat 4096) (fun v => (N.land (v * 16) 61440 =? v / 256 * 4096)%N) = true) by now vm_compute.
    apply (@lt_check_ok _ _ v) in X; [now apply N.eqb_eq in X|]. rewrite N2Nat.id. exact Hv. }
  rewrite E2. 
  pose proof (N.mod_lt v 256 ltac:(discriminate)) as ML. assert (V : (v / 256 < 16)%N) by (apply N.div_lt_upper_bound; lia).
  assert (E3 : N.lor (v / 256 * 4096) (v mod 256) = (v / 256 * 4096 + v mod 256)%N).
  { change 4096%N with (2 ^ 12)%N. apply (@lor_add (v / 256) (v mod 256) 12). change (2 ^ 12)%N with 4096%N. lia. }
  rewrite E3.
  replace (N.lor (v / 256 * 4096 + v mod 256) ((d * 8 + p) * 256)) with ((v / 256 * 16 + d * 8 + p) * 256 + v mod 256)%N; [reflexivity|].
  assert (A1 : ((v / 256 * 4096 + v mod 256) = N.lor (N.lor (v / 256 * 2 ^ 12) 0) (v mod 256))%N) by (rewrite N.lor_0_r; symmetry; exact E3).
  rewrite A1, N.lor_0_r, <- N.lor_assoc, (N.lor_comm (v mod 256)), N.lor_assoc.
  rewrite (@lor_add (v / 256) ((d * 8 + p) * 256) 12) by (change (2 ^ 12)%N with 4096%N; lia).
  replace (v / 256 * 2 ^ 12 + (d * 8 + p) * 256)%N with ((v / 256 * 16 + d * 8 + p) * 2 ^ 8)%N by (change (2 ^ 12)%N with 4096%N; change (2 ^ 8)%N with 256%N; lia).
  rewrite lor_add by (change (2 ^ 8)%N with 256%N; lia). reflexivity.
Qed.
Lemma tag_vid_mask x y : octet x -> octet y -> N.land (x * 256 + y) 0xf0ff = (x / 16 * 4096 + y)%N.
Proof.
  intros Hx Hy.
  assert (X : lt_check (N.to_nat 256) (fun x => lt_check (N.to_nat 256) (fun y => (N.land (x * 256 + y) 0xf0ff =? x / 16 * 4096 + y)%N)) = true) by now vm_compute.
  apply (@lt_check_ok _ _ x) in X; [|rewrite N2Nat.id; exact Hx]. apply (@lt_check_ok _ _ y) in X; [|rewrite N2Nat.id; exact Hy]. now apply N.eqb_eq in X.
Qed.
Lemma tag_dei_mask x : octet x -> N.land (N.shiftr x 3) 1 = ((x / 8) mod 2)%N /\ N.land x 7 = (x mod 8)%N.
Proof.
  intros _. rewrite N.shiftr_div_pow2. change 1%N with (N.ones 1) at 1. change 7%N with (N.ones 3). now rewrite !N.land_ones.
Qed.
Lemma tag_parse_exact fl x y r : octet fl -> octet x -> octet y -> tag_parse (fl :: x :: y :: r) =
  Ok {| tg_flags := fl; tg_pcp := if N.testbit fl 0 then (x mod 8)%N else 0%N; tg_dei := if N.testbit fl 1 then ((x / 8) mod 2)%N else 0%N;
        tg_vid := if N.testbit fl 2 then (x / 16 * 4096 + y)%N else 0%N |}.
Proof.
  intros Hfl Hx Hy. unfold tag_parse. bits. cbn [length Nat.ltb Nat.leb]. change (index (fl :: x :: y :: r) 0) with (Ok fl). change (index (fl :: x :: y :: r) 1) with (Ok x).
  change (getr 2 (fl :: x :: y :: r) 1 (1 + 2)) with (Ok (unbe [x; y])). unfold bind. bits.
  replace (unbe [x; y]) with (x * 256 + y)%N by (cbn; lia). rewrite tag_vid_mask by assumption. destruct (tag_dei_mask Hx) as [-> ->].
  now destruct (N.testbit fl 0), (N.testbit fl 1), (N.testbit fl 2).
Qed.
Lemma tag_parse_short b : length b < 3 -> tag_parse b = Err EUnexpectedEOF.
Proof. intros H. unfold tag_parse. now destruct (Nat.ltb_spec (length b) 3); [|lia]. Qed.
Lemma tag_marshal_exact f : tag_args_ok f -> tag_marshal f = Ok (tag_wire f) /\ tag_marshal_len f = length (tag_wire f).
Proof.
  intros H. split; [|reflexivity]. pose proof (tag_word_ok H) as E. destruct f as [fl p d v]. unfold tag_marshal, tag_marshal_to, tag_wire. rewrite E.
  unfold tag_args_ok, tag_octet1 in *. cbn [tg_flags tg_pcp tg_dei tg_vid tag_marshal_len] in *. destruct H as (_ & Hp & Hd & Hv).
  assert (V : (v / 256 < 16)%N) by (apply N.div_lt_upper_bound; lia). pose proof (N.mod_lt v 256 ltac:(discriminate)) as ML.
  cbn [make repeat length Nat.ltb Nat.leb]. 
  assert (B : be 2 ((v / 256 * 16 + d * 8 + p) * 256 + v mod 256) = [(v / 256 * 16 + d * 8 + p)%N; (v mod 256)%N]).
  { cbn [be]. change (256 ^ N.of_nat 1)%N with 256%N. change (256 ^ N.of_nat 0)%N with 1%N. rewrite N.div_1_r, N.div_add_l by discriminate. rewrite (N.div_small (v mod 256)), N.add_0_r by lia.
    f_equal; [apply N.mod_small; lia|]. f_equal. rewrite N.add_comm, N.mod_add by discriminate. now rewrite N.mod_small by lia. }
  rewrite B. reflexivity.
Qed.
(** C-TAG/S-TAG round trip: PCP and DEI come back, the VID only below 256 *)
Lemma tag_roundtrip f : tag_args_ok f -> exists w, tag_marshal f = Ok w /\ tag_parse w = Ok
  {| tg_flags := tg_flags f; tg_pcp := if N.testbit (tg_flags f) 0 then tg_pcp f else 0%N; tg_dei := if N.testbit (tg_flags f) 1 then tg_dei f else 0%N;
     tg_vid := if N.testbit (tg_flags f) 2 then (tg_vid f / 256 * 4096 + tg_vid f mod 256)%N else 0%N |}.
Proof.
  intros H. destruct (tag_marshal_exact H) as [-> _]. eexists. split; [reflexivity|]. destruct f as [fl p d v]. unfold tag_wire, tag_octet1, tag_args_ok in *. cbn [tg_flags tg_pcp tg_dei tg_vid] in *.
  destruct H as (Hfl & Hp & Hd & Hv). assert (V : (v / 256 < 16)%N) by (apply N.div_lt_upper_bound; lia). pose proof (N.mod_lt v 256 ltac:(discriminate)) as ML.
  unfold octet in Hfl. rewrite tag_parse_exact; unfold octet; try lia.
  replace ((v / 256 * 16 + d * 8 + p) mod 8)%N with p.
  2:{ replace (v / 256 * 16 + d * 8 + p)%N with (p + (v / 256 * 2 + d) * 8)%N by lia. rewrite N.mod_add by discriminate. now rewrite N.mod_small by lia. }
  replace (((v / 256 * 16 + d * 8 + p) / 8) mod 2)%N with d.
  2:{ replace (v / 256 * 16 + d * 8 + p)%N with (p + (v / 256 * 2 + d) * 8)%N by lia. rewrite N.div_add by discriminate. rewrite (N.div_small p) by lia.
      replace (0 + (v / 256 * 2 + d))%N with (d + v / 256 * 2)%N by lia. rewrite N.mod_add by discriminate. now rewrite N.mod_small by lia. }
  replace ((v / 256 * 16 + d * 8 + p) / 16)%N with (v / 256)%N; [reflexivity|].
  replace (v / 256 * 16 + d * 8 + p)%N with (d * 8 + p + v / 256 * 16)%N by lia. rewrite N.div_add by discriminate. rewrite (N.div_small (d * 8 + p)) by lia. reflexivity.
Qed.
