(** Properties C36 and C57-C62: structured payloads made of flags and numbers. *)
From Verif Require Import Base Codec Time TimeProofs Fields2 FieldsSpec2 FieldsProofs2.

(** ** C36: Volume Measurement, Volume Quota, Volume Threshold, Subsequent Volume Quota and Threshold *)
Theorem C36_total b : returns (volm_parse b) /\ returns (vol3_parse b).
Proof. split; [exact (volm_total b)|exact (vol3_total b)]. Qed.
Print Assumptions C36_total.
(** decoding succeeds exactly on two octets or more that start with a well-formed encoding, and returns its fields *)
Theorem C36_measurement_exact b f : bytes b -> (volm_parse b = Ok f <-> volm_wf f /\ 2 <= length b /\ exists r, bytes r /\ b = volm_wire f ++ r).
Proof. intros B. split; [now apply volm_parse_inv|]. intros (W & L & r & _ & ->). now apply volm_parse_wire. Qed.
Print Assumptions C36_measurement_exact.
Theorem C36_volume_exact b f : bytes b -> (vol3_parse b = Ok f <-> vol3_wf f /\ 2 <= length b /\ exists r, bytes r /\ b = vol3_wire f ++ r).
Proof. intros B. split; [now apply vol3_parse_inv|]. intros (W & L & r & _ & ->). now apply vol3_parse_wire. Qed.
Print Assumptions C36_volume_exact.
Theorem C36_marshal f g : volm_marshal f = Ok (volm_wire f) /\ volm_marshal_len f = length (volm_wire f) /\
  vol3_marshal g = Ok (vol3_wire g) /\ vol3_marshal_len g = length (vol3_wire g).
Proof. destruct (volm_marshal_wire f), (vol3_marshal_wire g). auto. Qed.
Print Assumptions C36_marshal.
(** what the constructor is given comes back (unflagged counters dropped) iff some counter is flagged *)
Theorem C36_measurement_roundtrip fl a b c d e g : octet fl -> (a < 2 ^ 64)%N -> (b < 2 ^ 64)%N -> (c < 2 ^ 64)%N -> (d < 2 ^ 64)%N -> (e < 2 ^ 64)%N -> (g < 2 ^ 64)%N ->
  let keep i v := if N.testbit fl i then v else 0%N in
  exists w, volm_marshal (new_volm fl a b c d e g) = Ok w /\
  (volm_parse w = Ok {| vm_flags := fl; vm_tvol := keep 0%N a; vm_uvol := keep 1%N b; vm_dvol := keep 2%N c; vm_tpkt := keep 3%N d; vm_upkt := keep 4%N e; vm_dpkt := keep 5%N g |}
   <-> exists i, (i < 6)%N /\ N.testbit fl i = true).
Proof.
  intros Hfl Ha Hb Hc Hd He Hg keep. pose proof (volm_new_wf Hfl Ha Hb Hc Hd He Hg) as W. destruct (volm_marshal_wire (new_volm fl a b c d e g)) as [-> _].
  eexists. split; [reflexivity|].
  assert (E : new_volm fl a b c d e g = {| vm_flags := fl; vm_tvol := keep 0%N a; vm_uvol := keep 1%N b; vm_dvol := keep 2%N c; vm_tpkt := keep 3%N d; vm_upkt := keep 4%N e; vm_dpkt := keep 5%N g |}).
  { unfold new_volm. bits. reflexivity. }
  rewrite <- E. rewrite <- (app_nil_r (volm_wire _)). split.
  - intros P. destruct (volm_parse (volm_wire (new_volm fl a b c d e g) ++ [])) eqn:P'; try discriminate. 
    unfold volm_parse in P'. destruct (Nat.ltb_spec (length (volm_wire (new_volm fl a b c d e g) ++ [])) 2) as [|L]; [discriminate|]. revert L. unfold volm_wire. rewrite E. cbn [vm_flags vm_tvol vm_uvol vm_dvol vm_tpkt vm_upkt vm_dpkt].
    destruct (N.testbit fl 0) eqn:B0; [intros _; exists 0%N; split; [lia|exact B0]|].
    destruct (N.testbit fl 1) eqn:B1; [intros _; exists 1%N; split; [lia|exact B1]|].
    destruct (N.testbit fl 2) eqn:B2; [intros _; exists 2%N; split; [lia|exact B2]|].
    destruct (N.testbit fl 3) eqn:B3; [intros _; exists 3%N; split; [lia|exact B3]|].
    destruct (N.testbit fl 4) eqn:B4; [intros _; exists 4%N; split; [lia|exact B4]|].
    destruct (N.testbit fl 5) eqn:B5; [intros _; exists 5%N; split; [lia|exact B5]|].
    cbn. lia.
  - intros (i & Hi & T). apply volm_parse_wire; [exact W|]. unfold volm_wire. rewrite E. cbn [vm_flags vm_tvol vm_uvol vm_dvol vm_tpkt vm_upkt vm_dpkt].
    assert (O : forall c n v, c = true -> length (optn c n v) = n) by (intros c' n v ->; apply be_length).
    assert (Ci : i = 0%N \/ i = 1%N \/ i = 2%N \/ i = 3%N \/ i = 4%N \/ i = 5%N) by lia.
    rewrite !app_length. cbn [length]. destruct Ci as [->|[->|[->|[->|[->| ->]]]]]; rewrite T, (O true) by reflexivity; lia.
Qed.
Print Assumptions C36_measurement_roundtrip.
Theorem C36_volume_roundtrip fl a b c : octet fl -> (a < 2 ^ 64)%N -> (b < 2 ^ 64)%N -> (c < 2 ^ 64)%N ->
  let keep i v := if N.testbit fl i then v else 0%N in
  exists w, vol3_marshal (new_vol3 fl a b c) = Ok w /\
  (vol3_parse w = Ok {| v3_flags := fl; v3_tvol := keep 0%N a; v3_uvol := keep 1%N b; v3_dvol := keep 2%N c |} <-> exists i, (i < 3)%N /\ N.testbit fl i = true).
Proof.
  intros Hfl Ha Hb Hc keep. pose proof (vol3_new_wf Hfl Ha Hb Hc) as W. destruct (vol3_marshal_wire (new_vol3 fl a b c)) as [-> _].
  eexists. split; [reflexivity|].
  assert (E : new_vol3 fl a b c = {| v3_flags := fl; v3_tvol := keep 0%N a; v3_uvol := keep 1%N b; v3_dvol := keep 2%N c |}).
  { unfold new_vol3. bits. reflexivity. }
  rewrite <- E. rewrite <- (app_nil_r (vol3_wire _)). split.
  - intros P. destruct (vol3_parse (vol3_wire (new_vol3 fl a b c) ++ [])) eqn:P'; try discriminate. 
    unfold vol3_parse in P'. destruct (Nat.ltb_spec (length (vol3_wire (new_vol3 fl a b c) ++ [])) 2) as [|L]; [discriminate|]. revert L. unfold vol3_wire. rewrite E. cbn [v3_flags v3_tvol v3_uvol v3_dvol].
    destruct (N.testbit fl 0) eqn:B0; [intros _; exists 0%N; split; [lia|exact B0]|].
    destruct (N.testbit fl 1) eqn:B1; [intros _; exists 1%N; split; [lia|exact B1]|].
    destruct (N.testbit fl 2) eqn:B2; [intros _; exists 2%N; split; [lia|exact B2]|].
    cbn. lia.
  - intros (i & Hi & T). apply vol3_parse_wire; [exact W|]. unfold vol3_wire. rewrite E. cbn [v3_flags v3_tvol v3_uvol v3_dvol].
    assert (O : forall c n v, c = true -> length (optn c n v) = n) by (intros c' n v ->; apply be_length).
    assert (Ci : i = 0%N \/ i = 1%N \/ i = 2%N) by lia.
    rewrite !app_length. cbn [length]. destruct Ci as [->|[->| ->]]; rewrite T, (O true) by reflexivity; lia.
Qed.
Print Assumptions C36_volume_roundtrip.
(** a measurement without any counter is encoded but its own decoder refuses it *)
Theorem C36_empty_refuted : exists w, volm_marshal (new_volm 0 1 2 3 4 5 6) = Ok w /\ volm_parse w = Err EUnexpectedEOF /\
  vol3_marshal (new_vol3 0 1 2 3) = Ok w /\ vol3_parse w = Err EUnexpectedEOF.
Proof. exists [0%N]. now vm_compute. Qed.
Print Assumptions C36_empty_refuted.
Example C36_ex : vol3_marshal (new_vol3 6 1 258 772) = Ok [6; 0; 0; 0; 0; 0; 0; 1; 2; 0; 0; 0; 0; 0; 0; 3; 4]%N /\
  vol3_parse [6; 0; 0; 0; 0; 0; 0; 1; 2; 0; 0; 0; 0; 0; 0; 3; 4; 9]%N = Ok (new_vol3 6 0 258 772) /\ volm_wf (new_volm 63 1 2 3 4 5 6).
Proof. split; [now vm_compute|]. split; [now vm_compute|]. repeat split; reflexivity. Qed.

(** ** C57: Number of UE IP Addresses *)
Theorem C57_total b : returns (nue_parse b).
Proof. exact (nue_total b). Qed.
Print Assumptions C57_total.
Theorem C57_exact b f : bytes b -> (nue_parse b = Ok f <-> nue_wf f /\ exists r, bytes r /\ b = nue_wire f ++ r).
Proof. intros B. split; [now apply nue_parse_inv|]. intros (W & r & _ & ->). now apply nue_parse_wire. Qed.
Print Assumptions C57_exact.
Theorem C57_marshal f : nue_marshal f = Ok (nue_wire f) /\ nue_marshal_len f = length (nue_wire f).
Proof. exact (nue_marshal_wire f). Qed.
Print Assumptions C57_marshal.
Theorem C57_roundtrip fl v4 v6 : octet fl -> (v4 < 2 ^ 32)%N -> (v6 < 2 ^ 32)%N ->
  exists w, nue_marshal (new_nue fl v4 v6) = Ok w /\ nue_parse w = Ok {| nu_flags := fl; nu_v4 := if N.testbit fl 0 then v4 else 0%N; nu_v6 := if N.testbit fl 1 then v6 else 0%N |}.
Proof.
  intros H1 H2 H3. destruct (nue_marshal_wire (new_nue fl v4 v6)) as [-> _]. eexists. split; [reflexivity|].
  destruct (nue_drop_wf H1 H2 H3) as [W E]. rewrite <- E, <- (app_nil_r (nue_wire _)). now apply nue_parse_wire.
Qed.
Print Assumptions C57_roundtrip.
Example C57_ex : nue_marshal (new_nue 3 1 2) = Ok [3; 0; 0; 0; 1; 0; 0; 0; 2]%N /\ nue_wf (new_nue 1 5 0).
Proof. split; [now vm_compute|repeat split; reflexivity]. Qed.

(** ** C58: Packet Delay Thresholds and QoS Monitoring Measurement *)
Theorem C58_total b : returns (delays_parse b).
Proof. exact (delays_total b). Qed.
Print Assumptions C58_total.
Theorem C58_exact b f : bytes b -> (delays_parse b = Ok f <-> delays_wf f /\ exists r, bytes r /\ b = delays_wire f ++ r).
Proof. intros B. split; [now apply delays_parse_inv|]. intros (W & r & _ & ->). now apply delays_parse_wire. Qed.
Print Assumptions C58_exact.
Theorem C58_marshal f : delays_marshal f = Ok (delays_wire f) /\ delays_marshal_len f = length (delays_wire f).
Proof. exact (delays_marshal_wire f). Qed.
Print Assumptions C58_marshal.
Theorem C58_roundtrip fl dl ul rp : octet fl -> (dl < 2 ^ 32)%N -> (ul < 2 ^ 32)%N -> (rp < 2 ^ 32)%N ->
  exists w, delays_marshal (new_delays fl dl ul rp) = Ok w /\
    delays_parse w = Ok {| dy_flags := fl; dy_dl := if N.testbit fl 0 then dl else 0%N; dy_ul := if N.testbit fl 1 then ul else 0%N; dy_rp := if N.testbit fl 2 then rp else 0%N |}.
Proof.
  intros H1 H2 H3 H4. destruct (delays_marshal_wire (new_delays fl dl ul rp)) as [-> _]. eexists. split; [reflexivity|].
  destruct (delays_drop_wf H1 H2 H3 H4) as [W E]. rewrite <- E, <- (app_nil_r (delays_wire _)). now apply delays_parse_wire.
Qed.
Print Assumptions C58_roundtrip.
Example C58_ex : delays_marshal (new_delays 5 1 2 3) = Ok [5; 0; 0; 0; 1; 0; 0; 0; 3]%N /\ delays_parse [5; 0; 0; 0; 1; 0; 0; 0; 3; 8]%N = Ok (new_delays 5 1 0 3).
Proof. now vm_compute. Qed.

(** ** C59: Packet Rate *)
Theorem C59_total b : returns (prate_parse b).
Proof. exact (prate_total b). Qed.
Print Assumptions C59_total.
Theorem C59_exact b f : bytes b -> (prate_parse b = Ok f <-> prate_wf f /\ 2 <= length b /\ exists r, bytes r /\ b = prate_wire f ++ r).
Proof. intros B. split; [now apply prate_parse_inv|]. intros (W & L & r & _ & ->). now apply prate_parse_wire. Qed.
Print Assumptions C59_exact.
(** encoding fails exactly when neither direction is flagged *)
Theorem C59_marshal f : prate_marshal_len f = length (prate_wire f) /\
  prate_marshal f = if N.testbit (pr_flags f) 0 || N.testbit (pr_flags f) 1 then Ok (prate_wire f) else Err EUnexpectedEOF.
Proof. exact (prate_marshal_wire f). Qed.
Print Assumptions C59_marshal.
Theorem C59_roundtrip fl uu ur du dr : octet fl -> octet uu -> (ur < 2 ^ 16)%N -> octet du -> (dr < 2 ^ 16)%N -> N.testbit fl 0 || N.testbit fl 1 = true ->
  exists w, prate_marshal (new_prate fl uu ur du dr) = Ok w /\
    prate_parse w = Ok {| pr_flags := fl; pr_uunit := if N.testbit fl 0 then uu else 0%N; pr_urate := if N.testbit fl 0 then ur else 0%N;
                          pr_dunit := if N.testbit fl 1 then du else 0%N; pr_drate := if N.testbit fl 1 then dr else 0%N |}.
Proof.
  intros H1 H2 H3 H4 H5 F. destruct (prate_marshal_wire (new_prate fl uu ur du dr)) as [_ ->]. cbn [new_prate pr_flags]. rewrite F. eexists. split; [reflexivity|].
  pose proof (prate_new_wf H1 H2 H3 H4 H5) as W. rewrite <- (app_nil_r (prate_wire _)). rewrite prate_parse_wire; [unfold new_prate; bits; reflexivity|exact W|].
  unfold prate_wire, new_prate, optn. cbn [pr_flags]. rewrite !app_length. cbn [length]. destruct (N.testbit fl 0), (N.testbit fl 1); try discriminate; rewrite ?be_length; lia.
Qed.
Print Assumptions C59_roundtrip.
Example C59_ex : prate_marshal (new_prate 3 0 0x1122 1 0x3344) = Ok [3; 0; 0x11; 0x22; 1; 0x33; 0x44]%N /\ prate_marshal (new_prate 0 1 2 3 4) = Err EUnexpectedEOF /\
  prate_parse [0; 0]%N = Ok (new_prate 0 1 2 3 4).
Proof. now vm_compute. Qed.

(** ** C60: DL Flow Level Marking *)
Theorem C60_total b : returns (dlfl_parse b).
Proof. exact (dlfl_total b). Qed.
Print Assumptions C60_total.
Theorem C60_exact b f : bytes b -> (dlfl_parse b = Ok f <-> dlfl_wf f /\ exists r, bytes r /\ b = dlfl_wire f ++ r).
Proof. intros B. split; [now apply dlfl_parse_inv|]. intros (W & r & _ & ->). now apply dlfl_parse_wire. Qed.
Print Assumptions C60_exact.
(** encoding fails exactly when nothing is flagged, although the decoder accepts that encoding *)
Theorem C60_marshal f : dlfl_marshal_len f = length (dlfl_wire f) /\
  dlfl_marshal f = if N.testbit (dm_flags f) 0 || N.testbit (dm_flags f) 1 then Ok (dlfl_wire f) else Err EUnexpectedEOF.
Proof. exact (dlfl_marshal_wire f). Qed.
Print Assumptions C60_marshal.
Theorem C60_roundtrip fl ttc sci : octet fl -> (ttc < 2 ^ 16)%N -> (sci < 2 ^ 16)%N -> N.testbit fl 0 || N.testbit fl 1 = true ->
  exists w, dlfl_marshal (new_dlfl fl ttc sci) = Ok w /\ dlfl_parse w = Ok {| dm_flags := fl; dm_ttc := if N.testbit fl 0 then ttc else 0%N; dm_sci := if N.testbit fl 1 then sci else 0%N |}.
Proof.
  intros H1 H2 H3 F. destruct (dlfl_marshal_wire (new_dlfl fl ttc sci)) as [_ ->]. cbn [new_dlfl dm_flags]. rewrite F. eexists. split; [reflexivity|].
  pose proof (dlfl_new_wf H1 H2 H3) as W. rewrite <- (app_nil_r (dlfl_wire _)). rewrite dlfl_parse_wire; [unfold new_dlfl; bits; reflexivity|exact W].
Qed.
Print Assumptions C60_roundtrip.
(** HasTTC() and HasSCI() of the IE look at each other's bit: they report the presence decoded from the payload only when both or none are present *)
Theorem C60_has_refuted fl r f : octet fl -> dlfl_parse (fl :: r) = Ok f ->
  dlfl_ie_has_ttc (fl :: r) = Ok (N.testbit fl 1) /\ dlfl_ie_has_sci (fl :: r) = Ok (N.testbit fl 0).
Proof. intros H _. unfold dlfl_ie_has_ttc, dlfl_ie_has_sci. cbn. bits. auto. Qed.
Print Assumptions C60_has_refuted.
Example C60_ex : dlfl_marshal (new_dlfl 1 0x1122 7) = Ok [1; 0x11; 0x22]%N /\ dlfl_ie_has_ttc [1; 0x11; 0x22]%N = Ok false /\ dlfl_parse [0]%N = Ok (new_dlfl 0 5 6).
Proof. now vm_compute. Qed.

(** ** C61: Packet Rate Status *)
Theorem C61_total b : returns (prstat_parse b).
Proof. exact (prstat_total b). Qed.
Print Assumptions C61_total.
Theorem C61_exact b f : bytes b -> (prstat_parse b = Ok f <-> prstat_wf f /\ exists x r, (x < 2 ^ 64)%N /\ ps_time f = ntp_time x /\ bytes r /\ b = prstat_wire f x ++ r).
Proof. intros B. split; [now apply prstat_parse_inv|]. intros (W & x & r & Hx & T & _ & ->). now apply prstat_parse_wire. Qed.
Print Assumptions C61_exact.
Theorem C61_marshal f : exists x, (x < 2 ^ 64)%N /\ prstat_marshal f = Ok (prstat_wire f x) /\ prstat_marshal_len f = length (prstat_wire f x).
Proof. destruct (prstat_marshal_wire f). eexists. split; [|eauto]. apply secs1900_lt. Qed.
Print Assumptions C61_marshal.
(** from 1900 to 2192 the time comes back to the second, with the counters the flags announce *)
Theorem C61_roundtrip fl ul aul dl adl t : octet fl -> (ul < 2 ^ 16)%N -> (aul < 2 ^ 16)%N -> (dl < 2 ^ 16)%N -> (adl < 2 ^ 16)%N ->
  (- 2208988800 * 1000000000 <= t <= 2 ^ 63 - 1 - 2208988800 * 1000000000)%Z ->
  let bit := N.testbit fl in
  exists w, prstat_marshal (new_prstat fl ul aul dl adl t) = Ok w /\
    prstat_parse w = Ok {| ps_flags := fl; ps_ul := if bit 0%N then ul else 0%N; ps_aul := if bit 0%N && bit 2%N then aul else 0%N;
                           ps_dl := if bit 1%N then dl else 0%N; ps_adl := if bit 1%N && bit 2%N then adl else 0%N; ps_time := (t / 1000000000 * 1000000000)%Z |}.
Proof.
  intros H1 H2 H3 H4 H5 [T1 T2] bit. destruct (@prstat_new_roundtrip fl ul aul dl adl t) as (w & M & P); auto; try (unfold epoch1900, maxint64, second; lia).
  exists w. split; [exact M|]. rewrite P. unfold new_prstat, bit. bits. reflexivity.
Qed.
Print Assumptions C61_roundtrip.
(** outside these years another time comes back: the year 2193 as 2192, 1899 as year 2484 *)
Theorem C61_refuted : exists w w', prstat_marshal (new_prstat 0 0 0 0 0 (7038000000 * 1000000000)) = Ok w /\ prstat_parse w = Ok (new_prstat 0 0 0 0 0 (7014383236 * 1000000000)) /\
  prstat_marshal (new_prstat 0 0 0 0 0 (- 2208988801 * 1000000000)) = Ok w' /\ prstat_parse w' = Ok (new_prstat 0 0 0 0 0 (16237755272 * 1000000000)).
Proof.
  exists [0; 0; 0; 0; 2; 37; 193; 125; 4]%N, [0; 0; 0; 0; 4; 75; 130; 250; 8]%N.
  refine (conj _ (conj _ (conj _ _))); vm_compute; reflexivity.
Qed.
Print Assumptions C61_refuted.
Example C61_ex : prstat_marshal (new_prstat 7 1 2 3 4 (1546300800 * 1000000000)) = Ok [7; 0; 1; 0; 2; 0; 3; 0; 4; 0; 0; 0; 0; 0xdf; 0xd5; 0x2c; 0x00]%N.
Proof. now vm_compute. Qed.

(** ** C62: C-TAG and S-TAG *)
Theorem C62_total b : returns (tag_parse b).
Proof. exact (tag_total b). Qed.
Print Assumptions C62_total.
(** what decoding returns; the two parts of the VLAN identifier are left four bits apart *)
Theorem C62_exact fl x y r : octet fl -> octet x -> octet y -> tag_parse (fl :: x :: y :: r) =
  Ok {| tg_flags := fl; tg_pcp := if N.testbit fl 0 then (x mod 8)%N else 0%N; tg_dei := if N.testbit fl 1 then ((x / 8) mod 2)%N else 0%N;
        tg_vid := if N.testbit fl 2 then (x / 16 * 4096 + y)%N else 0%N |}.
Proof. exact (@tag_parse_exact fl x y r). Qed.
Print Assumptions C62_exact.
Theorem C62_short b : length b < 3 -> tag_parse b = Err EUnexpectedEOF.
Proof. exact (@tag_parse_short b). Qed.
Print Assumptions C62_short.
(** encoding is the TS 29.244 layout *)
Theorem C62_marshal f : tag_args_ok f -> tag_marshal f = Ok (tag_wire f) /\ tag_marshal_len f = length (tag_wire f).
Proof. exact (@tag_marshal_exact f). Qed.
Print Assumptions C62_marshal.
(** a tag with a VLAN identifier comes back iff the identifier is below 256 *)
Theorem C62_roundtrip f : tag_args_ok f -> N.testbit (tg_flags f) 0 = true -> N.testbit (tg_flags f) 1 = true -> N.testbit (tg_flags f) 2 = true ->
  exists w, tag_marshal f = Ok w /\ (tag_parse w = Ok f <-> (tg_vid f < 256)%N).
Proof.
  intros H F0 F1 F2. destruct (tag_roundtrip H) as (w & M & P). exists w. split; [exact M|]. rewrite P, F0, F1, F2. destruct f as [fl p d v]. unfold tag_args_ok in H. cbn [tg_flags tg_pcp tg_dei tg_vid] in *.
  pose proof (N.div_mod v 256 ltac:(discriminate)) as DM. split.
  - intros [= E]. destruct (N.eq_dec (v / 256) 0); [lia|]. pose proof (N.mod_lt v 256 ltac:(discriminate)). lia.
  - intros L. rewrite N.div_small, N.mod_small by exact L. reflexivity.
Qed.
Print Assumptions C62_roundtrip.
Theorem C62_vid_refuted f : tag_args_ok f -> exists w, tag_marshal f = Ok w /\ tag_parse w = Ok
  {| tg_flags := tg_flags f; tg_pcp := if N.testbit (tg_flags f) 0 then tg_pcp f else 0%N; tg_dei := if N.testbit (tg_flags f) 1 then tg_dei f else 0%N;
     tg_vid := if N.testbit (tg_flags f) 2 then (tg_vid f / 256 * 4096 + tg_vid f mod 256)%N else 0%N |}.
Proof. exact (@tag_roundtrip f). Qed.
Print Assumptions C62_vid_refuted.
Example C62_ex : tag_marshal (new_tag 7 3 1 2748) = Ok [7; 0xab; 0xbc]%N /\ tag_parse [7; 0xab; 0xbc]%N = Ok (new_tag 7 3 1 0xa0bc).
Proof. now vm_compute. Qed.
