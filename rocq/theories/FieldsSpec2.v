(** What the payloads of Fields2.v should look like, from 3GPP TS 29.244 section 8.2 (bit 0 is the least significant one). *)
From Verif Require Import Base Codec Fields2.
Set Implicit Arguments.
Local Notation bit := N.testbit.
Local Notation drop c v := (if c then v else 0%N).

(** Volume Measurement (8.2.40): TOVOL, ULVOL, DLVOL, TONOP, ULNOP, DLNOP are bits 0 to 5; eight octets each *)
Definition volm_wire (f : volm) : list N :=
  let fl := vm_flags f in
  [fl] ++ optn (bit fl 0) 8 (vm_tvol f) ++ optn (bit fl 1) 8 (vm_uvol f) ++ optn (bit fl 2) 8 (vm_dvol f)
       ++ optn (bit fl 3) 8 (vm_tpkt f) ++ optn (bit fl 4) 8 (vm_upkt f) ++ optn (bit fl 5) 8 (vm_dpkt f).
Definition volm_wf (f : volm) : Prop :=
  let fl := vm_flags f in
  octet fl /\ ranged (bit fl 0) 8 (vm_tvol f) /\ ranged (bit fl 1) 8 (vm_uvol f) /\ ranged (bit fl 2) 8 (vm_dvol f)
  /\ ranged (bit fl 3) 8 (vm_tpkt f) /\ ranged (bit fl 4) 8 (vm_upkt f) /\ ranged (bit fl 5) 8 (vm_dpkt f).
(** Volume Quota (8.2.50), Volume Threshold (8.2.13) and the Subsequent ones: TOVOL, ULVOL, DLVOL are bits 0 to 2 *)
Definition vol3_wire (f : vol3) : list N :=
  let fl := v3_flags f in
  [fl] ++ optn (bit fl 0) 8 (v3_tvol f) ++ optn (bit fl 1) 8 (v3_uvol f) ++ optn (bit fl 2) 8 (v3_dvol f).
Definition vol3_wf (f : vol3) : Prop :=
  let fl := v3_flags f in
  octet fl /\ ranged (bit fl 0) 8 (v3_tvol f) /\ ranged (bit fl 1) 8 (v3_uvol f) /\ ranged (bit fl 2) 8 (v3_dvol f).
(** Number of UE IP Addresses (8.2.179): IPv4 bit 0, IPv6 bit 1; four octets each *)
Definition nue_wire (f : nue) : list N := let fl := nu_flags f in [fl] ++ optn (bit fl 0) 4 (nu_v4 f) ++ optn (bit fl 1) 4 (nu_v6 f).
Definition nue_wf (f : nue) : Prop := let fl := nu_flags f in octet fl /\ ranged (bit fl 0) 4 (nu_v4 f) /\ ranged (bit fl 1) 4 (nu_v6 f).
Definition nue_drop (f : nue) : nue := let fl := nu_flags f in {| nu_flags := fl; nu_v4 := drop (bit fl 0) (nu_v4 f); nu_v6 := drop (bit fl 1) (nu_v6 f) |}.
(** Packet Delay Thresholds (8.2.161), QoS Monitoring Measurement (8.2.171): DL, UL, RP are bits 0 to 2; four octets each *)
Definition delays_wire (f : delays) : list N :=
  let fl := dy_flags f in [fl] ++ optn (bit fl 0) 4 (dy_dl f) ++ optn (bit fl 1) 4 (dy_ul f) ++ optn (bit fl 2) 4 (dy_rp f).
Definition delays_wf (f : delays) : Prop :=
  let fl := dy_flags f in octet fl /\ ranged (bit fl 0) 4 (dy_dl f) /\ ranged (bit fl 1) 4 (dy_ul f) /\ ranged (bit fl 2) 4 (dy_rp f).
Definition delays_drop (f : delays) : delays :=
  let fl := dy_flags f in {| dy_flags := fl; dy_dl := drop (bit fl 0) (dy_dl f); dy_ul := drop (bit fl 1) (dy_ul f); dy_rp := drop (bit fl 2) (dy_rp f) |}.
(** Packet Rate (8.2.66): ULPR bit 0, DLPR bit 1; a time unit octet and a two-octet rate each *)
Definition prate_wire (f : prate) : list N :=
  let fl := pr_flags f in [fl] ++ optn (bit fl 0) 1 (pr_uunit f) ++ optn (bit fl 0) 2 (pr_urate f) ++ optn (bit fl 1) 1 (pr_dunit f) ++ optn (bit fl 1) 2 (pr_drate f).
Definition prate_wf (f : prate) : Prop :=
  let fl := pr_flags f in
  octet fl /\ ranged (bit fl 0) 1 (pr_uunit f) /\ ranged (bit fl 0) 2 (pr_urate f) /\ ranged (bit fl 1) 1 (pr_dunit f) /\ ranged (bit fl 1) 2 (pr_drate f).
(** DL Flow Level Marking (8.2.66): TTC bit 0, SCI bit 1; two octets each *)
Definition dlfl_wire (f : dlfl) : list N := let fl := dm_flags f in [fl] ++ optn (bit fl 0) 2 (dm_ttc f) ++ optn (bit fl 1) 2 (dm_sci f).
Definition dlfl_wf (f : dlfl) : Prop := let fl := dm_flags f in octet fl /\ ranged (bit fl 0) 2 (dm_ttc f) /\ ranged (bit fl 1) 2 (dm_sci f).
(** Packet Rate Status (8.2.140): UL bit 0, DL bit 1, APR bit 2; the additional counters only with APR; then the 8-octet validity time secs *)
Definition prstat_wire (f : prstat) (secs : N) : list N :=
  let fl := ps_flags f in
  [fl] ++ optn (bit fl 0) 2 (ps_ul f) ++ optn (bit fl 0 && bit fl 2) 2 (ps_aul f) ++ optn (bit fl 1) 2 (ps_dl f) ++ optn (bit fl 1 && bit fl 2) 2 (ps_adl f) ++ optn true 8 secs.
Definition prstat_wf (f : prstat) : Prop :=
  let fl := ps_flags f in
  octet fl /\ ranged (bit fl 0) 2 (ps_ul f) /\ ranged (bit fl 0 && bit fl 2) 2 (ps_aul f) /\ ranged (bit fl 1) 2 (ps_dl f) /\ ranged (bit fl 1 && bit fl 2) 2 (ps_adl f).
(** the time s seconds after 1900-01-01, for s a 64-bit number of seconds relative to 1970 in two's complement *)
Definition ntp_time (secs : N) : Z := ((let d := (Z.of_N secs - 2208988800) mod 2 ^ 64 in if d <? 2 ^ 63 then d else d - 2 ^ 64) * 1000000000)%Z.
(** C-TAG (8.2.63), S-TAG (8.2.64): PCP bit 0, DEI bit 1, VID bit 2; octet 6 is vid[11:8] dei pcp[2:0], octet 7 is vid[7:0] *)
Definition tag_octet1 (f : tag) : N := (tg_vid f / 256 * 16 + tg_dei f * 8 + tg_pcp f)%N.
Definition tag_wire (f : tag) : list N := [tg_flags f; tag_octet1 f; (tg_vid f mod 256)%N].
Definition tag_args_ok (f : tag) : Prop := octet (tg_flags f) /\ (tg_pcp f < 8)%N /\ (tg_dei f < 2)%N /\ (tg_vid f < 4096)%N.
