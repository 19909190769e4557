(** What the payloads of Fields1.v should look like, from 3GPP TS 29.244 section 8.2 (figures and bit numbers),
    written with bit tests ([N.testbit], bit 0 is the least significant one) and concatenation only. *)
From Verif Require Import Base Codec Fields1.
Set Implicit Arguments.
Local Notation bit := N.testbit.

(** F-TEID (8.2.3): V4 bit 0, V6 bit 1, CH bit 2, CHID bit 3 *)
Definition fteid_wire (f : fteid) : list N :=
  let fl := ft_flags f in
  if bit fl 2 then [fl] ++ opts (bit fl 3) [ft_chid f]
  else [fl] ++ optn true 4 (ft_teid f) ++ optb (bit fl 0) (ft_v4 f) ++ optb (bit fl 1) (ft_v6 f).
Definition fteid_wf (f : fteid) : Prop :=
  let fl := ft_flags f in
  octet fl /\
  if bit fl 2 then ft_teid f = 0%N /\ ft_v4 f = None /\ ft_v6 f = None /\ ranged (bit fl 3) 1 (ft_chid f)
  else ranged true 4 (ft_teid f) /\ present (bit fl 0) 4 (ft_v4 f) /\ present (bit fl 1) 16 (ft_v6 f) /\ ft_chid f = 0%N.
(** what the accessor returns for an F-TEID built from f: unflagged fields are dropped, addresses are in their short form *)
Definition fteid_canon (f : fteid) : fteid :=
  let fl := ft_flags f in
  if bit fl 2 then {| ft_flags := fl; ft_teid := 0; ft_v4 := None; ft_v6 := None; ft_chid := if bit fl 3 then ft_chid f else 0 |}
  else {| ft_flags := fl; ft_teid := ft_teid f; ft_v4 := canon4 (bit fl 0) (ft_v4 f); ft_v6 := canon16 (bit fl 1) (ft_v6 f); ft_chid := 0 |}.
Definition fteid_args_ok (f : fteid) : Prop :=
  let fl := ft_flags f in
  octet fl /\ (ft_teid f < 2 ^ 32)%N /\ octet (ft_chid f) /\ (bit fl 2 = false -> ok4 (bit fl 0) (ft_v4 f) /\ ok16 (bit fl 1) (ft_v6 f)).

(** F-SEID (8.2.37): V4 bit 1, V6 bit 0 *)
Definition fseid_wire (f : fseid) : list N :=
  let fl := fs_flags f in
  [fl] ++ optn true 8 (fs_seid f) ++ optb (bit fl 1) (fs_v4 f) ++ optb (bit fl 0) (fs_v6 f).
Definition fseid_wf (f : fseid) : Prop :=
  let fl := fs_flags f in
  octet fl /\ ranged true 8 (fs_seid f) /\ present (bit fl 1) 4 (fs_v4 f) /\ present (bit fl 0) 16 (fs_v6 f).

(** UE IP Address (8.2.62): V6 bit 0, V4 bit 1, S/D bit 2, IPv6D bit 3, CHV4 bit 4, CHV6 bit 5, IP6PL bit 6 *)
Definition ueip_wire (f : ueip) : list N :=
  let fl := ue_flags f in
  [fl] ++ optb (bit fl 1 && negb (bit fl 4)) (ue_v4 f) ++ optb (bit fl 0 && negb (bit fl 5)) (ue_v6 f)
  ++ optn (bit fl 3) 1 (ue_v6d f) ++ optn (bit fl 6) 1 (ue_v6pl f).
Definition ueip_wf (f : ueip) : Prop :=
  let fl := ue_flags f in
  octet fl /\ present (bit fl 1 && negb (bit fl 4)) 4 (ue_v4 f) /\ present (bit fl 0 && negb (bit fl 5)) 16 (ue_v6 f)
  /\ ranged (bit fl 3) 1 (ue_v6d f) /\ ranged (bit fl 6) 1 (ue_v6pl f).

(** Alternative SMF IP Address (8.2.130), CP PFCP Entity IP Address (8.2.127): V4 bit 1, V6 bit 0 *)
Definition altip_wire (f : altip) : list N :=
  let fl := ai_flags f in [fl] ++ optb (bit fl 1) (ai_v4 f) ++ optb (bit fl 0) (ai_v6 f).
Definition altip_wf (f : altip) : Prop :=
  let fl := ai_flags f in octet fl /\ present (bit fl 1) 4 (ai_v4 f) /\ present (bit fl 0) 16 (ai_v6 f).

(** Source IP Address (8.2.117): V6 bit 0, V4 bit 1, MPL bit 2 *)
Definition srcip_wire (f : srcip) : list N :=
  let fl := si_flags f in
  [fl] ++ optb (bit fl 1) (si_v4 f) ++ optb (bit fl 0) (si_v6 f) ++ optn (bit fl 2) 1 (si_mpl f).
Definition srcip_wf (f : srcip) : Prop :=
  let fl := si_flags f in
  octet fl /\ present (bit fl 1) 4 (si_v4 f) /\ present (bit fl 0) 16 (si_v6 f) /\ ranged (bit fl 2) 1 (si_mpl f).

(** UE Link-Specific IP Address (8.2.154): V4 bit 0, V6 bit 1, NV4 bit 2, NV6 bit 3 *)
Definition ulip_wire (f : ulip) : list N :=
  let fl := ul_flags f in
  [fl] ++ optb (bit fl 0) (ul_v4 f) ++ optb (bit fl 1) (ul_v6 f) ++ optb (bit fl 2) (ul_nv4 f) ++ optb (bit fl 3) (ul_nv6 f).
Definition ulip_wf (f : ulip) : Prop :=
  let fl := ul_flags f in
  octet fl /\ present (bit fl 0) 4 (ul_v4 f) /\ present (bit fl 1) 16 (ul_v6 f) /\ present (bit fl 2) 4 (ul_nv4 f) /\ present (bit fl 3) 16 (ul_nv6 f).

(** MPTCP Address Information (8.2.153): V4 bit 0, V6 bit 1 *)
Definition mptcp_wire (f : mptcp) : list N :=
  let fl := mp_flags f in
  [fl] ++ [mp_type f] ++ optn true 2 (mp_port f) ++ optb (bit fl 0) (mp_v4 f) ++ optb (bit fl 1) (mp_v6 f).
Definition mptcp_wf (f : mptcp) : Prop :=
  let fl := mp_flags f in
  octet fl /\ octet (mp_type f) /\ ranged true 2 (mp_port f) /\ present (bit fl 0) 4 (mp_v4 f) /\ present (bit fl 1) 16 (mp_v6 f).

(** PMF Address Information (8.2.155), as the package lays it out: both ports and both MAC addresses always present *)
Definition pmf_wire (f : pmf) : list N :=
  let fl := pm_flags f in
  [fl] ++ optb (bit fl 0) (pm_v4 f) ++ optb (bit fl 1) (pm_v6 f) ++ optn true 2 (pm_port1 f) ++ optn true 2 (pm_port2 f)
  ++ optb true (pm_mac1 f) ++ optb true (pm_mac2 f).
Definition pmf_wf (f : pmf) : Prop :=
  let fl := pm_flags f in
  octet fl /\ present (bit fl 0) 4 (pm_v4 f) /\ present (bit fl 1) 16 (pm_v6 f) /\ ranged true 2 (pm_port1 f) /\ ranged true 2 (pm_port2 f)
  /\ present true 6 (pm_mac1 f) /\ present true 6 (pm_mac2 f).
(** the same with the MAC addresses forgotten *)
Definition pmf_forget (f : pmf) : pmf :=
  {| pm_flags := pm_flags f; pm_v4 := pm_v4 f; pm_v6 := pm_v6 f; pm_port1 := pm_port1 f; pm_port2 := pm_port2 f;
     pm_mac1 := None; pm_mac2 := None |}.

(** Remote GTP-U Peer (8.2.70): V6 bit 0, V4 bit 1, DI bit 2, NI bit 3; pad is what follows the interface octet inside DI *)
Definition rpeer_wire (f : rpeer) (pad : list N) : list N :=
  let fl := rg_flags f in
  [fl] ++ optb (bit fl 1) (rg_v4 f) ++ optb (bit fl 0) (rg_v6 f)
  ++ opts (bit fl 2) (be 2 (rg_dilen f) ++ [rg_di f] ++ pad) ++ opts (bit fl 3) (be 2 (rg_nilen f) ++ rg_ni f).
Definition rpeer_wf (f : rpeer) : Prop :=
  let fl := rg_flags f in
  octet fl /\ present (bit fl 1) 4 (rg_v4 f) /\ present (bit fl 0) 16 (rg_v6 f)
  /\ (if bit fl 2 then (0 < rg_dilen f < 65536)%N /\ octet (rg_di f) else rg_dilen f = 0%N /\ rg_di f = 0%N)
  /\ (if bit fl 3 then (rg_nilen f < 65536)%N /\ bytes (rg_ni f) /\ lenN (rg_ni f) = rg_nilen f else rg_nilen f = 0%N /\ rg_ni f = []).
(** the padding has one octet less than DI *)
Definition rpeer_pad (f : rpeer) (pad : list N) : Prop := (lenN pad + 1 = rg_dilen f)%N.

(** IP Multicast Address (8.2.116): V6 bit 0, V4 bit 1, R bit 2, A bit 3 *)
Definition mcast_wire (f : mcast) : list N :=
  let fl := mc_flags f in
  if bit fl 3 then [fl]
  else [fl] ++ optb (bit fl 1) (mc_sv4 f) ++ optb (bit fl 0) (mc_sv6 f) ++ optb (bit fl 2 && bit fl 1) (mc_ev4 f) ++ optb (bit fl 2 && bit fl 0) (mc_ev6 f).
Definition mcast_wf (f : mcast) : Prop :=
  let fl := mc_flags f in
  octet fl /\
  if bit fl 3 then mc_sv4 f = None /\ mc_sv6 f = None /\ mc_ev4 f = None /\ mc_ev6 f = None
  else present (bit fl 1) 4 (mc_sv4 f) /\ present (bit fl 0) 16 (mc_sv6 f) /\ present (bit fl 2 && bit fl 1) 4 (mc_ev4 f) /\ present (bit fl 2 && bit fl 0) 16 (mc_ev6 f).
