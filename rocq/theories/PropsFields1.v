(** Properties C30-C32 and C49-C55: structured payloads made of flags and IP addresses. *)
From Verif Require Import Base Codec Fields1 FieldsSpec1 FieldsProofs1 FieldsProofs1b FieldsProofs1c FieldsProofs1d.

(** ** C30: F-TEID *)
Theorem C30_total b : returns (fteid_parse b).
Proof. exact (fteid_total b). Qed.
Print Assumptions C30_total.
(** decoding succeeds exactly on a well-formed F-TEID followed by anything, and returns its fields *)
Theorem C30_exact b f : bytes b -> (fteid_parse b = Ok f <-> fteid_wf f /\ exists r, bytes r /\ b = fteid_wire f ++ r).
Proof. intros B. split; [now apply fteid_parse_inv|]. intros (W & r & _ & ->). now apply fteid_parse_wire. Qed.
Print Assumptions C30_exact.
Theorem C30_marshal f : fteid_wf f -> fteid_marshal f = Ok (fteid_wire f) /\ fteid_marshal_len f = length (fteid_wire f).
Proof. exact (@fteid_marshal_wire f). Qed.
Print Assumptions C30_marshal.
Theorem C30_marshal_total f : exists w, fteid_marshal f = Ok w /\ length w = fteid_marshal_len f.
Proof. exact (fteid_marshal_total f). Qed.
Print Assumptions C30_marshal_total.
(** NewFTEID(...).FTEID() gives back what was put in, with unflagged fields dropped and IPv4 addresses in 4 octets *)
Theorem C30_new_roundtrip flags teid v4 v6 chid : let f := new_fteid flags teid v4 v6 chid in
  fteid_args_ok f -> exists w, fteid_marshal f = Ok w /\ fteid_parse w = Ok (fteid_canon f).
Proof.
  intros f H. pose proof (fteid_canon_wf H) as W. exists (fteid_wire (fteid_canon f)). split.
  - rewrite fteid_marshal_canon by exact H. now apply fteid_marshal_wire.
  - rewrite <- (app_nil_r (fteid_wire _)). now apply fteid_parse_wire.
Qed.
Print Assumptions C30_new_roundtrip.
(** without the address a flag announces, the next address moves into its place *)
Theorem C30_missing_address_refuted teid x : (teid < 2 ^ 32)%N -> length x = 16 -> bytes x ->
  exists w, fteid_marshal (new_fteid 3 teid None (Some x) 0) = Ok w /\
    fteid_parse w = Ok (new_fteid 3 teid (Some (firstn 4 x)) (Some (skipn 4 x ++ [0; 0; 0; 0]%N)) 0).
Proof. exact (@fteid_nil_v4_shifts teid x). Qed.
Print Assumptions C30_missing_address_refuted.
Example C30_ex : fteid_args_ok (new_fteid 3 0x11223344 (Some (v4prefix ++ [127; 0; 0; 1]%N)) (Some (repeat 1%N 16)) 7) /\
  fteid_wf (new_fteid 12 0 None None 7) /\
  fteid_marshal (new_fteid 1 0x11223344 (Some (v4prefix ++ [127; 0; 0; 1]%N)) None 0) = Ok [1; 0x11; 0x22; 0x33; 0x44; 127; 0; 0; 1]%N.
Proof.
  split; [|split; [|reflexivity]].
  - split; [reflexivity|]. split; [reflexivity|]. split; [reflexivity|]. intros _. split; intros _.
    + eexists. split; [reflexivity|]. repeat (constructor; [reflexivity|]). constructor.
    + eexists. split; [reflexivity|]. repeat (constructor; [reflexivity|]). constructor.
  - repeat split; reflexivity.
Qed.

(** ** C31: F-SEID *)
Theorem C31_total b : returns (fseid_parse b).
Proof. exact (fseid_total b). Qed.
Print Assumptions C31_total.
Theorem C31_exact b f : bytes b -> (fseid_parse b = Ok f <-> fseid_wf f /\ exists r, bytes r /\ b = fseid_wire f ++ r).
Proof. intros B. split; [now apply fseid_parse_inv|]. intros (W & r & _ & ->). now apply fseid_parse_wire. Qed.
Print Assumptions C31_exact.
Theorem C31_marshal f : fseid_wf f -> fseid_marshal f = Ok (fseid_wire f) /\ fseid_marshal_len f = length (fseid_wire f).
Proof. exact (@fseid_marshal_wire f). Qed.
Print Assumptions C31_marshal.
Theorem C31_marshal_total f : exists w, fseid_marshal f = Ok w /\ length w = fseid_marshal_len f.
Proof. exact (fseid_marshal_total f). Qed.
Print Assumptions C31_marshal_total.
Theorem C31_new_roundtrip seid v4 v6 : (seid < 2 ^ 64)%N -> ok4 (notnil v4) v4 -> ok16 (notnil v6) v6 ->
  exists w, fseid_marshal (new_fseid seid v4 v6) = Ok w /\ fseid_parse w = Ok (new_fseid seid (to4 v4) (to16 v6)).
Proof. exact (@fseid_new_roundtrip seid v4 v6). Qed.
Print Assumptions C31_new_roundtrip.
Example C31_ex : fseid_wf (new_fseid 0x1122334455667788 (Some [127; 0; 0; 1]%N) None) /\
  fseid_marshal (new_fseid 0x1122334455667788 (Some [127; 0; 0; 1]%N) None) = Ok [2; 0x11; 0x22; 0x33; 0x44; 0x55; 0x66; 0x77; 0x88; 127; 0; 0; 1]%N.
Proof.
  split; [|reflexivity]. split; [reflexivity|]. split; [reflexivity|]. split; [|reflexivity].
  eexists. split; [reflexivity|]. split; [reflexivity|]. repeat (constructor; [reflexivity|]). constructor.
Qed.

(** ** C32: UE IP Address *)
Theorem C32_total b : returns (ueip_parse b).
Proof. exact (ueip_total b). Qed.
Print Assumptions C32_total.
(** a successful decoding: one octet x after the addresses is used for both the delegation bits and the prefix length *)
Theorem C32_decode b f : bytes b -> ueip_parse b = Ok f ->
  let fl := ue_flags f in
  octet fl /\ present (N.testbit fl 1 && negb (N.testbit fl 4)) 4 (ue_v4 f) /\ present (N.testbit fl 0 && negb (N.testbit fl 5)) 16 (ue_v6 f) /\
  exists x r, octet x /\ bytes r /\
    ue_v6d f = (if N.testbit fl 3 then x else 0%N) /\ ue_v6pl f = (if N.testbit fl 6 then x else 0%N) /\
    b = [fl] ++ optb (N.testbit fl 1 && negb (N.testbit fl 4)) (ue_v4 f) ++ optb (N.testbit fl 0 && negb (N.testbit fl 5)) (ue_v6 f)
        ++ opts (N.testbit fl 3 || N.testbit fl 6) [x] ++ r.
Proof. exact (@ueip_parse_inv b f). Qed.
Print Assumptions C32_decode.
Theorem C32_marshal f : ueip_wf f -> ueip_marshal f = Ok (ueip_wire f) /\ ueip_marshal_len f = length (ueip_wire f).
Proof. exact (@ueip_marshal_wire f). Qed.
Print Assumptions C32_marshal.
Theorem C32_marshal_total f : exists w, ueip_marshal f = Ok w /\ length w = ueip_marshal_len f.
Proof. exact (ueip_marshal_total f). Qed.
Print Assumptions C32_marshal_total.
(** the round trip holds exactly when the two length octets are not both present, or are equal *)
Theorem C32_roundtrip_exact f w : ueip_wf f -> ueip_marshal f = Ok w ->
  (ueip_parse w = Ok f <-> (N.testbit (ue_flags f) 3 = true -> N.testbit (ue_flags f) 6 = true -> ue_v6d f = ue_v6pl f)).
Proof.
  intros W. destruct (ueip_marshal_wire W) as [-> _]. intros [= <-]. rewrite <- (app_nil_r (ueip_wire f)), (ueip_parse_wire [] W).
  destruct f as [fl v4 v6 d p]. cbn [ue_flags ue_v4 ue_v6 ue_v6d ue_v6pl]. destruct (N.testbit fl 3), (N.testbit fl 6); cbn [andb]; split; auto; try discriminate.
  - intros [= ->]. auto.
  - intros H. now rewrite (H eq_refl eq_refl).
Qed.
Print Assumptions C32_roundtrip_exact.
Theorem C32_new fl v4 v6 v6d v6pl : octet fl -> octet v6d -> octet v6pl ->
  ok4 (N.testbit fl 1 && negb (N.testbit fl 4)) v4 -> ok16 (N.testbit fl 0 && negb (N.testbit fl 5)) v6 -> ueip_wf (new_ueip fl v4 v6 v6d v6pl).
Proof. exact (@ueip_new_wf fl v4 v6 v6d v6pl). Qed.
Print Assumptions C32_new.
Example C32_refuted : exists w, ueip_marshal (new_ueip 0x48 None None 60 64) = Ok w /\ ueip_parse w = Ok (new_ueip 0x48 None None 60 60).
Proof. now exists [0x48; 60; 64]%N. Qed.
Example C32_ex : ueip_wf (new_ueip 0x0a (Some (v4prefix ++ [10; 0; 0; 1]%N)) None 60 0).
Proof.
  apply ueip_new_wf; try reflexivity; intros H; [|discriminate H].
  eexists. split; [reflexivity|]. repeat (constructor; [reflexivity|]). constructor.
Qed.

(** ** C49: Alternative SMF IP Address and CP PFCP Entity IP Address *)
Theorem C49_total b : returns (altip_parse b).
Proof. exact (altip_total b). Qed.
Print Assumptions C49_total.
Theorem C49_exact b f : bytes b -> (altip_parse b = Ok f <-> altip_wf f /\ 2 <= length b /\ exists r, bytes r /\ b = altip_wire f ++ r).
Proof. intros B. split; [now apply altip_parse_inv|]. intros (W & L & r & _ & ->). now apply altip_parse_wire. Qed.
Print Assumptions C49_exact.
Theorem C49_marshal f : altip_wf f -> altip_marshal f = Ok (altip_wire f) /\ altip_marshal_len f = length (altip_wire f).
Proof. exact (@altip_marshal_wire f). Qed.
Print Assumptions C49_marshal.
Theorem C49_marshal_total f : exists w, altip_marshal f = Ok w /\ length w = altip_marshal_len f.
Proof. exact (altip_marshal_total f). Qed.
Print Assumptions C49_marshal_total.
Theorem C49_new_roundtrip v4 v6 : ok4 (notnil v4) v4 -> ok16 (notnil v6) v6 -> notnil v4 || notnil v6 = true ->
  exists w, altip_marshal (new_altip v4 v6) = Ok w /\ altip_parse w = Ok (new_altip (to4 v4) (to16 v6)).
Proof. exact (@altip_new_roundtrip v4 v6). Qed.
Print Assumptions C49_new_roundtrip.
(** the empty IE the constructor builds is refused by the accessor *)
Theorem C49_empty_refuted : exists w, altip_marshal (new_altip None None) = Ok w /\ altip_parse w = Err EUnexpectedEOF.
Proof. now exists [0%N]. Qed.
Print Assumptions C49_empty_refuted.
Example C49_ex : altip_marshal (new_altip (Some [1; 2; 3; 4]%N) None) = Ok [2; 1; 2; 3; 4]%N /\ altip_parse [2; 1; 2; 3; 4; 9]%N = Ok (new_altip (Some [1; 2; 3; 4]%N) None).
Proof. now split. Qed.

(** ** C50: Source IP Address *)
(** decoding panics exactly when the payload ends where the announced mask prefix length should be *)
Theorem C50_panic_exact b : srcip_parse b = Fault <->
  2 <= length b /\ exists fl q, b = fl :: q /\ N.testbit fl 2 = true /\ length q = len_if (N.testbit fl 1) 4 + len_if (N.testbit fl 0) 16.
Proof. exact (srcip_fault_iff b). Qed.
Print Assumptions C50_panic_exact.
Theorem C50_exact b f : bytes b -> (srcip_parse b = Ok f <-> srcip_wf f /\ 2 <= length b /\ exists r, bytes r /\ b = srcip_wire f ++ r).
Proof. intros B. split; [now apply srcip_parse_inv|]. intros (W & L & r & _ & ->). now apply srcip_parse_wire. Qed.
Print Assumptions C50_exact.
Theorem C50_marshal f : srcip_wf f -> srcip_marshal f = Ok (srcip_wire f) /\ srcip_marshal_len f = length (srcip_wire f).
Proof. exact (@srcip_marshal_wire f). Qed.
Print Assumptions C50_marshal.
Theorem C50_marshal_total f : exists w, srcip_marshal f = Ok w /\ length w = srcip_marshal_len f.
Proof. exact (srcip_marshal_total f). Qed.
Print Assumptions C50_marshal_total.
Theorem C50_new_roundtrip v4 v6 m : ok4 (notnil v4) v4 -> ok16 (notnil v6) v6 -> octet m -> notnil v4 || notnil v6 || negb (m =? 0)%N = true ->
  exists w, srcip_marshal (new_srcip v4 v6 m) = Ok w /\ srcip_parse w = Ok (new_srcip (to4 v4) (to16 v6) m).
Proof. exact (@srcip_new_roundtrip v4 v6 m). Qed.
Print Assumptions C50_new_roundtrip.
Theorem C50_panic_refuted : srcip_parse [6; 127; 0; 0; 1]%N = Fault.
Proof. reflexivity. Qed.
Print Assumptions C50_panic_refuted.
Example C50_ex : srcip_marshal (new_srcip (Some [1; 2; 3; 4]%N) None 24) = Ok [6; 1; 2; 3; 4; 24]%N /\ srcip_parse [6; 1; 2; 3; 4; 24]%N = Ok (new_srcip (Some [1; 2; 3; 4]%N) None 24).
Proof. now split. Qed.

(** ** C51: UE Link-Specific IP Address *)
Theorem C51_total b : returns (ulip_parse b).
Proof. exact (ulip_total b). Qed.
Print Assumptions C51_total.
Theorem C51_exact b f : bytes b -> (ulip_parse b = Ok f <-> ulip_wf f /\ exists r, bytes r /\ b = ulip_wire f ++ r).
Proof. intros B. split; [now apply ulip_parse_inv|]. intros (W & r & _ & ->). now apply ulip_parse_wire. Qed.
Print Assumptions C51_exact.
Theorem C51_marshal f : ulip_wf f -> ulip_marshal f = Ok (ulip_wire f) /\ ulip_marshal_len f = length (ulip_wire f).
Proof. exact (@ulip_marshal_wire f). Qed.
Print Assumptions C51_marshal.
Theorem C51_marshal_total f : exists w, ulip_marshal f = Ok w /\ length w = ulip_marshal_len f.
Proof. exact (ulip_marshal_total f). Qed.
Print Assumptions C51_marshal_total.
Theorem C51_new_roundtrip v4 v6 nv4 nv6 : ok4 (notnil v4) v4 -> ok16 (notnil v6) v6 -> ok4 (notnil nv4) nv4 -> ok16 (notnil nv6) nv6 ->
  exists w, ulip_marshal (new_ulip v4 v6 nv4 nv6) = Ok w /\ ulip_parse w = Ok (new_ulip (to4 v4) (to16 v6) (to4 nv4) (to16 nv6)).
Proof. exact (@ulip_new_roundtrip v4 v6 nv4 nv6). Qed.
Print Assumptions C51_new_roundtrip.
Example C51_ex : ulip_marshal (new_ulip (Some [1; 2; 3; 4]%N) None (Some [5; 6; 7; 8]%N) None) = Ok [5; 1; 2; 3; 4; 5; 6; 7; 8]%N.
Proof. reflexivity. Qed.

(** ** C52: MPTCP Address Information *)
Theorem C52_total b : returns (mptcp_parse b).
Proof. exact (mptcp_total b). Qed.
Print Assumptions C52_total.
Theorem C52_exact b f : bytes b -> (mptcp_parse b = Ok f <-> mptcp_wf f /\ exists r, bytes r /\ b = mptcp_wire f ++ r).
Proof. intros B. split; [now apply mptcp_parse_inv|]. intros (W & r & _ & ->). now apply mptcp_parse_wire. Qed.
Print Assumptions C52_exact.
Theorem C52_marshal f : mptcp_wf f -> mptcp_marshal f = Ok (mptcp_wire f) /\ mptcp_marshal_len f = length (mptcp_wire f).
Proof. exact (@mptcp_marshal_wire f). Qed.
Print Assumptions C52_marshal.
Theorem C52_marshal_total f : exists w, mptcp_marshal f = Ok w /\ length w = mptcp_marshal_len f.
Proof. exact (mptcp_marshal_total f). Qed.
Print Assumptions C52_marshal_total.
Theorem C52_new_roundtrip ty port v4 v6 : octet ty -> (port < 65536)%N -> ok4 (notnil v4) v4 -> ok16 (notnil v6) v6 ->
  exists w, mptcp_marshal (new_mptcp ty port v4 v6) = Ok w /\ mptcp_parse w = Ok (new_mptcp ty port (to4 v4) (to16 v6)).
Proof. exact (@mptcp_new_roundtrip ty port v4 v6). Qed.
Print Assumptions C52_new_roundtrip.
Example C52_ex : mptcp_marshal (new_mptcp 1 0x1234 (Some [1; 2; 3; 4]%N) None) = Ok [1; 1; 0x12; 0x34; 1; 2; 3; 4]%N.
Proof. reflexivity. Qed.

(** ** C53: PMF Address Information *)
Theorem C53_total b : returns (pmf_parse b).
Proof. exact (pmf_total b). Qed.
Print Assumptions C53_total.
(** decoding forgets both MAC addresses *)
Theorem C53_exact b f : bytes b -> (pmf_parse b = Ok f <-> exists f', f = pmf_forget f' /\ pmf_wf f' /\ exists r, bytes r /\ b = pmf_wire f' ++ r).
Proof. intros B. split; [now apply pmf_parse_inv|]. intros (f' & -> & W & r & _ & ->). now apply pmf_parse_wire. Qed.
Print Assumptions C53_exact.
Theorem C53_marshal f : pmf_wf f -> pmf_marshal f = Ok (pmf_wire f) /\ pmf_marshal_len f = length (pmf_wire f).
Proof. exact (@pmf_marshal_wire f). Qed.
Print Assumptions C53_marshal.
Theorem C53_marshal_total f : exists w, pmf_marshal f = Ok w /\ length w = pmf_marshal_len f.
Proof. exact (pmf_marshal_total f). Qed.
Print Assumptions C53_marshal_total.
Theorem C53_mac_lost_refuted v4 v6 p1 p2 m1 m2 : ok4 (notnil v4) v4 -> ok16 (notnil v6) v6 -> (p1 < 65536)%N -> (p2 < 65536)%N -> present true 6 m1 -> present true 6 m2 ->
  exists w, pmf_marshal (new_pmf v4 v6 p1 p2 m1 m2) = Ok w /\ pmf_parse w = Ok (new_pmf (to4 v4) (to16 v6) p1 p2 None None).
Proof. exact (@pmf_new_roundtrip v4 v6 p1 p2 m1 m2). Qed.
Print Assumptions C53_mac_lost_refuted.
Example C53_ex : pmf_parse [1; 10; 0; 0; 1; 0; 80; 0; 81; 1; 2; 3; 4; 5; 6; 7; 8; 9; 10; 11; 12]%N = Ok (new_pmf (Some [10; 0; 0; 1]%N) None 80 81 None None).
Proof. reflexivity. Qed.

(** ** C54: Remote GTP-U Peer *)
(** decoding panics exactly on an empty Destination Interface at the very end of the payload *)
Theorem C54_panic_exact b : bytes b -> rpeer_parse b = Fault <->
  exists fl a, b = [fl] ++ a ++ [0; 0]%N /\ N.testbit fl 2 = true /\ length a = len_if (N.testbit fl 1) 4 + len_if (N.testbit fl 0) 16.
Proof. exact (@rpeer_fault_iff b). Qed.
Print Assumptions C54_panic_exact.
Theorem C54_decode f pad r : rpeer_wf f -> (N.testbit (rg_flags f) 2 = true -> rpeer_pad f pad) ->
  2 <= length (rpeer_wire f pad ++ r) -> rpeer_parse (rpeer_wire f pad ++ r) = Ok f.
Proof. exact (@rpeer_parse_wire f pad r). Qed.
Print Assumptions C54_decode.
Theorem C54_decoded b f : bytes b -> rpeer_parse b = Ok f -> (N.testbit (rg_flags f) 2 = true -> rg_dilen f <> 0%N) ->
  rpeer_wf f /\ 2 <= length b /\ exists pad r, (N.testbit (rg_flags f) 2 = true -> rpeer_pad f pad) /\ b = rpeer_wire f pad ++ r.
Proof. exact (@rpeer_parse_inv b f). Qed.
Print Assumptions C54_decoded.
Theorem C54_marshal f : rpeer_wf f ->
  let fl := rg_flags f in
  N.testbit fl 4 = false \/ (N.testbit fl 1 = false /\ N.testbit fl 0 = false) ->
  let pad := repeat 0%N (N.to_nat (rg_dilen f) - 1) in
  rpeer_marshal_len f = length (rpeer_wire f pad) /\
  (2 <= length (rpeer_wire f pad) -> rpeer_marshal f = Ok (rpeer_wire f pad)).
Proof. exact (@rpeer_marshal_wire f). Qed.
Print Assumptions C54_marshal.
(** with bit 5 of the flags set, encoding an address together with an interface or a network instance panics *)
Theorem C54_marshal_panics_refuted f : let fl := rg_flags f in
  N.testbit fl 4 = true -> N.testbit fl 1 || N.testbit fl 0 = true -> N.testbit fl 3 = true \/ (N.testbit fl 2 = true /\ rg_dilen f = 1%N) -> rpeer_marshal f = Fault.
Proof. exact (rpeer_marshal_panics f). Qed.
Print Assumptions C54_marshal_panics_refuted.
Theorem C54_new fl v4 v6 di ni : octet fl -> ok4 (N.testbit fl 1) v4 -> ok16 (N.testbit fl 0) v6 -> octet di -> bytes ni -> (lenN ni < 65536)%N ->
  rpeer_wf (new_rpeer fl v4 v6 di ni) /\ rg_di (new_rpeer fl v4 v6 di ni) = if N.testbit fl 2 then (di mod 16)%N else 0%N.
Proof. exact (@rpeer_new_wf fl v4 v6 di ni). Qed.
Print Assumptions C54_new.
Example C54_ex : rpeer_marshal (new_rpeer 0x0e (Some (v4prefix ++ [1; 2; 3; 4]%N)) None 2 [65; 66]%N) = Ok [0x0e; 1; 2; 3; 4; 0; 1; 2; 0; 2; 65; 66]%N
  /\ rpeer_parse [0x0e; 1; 2; 3; 4; 0; 1; 2; 0; 2; 65; 66]%N = Ok (new_rpeer 0x0e (Some (v4prefix ++ [1; 2; 3; 4]%N)) None 2 [65; 66]%N)
  /\ rpeer_parse [4; 0; 0]%N = Fault /\ rpeer_marshal (new_rpeer 0x1a (Some (v4prefix ++ [1; 2; 3; 4]%N)) None 2 [65; 66]%N) = Fault.
Proof. repeat split; reflexivity. Qed.

(** ** C55: IP Multicast Address *)
Theorem C55_total b : returns (mcast_parse b).
Proof. exact (mcast_total b). Qed.
Print Assumptions C55_total.
Theorem C55_exact b f : bytes b -> (mcast_parse b = Ok f <-> mcast_wf f /\ 2 <= length b /\ exists r, bytes r /\ b = mcast_wire f ++ r).
Proof. intros B. split; [now apply mcast_parse_inv|]. intros (W & L & r & _ & ->). now apply mcast_parse_wire. Qed.
Print Assumptions C55_exact.
Theorem C55_marshal f : mcast_wf f -> mcast_marshal f = Ok (mcast_wire f) /\ mcast_marshal_len f = length (mcast_wire f).
Proof. exact (@mcast_marshal_wire f). Qed.
Print Assumptions C55_marshal.
Theorem C55_marshal_never_panics f : returns (mcast_marshal f).
Proof. exact (mcast_marshal_returns f). Qed.
Print Assumptions C55_marshal_never_panics.
Theorem C55_new_roundtrip sv4 sv6 ev4 ev6 : ok4 (notnil sv4) sv4 -> ok16 (notnil sv6) sv6 -> ok4 (notnil ev4) ev4 -> ok16 (notnil ev6) ev6 ->
  notnil sv4 || notnil sv6 = true ->
  (ev4 = None /\ ev6 = None) \/ (notnil ev4 = notnil sv4 /\ notnil ev6 = notnil sv6) ->
  exists w, mcast_marshal (new_mcast sv4 sv6 ev4 ev6) = Ok w /\ mcast_parse w = Ok (new_mcast (to4 sv4) (to16 sv6) (to4 ev4) (to16 ev6)).
Proof. exact (@mcast_new_roundtrip sv4 sv6 ev4 ev6). Qed.
Print Assumptions C55_new_roundtrip.
(** "any multicast address", as the constructor encodes it, is refused by the accessor *)
Theorem C55_any_refuted ev4 ev6 : exists w, mcast_marshal (new_mcast None None ev4 ev6) = Ok w /\ mcast_parse w = Err EUnexpectedEOF.
Proof. now exists [8%N]. Qed.
Print Assumptions C55_any_refuted.
Example C55_ex : mcast_marshal (new_mcast (Some [224; 0; 0; 1]%N) None (Some [224; 0; 0; 9]%N) None) = Ok [6; 224; 0; 0; 1; 224; 0; 0; 9]%N.
Proof. reflexivity. Qed.
