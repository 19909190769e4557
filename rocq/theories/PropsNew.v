(** C79-C84: the constructors of the package ie (ie/*.go), listed in NewTable.v and run by NewRun.v.
    [calls g beyond c s a r]: the constructor c, whose body has shape s, called with the arguments a, returns r
    (Ok (Some i): the element i; Ok None: nil; Fault: it panics).
    g is the package's table of grouped types at the time of the call, beyond what the processor makes of a float64 out of range. *)
From Coq Require Import Floats.SpecFloat String.
From Verif Require Import Base IETypes IENames IE Spec IEProofs IEProofs2 IEProps Codec Utils UtilsProofs Time TimeProofs Fields1 Fields2 Fields3 Fields4 Access AccTable AccNames AccRun AccProofs Flags FlagTable FlagRun
  New NewTable NewRun NewProofs NewProofs2 NewProofs3 NewProofs4 NewProofs5 NewProofs6 PropsTime.
Local Open Scope list_scope.
Set Implicit Arguments.

(** * C79: the type, and the octets on the wire *)
Theorem C79_named c t : con_type c = Some t -> ~ In c [N_NetworkInstanceFQDN; N_NodeIDHeuristic; N_RedundantTransmissionParametersInPDI; N_RedundantTransmissionParametersInFAR] ->
  exists s, con_name c = append "New" s /\ In (t, s) ie_type_names.
Proof. intros T K. apply con_named; [exact T|]. destruct c; try reflexivity; elim K; cbn; tauto. Qed.
Print Assumptions C79_named.
Theorem C79_named_otherwise :
  con_type N_NetworkInstanceFQDN = Some T_NetworkInstance /\ con_type N_NodeIDHeuristic = Some T_NodeID /\
  con_type N_RedundantTransmissionParametersInPDI = Some T_RedundantTransmissionParameters /\ con_type N_RedundantTransmissionParametersInFAR = Some T_RedundantTransmissionParameters.
Proof. repeat split; reflexivity. Qed.
Print Assumptions C79_named_otherwise.
Theorem C79_type g beyond c s a i : calls g beyond c s a (Ok (Some i)) -> forall t, con_type c = Some t -> ty i = t.
Proof.
  intros C t T. destruct (is_group s) eqn:G.
  - destruct (@group_payload g _ _ _ (made_group C G)) as (E & _). rewrite E. unfold group_type.
    destruct s; try discriminate G; try (now rewrite T); pose proof (con_typed c) as CT; rewrite (proj1 C), T in CT; destruct CT as [_ CT]; discriminate (CT eq_refl).
  - destruct (calls_new C G) as (t' & p & T' & _ & ->). cbn. congruence.
Qed.
Print Assumptions C79_type.
(** UpdateBAR, UsageReport, TSCManagementInformation and PortManagementInformationForTSC take the type as their first argument *)
Theorem C79_type_given g beyond c t l i : calls g beyond c SGroupT (t, l) (Ok (Some i)) -> ty i = t /\ children i = somes l.
Proof. intros [S M]. cbn [make_ie] in M. destruct (@group_payload g _ _ _ M) as (T & K & _). split; assumption. Qed.
Print Assumptions C79_type_given.
Theorem C79_type_given1 g beyond c t x i : calls g beyond c SGroupT1 (t, x) (Ok (Some i)) -> ty i = t /\ children i = somes [x].
Proof. intros [S M]. cbn [make_ie] in M. destruct (@group_payload g _ _ _ M) as (T & K & _). split; assumption. Qed.
Print Assumptions C79_type_given1.
Theorem C79_wire g beyond c s a i rest : calls g beyond c s a (Ok (Some i)) -> is_group s = false -> arg_ok s a -> g (ty i) = false -> (lenN (payload i) < 65536)%N -> bytes rest ->
  marshal g i = Ok (be 2 (ty i) ++ be 2 (lenN (payload i)) ++ payload i) /\ parse g ((be 2 (ty i) ++ be 2 (lenN (payload i)) ++ payload i) ++ rest) = Ok i.
Proof. intros C S A G L Hr. destruct (@wire_roundtrip g i _ (made_wire C S A G L)) as [M P]; split; [exact M|exact (P rest Hr)]. Qed.
Print Assumptions C79_wire.
Theorem C79_group_wire g beyond c s a i rest : calls g beyond c s a (Ok (Some i)) -> is_group s = true -> g (ty i) = true -> (ty i < 0x8000)%N ->
  Forall (fun x => exists b, wire g x b) (somes (group_args s a)) -> (lenN (payload i) < 65536)%N -> bytes rest ->
  marshal g i = Ok (be 2 (ty i) ++ be 2 (lenN (payload i)) ++ payload i) /\ parse g ((be 2 (ty i) ++ be 2 (lenN (payload i)) ++ payload i) ++ rest) = Ok i.
Proof. intros C S G R W L Hr. destruct (@wire_roundtrip g i _ (made_group_wire C S G R W L)) as [M P]; split; [exact M|exact (P rest Hr)]. Qed.
Print Assumptions C79_group_wire.
(** the default table of grouped types has exactly the constructors of groups as grouped, so that the hypotheses on g hold of it *)
Theorem C79_default c t : con_type c = Some t -> default_grouped t = is_group (con_shape c) /\ (0 < t < 0x8000)%N.
Proof. intros T. split; [exact (con_grouped c T)|exact (con_type_range c T)]. Qed.
Print Assumptions C79_default.
Example C79_ex beyond : exists i, calls default_grouped beyond N_PDRID (SUint 2) 0x1234%N (Ok (Some i)) /\ ty i = T_PDRID /\ marshal default_grouped i = Ok [0; 56; 0; 2; 0x12; 0x34]%N.
Proof. eexists. split; [split; reflexivity|]. split; reflexivity. Qed.
Example C79_ex_group beyond x : calls default_grouped beyond N_PDRID (SUint 2) 0x1234%N (Ok (Some x)) ->
  exists i, calls default_grouped beyond N_RemovePDR SGroup1 (Some x) (Ok (Some i)) /\ marshal default_grouped i = Ok [0; 15; 0; 6; 0; 56; 0; 2; 0x12; 0x34]%N /\ Forall (fun x => exists b, wire default_grouped x b) [x].
Proof.
  intros C. pose proof (made_wire C eq_refl I) as W. destruct C as [_ [= <-]]. eexists. split; [split; reflexivity|]. split; [reflexivity|]. constructor; [|constructor].
  eexists. apply W; reflexivity.
Qed.

(** * C80: the accessor of the same name gives back the value *)
(** which accessor: the name of the constructor without New, up to one of the suffixes *)
Theorem C80_reader c : exists tail, con_name c = append "New" (append (acc_name (con_reader c)) tail) /\
  In tail [""; "Heuristic"; "InPDI"; "InFAR"; "WithinSessionModificationRequest"; "WithinSessionModificationResponse"; "WithinSessionReportRequest"; "WithinSessionReportResponse"; "WithinSessionDeletionResponse"]%string.
Proof.
  exists (substring (3 + String.length (acc_name (con_reader c))) (String.length (con_name c)) (con_name c)).
  destruct c; (split; [vm_compute; reflexivity|vm_compute; tauto]).
Qed.
Print Assumptions C80_reader.
Section C80.
Variable g : N -> bool.
Variable beyond : spec_float -> N.
Variable c : con.
Notation made := (calls g beyond c).
Notation read := (access g (con_reader c)).
Theorem C80_uint k v i : made (SUint k) v (Ok (Some i)) -> g (ty i) = false -> (v < 256 ^ N.of_nat k)%N ->
  c <> N_PagingPolicyIndicator -> c <> N_TGPPInterfaceType -> read i = Ok (VN v).
Proof. exact (@read_uint g beyond c k v i). Qed.
Theorem C80_masked v i : made (SUint 1) v (Ok (Some i)) -> octet v -> (c = N_PagingPolicyIndicator -> read i = Ok (VN (v mod 8))) /\ (c = N_TGPPInterfaceType -> read i = Ok (VN (v mod 64))).
Proof. exact (@read_masked g beyond c v i). Qed.
Theorem C80_mask m v i : made (SMask m) v (Ok (Some i)) -> g (ty i) = false -> read i = Ok (VN (N.land v m)).
Proof. exact (@read_mask g beyond c m v i). Qed.
Theorem C80_string s i : made SString s (Ok (Some i)) -> g (ty i) = false -> read i = Ok (VS s).
Proof. exact (@read_string g beyond c s i). Qed.
Theorem C80_fqdn s i : made SFQDN s (Ok (Some i)) -> g (ty i) = false -> bytes s -> (read i = Ok (VS s) <-> Forall (fun l => lenN l < 256)%N (split_dot s)).
Proof. exact (@read_fqdn g beyond c s i). Qed.
Theorem C80_octets p i : made SOctets p (Ok (Some i)) -> read i = if length p <? least c then Err EUnexpectedEOF else Ok (VB p).
Proof. exact (@read_octets g beyond c p i). Qed.
Theorem C80_time t i : made STime t (Ok (Some i)) -> g (ty i) = false -> (read i = Ok (VT (t / 1000000000 * 1000000000)%Z) <-> (0 <= t < 2 ^ 32 * 1000000000)%Z).
Proof.
  intros C G. rewrite (read_time C G). rewrite <- timestamp_exact. unfold as_t. split.
  - destruct (timestamp_value (new_timestamp t)); try discriminate. cbn [bind]. now intros [= ->].
  - now intros ->.
Qed.
Theorem C80_timer d i : made STimer d (Ok (Some i)) ->
  (read i = Ok (VD d) <-> (exists k u, (0 <= k <= 31)%Z /\ In u [2; 60; 600; 3600; 36000]%Z /\ d = (k * (u * 1000000000))%Z) \/ d = (2 ^ 63 - 1)%Z).
Proof.
  intros C. rewrite (read_timer C). rewrite <- C46_exact. unfold as_d. split.
  - destruct (timer_value (new_timer d)); try discriminate. cbn [bind]. now intros [= ->].
  - now intros ->.
Qed.
Theorem C80_secs32 s i : made SSecs32 (s * second)%Z (Ok (Some i)) -> (0 <= s < 2 ^ 32)%Z -> read i = Ok (VD (s * second)).
Proof. exact (@read_secs32 g beyond c s i). Qed.
Theorem C80_secs16 s i : made SSecs16 (s * second)%Z (Ok (Some i)) -> (0 <= s < 2 ^ 16)%Z -> read i = Ok (VD (s * second)).
Proof. exact (@read_secs16 g beyond c s i). Qed.
Theorem C80_millis d i : made SMillis d (Ok (Some i)) -> (0 <= d)%Z -> read i = Ok (VD ((d / 1000000) mod 2 ^ 32 * 1000000)).
Proof. exact (@read_millis g beyond c d i). Qed.
Theorem C80_50ms d i : made S50ms d (Ok (Some i)) -> (0 <= d)%Z -> read i = Ok (VD ((d / 50000000) mod 256 * 50000000)).
Proof. exact (@read_50ms g beyond c d i). Qed.
Theorem C80_nanos d i : made SNanos d (Ok (Some i)) -> (- 2 ^ 63 <= d < 2 ^ 63)%Z -> read i = Ok (VD d).
Proof. exact (@read_nanos g beyond c d i). Qed.
(** the constructors of structured payloads: the accessor parses exactly what Marshal of the fields wrote, so that the round trips C30-C35 and C57-C68 apply *)
Theorem C80_fields k a i : made (SFields k) a (Ok (Some i)) -> exists f p, fnew k a = Ok f /\ fmarshal f = Ok p /\ payload i = p /\ read i = fparse k p.
Proof. exact (@read_fields g beyond c k a i). Qed.
End C80.
Print Assumptions C80_uint.
Print Assumptions C80_masked.
Print Assumptions C80_mask.
Print Assumptions C80_string.
Print Assumptions C80_fqdn.
Print Assumptions C80_octets.
Print Assumptions C80_time.
Print Assumptions C80_timer.
Print Assumptions C80_secs32.
Print Assumptions C80_secs16.
Print Assumptions C80_millis.
Print Assumptions C80_50ms.
Print Assumptions C80_nanos.
Print Assumptions C80_fields.
Example C80_ex beyond : (exists i, calls default_grouped beyond N_APNDNN SFQDN [97; 46; 98]%N (Ok (Some i)) /\ access default_grouped A_APNDNN i = Ok (VS [97; 46; 98]%N)) /\
  (exists i, calls default_grouped beyond N_RecoveryTimeStamp STime 1546300800000000000%Z (Ok (Some i)) /\ access default_grouped A_RecoveryTimeStamp i = Ok (VT 1546300800000000000)) /\
  exists i, calls default_grouped beyond N_FTEID (SFields K_FTEID) (1%N, 7%N, Some [127; 0; 0; 1]%N, None, 0%N) (Ok (Some i)) /\ payload i = [1; 0; 0; 0; 7; 127; 0; 0; 1]%N.
Proof. split; [|split]; (eexists; split; [split; reflexivity|vm_compute; reflexivity]). Qed.

(** * C81: groups *)
(** Given children that have a wire form (and nil ones, which are skipped), the accessor of the same name returns the non-nil children, in order. *)
Theorem C81_group g beyond c s a i : calls g beyond c s a (Ok (Some i)) -> is_group s = true -> (con_type c <> None \/ look (con_reader c) (ty i) = Leaf LChildren) ->
  Forall (fun x => exists b, wire g x b) (somes (group_args s a)) -> access g (con_reader c) i = Ok (VIEs (somes (group_args s a))) /\ children i = somes (group_args s a).
Proof.
  intros C G K W. destruct (@group_payload g _ _ _ (made_group C G)) as (T & Ch & _). split; [|exact Ch]. apply (read_group C G); [|exact W].
  destruct K as [K|K]; [|now rewrite <- T]. destruct (con_type c) as [t|] eqn:E; [|congruence].
  rewrite <- T. rewrite (C79_type C E). apply group_reader; [exact E|]. now rewrite (proj1 C).
Qed.
Print Assumptions C81_group.
(** and the four that are told the type: whenever it is a type the accessor knows *)
Theorem C81_types : 
  (forall t, In t [T_UpdateBARWithinSessionModificationRequest; T_UpdateBARWithinSessionReportResponse] -> look A_UpdateBAR t = Leaf LChildren) /\
  (forall t, In t [T_UsageReportWithinSessionModificationResponse; T_UsageReportWithinSessionDeletionResponse; T_UsageReportWithinSessionReportRequest] -> look A_UsageReport t = Leaf LChildren) /\
  (forall t, In t [T_TSCManagementInformationWithinSessionModificationRequest; T_TSCManagementInformationWithinSessionModificationResponse; T_TSCManagementInformationWithinSessionReportRequest] -> look A_TSCManagementInformation t = Leaf LChildren) /\
  (forall t, In t [T_PortManagementInformationForTSCWithinSessionModificationRequest; T_PortManagementInformationForTSCWithinSessionModificationResponse; T_PortManagementInformationForTSCWithinSessionReportRequest] -> look A_PortManagementInformationForTSC t = Leaf LChildren).
Proof. repeat split; intros t I; repeat (destruct I as [<- |I]; [reflexivity|]); elim I. Qed.
Print Assumptions C81_types.

(** * C82: flags *)
(** the flag methods of each parameter, by name *)
Theorem C82_ints g beyond c ks zs i j f : calls g beyond c (SInts ks) zs (Ok (Some i)) -> g (ty i) = false -> length zs = length ks -> Forall (fun z => z = 0 \/ z = 1)%Z zs ->
  nth_error (con_flags c) j = Some f -> flag_run g f i = Ok (nth j zs 0 =? 1)%Z.
Proof. exact (@flags_ints g beyond c ks zs i j f). Qed.
Print Assumptions C82_ints.
Theorem C82_octs g beyond c ks xs i j f : calls g beyond c (SOcts ks) xs (Ok (Some i)) -> g (ty i) = false -> length xs = length ks -> Forall (fun x => x = 0 \/ x = 1)%N xs ->
  nth_error (con_flags c) j = Some f -> flag_run g f i = Ok (nth j xs 0 =? 1)%N.
Proof. exact (@flags_octs g beyond c ks xs i j f). Qed.
Print Assumptions C82_octs.
Theorem C82_mask g beyond c m v i f : calls g beyond c (SMask m) v (Ok (Some i)) -> g (ty i) = false -> In f (con_flags c) -> flag_run g f i = Ok (N.odd v).
Proof. exact (@flags_mask g beyond c m v i f). Qed.
Print Assumptions C82_mask.
Theorem C82_ip_version_exact g beyond v4 v6 i : calls g beyond N_IPVersion SIPVersion (v4, v6) (Ok (Some i)) -> g (ty i) = false ->
  flag_run g B_HasIPv4 i = Ok v6 /\ flag_run g B_HasIPv6 i = Ok v4.
Proof. exact (@ip_version_swapped g beyond v4 v6 i). Qed.
Print Assumptions C82_ip_version_exact.
Theorem C82_ip_version_refuted beyond : exists i, calls default_grouped beyond N_IPVersion SIPVersion (true, false) (Ok (Some i)) /\ flag_run default_grouped B_HasIPv4 i = Ok false /\ flag_run default_grouped B_HasIPv6 i = Ok true.
Proof. eexists. split; [split; reflexivity|]. split; vm_compute; reflexivity. Qed.
Print Assumptions C82_ip_version_refuted.
Example C82_ex beyond : exists i, calls default_grouped beyond N_ReportType (SInts [3; 2; 1; 0]%N) [0; 1; 0; 1]%Z (Ok (Some i)) /\ payload i = [5%N] /\ con_flags N_ReportType = [B_HasUPIR; B_HasERIR; B_HasUSAR; B_HasDLDR].
Proof. eexists. split; [split; reflexivity|]. split; reflexivity. Qed.

(** * C83: constructors of several values, value by value *)
Theorem C83_availability g beyond s t i : calls g beyond N_AccessAvailabilityInformation SAccessAvailability (s, t) (Ok (Some i)) -> g (ty i) = false ->
  access g A_AvailabilityStatus i = Ok (VN (s mod 4)) /\ access g A_AccessType i = Ok (VN (t mod 4)).
Proof. exact (@availability_read g beyond s t i). Qed.
Print Assumptions C83_availability.
Theorem C83_gate g beyond u d i : calls g beyond N_GateStatus (SOcts [2; 0]%N) [u; d] (Ok (Some i)) -> g (ty i) = false -> octet u -> (d < 4)%N ->
  access g A_GateStatusUL i = Ok (VN (u mod 4)) /\ access g A_GateStatusDL i = Ok (VN d) /\ access g A_GateStatusULDL i = Ok (VNN (u mod 4) d).
Proof. exact (@gate_read g beyond u d i). Qed.
Print Assumptions C83_gate.
Theorem C83_auri g beyond n i : calls g beyond N_AdditionalUsageReportsInformation SAuri n (Ok (Some i)) -> (n < 0x8000)%N ->
  access g A_AdditionalUsageReportsInformation i = Ok (VN n) /\ payload i = be 2 (if (n =? 0)%N then 0 else 0x8000 + n)%N.
Proof. exact (@auri_read g beyond n i). Qed.
Print Assumptions C83_auri.
Theorem C83_count g beyond n i : calls g beyond N_DLBufferingSuggestedPacketCount SSuggestedCount n (Ok (Some i)) -> g (ty i) = false -> (n < 65536)%N ->
  access g A_DLBufferingSuggestedPacketCount i = Ok (VN n) /\ payload i = be (if (n <=? 255)%N then 1 else 2) n.
Proof. exact (@count_read g beyond n i). Qed.
Print Assumptions C83_count.
Theorem C83_downlink g beyond hp hq p q i : calls g beyond N_DownlinkDataServiceInformation SDownlinkData (hp, hq, p, q) (Ok (Some i)) ->
  payload i = ((if hp then 1 else 0) + (if hq then 2 else 0))%N :: (if hp then [p] else []) ++ (if hq then [q] else []) /\
  access g A_PPI i = match hp, hq with true, _ => Ok (VN p) | false, true => Ok (VN q) | false, false => Err EUnexpectedEOF end /\
  access g A_QFI i = match hp, hq with true, true => Ok (VN q) | false, false => Err EUnexpectedEOF | _, _ => Fault end.
Proof. exact (@downlink_read g beyond hp hq p q i). Qed.
Print Assumptions C83_downlink.
Theorem C83_dropped g beyond hp hb p b i : calls g beyond N_DroppedDLTrafficThreshold SDroppedDL (hp, hb, p, b) (Ok (Some i)) -> g (ty i) = false ->
  payload i = ((if hp then 1 else 0) + (if hb then 2 else 0))%N :: (if hp then be 8 p else []) ++ (if hb then be 8 b else []) /\
  access g A_DroppedDLTrafficThreshold i = Ok (VN ((if hp then 1 else 0) + (if hb then 2 else 0))).
Proof. exact (@dropped_read g beyond hp hb p b i). Qed.
Print Assumptions C83_dropped.
Theorem C83_failed g beyond t id i : calls g beyond N_FailedRuleID SFailedRuleID (t, id) (Ok (Some i)) -> g (ty i) = false ->
  access g A_RuleIDType i = Ok (VN t) /\
  access g A_FailedRuleID i = Ok (VN (if (t =? 0)%N then id mod 2 ^ 16 else if (t <=? 3)%N then id mod 2 ^ 32 else if (t =? 4)%N then id mod 2 ^ 8 else 0)%N).
Proof. exact (@failed_read g beyond t id i). Qed.
Print Assumptions C83_failed.
Theorem C83_flow g beyond d s i : calls g beyond N_FlowInformation SFlowInformation (d, s) (Ok (Some i)) -> (3 + lenN s < 65536)%N ->
  access g A_FlowDirection i = Ok (VN (d mod 8)) /\ access g A_FlowDescription i = Ok (VS s).
Proof. exact (@flow_read g beyond d s i). Qed.
Print Assumptions C83_flow.
Theorem C83_policy g beyond s i : calls g beyond N_ForwardingPolicy SForwardingPolicy s (Ok (Some i)) -> (lenN s < 256)%N -> access g A_ForwardingPolicyIdentifier i = Ok (VS s).
Proof. exact (@policy_read g beyond s i). Qed.
Print Assumptions C83_policy.
Theorem C83_policy_long g beyond s i : calls g beyond N_ForwardingPolicy SForwardingPolicy s (Ok (Some i)) -> (256 <= lenN s)%N -> access g A_ForwardingPolicyIdentifier i = Ok (VS (firstn (N.to_nat (lenN s mod 256)) s)).
Proof. exact (@policy_long g beyond s i). Qed.
Print Assumptions C83_policy_long.
Theorem C83_fqcsid g beyond a ip ids i : calls g beyond N_FQCSID SFQCSID (a, ip, ids) (Ok (Some i)) -> forall x, ip = Some x -> length x = 4 \/ length x = 16 ->
  exists nt nid, (nt, nid) = match to4 ip with Some v4 => (0%N, v4) | None => (1%N, x) end /\
  payload i = node_octets nt nid ids /\ access g A_NodeIDType i = Ok (VN nt) /\
  (ids <> [] -> access g A_NodeAddress i = Ok (VB nid) /\ access g A_CSIDs i = Ok (VNs [])) /\
  (ids = [] -> access g A_NodeAddress i = Err EUnexpectedEOF /\ access g A_CSIDs i = Fault).
Proof. exact (@fqcsid_read g beyond a ip ids i). Qed.
Print Assumptions C83_fqcsid.
Theorem C83_rates g beyond c u d i : calls g beyond c SRates (u, d) (Ok (Some i)) ->
  c = N_GBR /\ access g A_GBRUL i = Ok (VN (u mod 2 ^ 40)) /\ access g A_GBRDL i = Ok (VN (d mod 2 ^ 40)) \/
  c = N_MBR /\ access g A_MBRUL i = Ok (VN (u mod 2 ^ 40)) /\ access g A_MBRDL i = Ok (VN (d mod 2 ^ 40)).
Proof. exact (@rates_read g beyond c u d i). Qed.
Print Assumptions C83_rates.
Theorem C83_multiplier g beyond v e i : calls g beyond N_Multiplier SMultiplier (v, e) (Ok (Some i)) -> g (ty i) = false -> (v < 2 ^ 64)%N -> (e < 2 ^ 32)%N ->
  access g A_ValueDigits i = Ok (VN v) /\ access g A_Exponent i = Ok (VN e).
Proof. exact (@multiplier_read g beyond v e i). Qed.
Print Assumptions C83_multiplier.
Theorem C83_instance g beyond id i : calls g beyond N_NFInstanceID SNFInstanceID id (Ok (Some i)) -> 16 <= length id /\ access g A_NFInstanceID i = Ok (VB (firstn 16 id)).
Proof. exact (@instance_read g beyond id i). Qed.
Print Assumptions C83_instance.
Theorem C83_removal g beyond d e i : calls g beyond N_OuterHeaderRemoval SOuterHeaderRemoval (d, e) (Ok (Some i)) -> octet d -> octet e ->
  access g A_OuterHeaderRemovalDescription i = Ok (VN d) /\ access g A_GTPUExtensionHeaderDeletion i = Ok (VN e).
Proof. exact (@removal_read g beyond d e i). Qed.
Print Assumptions C83_removal.
Theorem C83_snssai g beyond t d i : calls g beyond N_SNSSAI SSNSSAI (t, d) (Ok (Some i)) ->
  access g A_SST i = Ok (VN t) /\ access g A_SD i = Ok (VN (d mod 2 ^ 24)).
Proof. exact (@snssai_read g beyond t d i). Qed.
Print Assumptions C83_snssai.
Theorem C83_quota g beyond t s i : calls g beyond N_TimeQuotaMechanism STimeQuotaMechanism (t, s * second)%Z (Ok (Some i)) -> (0 <= s < 2 ^ 32)%Z ->
  access g A_TimeQuotaMechanism i = Ok (VB ((t mod 4)%N :: be 4 (Z.to_N s))).
Proof. exact (@quota_read g beyond t s i). Qed.
Print Assumptions C83_quota.
Theorem C83_bridge g beyond m i : calls g beyond N_TSNBridgeID STSNBridgeID m (Ok (Some i)) ->
  access g A_TSNBridgeID i =
  match m with
  | None => Ok (VB [])
  | Some m => if length m =? 6 then Ok (VB m) else if length m <? 8 then Err EUnexpectedEOF else Ok (VB (firstn 8 m))
  end.
Proof. exact (@bridge_read g beyond m i). Qed.
Print Assumptions C83_bridge.
Theorem C83_pool g beyond s i : calls g beyond N_UEIPAddressPoolIdentity SPoolIdentity s (Ok (Some i)) -> (lenN s < 65536)%N -> access g A_UEIPAddressPoolIdentityString i = Ok (VS s).
Proof. exact (@pool_read g beyond s i). Qed.
Print Assumptions C83_pool.
Theorem C83_features g beyond fs i : calls g beyond N_UPFunctionFeatures SUPFeatures fs (Ok (Some i)) ->
  access g A_UPFunctionFeatures i = Ok (VB (firstn (if 3 <=? length fs then 4 else 2) (fs ++ [0; 0; 0; 0]%N))).
Proof. exact (@features_read g beyond fs i). Qed.
Print Assumptions C83_features.
(** Node ID: NewNodeID(v4, v6, name) uses the first that is given; NewNodeIDHeuristic the address the name is, if it is one *)
Theorem C83_node_v4 g beyond ip v6 n i x : calls g beyond N_NodeID SNodeID (Some ip, v6, n) (Ok (Some i)) -> to4 ip = Some x -> access g A_NodeID i = Ok (VNode (NodeIP (Some x))).
Proof. exact (@node_read_v4 g beyond ip v6 n i x). Qed.
Print Assumptions C83_node_v4.
Theorem C83_node_v6 g beyond ip n i x : calls g beyond N_NodeID SNodeID (None, Some ip, n) (Ok (Some i)) -> to16 ip = Some x -> access g A_NodeID i = Ok (VNode (NodeIP (Some x))).
Proof. exact (@node_read_v6 g beyond ip n i x). Qed.
Print Assumptions C83_node_v6.
Theorem C83_node_name g beyond n i : calls g beyond N_NodeID SNodeID (None, None, n) (Ok (Some i)) -> bytes n ->
  (access g A_NodeID i = Ok (VNode (NodeName n)) <-> Forall (fun l => lenN l < 256)%N (split_dot n)).
Proof.
  intros C Hn. apply (@name_read g beyond N_NodeID SNodeID (None, None, n) i n C); [now left|reflexivity| |exact Hn]. intros ->. destruct C as [_ C]. discriminate C.
Qed.
Print Assumptions C83_node_name.
Theorem C83_heuristic_name g beyond n i : calls g beyond N_NodeIDHeuristic SNodeIDHeuristic (n, None) (Ok (Some i)) -> bytes n ->
  (access g A_NodeID i = Ok (VNode (NodeName n)) <-> Forall (fun l => lenN l < 256)%N (split_dot n)).
Proof.
  intros C Hn. assert (NE : n <> []) by (intros ->; destruct C as [_ C]; discriminate C).
  apply (@name_read g beyond N_NodeIDHeuristic SNodeIDHeuristic (n, None) i n C); [now right| |exact NE|exact Hn]. cbn [build]. now rewrite FieldsProofs3b.heuristic_name.
Qed.
Print Assumptions C83_heuristic_name.
Theorem C83_heuristic_ip g beyond n ip i x : calls g beyond N_NodeIDHeuristic SNodeIDHeuristic (n, Some ip) (Ok (Some i)) ->
  match to4 (Some ip) with Some v => Some v | None => to16 (Some ip) end = Some x -> access g A_NodeID i = Ok (VNode (NodeIP (Some x))).
Proof. exact (@heuristic_read g beyond n ip i x). Qed.
Print Assumptions C83_heuristic_ip.
(** the losses among these: a QFI alone, a CSID, a long policy identifier, the fifth feature octet *)
Theorem C83_refuted beyond :
  (exists i, calls default_grouped beyond N_DownlinkDataServiceInformation SDownlinkData (false, true, 0, 9)%N (Ok (Some i)) /\ access default_grouped A_PPI i = Ok (VN 9) /\ access default_grouped A_QFI i = Fault) /\
  (exists i, calls default_grouped beyond N_FQCSID SFQCSID ([], Some [127; 0; 0; 1]%N, [1; 2]%N) (Ok (Some i)) /\ access default_grouped A_CSIDs i = Ok (VNs [])) /\
  (exists i, calls default_grouped beyond N_ForwardingPolicy SForwardingPolicy (repeat 65%N 257) (Ok (Some i)) /\ access default_grouped A_ForwardingPolicyIdentifier i = Ok (VS [65%N])) /\
  (exists i, calls default_grouped beyond N_UPFunctionFeatures SUPFeatures [1; 2; 3; 4; 5; 6]%N (Ok (Some i)) /\ access default_grouped A_UPFunctionFeatures i = Ok (VB [1; 2; 3; 4]%N)).
Proof. split; [|split; [|split]]; (eexists; split; [split; reflexivity|]); try (split; vm_compute; reflexivity); vm_compute; reflexivity. Qed.
Print Assumptions C83_refuted.

(** * C84: nil, panic, or an element: which, for every constructor and all arguments *)
(** panics and nils are tables over the shapes (NewProofs6.v), written over the arguments alone *)
Theorem C84_verdict g beyond c s a r : calls g beyond c s a r -> arg_ok s a -> is_group s = false ->
  (r = Fault <-> panics s a = true) /\ (r = Ok None <-> panics s a = false /\ nils s a = true) /\ ((exists i, r = Ok (Some i)) <-> panics s a = false /\ nils s a = false).
Proof. exact (@calls_verdict g beyond c s a r). Qed.
Print Assumptions C84_verdict.
Theorem C84_group g beyond c s a r : calls g beyond c s a r -> is_group s = true -> exists i, r = Ok (Some i).
Proof. exact (@group_verdict g beyond c s a r). Qed.
Print Assumptions C84_group.
(** the shapes that can panic, and those that can return nil *)
Definition may_panic (s : shape) : bool :=
  match s with
  | SNFInstanceID => true
  | SFields k => match k with K_UserID | K_RedirectInformation | K_MACAddressesDetected | K_MACAddressesRemoved | K_MACAddress | K_PFDContents | K_RemoteGTPUPeer | K_TraceInformation => true | _ => false end
  | _ => false
  end.
Definition may_nil (s : shape) : bool :=
  match s with
  | SNodeID | SNodeIDHeuristic | SFQCSID => true
  | SFields k => match k with K_DLFlowLevelMarking | K_PacketRate | K_IPMulticastAddress | K_RemoteGTPUPeer | K_UserPlaneIPResourceInformation | K_TraceInformation => true | _ => false end
  | _ => false
  end.
Theorem C84_always g beyond c s a r : calls g beyond c s a r -> arg_ok s a -> (may_panic s = false -> r <> Fault) /\ (may_nil s = false -> r <> Ok None).
Proof.
  intros C A. destruct (is_group s) eqn:G; [destruct (group_verdict C G) as [i ->]; split; discriminate|].
  destruct (calls_verdict C A G) as (P & Q & _).
  assert (P' : may_panic s = false -> panics s a = false) by (clear; destruct s; cbn [panics may_panic]; try reflexivity; try discriminate; destruct k; cbn; try reflexivity; discriminate).
  assert (Q' : may_nil s = false -> nils s a = false) by (clear; destruct s; cbn [nils may_nil]; try reflexivity; try discriminate; destruct k; cbn; try reflexivity; discriminate).
  split; intros M E.
  - apply P in E. rewrite (P' M) in E. discriminate.
  - apply Q in E. destruct E as [_ E]. rewrite (Q' M) in E. discriminate.
Qed.
Print Assumptions C84_always.
Theorem C84_may s : (may_panic s = true -> exists a, arg_ok s a /\ panics s a = true) /\ (may_nil s = true -> exists a, arg_ok s a /\ panics s a = false /\ nils s a = true).
Proof.
  assert (B : bytes []) by constructor. assert (F : Forall bytes []) by constructor. assert (Z : octet 0) by reflexivity.
  split; intros M; destruct s; try discriminate M; try (destruct k; try discriminate M).
  - exists (None, None, []). repeat split; trivial.
  - exists (None, None, []). repeat split; trivial.
  - exists (Some [], None, None, None). repeat split; trivial.
  - exists ([], [], [], [], [], [repeat 0%N (N.to_nat 65534)], [], []). split.
    + repeat split; trivial. constructor; [|constructor]. apply Forall_forall. intros x I. apply repeat_spec in I. now subst x.
    + cbn [panics fpanics listed fold_right]. unfold lenN. rewrite repeat_length, N2Nat.id. reflexivity.
  - exists (0%N, []). repeat split; trivial.
  - exists (21%N, None, None, 0%N, []). repeat split; trivial.
  - exists ([], [], [], None, 0%N, None, None). repeat split; trivial.
  - exists (1%N, [0%N], [], [], []). repeat split; trivial.
  - exists []. split; trivial.
  - exists (0, 0, 0)%N. repeat split; trivial.
  - exists (None, Some [], Some [], None). repeat split; trivial.
  - exists (0, 0, 0, 0, 0)%N. repeat split; trivial.
  - exists (0%N, None, None, 0%N, []). repeat split; trivial.
  - exists ([103%N], [], [], None, 0%N, None, None). repeat split; trivial.
  - exists (0%N, 0%N, None, None, [], 0%N). repeat split; trivial.
  - exists ([103%N], None, []). repeat split; trivial.
  - exists (None, None, []). repeat split; trivial; discriminate.
  - exists ([], None). repeat split; trivial.
Qed.
Print Assumptions C84_may.
