(** C85: which element an accessor finds in a group; the tables not given by TS 29.244, and the proofs by computation over every accessor and every type code *)
From Coq Require Import String.
From Verif Require Import Base Codec IETypes IE IENames IEWf AccNames Access AccTable AccRun AccProofs AccProofs2 AccProofs5 AccProofs6 Members.

(** the accessor carries the name of the type code (ie/ie.go, the constants; IENames.v) *)
Definition named (a : acc) (c : N) : Prop := In (c, acc_name a) ie_type_names.

(** accessors that look into a group for an element that is not a member of it, or one level deeper than its members *)
Definition through : list (acc * list N * list N * acc) := [
  (A_AccessAvailabilityControlInformation, [T_SessionReport], [T_AccessAvailabilityControlInformation], A_AccessAvailabilityControlInformation);
  (A_ApplicationDetectionInformation, [T_UsageReportWithinSessionDeletionResponse; T_UsageReportWithinSessionModificationResponse], 
[T_ApplicationDetectionInformation], A_ApplicationDetectionInformation);
  (A_ApplicationID, [T_UsageReportWithinSessionReportRequest], [T_ApplicationDetectionInformation], A_ApplicationID);
  (A_ApplicationID, [T_CreatePDR], [T_PDI], A_ApplicationID);
  (A_ApplicationInstanceID, [T_UsageReportWithinSessionReportRequest], [T_ApplicationDetectionInformation], A_ApplicationInstanceID);
  (A_ATSSSLLInformation, [T_ATSSSControlParameters], [T_ATSSSLLParameters], A_ATSSSLLInformation);
  (A_AveragePacketDelay, [T_GTPUPathQoSReport], [T_AveragePacketDelay], A_AveragePacketDelay);
  (A_CTAG, [T_PDI], [T_EthernetPacketFilter], A_CTAG);
  (A_LocalFTEID, [T_CreatedTrafficEndpoint], [T_FTEID], A_FTEID);
  (A_CumulativeRateRatioThreshold, [T_ClockDriftReport], [T_CumulativeRateRatioThreshold], A_CumulativeRateRatioThreshold);
  (A_EthernetFilterID, [T_PDI], [T_EthernetPacketFilter], A_EthernetFilterID);
  (A_EthernetFilterProperties, [T_PDI], [T_EthernetFilterProperties], A_EthernetFilterProperties);
  (A_EthernetPacketFilter, [T_CreatePDR], [T_PDI], A_EthernetPacketFilter);
  (A_EthernetPDUSessionInformation, [T_CreatePDR], [T_PDI], A_EthernetPDUSessionInformation);
  (A_Ethertype, [T_PDI], [T_Ethertype], A_Ethertype);
  (A_FARID, [T_UpdateMAR; T_CreateMAR], [T_TGPPAccessForwardingActionInformation; T_NonTGPPAccessForwardingActionInformation], A_FARID);
  (A_FlowInformation, [T_UsageReportWithinSessionReportRequest], [T_ApplicationDetectionInformation], A_FlowInformation);
  (A_FlowDirection, [T_ApplicationDetectionInformation], [T_FlowInformation], A_FlowDirection);
  (A_FlowDescription, [T_ApplicationDetectionInformation], [T_FlowInformation], A_FlowDescription);
  (A_IPMulticastAddress, [T_UpdatePDR; T_CreatePDR], [T_IPMulticastAddressingInfo], A_IPMulticastAddress);
  (A_MACAddressesDetected, [T_UsageReportWithinSessionReportRequest; T_UsageReportWithinSessionDeletionResponse; 
T_UsageReportWithinSessionModificationResponse], [T_EthernetTrafficInformation], A_MACAddressesDetected);
  (A_MACAddressesRemoved, [T_UsageReportWithinSessionReportRequest; T_UsageReportWithinSessionDeletionResponse; 
T_UsageReportWithinSessionModificationResponse], [T_EthernetTrafficInformation], A_MACAddressesRemoved);
  (A_MACAddress, [T_PDI], [T_EthernetPacketFilter], A_MACAddress);
  (A_MaximumPacketDelay, [T_GTPUPathQoSReport], [T_MaximumPacketDelay], A_MaximumPacketDelay);
  (A_MeasurementMethod, [T_GTPUPathQoSControlInformation], [T_MeasurementMethod], A_MeasurementMethod);
  (A_MinimumPacketDelay, [T_GTPUPathQoSReport], [T_MinimumPacketDelay], A_MinimumPacketDelay);
  (A_MPTCPAddressInformation, [T_ATSSSControlParameters], [T_MPTCPParameters], A_MPTCPAddressInformation);
  (A_ValueDigits, [T_AggregatedURRs], [T_Multiplier], A_ValueDigits);
  (A_Exponent, [T_AggregatedURRs], [T_Multiplier], A_Exponent);
  (A_NFInstanceID, [T_EthernetPacketFilter], [T_NFInstanceID], A_NFInstanceID);
  (A_OuterHeaderCreation, [T_RedundantTransmissionParameters], [T_OuterHeaderCreation], A_OuterHeaderCreation);
  (A_PacketRateStatus, [T_UpdateQER], [T_PacketRateStatus], A_PacketRateStatus);
  (A_PDRID, [T_UsageReportWithinSessionReportRequest], [T_ApplicationDetectionInformation], A_PDRID);
  (A_PFCPSMReqFlags, [T_ForwardingParameters], [T_PFCPSMReqFlags], A_PFCPSMReqFlags);
  (A_PFDContents, [T_ApplicationIDsPFDs], [T_PFDContext], A_PFDContents);
  (A_PMFAddressInformation, [T_ATSSSControlParameters], [T_PMFParameters], A_PMFAddressInformation);
  (A_Priority, [T_UpdateMAR; T_CreateMAR], [T_TGPPAccessForwardingActionInformation; T_NonTGPPAccessForwardingActionInformation], A_Priority);
  (A_Proxying, [T_UpdateForwardingParameters], [T_Proxying], A_Proxying);
  (A_RedundantTransmissionParameters, [T_UpdateFAR; T_CreateFAR], [T_RedundantTransmissionParameters], A_RedundantTransmissionParameters);
  (A_RedundantTransmissionParameters, [T_CreatePDR], [T_PDI], A_RedundantTransmissionParameters);
  (A_STAG, [T_PDI], [T_EthernetPacketFilter], A_STAG);
  (A_SDFFilter, [T_CreatePDR], [T_PDI], A_SDFFilter);
  (A_SourceInterface, [T_UpdatePDR; T_CreatePDR], [T_PDI], A_SourceInterface);
  (A_SourceIPAddress, [T_CreatePDR], [T_IPMulticastAddressingInfo], A_SourceIPAddress);
  (A_SubsequentEventQuota, [T_AdditionalMonitoringTime], [T_SubsequentEventQuota], A_SubsequentEventQuota);
  (A_SubsequentEventThreshold, [T_AdditionalMonitoringTime], [T_SubsequentEventThreshold], A_SubsequentEventThreshold);
  (A_TimeOffsetThreshold, [T_ClockDriftReport], [T_TimeOffsetThreshold], A_TimeOffsetThreshold);
  (A_TrafficEndpointID, [T_CreatePDR], [T_PDI], A_TrafficEndpointID);
  (A_TransportLevelMarking, [T_GTPUPathQoSReport], [T_TransportLevelMarking], A_TransportLevelMarking);
  (A_UEIPAddress, [T_CreatePDR], [T_PDI], A_UEIPAddress);
  (A_UELinkSpecificIPAddress, [T_ATSSSControlParameters], [T_MPTCPParameters], A_UELinkSpecificIPAddress);
  (A_URRID, [T_UpdateMAR; T_CreateMAR], [T_TGPPAccessForwardingActionInformation; T_NonTGPPAccessForwardingActionInformation], A_URRID);
  (A_Weight, [T_UpdateMAR; T_CreateMAR], [T_TGPPAccessForwardingActionInformation; T_NonTGPPAccessForwardingActionInformation], A_Weight)].
(** accessors named after a part of what another accessor returns *)
Definition part : list (acc * list N * acc) := [
  (A_AvailabilityStatus, [T_AccessAvailabilityInformation; T_AccessAvailabilityReport], A_AccessAvailabilityInformation);
  (A_AccessType, [T_AccessAvailabilityInformation; T_AccessAvailabilityReport], A_AccessAvailabilityInformation);
  (A_ForwardingPolicyIdentifier, [T_UpdateDuplicatingParameters; T_ForwardingPolicy; T_UpdateForwardingParameters; T_DuplicatingParameters; 
T_ForwardingParameters], A_ForwardingPolicy);
  (A_GateStatusUL, [T_GateStatus; T_UpdateQER; T_CreateQER], A_GateStatus);
  (A_GateStatusDL, [T_GateStatus; T_UpdateQER; T_CreateQER], A_GateStatus);
  (A_GateStatusULDL, [T_GateStatus; T_UpdateQER; T_CreateQER], A_GateStatus);
  (A_GBRUL, [T_GBR; T_UpdateQER; T_CreateQER], A_GBR);
  (A_GBRDL, [T_GBR; T_UpdateQER; T_CreateQER], A_GBR);
  (A_MBRUL, [T_MBR; T_UpdateQER; T_CreateQER], A_MBR);
  (A_MBRDL, [T_MBR; T_UpdateQER; T_CreateQER], A_MBR);
  (A_NetworkInstanceFQDN, [T_RedundantTransmissionParameters; T_UEIPAddressPoolInformation; T_UpdateTrafficEndpoint; T_CreateTrafficEndpoint; 
T_NetworkInstance; T_UpdateForwardingParameters; T_ForwardingParameters], A_NetworkInstance);
  (A_NetworkInstanceHeuristic, [T_RedundantTransmissionParameters; T_UEIPAddressPoolInformation; T_UpdateTrafficEndpoint; T_CreateTrafficEndpoint; 
T_NetworkInstance; T_UpdateForwardingParameters; T_ForwardingParameters], A_NetworkInstanceFQDN);
  (A_OuterHeaderRemovalDescription, [T_OuterHeaderRemoval; T_UpdatePDR; T_CreatePDR], A_OuterHeaderRemoval);
  (A_GTPUExtensionHeaderDeletion, [T_OuterHeaderRemoval; T_UpdatePDR; T_CreatePDR], A_OuterHeaderRemoval);
  (A_SST, [T_SNSSAI; T_UEIPAddressPoolInformation], A_SNSSAI);
  (A_SD, [T_SNSSAI; T_UEIPAddressPoolInformation], A_SNSSAI);
  (A_UEIPAddressPoolIdentityString, [T_UEIPAddressPoolInformation; T_UEIPAddressPoolIdentity; T_CreatePDR], A_UEIPAddressPoolIdentity)].
(** accessors of the element itself under another name *)
Definition renamed : list (acc * list N) := [
  (A_PPI, [T_DownlinkDataServiceInformation]);
  (A_RuleIDType, [T_FailedRuleID]);
  (A_FlowDirection, [T_FlowInformation]);
  (A_FlowDescription, [T_FlowInformation]);
  (A_NodeIDType, [T_FQCSID]);
  (A_NodeAddress, [T_FQCSID]);
  (A_CSIDs, [T_FQCSID]);
  (A_ValueDigits, [T_Multiplier]);
  (A_Exponent, [T_Multiplier]);
  (A_PacketRateStatusReport, [T_PacketRateStatusReportWithinSessionModificationResponse]);
  (A_QFI, [T_DownlinkDataServiceInformation]);
  (A_QueryPacketRateStatus, [T_QueryPacketRateStatusWithinSessionModificationRequest]);
  (A_TSCManagementInformation, [T_TSCManagementInformationWithinSessionReportRequest; T_TSCManagementInformationWithinSessionModificationResponse; 
T_TSCManagementInformationWithinSessionModificationRequest]);
  (A_PortManagementInformationForTSC, [T_TSCManagementInformationWithinSessionReportRequest; 
T_TSCManagementInformationWithinSessionModificationResponse; T_TSCManagementInformationWithinSessionModificationRequest]);
  (A_UpdateBAR, [T_UpdateBARWithinSessionModificationRequest; T_UpdateBARWithinSessionReportResponse]);
  (A_UsageReport, [T_UsageReportWithinSessionReportRequest; T_UsageReportWithinSessionDeletionResponse; 
T_UsageReportWithinSessionModificationResponse])].

Definition codes (a : acc) : list N := map fst (filter (fun '(_, s) => String.eqb s (acc_name a)) ie_type_names).
Lemma codes_ok a c : In c (codes a) <-> named a c.
Proof.
  unfold codes, named. rewrite in_map_iff. split.
  - intros ([d s] & E & I). apply filter_In in I as [I S]. apply String.eqb_eq in S. cbn in E. congruence.
  - intros I. exists (c, acc_name a). split; [reflexivity|]. apply filter_In. split; [assumption|apply String.eqb_refl].
Qed.
Definition pairb (tab : list (N * list N)) (t c : N) : bool := existsb (fun '(u, cs) => (u =? t)%N && memb c cs) tab.
Lemma pairb_ok tab t c : pairb tab t c = true <-> exists cs, In (t, cs) tab /\ In c cs.
Proof.
  unfold pairb. rewrite existsb_exists. split.
  - intros ([u cs] & I & E). apply andb_prop in E as [E1 E2]. apply N.eqb_eq in E1 as ->. exists cs. split; [assumption|now apply memb_spec].
  - intros (cs & I & C). exists (t, cs). split; [assumption|]. cbn beta iota. rewrite N.eqb_refl. now apply memb_spec.
Qed.
Definition eqNs (x y : list N) : bool := if list_eq_dec N.eq_dec x y then true else false.
Lemma eqNs_ok x y : eqNs x y = true -> x = y.
Proof. unfold eqNs. now destruct (list_eq_dec N.eq_dec x y). Qed.
Definition via (ts : list N) (b : acc) (x : action acc) : bool :=
  match x with Via _ us c => eqNs us ts && (acc_id b =? acc_id c)%N | _ => false end.
Lemma via_ok ts b x : via ts b x = true -> exists c, x = Via c ts b.
Proof.
  destruct x as [l|c us d|c us d|c f|c d]; cbn [via]; try discriminate. intros E. apply andb_prop in E as [E1 E2].
  apply eqNs_ok in E1 as ->. apply N.eqb_eq in E2. apply acc_id_inj in E2 as ->. now exists c.
Qed.

(** * The members *)
Definition pdi_fteid (t c : N) : list N :=
  if (t =? T_PDI)%N && (c =? T_FTEID)%N then [T_FTEID; T_RedundantTransmissionParameters] else [c].
Definition member_check_in (tab : list (N * list N)) (k : list N) (a : acc) : bool :=
  forallb (fun '(t, cs) => forallb (fun c =>
    if memb c k then
      if pairb unreachable t c then negb (handles a t) || deadb a t else via (pdi_fteid t c) a (look a t)
    else true) cs) tab.
Lemma member_table : forallb (fun a => member_check_in members (codes a) a) all_accs = true.
Proof. vm_compute. reflexivity. Qed.
Lemma member_check_in_ok tab k a t c cs : member_check_in tab k a = true -> In (t, cs) tab -> In c cs -> In c k ->
  if pairb unreachable t c then handles a t = false \/ dead a t else exists x, look a t = Via x (pdi_fteid t c) a.
Proof.
  unfold member_check_in. intros H I C M.
  rewrite forallb_forall in H. specialize (H _ I). cbn beta iota in H. rewrite forallb_forall in H. specialize (H _ C). cbn beta in H.
  apply memb_spec in M. rewrite M in H. destruct (pairb unreachable t c).
  - apply orb_prop in H as [H|H]; [left; now apply negb_true_iff|right; now apply deadb_ok].
  - exact (via_ok _ _ _ H).
Qed.
Lemma member_checked a t c : member t c -> named a c ->
  if pairb unreachable t c then handles a t = false \/ dead a t else exists x, look a t = Via x (pdi_fteid t c) a.
Proof.
  intros (cs & I & C) M. apply codes_ok in M. 
  assert (H : member_check_in members (codes a) a = true) by exact (@acc_check (fun a => member_check_in members (codes a) a) member_table a).
  revert M H. generalize (codes a). intros k M H.
  exact (@member_check_in_ok members k a t c cs H I C M).
Qed.

(** * The other calls with code *)
Definition through_check (tab : list (acc * list N * list N * acc)) : bool :=
  forallb (fun '(a, us, ts, b) => forallb (fun t => via ts b (look a t)) us) tab.
Lemma through_table : through_check through = true.
Proof. vm_compute. reflexivity. Qed.
Lemma through_checked a us ts b t : In (a, us, ts, b) through -> In t us -> exists x, look a t = Via x ts b.
Proof.
  intros I T. pose proof through_table as H. revert H I. generalize through. intros tab H I. unfold through_check in H. rewrite forallb_forall in H. specialize (H _ I). cbn beta iota in H.
  rewrite forallb_forall in H. exact (via_ok _ _ _ (H _ T)).
Qed.
Definition partb (b : acc) (x : action acc) : bool :=
  match x with Then c _ => (acc_id b =? acc_id c)%N | OrElse c _ => (acc_id b =? acc_id c)%N | _ => false end.
Definition in3 (a : acc) (t : N) : bool :=
  existsb (fun '(b, us, _, _) => (acc_id a =? acc_id b)%N && memb t us) through
  || existsb (fun '(b, us, _) => (acc_id a =? acc_id b)%N && memb t us) part
  || existsb (fun '(b, us) => (acc_id a =? acc_id b)%N && memb t us) renamed.
Definition elsewhere (a : acc) (t : N) : Prop :=
  (exists us ts b, In (a, us, ts, b) through /\ In t us) \/ (exists us b, In (a, us, b) part /\ In t us) \/ (exists us, In (a, us) renamed /\ In t us).
Lemma in3_ok a t : in3 a t = true -> elsewhere a t.
Proof.
  unfold in3, elsewhere. intros H. apply orb_prop in H as [H|H]; [apply orb_prop in H as [H|H]|].
  - left. apply existsb_exists in H as ([[[b us] ts] c] & I & E). apply andb_prop in E as [E1 E2]. apply N.eqb_eq, acc_id_inj in E1 as <-.
    apply memb_spec in E2. now exists us, ts, c.
  - right. left. apply existsb_exists in H as ([[b us] c] & I & E). apply andb_prop in E as [E1 E2]. apply N.eqb_eq, acc_id_inj in E1 as <-.
    apply memb_spec in E2. now exists us, c.
  - right. right. apply existsb_exists in H as ([b us] & I & E). apply andb_prop in E as [E1 E2]. apply N.eqb_eq, acc_id_inj in E1 as <-.
    apply memb_spec in E2. now exists us.
Qed.
Definition only_check_in (tab : list (N * list N)) (k all : list N) (a : acc) : bool :=
  forallb (fun t => if handles a t then
    if deadb a t then true else if memb t k then true
    else if existsb (fun '(u, cs) => if (u =? t)%N then existsb (fun c => memb c k) cs else false) tab then true else in3 a t
    else true) all.
Lemma only_table : forallb (fun a => only_check_in members (codes a) (upto 401) a) all_accs = true.
Proof. vm_compute. reflexivity. Qed.
Lemma only_check_in_ok tab k all a t : only_check_in tab k all a = true -> In t all -> handles a t = true ->
  dead a t \/ In t k \/ (exists c cs, In (t, cs) tab /\ In c cs /\ In c k) \/ elsewhere a t.
Proof.
  unfold only_check_in. intros C I H.
  rewrite forallb_forall in C. specialize (C t I). cbn beta in C. rewrite H in C.
  destruct (deadb a t) eqn:D; [left; now apply deadb_ok|]. right.
  destruct (memb t k) eqn:M; [left; now apply memb_spec|]. right.
  destruct (existsb _ tab) eqn:X; [left|right; now apply in3_ok].
  apply existsb_exists in X as ([u cs] & I1 & E). destruct (u =? t)%N eqn:E1; [|discriminate]. apply N.eqb_eq in E1 as ->.
  apply existsb_exists in E as (c & I2 & K). apply memb_spec in K. now exists c, cs.
Qed.
Lemma only_checked a t : handles a t = true -> dead a t \/ named a t \/ (exists c, member t c /\ named a c) \/ elsewhere a t.
Proof.
  intros H. pose proof (handles_below _ _ H) as B.
  assert (I : In t (upto 401)) by (apply upto_In; unfold tops in B; lia).

  assert (O : only_check_in members (codes a) (upto 401) a = true) by exact (@acc_check (fun a => only_check_in members (codes a) (upto 401) a) only_table a).
  destruct (@only_check_in_ok members (codes a) (upto 401) a t O I H) as [D|[M|[(c & cs & X & Y & Z)|E]]].
  - left. exact D.
  - right. left. exact (proj1 (codes_ok a t) M).
  - right. right. left. exists c. split; [exists cs; split; assumption|exact (proj1 (codes_ok a c) Z)].
  - right. right. right. exact E.
Qed.
Definition part_check (tab : list (acc * list N * acc)) : bool := forallb (fun '(a, us, b) => forallb (fun t => partb b (look a t)) us) tab.
Lemma part_table : part_check part = true.
Proof. vm_compute. reflexivity. Qed.
Lemma part_checked a us b t : In (a, us, b) part -> In t us -> (exists f, look a t = Then b f) \/ exists d, look a t = OrElse b d.
Proof.
  pose proof part_table as H. revert H. generalize part. intros tab H I T. unfold part_check in H. rewrite forallb_forall in H. specialize (H _ I).
  cbn beta iota in H. rewrite forallb_forall in H. specialize (H _ T). unfold partb in H. destruct (look a t) as [l|c u d|c u d|c f|c d]; try discriminate.
  - apply N.eqb_eq, acc_id_inj in H as ->. left. now exists f.
  - apply N.eqb_eq, acc_id_inj in H as ->. right. now exists d.
Qed.
Lemma part_ok g a i us b v : bytes (payload i) -> In (a, us, b) part -> In (ty i) us -> access g a i = Ok v -> exists w, access g b i = Ok w.
Proof.
  intros B I T E. rewrite (@access_eq g a i B) in E. apply bind_ok in E as (u & _ & E).
  destruct (@part_checked a us b (ty i) I T) as [[f L]|[d L]]; rewrite L in E; apply bind_ok in E as (w & E & _); now exists w.
Qed.
Lemma find_same (p q : ie -> bool) l : (forall x, p x = q x) -> find p l = find q l.
Proof. intros H. induction l as [|x r IH]; cbn [find]; [reflexivity|]. now rewrite H, IH. Qed.
