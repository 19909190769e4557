(** Where TS 29.244 puts the flags of each IE: per octet of the payload, the bit (1 = least significant) of each flag.
    Written from the specification, independently of FlagTable.v. *)
From Verif Require Import Base IETypes FlagTable.
Set Implicit Arguments.
Local Open Scope N_scope.

Definition layout : list (N * list (list (N * flag))) := [
  (T_ApplyAction, [
    [(1, B_HasDROP); (2, B_HasFORW); (3, B_HasBUFF); (4, B_HasNOCP); (5, B_HasDUPL); (6, B_HasIPMA); (7, B_HasIPMD); (8, B_HasDFRT)];
    [(1, B_HasEDRT); (2, B_HasBDPN); (3, B_HasDDPN); (4, B_HasFSSM); (5, B_HasMBSU)]]);
  (T_DataStatus, [[(1, B_HasDROP); (2, B_HasBUFF)]]);
  (T_AdditionalUsageReportsInformation, [[(8, B_HasAURI)]]);
  (T_ATSSSLLControlInformation, [[(1, B_HasLLI)]]);
  (T_ATSSSLLInformation, [[(1, B_HasLLI)]]);
  (T_CPFunctionFeatures, [
    [(1, B_HasLOAD); (2, B_HasOVRL); (3, B_HasEPFAR); (4, B_HasSSET); (5, B_HasBUNDL); (6, B_HasMPAS); (7, B_HasARDR); (8, B_HasUIAUR)];
    [(1, B_HasPSUCC); (2, B_HasRPGUR)]]);
  (T_UPFunctionFeatures, [
    [(1, B_HasBUCP); (2, B_HasDDND); (3, B_HasDLBD); (4, B_HasTRST); (5, B_HasFTUP); (6, B_HasPFDM); (7, B_HasHEEU); (8, B_HasTREU)];
    [(1, B_HasEMPU); (2, B_HasPDIU); (3, B_HasUDBC); (4, B_HasQUOAC); (5, B_HasTRACE); (6, B_HasFRRT); (7, B_HasPFDE); (8, B_HasEPFAR)];
    [(1, B_HasDPDRA); (2, B_HasADPDP); (3, B_HasUEIP); (4, B_HasSSET); (5, B_HasMNOP); (6, B_HasMTE); (7, B_HasBUNDL); (8, B_HasGCOM)];
    [(1, B_HasMPAS); (2, B_HasRTTL); (3, B_HasVTIME)]]);
  (T_CreateBridgeInfoForTSC, [[(1, B_HasBII)]]);
  (T_DownlinkDataServiceInformation, [[(1, B_HasPPI); (2, B_HasQFI)]]);
  (T_DroppedDLTrafficThreshold, [[(1, B_HasDLPA); (2, B_HasDLBY)]]);
  (T_EthernetFilterProperties, [[(1, B_HasBIDE)]]);
  (T_EthernetPDUSessionInformation, [[(1, B_HasETHI)]]);
  (T_GTPUPathInterfaceType, [[(1, B_HasN9); (2, B_HasN3)]]);
  (T_MeasurementInformation, [[(1, B_HasMBQE); (2, B_HasINAM); (3, B_HasRADI); (4, B_HasISTM); (5, B_HasMNOP)]]);
  (T_MeasurementMethod, [[(1, B_HasDURAT); (2, B_HasVOLUM); (3, B_HasEVENT)]]);
  (T_MPTCPApplicableIndication, [[(1, B_HasMAI)]]);
  (T_MPTCPControlInformation, [[(1, B_HasTCI)]]);
  (T_MTEDTControlInformation, [[(1, B_HasRDSI)]]);
  (T_NodeReportType, [[(1, B_HasUPFR)]]);
  (T_PacketRate, [[(1, B_HasULPR); (2, B_HasDLPR)]]);
  (T_PacketReplicationAndDetectionCarryOnInformation, [[(1, B_HasPRIUEAI); (2, B_HasPRINT19I); (3, B_HasPRIN6I); (4, B_HasDCARONI)]]);
  (T_PFCPAssociationReleaseRequest, [[(1, B_HasSARR); (2, B_HasURSS)]]);
  (T_PFCPASReqFlags, [[(1, B_HasUUPSI)]]);
  (T_PFCPASRspFlags, [[(1, B_HasPSREI)]]);
  (T_PFCPAUReqFlags, [[(1, B_HasPARPS)]]);
  (T_PFCPSEReqFlags, [[(1, B_HasRESTI)]]);
  (T_PFCPSMReqFlags, [[(1, B_HasDROBU); (2, B_HasSNDEM); (3, B_HasQAURR)]]);
  (T_PFCPSRRspFlags, [[(1, B_HasDROBU)]]);
  (T_PFCPSRReqFlags, [[(1, B_HasPSDBU)]]);
  (T_PMFControlInformation, [[(1, B_HasPMFI)]]);
  (T_Proxying, [[(1, B_HasARP); (2, B_HasINS)]]);
  (T_QERControlIndications, [[(1, B_HasRCSR); (2, B_HasMODE); (3, B_HasNORD)]]);
  (T_QoSReportTrigger, [[(1, B_HasPER); (2, B_HasTHR); (3, B_HasIRE)]]);
  (T_RDSConfigurationInformation, [[(1, B_HasRDS)]]);
  (T_RemoteGTPUPeer, [[(3, B_HasDI); (4, B_HasNI)]]);
  (T_ReportType, [[(1, B_HasDLDR); (2, B_HasUSAR); (3, B_HasERIR); (4, B_HasUPIR)]]);
  (T_ReportingFrequency, [[(1, B_HasEVETT); (2, B_HasPERIO); (3, B_HasSESRL)]]);
  (T_ReportingTriggers, [
    [(1, B_HasPERIO); (2, B_HasVOLTH); (3, B_HasTIMTH); (4, B_HasQUHTI); (5, B_HasSTART); (6, B_HasSTOPT); (7, B_HasDROTH); (8, B_HasLIUSA)];
    [(1, B_HasVOLQU); (2, B_HasTIMQU); (3, B_HasENVCL); (4, B_HasMACAR); (5, B_HasEVETH); (6, B_HasEVEQU); (7, B_HasIPMJL); (8, B_HasQUVTI)];
    [(1, B_HasREEMR); (2, B_HasUPINT)]]);
  (T_UsageReportTrigger, [
    [(1, B_HasPERIO); (2, B_HasVOLTH); (3, B_HasTIMTH); (4, B_HasQUHTI); (5, B_HasSTART); (6, B_HasSTOPT); (7, B_HasDROTH); (8, B_HasIMMER)];
    [(1, B_HasVOLQU); (2, B_HasTIMQU); (3, B_HasLIUSA); (4, B_HasTERMR); (5, B_HasMONIT); (6, B_HasENVCL); (7, B_HasMACAR); (8, B_HasEVETH)];
    [(1, B_HasEVEQU); (2, B_HasTEBUR); (3, B_HasIPMJL); (4, B_HasQUVTI); (5, B_HasEMRRE); (6, B_HasUPINT)]]);
  (T_RequestedAccessAvailabilityInformation, [[(1, B_HasRRCA)]]);
  (T_RequestedClockDriftInformation, [[(1, B_HasRRTO); (2, B_HasRRCR)]]);
  (T_RequestedQoSMonitoring, [[(1, B_HasDL); (2, B_HasUL); (3, B_HasRP)]]);
  (T_RQI, [[(1, B_HasRQI)]]);
  (T_UEIPAddress, [[(3, B_HasSD); (4, B_HasIPv6D); (5, B_HasCHV4); (6, B_HasCHV6); (7, B_HasIP6PL)]]);
  (T_UserPlaneIPResourceInformation, [[(1, B_HasIPv4); (2, B_HasIPv6); (6, B_HasASSONI); (7, B_HasASSOSI)]]);
  (T_UsageInformation, [[(1, B_HasBEF); (2, B_HasAFT); (3, B_HasUAE); (4, B_HasUBE)]])].

(** the flags whose method reads another bit than the specification gives: DL Flow Level Marking has TTC at bit 1 and SCI at bit 2,
    IP Version has V4 at bit 1 and V6 at bit 2 *)
Definition swapped : list (N * list (list (N * flag))) := [
  (T_DLFlowLevelMarking, [[(1, B_HasTTC); (2, B_HasSCI)]]);
  (T_IPVersion, [[(1, B_HasIPv4); (2, B_HasIPv6)]])].

(** the shortest payload the IE can have *)
Definition shortest (t : N) : nat :=
  if (t =? T_AdditionalUsageReportsInformation) || (t =? T_ReportingTriggers) || (t =? T_UsageReportTrigger) then 2%nat else 1%nat.

(** the bit of flag f in an IE of type t: octet (from 0) and bit *)
Fixpoint in_octet (f : flag) (l : list (N * flag)) : option N :=
  match l with [] => None | (b, f') :: r => if flag_id f =? flag_id f' then Some b else in_octet f r end.
Fixpoint in_octets (f : flag) (k : nat) (l : list (list (N * flag))) : option (nat * N) :=
  match l with [] => None | o :: r => match in_octet f o with Some b => Some (k, b) | None => in_octets f (S k) r end end.
Fixpoint position (tab : list (N * list (list (N * flag)))) (f : flag) (t : N) : option (nat * N) :=
  match tab with [] => None | (t', l) :: r => if t =? t' then in_octets f 0 l else position r f t end.

(** the groups through which the flags of a member can be read: group, type of the child looked for, IE whose flags are meant *)
Definition inside : list (N * N * N) := [
  (T_CreateFAR, T_ApplyAction, T_ApplyAction); (T_UpdateFAR, T_ApplyAction, T_ApplyAction);
  (T_CreateURR, T_ReportingTriggers, T_ReportingTriggers); (T_UpdateURR, T_ReportingTriggers, T_ReportingTriggers);
  (T_CreateURR, T_MeasurementMethod, T_MeasurementMethod); (T_UpdateURR, T_MeasurementMethod, T_MeasurementMethod);
  (T_GTPUPathQoSControlInformation, T_MeasurementMethod, T_MeasurementMethod);
  (T_CreateURR, T_DroppedDLTrafficThreshold, T_DroppedDLTrafficThreshold); (T_UpdateURR, T_DroppedDLTrafficThreshold, T_DroppedDLTrafficThreshold);
  (T_UsageReportWithinSessionModificationResponse, T_UsageReportTrigger, T_UsageReportTrigger);
  (T_UsageReportWithinSessionDeletionResponse, T_UsageReportTrigger, T_UsageReportTrigger);
  (T_UsageReportWithinSessionReportRequest, T_UsageReportTrigger, T_UsageReportTrigger);
  (T_UsageReportWithinSessionModificationResponse, T_UsageInformation, T_UsageInformation);
  (T_UsageReportWithinSessionDeletionResponse, T_UsageInformation, T_UsageInformation);
  (T_UsageReportWithinSessionReportRequest, T_UsageInformation, T_UsageInformation);
  (T_CreateQER, T_RQI, T_RQI); (T_UpdateQER, T_RQI, T_RQI);
  (T_CreateQER, T_QERControlIndications, T_QERControlIndications); (T_UpdateQER, T_QERControlIndications, T_QERControlIndications);
  (T_ForwardingParameters, T_Proxying, T_Proxying); (T_UpdateForwardingParameters, T_Proxying, T_Proxying);
  (T_PDI, T_EthernetFilterProperties, T_EthernetFilterProperties); (T_EthernetPacketFilter, T_EthernetFilterProperties, T_EthernetFilterProperties);
  (T_CreatePDR, T_PDI, T_EthernetPDUSessionInformation); (T_PDI, T_EthernetPDUSessionInformation, T_EthernetPDUSessionInformation);
  (T_CreateTrafficEndpoint, T_EthernetPDUSessionInformation, T_EthernetPDUSessionInformation);
  (T_CreatePDR, T_PacketReplicationAndDetectionCarryOnInformation, T_PacketReplicationAndDetectionCarryOnInformation);
  (T_AccessAvailabilityControlInformation, T_RequestedAccessAvailabilityInformation, T_RequestedAccessAvailabilityInformation);
  (T_ProvideATSSSControlInformation, T_MPTCPControlInformation, T_MPTCPControlInformation);
  (T_ProvideATSSSControlInformation, T_PMFControlInformation, T_PMFControlInformation);
  (T_GTPUPathQoSControlInformation, T_QoSReportTrigger, T_QoSReportTrigger); (T_GTPUPathQoSReport, T_QoSReportTrigger, T_QoSReportTrigger);
  (T_GTPUPathQoSControlInformation, T_GTPUPathInterfaceType, T_GTPUPathInterfaceType); (T_GTPUPathQoSReport, T_GTPUPathInterfaceType, T_GTPUPathInterfaceType);
  (T_QoSMonitoringPerQoSFlowControlInformation, T_RequestedQoSMonitoring, T_RequestedQoSMonitoring);
  (T_QoSMonitoringPerQoSFlowControlInformation, T_ReportingFrequency, T_ReportingFrequency);
  (T_CreateBAR, T_MTEDTControlInformation, T_MTEDTControlInformation);
  (T_DownlinkDataReport, T_DataStatus, T_DataStatus)].

(** the methods that read something else than one bit at a fixed place: HasIPv4 and HasIPv6 of a UE IP Address, the methods that parse
    an F-SEID, F-TEID or Outer Header Creation, HasMAC of a TSN Bridge ID, and the two methods on the URR ID *)
Definition special : list (N * list flag) := [
  (T_UEIPAddress, [B_HasIPv4; B_HasIPv6]); (T_FSEID, [B_HasIPv4; B_HasIPv6]); (T_FTEID, [B_HasIPv4; B_HasIPv6]);
  (T_OuterHeaderCreation, [B_HasTEID; B_HasIPv4; B_HasIPv6; B_HasPortNumber; B_HasCTag; B_HasSTag; B_IsN19; B_IsN6; B_IsLLSSMCTEID]);
  (T_TSNBridgeID, [B_HasMAC]); (T_URRID, [B_IsAllocatedByCPFunction; B_IsAllocatedByUPFunction])].

(** the bits of the Flags member of the XxxFields structs *)
Definition slayout : list (list (N * sflag)) := [
  [(1, S_FTEID_IPv4); (2, S_FTEID_IPv6); (3, S_FTEID_Ch); (4, S_FTEID_ChID)];
  [(1, S_FSEID_IPv6); (2, S_FSEID_IPv4)];
  [(1, S_AlternativeSMFIPAddress_IPv6); (2, S_AlternativeSMFIPAddress_IPv4)];
  [(1, S_CPPFCPEntityIPAddress_IPv6); (2, S_CPPFCPEntityIPAddress_IPv4)];
  [(1, S_CTAG_PCP); (2, S_CTAG_DEI); (3, S_CTAG_VID)];
  [(1, S_STAG_PCP); (2, S_STAG_DEI); (3, S_STAG_VID)];
  [(1, S_IPMulticastAddress_IPv6); (2, S_IPMulticastAddress_IPv4); (3, S_IPMulticastAddress_Range); (4, S_IPMulticastAddress_Any)];
  [(1, S_MACAddress_SOUR); (2, S_MACAddress_DEST); (3, S_MACAddress_USOU); (4, S_MACAddress_UDES)];
  [(1, S_MPTCPAddressInformation_IPv4); (2, S_MPTCPAddressInformation_IPv6)];
  [(1, S_NumberOfUEIPAddresses_IPv4); (2, S_NumberOfUEIPAddresses_IPv6)];
  [(1, S_PacketDelayThresholds_DL); (2, S_PacketDelayThresholds_UL); (3, S_PacketDelayThresholds_RP)];
  [(1, S_PacketRateStatus_UL); (2, S_PacketRateStatus_DL); (3, S_PacketRateStatus_APR)];
  [(1, S_PFDContents_FD); (2, S_PFDContents_URL); (3, S_PFDContents_DN); (4, S_PFDContents_CP); (5, S_PFDContents_DNP); (6, S_PFDContents_AFD); (7, S_PFDContents_AURL); (8, S_PFDContents_ADNP)];
  [(1, S_PMFAddressInformation_IPv4); (2, S_PMFAddressInformation_IPv6); (3, S_PMFAddressInformation_MAC)];
  [(1, S_QoSMonitoringMeasurement_DL); (2, S_QoSMonitoringMeasurement_UL); (3, S_QoSMonitoringMeasurement_RP); (4, S_QoSMonitoringMeasurement_PLMF)];
  [(1, S_SDFFilter_FD); (2, S_SDFFilter_TTC); (3, S_SDFFilter_SPI); (4, S_SDFFilter_FL); (5, S_SDFFilter_BID)];
  [(1, S_SourceIPAddress_IPv6); (2, S_SourceIPAddress_IPv4); (3, S_SourceIPAddress_MPL)];
  [(1, S_SubsequentVolumeQuota_TOVOL); (2, S_SubsequentVolumeQuota_ULVOL); (3, S_SubsequentVolumeQuota_DLVOL)];
  [(1, S_SubsequentVolumeThreshold_TOVOL); (2, S_SubsequentVolumeThreshold_ULVOL); (3, S_SubsequentVolumeThreshold_DLVOL)];
  [(1, S_UELinkSpecificIPAddress_IPv4); (2, S_UELinkSpecificIPAddress_IPv6); (3, S_UELinkSpecificIPAddress_NV4); (4, S_UELinkSpecificIPAddress_NV6)];
  [(1, S_VolumeMeasurement_TOVOL); (2, S_VolumeMeasurement_ULVOL); (3, S_VolumeMeasurement_DLVOL); (4, S_VolumeMeasurement_TONOP); (5, S_VolumeMeasurement_ULNOP); (6, S_VolumeMeasurement_DLNOP)];
  [(1, S_VolumeQuota_TOVOL); (2, S_VolumeQuota_ULVOL); (3, S_VolumeQuota_DLVOL)];
  [(1, S_VolumeThreshold_TOVOL); (2, S_VolumeThreshold_ULVOL); (3, S_VolumeThreshold_DLVOL)]].
