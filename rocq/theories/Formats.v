(** The coding of the IEs that hold a single value, after 3GPP TS 29.244 clause 8.2 (the author's knowledge of it; written without reference to the code). *)
From Verif Require Import Base IETypes Utils Access.

Inductive fmt :=
| FUint (k : nat)   (* an unsigned integer of k octets, or k octets of flags *)
| FBits (k : N)     (* the k low bits of one octet; the others are spare *)
| FText             (* an octet string *)
| FName             (* labels, each preceded by the octet of its length *)
| FTime             (* seconds since 1900 modulo 2^32, in 4 octets *)
| FTimer            (* 3 bits of unit, 5 bits of value *)
| FSecs (k : nat)   (* seconds in k octets *)
| FMillis           (* milliseconds in 4 octets *)
| F50ms             (* units of 50 ms in one octet *)
| FNanos            (* nanoseconds in 8 octets, two's complement *)
| FOctets (k : nat). (* k octets of flags or more *)

Definition formats : list (N * fmt) := [
  (T_Cause, FUint 1); (T_SourceInterface, FBits 4); (T_NetworkInstance, FText); (T_ApplicationID, FText); (T_TransportLevelMarking, FUint 2);
  (T_QERCorrelationID, FUint 4); (T_Precedence, FUint 4); (T_TimeThreshold, FSecs 4); (T_MonitoringTime, FTime); (T_SubsequentTimeThreshold, FSecs 4);
  (T_InactivityDetectionTime, FUint 4); (T_ReportingTriggers, FOctets 2); (T_OffendingIE, FUint 2); (T_DestinationInterface, FBits 4);
  (T_UPFunctionFeatures, FOctets 2); (T_ApplyAction, FOctets 1); (T_DownlinkDataNotificationDelay, F50ms); (T_DLBufferingDuration, FTimer);
  (T_PFCPSMReqFlags, FUint 1); (T_PFCPSRRspFlags, FUint 1); (T_SequenceNumber, FUint 4); (T_Metric, FUint 1); (T_Timer, FTimer); (T_PDRID, FUint 2);
  (T_MeasurementPeriod, FSecs 4); (T_UsageReportTrigger, FOctets 2); (T_DurationMeasurement, FSecs 4); (T_TimeOfFirstPacket, FTime); (T_TimeOfLastPacket, FTime);
  (T_QuotaHoldingTime, FSecs 4); (T_TimeQuota, FSecs 4); (T_StartTime, FTime); (T_EndTime, FTime); (T_URRID, FUint 4); (T_LinkedURRID, FUint 4);
  (T_BARID, FUint 1); (T_CPFunctionFeatures, FOctets 1); (T_RecoveryTimeStamp, FTime); (T_FARID, FUint 4); (T_QERID, FUint 4); (T_OCIFlags, FUint 1);
  (T_MeasurementInformation, FUint 1); (T_NodeReportType, FUint 1); (T_URSEQN, FUint 4); (T_ActivatePredefinedRules, FText); (T_DeactivatePredefinedRules, FText);
  (T_GracefulReleasePeriod, FTimer); (T_PDNType, FBits 3); (T_SubsequentTimeQuota, FSecs 4); (T_QueryURRReference, FUint 4); (T_AveragingWindow, FUint 4);
  (T_PagingPolicyIndicator, FBits 3); (T_APNDNN, FName); (T_TGPPInterfaceType, FBits 6); (T_PFCPSRReqFlags, FUint 1); (T_PFCPAUReqFlags, FUint 1);
  (T_ActivationTime, FTime); (T_DeactivationTime, FTime); (T_MARID, FUint 2); (T_SteeringFunctionality, FBits 4); (T_SteeringMode, FBits 4);
  (T_Weight, FUint 1); (T_Priority, FBits 4); (T_QFI, FBits 6); (T_RQI, FBits 1); (T_TrafficEndpointID, FUint 1); (T_EthernetFilterID, FUint 4);
  (T_EthernetFilterProperties, FUint 1); (T_Ethertype, FUint 2); (T_EthernetPDUSessionInformation, FUint 1); (T_EthernetInactivityTimer, FSecs 4);
  (T_UserPlaneInactivityTimer, FSecs 4); (T_SubsequentEventQuota, FUint 4); (T_SubsequentEventThreshold, FUint 4); (T_EventQuota, FUint 4); (T_EventThreshold, FUint 4);
  (T_FramedRoute, FText); (T_FramedRouting, FUint 4); (T_FramedIPv6Route, FText); (T_EventTimeStamp, FTime); (T_PFCPASRspFlags, FUint 1);
  (T_QuotaValidityTime, FSecs 4); (T_NumberOfReports, FUint 2); (T_PFCPASReqFlags, FUint 1); (T_PacketReplicationAndDetectionCarryOnInformation, FUint 1);
  (T_SMFSetID, FName); (T_DSTTPortNumber, FUint 4); (T_NWTTPortNumber, FUint 4); (T_TSNTimeDomainNumber, FUint 1); (T_TimeOffsetThreshold, FNanos);
  (T_CumulativeRateRatioThreshold, FUint 4); (T_TimeOffsetMeasurement, FNanos); (T_CumulativeRateRatioMeasurement, FUint 4);
  (T_PortManagementInformationContainer, FText); (T_BridgeManagementInformationContainer, FText); (T_SRRID, FUint 1); (T_AveragePacketDelay, FMillis);
  (T_MinimumPacketDelay, FMillis); (T_MaximumPacketDelay, FMillis); (T_PFCPSEReqFlags, FUint 1); (T_ApplicationInstanceID, FText);
  (T_DataNetworkAccessIdentifier, FText); (T_MPTCPApplicableIndication, FUint 1); (T_ValidityTimer, FSecs 2); (T_DataStatus, FUint 1);
  (T_SuggestedBufferingPacketsCount, FUint 1); (T_DLDataPacketsSize, FUint 2); (T_MinimumWaitTime, FSecs 4); (T_AggregatedURRID, FUint 4);
  (T_ATSSSLLControlInformation, FBits 1); (T_ATSSSLLInformation, FBits 1); (T_MPTCPControlInformation, FBits 1); (T_PMFControlInformation, FBits 1);
  (T_MTEDTControlInformation, FBits 1); (T_RDSConfigurationInformation, FBits 1); (T_RequestedAccessAvailabilityInformation, FBits 1); (T_CreateBridgeInfoForTSC, FBits 1)].

Local Open Scope Z_scope.
(** the octets that stand for a value *)
Inductive encodes : fmt -> val -> list N -> Prop :=
| enc_uint k v : (v < 256 ^ N.of_nat k)%N -> encodes (FUint k) (VN v) (be k v)
| enc_bits k v : (v < 2 ^ k)%N -> encodes (FBits k) (VN v) [v]
| enc_text s : encodes FText (VS s) s
| enc_name ls : ls <> [] -> Forall (fun l => bytes l /\ (lenN l < 256)%N /\ ~ In 46%N l) ls -> encodes FName (VS (join_dot ls)) (concat (map (fun l => lenN l :: l) ls))
| enc_time s : 0 <= s < 2 ^ 32 -> encodes FTime (VT (s * 1000000000)) (be 4 (Z.to_N ((s + 2208988800) mod 2 ^ 32)))
| enc_timer code unit k : In (code, unit) [(0, 2); (1, 60); (2, 600); (3, 3600); (4, 36000)] -> 0 <= k < 32 ->
    encodes FTimer (VD (k * (unit * 1000000000))) [Z.to_N (32 * code + k)]
| enc_forever : encodes FTimer (VD (2 ^ 63 - 1)) [0xe0%N]
| enc_secs k s : 0 <= s < 256 ^ Z.of_nat k -> encodes (FSecs k) (VD (s * 1000000000)) (be k (Z.to_N s))
| enc_millis m : 0 <= m < 2 ^ 32 -> encodes FMillis (VD (m * 1000000)) (be 4 (Z.to_N m))
| enc_50ms n : 0 <= n < 256 -> encodes F50ms (VD (n * 50000000)) [Z.to_N n]
| enc_nanos d : - 2 ^ 63 <= d < 2 ^ 63 -> encodes FNanos (VD d) (be 8 (Z.to_N (d mod 2 ^ 64)))
| enc_octets k b : (k <= length b)%nat -> encodes (FOctets k) (VB b) b.
(** further octets are ignored *)
Definition trails (f : fmt) : bool := match f with FText | FName | FOctets _ => false | _ => true end.
