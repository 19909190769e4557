(** The composition of the grouped IEs in 3GPP TS 29.244 (release 16, clauses 7.4 and 7.5), written down without reference to the accessors
    (the text of the specification was not at hand: the table is the author's knowledge of it, and is part of what a reader has to check): each group with the IE types that may occur in it.  (The specification calls some members by their role: Local F-TEID is an F-TEID,
    FAR ID for Quota Action a FAR ID, Linked Traffic Endpoint ID a Traffic Endpoint ID, DSCP a Transport Level Marking, Source and Destination Interface Type
    a 3GPP Interface Type, Minimum Waiting Time and Period of Validity a Timer, Exempted ... for Quota Action an Application ID or SDF Filter.) *)
From Coq Require Import String.
From Verif Require Import Base IETypes IE.
Local Open Scope string_scope.
Definition members : list (N * list N) :=
  [(T_CreatePDR, [T_PDRID; T_Precedence; T_PDI; T_OuterHeaderRemoval; T_FARID; T_URRID; T_QERID; T_ActivatePredefinedRules;
      T_ActivationTime; T_DeactivationTime; T_MARID; T_PacketReplicationAndDetectionCarryOnInformation; T_IPMulticastAddressingInfo;
      T_UEIPAddressPoolIdentity; T_MPTCPApplicableIndication; T_TransportDelayReporting]);
   (T_PDI, [T_SourceInterface; T_FTEID; T_NetworkInstance; T_RedundantTransmissionParameters; T_UEIPAddress; T_TrafficEndpointID;
      T_SDFFilter; T_ApplicationID; T_EthernetPDUSessionInformation; T_EthernetPacketFilter; T_QFI; T_FramedRoute; T_FramedRouting;
      T_FramedIPv6Route; T_TGPPInterfaceType]);
   (T_EthernetPacketFilter, [T_EthernetFilterID; T_EthernetFilterProperties; T_MACAddress; T_Ethertype; T_CTAG; T_STAG; T_SDFFilter]);
   (T_CreateFAR, [T_FARID; T_ApplyAction; T_ForwardingParameters; T_DuplicatingParameters; T_BARID;
      T_RedundantTransmissionForwardingParameters]);
   (T_ForwardingParameters, [T_DestinationInterface; T_NetworkInstance; T_RedirectInformation; T_OuterHeaderCreation;
      T_TransportLevelMarking; T_ForwardingPolicy; T_HeaderEnrichment; T_TrafficEndpointID; T_Proxying; T_TGPPInterfaceType;
      T_DataNetworkAccessIdentifier]);
   (T_DuplicatingParameters, [T_DestinationInterface; T_OuterHeaderCreation; T_TransportLevelMarking; T_ForwardingPolicy]);
   (T_RedundantTransmissionForwardingParameters, [T_OuterHeaderCreation; T_NetworkInstance]);
   (T_RedundantTransmissionParameters, [T_FTEID; T_NetworkInstance]);
   (T_CreateURR, [T_URRID; T_MeasurementMethod; T_ReportingTriggers; T_MeasurementPeriod; T_VolumeThreshold; T_VolumeQuota;
      T_EventThreshold; T_EventQuota; T_TimeThreshold; T_TimeQuota; T_QuotaHoldingTime; T_DroppedDLTrafficThreshold;
      T_QuotaValidityTime; T_MonitoringTime; T_SubsequentVolumeThreshold; T_SubsequentTimeThreshold; T_SubsequentVolumeQuota;
      T_SubsequentTimeQuota; T_SubsequentEventThreshold; T_SubsequentEventQuota; T_InactivityDetectionTime; T_LinkedURRID;
      T_MeasurementInformation; T_TimeQuotaMechanism; T_AggregatedURRs; T_FARID; T_EthernetInactivityTimer; T_AdditionalMonitoringTime;
      T_NumberOfReports; T_ApplicationID; T_SDFFilter]);
   (T_UpdateURR, [T_URRID; T_MeasurementMethod; T_ReportingTriggers; T_MeasurementPeriod; T_VolumeThreshold; T_VolumeQuota;
      T_TimeThreshold; T_TimeQuota; T_EventThreshold; T_EventQuota; T_QuotaHoldingTime; T_DroppedDLTrafficThreshold;
      T_QuotaValidityTime; T_MonitoringTime; T_SubsequentVolumeThreshold; T_SubsequentTimeThreshold; T_SubsequentVolumeQuota;
      T_SubsequentTimeQuota; T_SubsequentEventThreshold; T_SubsequentEventQuota; T_InactivityDetectionTime; T_LinkedURRID;
      T_MeasurementInformation; T_TimeQuotaMechanism; T_AggregatedURRs; T_FARID; T_EthernetInactivityTimer; T_AdditionalMonitoringTime;
      T_NumberOfReports; T_ApplicationID; T_SDFFilter]);
   (T_AggregatedURRs, [T_AggregatedURRID; T_Multiplier]);
   (T_AdditionalMonitoringTime, [T_MonitoringTime; T_SubsequentVolumeThreshold; T_SubsequentTimeThreshold; T_SubsequentVolumeQuota;
      T_SubsequentTimeQuota; T_EventThreshold; T_EventQuota]);
   (T_CreateQER, [T_QERID; T_QERCorrelationID; T_GateStatus; T_MBR; T_GBR; T_PacketRate; T_PacketRateStatus; T_DLFlowLevelMarking;
      T_QFI; T_RQI; T_PagingPolicyIndicator; T_AveragingWindow; T_QERControlIndications]);
   (T_UpdateQER, [T_QERID; T_QERCorrelationID; T_GateStatus; T_MBR; T_GBR; T_PacketRate; T_DLFlowLevelMarking; T_QFI; T_RQI;
      T_PagingPolicyIndicator; T_AveragingWindow; T_QERControlIndications]);
   (T_CreateBAR, [T_BARID; T_DownlinkDataNotificationDelay; T_SuggestedBufferingPacketsCount; T_MTEDTControlInformation]);
   (T_UpdateBARWithinSessionModificationRequest, [T_BARID; T_DownlinkDataNotificationDelay; T_SuggestedBufferingPacketsCount;
      T_MTEDTControlInformation]);
   (T_UpdateBARWithinSessionReportResponse, [T_BARID; T_DownlinkDataNotificationDelay; T_DLBufferingDuration;
      T_DLBufferingSuggestedPacketCount; T_SuggestedBufferingPacketsCount]);
   (T_CreateTrafficEndpoint, [T_TrafficEndpointID; T_FTEID; T_NetworkInstance; T_RedundantTransmissionParameters; T_UEIPAddress;
      T_EthernetPDUSessionInformation; T_FramedRoute; T_FramedRouting; T_FramedIPv6Route; T_QFI; T_TGPPInterfaceType]);
   (T_UpdateTrafficEndpoint, [T_TrafficEndpointID; T_FTEID; T_NetworkInstance; T_RedundantTransmissionParameters; T_UEIPAddress;
      T_FramedRoute; T_FramedRouting; T_FramedIPv6Route; T_QFI; T_TGPPInterfaceType]);
   (T_CreateMAR, [T_MARID; T_SteeringFunctionality; T_SteeringMode; T_TGPPAccessForwardingActionInformation;
      T_NonTGPPAccessForwardingActionInformation]);
   (T_UpdateMAR, [T_MARID; T_SteeringFunctionality; T_SteeringMode; T_UpdateTGPPAccessForwardingActionInformation;
      T_UpdateNonTGPPAccessForwardingActionInformation; T_TGPPAccessForwardingActionInformation;
      T_NonTGPPAccessForwardingActionInformation]);
   (T_TGPPAccessForwardingActionInformation, [T_FARID; T_Weight; T_Priority; T_URRID]);
   (T_NonTGPPAccessForwardingActionInformation, [T_FARID; T_Weight; T_Priority; T_URRID]);
   (T_UpdateTGPPAccessForwardingActionInformation, [T_FARID; T_Weight; T_Priority; T_URRID]);
   (T_UpdateNonTGPPAccessForwardingActionInformation, [T_FARID; T_Weight; T_Priority; T_URRID]);
   (T_CreatedPDR, [T_PDRID; T_FTEID; T_UEIPAddress]);
   (T_UpdatedPDR, [T_PDRID; T_FTEID]);
   (T_LoadControlInformation, [T_SequenceNumber; T_Metric]);
   (T_OverloadControlInformation, [T_SequenceNumber; T_Metric; T_Timer; T_OCIFlags]);
   (T_CreatedTrafficEndpoint, [T_TrafficEndpointID; T_FTEID; T_UEIPAddress]);
   (T_CreateSRR, [T_SRRID; T_AccessAvailabilityControlInformation; T_QoSMonitoringPerQoSFlowControlInformation]);
   (T_UpdateSRR, [T_SRRID; T_AccessAvailabilityControlInformation; T_QoSMonitoringPerQoSFlowControlInformation]);
   (T_AccessAvailabilityControlInformation, [T_RequestedAccessAvailabilityInformation]);
   (T_QoSMonitoringPerQoSFlowControlInformation, [T_QFI; T_RequestedQoSMonitoring; T_ReportingFrequency; T_PacketDelayThresholds;
      T_MinimumWaitTime; T_MeasurementPeriod]);
   (T_SessionReport, [T_SRRID; T_AccessAvailabilityReport; T_QoSMonitoringReport]);
   (T_AccessAvailabilityReport, [T_AccessAvailabilityInformation]);
   (T_QoSMonitoringReport, [T_QFI; T_QoSMonitoringMeasurement; T_EventTimeStamp; T_StartTime]);
   (T_ProvideATSSSControlInformation, [T_MPTCPControlInformation; T_ATSSSLLControlInformation; T_PMFControlInformation]);
   (T_ATSSSControlParameters, [T_MPTCPParameters; T_ATSSSLLParameters; T_PMFParameters]);
   (T_MPTCPParameters, [T_MPTCPAddressInformation; T_UELinkSpecificIPAddress]);
   (T_ATSSSLLParameters, [T_ATSSSLLInformation]);
   (T_PMFParameters, [T_PMFAddressInformation]);
   (T_UpdatePDR, [T_PDRID; T_OuterHeaderRemoval; T_Precedence; T_PDI; T_FARID; T_URRID; T_QERID; T_ActivatePredefinedRules;
      T_DeactivatePredefinedRules; T_ActivationTime; T_DeactivationTime; T_IPMulticastAddressingInfo; T_TransportDelayReporting]);
   (T_UpdateFAR, [T_FARID; T_ApplyAction; T_UpdateForwardingParameters; T_UpdateDuplicatingParameters;
      T_RedundantTransmissionForwardingParameters; T_BARID]);
   (T_UpdateForwardingParameters, [T_DestinationInterface; T_NetworkInstance; T_RedirectInformation; T_OuterHeaderCreation;
      T_TransportLevelMarking; T_ForwardingPolicy; T_HeaderEnrichment; T_PFCPSMReqFlags; T_TrafficEndpointID; T_TGPPInterfaceType;
      T_DataNetworkAccessIdentifier]);
   (T_UpdateDuplicatingParameters, [T_DestinationInterface; T_OuterHeaderCreation; T_TransportLevelMarking; T_ForwardingPolicy]);
   (T_RemovePDR, [T_PDRID]);
   (T_RemoveFAR, [T_FARID]);
   (T_RemoveURR, [T_URRID]);
   (T_RemoveQER, [T_QERID]);
   (T_RemoveBAR, [T_BARID]);
   (T_RemoveMAR, [T_MARID]);
   (T_RemoveSRR, [T_SRRID]);
   (T_RemoveTrafficEndpoint, [T_TrafficEndpointID]);
   (T_QueryURR, [T_URRID]);
   (T_UsageReportWithinSessionModificationResponse, [T_URRID; T_URSEQN; T_UsageReportTrigger; T_StartTime; T_EndTime;
      T_VolumeMeasurement; T_DurationMeasurement; T_TimeOfFirstPacket; T_TimeOfLastPacket; T_UsageInformation; T_QueryURRReference;
      T_EthernetTrafficInformation]);
   (T_UsageReportWithinSessionDeletionResponse, [T_URRID; T_URSEQN; T_UsageReportTrigger; T_StartTime; T_EndTime;
      T_VolumeMeasurement; T_DurationMeasurement; T_TimeOfFirstPacket; T_TimeOfLastPacket; T_UsageInformation;
      T_EthernetTrafficInformation]);
   (T_UsageReportWithinSessionReportRequest, [T_URRID; T_URSEQN; T_UsageReportTrigger; T_StartTime; T_EndTime; T_VolumeMeasurement;
      T_DurationMeasurement; T_ApplicationDetectionInformation; T_UEIPAddress; T_NetworkInstance; T_TimeOfFirstPacket;
      T_TimeOfLastPacket; T_UsageInformation; T_QueryURRReference; T_EventTimeStamp; T_EthernetTrafficInformation;
      T_JoinIPMulticastInformationWithinUsageReport; T_LeaveIPMulticastInformationWithinUsageReport]);
   (T_JoinIPMulticastInformationWithinUsageReport, [T_IPMulticastAddress; T_SourceIPAddress]);
   (T_LeaveIPMulticastInformationWithinUsageReport, [T_IPMulticastAddress; T_SourceIPAddress]);
   (T_IPMulticastAddressingInfo, [T_IPMulticastAddress; T_SourceIPAddress]);
   (T_ApplicationDetectionInformation, [T_ApplicationID; T_ApplicationInstanceID; T_FlowInformation; T_PDRID]);
   (T_EthernetTrafficInformation, [T_MACAddressesDetected; T_MACAddressesRemoved]);
   (T_EthernetContextInformation, [T_MACAddressesDetected]);
   (T_DownlinkDataReport, [T_PDRID; T_DownlinkDataServiceInformation; T_DLDataPacketsSize; T_DataStatus]);
   (T_ErrorIndicationReport, [T_FTEID]);
   (T_UserPlanePathFailureReport, [T_RemoteGTPUPeer]);
   (T_UserPlanePathRecoveryReport, [T_RemoteGTPUPeer]);
   (T_ApplicationIDsPFDs, [T_ApplicationID; T_PFDContext]);
   (T_PFDContext, [T_PFDContents]);
   (T_PFCPSessionRetentionInformation, [T_CPPFCPEntityIPAddress]);
   (T_UEIPAddressPoolInformation, [T_UEIPAddressPoolIdentity; T_NetworkInstance; T_SNSSAI; T_IPVersion]);
   (T_UEIPAddressUsageInformation, [T_SequenceNumber; T_Metric; T_ValidityTimer; T_NumberOfUEIPAddresses; T_NetworkInstance;
      T_UEIPAddressPoolIdentity; T_SNSSAI]);
   (T_GTPUPathQoSControlInformation, [T_RemoteGTPUPeer; T_GTPUPathInterfaceType; T_QoSReportTrigger; T_TransportLevelMarking;
      T_MeasurementPeriod; T_AveragePacketDelay; T_MinimumPacketDelay; T_MaximumPacketDelay; T_Timer]);
   (T_GTPUPathQoSReport, [T_RemoteGTPUPeer; T_GTPUPathInterfaceType; T_QoSReportTrigger; T_EventTimeStamp; T_StartTime;
      T_QoSInformationInGTPUPathQoSReport]);
   (T_QoSInformationInGTPUPathQoSReport, [T_AveragePacketDelay; T_MinimumPacketDelay; T_MaximumPacketDelay; T_TransportLevelMarking]);
   (T_ClockDriftControlInformation, [T_RequestedClockDriftInformation; T_TSNTimeDomainNumber; T_TimeOffsetThreshold;
      T_CumulativeRateRatioThreshold]);
   (T_ClockDriftReport, [T_TSNTimeDomainNumber; T_TimeOffsetMeasurement; T_CumulativeRateRatioMeasurement; T_EventTimeStamp]);
   (T_CreatedBridgeInfoForTSC, [T_DSTTPortNumber; T_NWTTPortNumber; T_TSNBridgeID]);
   (T_TSCManagementInformationWithinSessionModificationRequest, [T_PortManagementInformationContainer;
      T_BridgeManagementInformationContainer; T_NWTTPortNumber]);
   (T_TSCManagementInformationWithinSessionModificationResponse, [T_PortManagementInformationContainer;
      T_BridgeManagementInformationContainer; T_NWTTPortNumber]);
   (T_TSCManagementInformationWithinSessionReportRequest, [T_PortManagementInformationContainer;
      T_BridgeManagementInformationContainer; T_NWTTPortNumber]);
   (T_PacketRateStatusReport, [T_QERID; T_PacketRateStatus]);
   (T_ProvideRDSConfigurationInformation, [T_RDSConfigurationInformation])].
Definition member (t c : N) : Prop := exists cs, In (t, cs) members /\ In c cs.

(** the members whose accessor does not find them in the group *)
Definition unreachable : list (N * list N) :=
  [(T_PDI, [T_NetworkInstance; T_QFI; T_FramedRoute; T_FramedRouting; T_FramedIPv6Route; T_TGPPInterfaceType]);
   (T_RedundantTransmissionForwardingParameters, [T_OuterHeaderCreation; T_NetworkInstance]);
   (T_CreateURR, [T_ApplicationID; T_SDFFilter]);
   (T_UpdateURR, [T_ApplicationID; T_SDFFilter]);
   (T_UpdateBARWithinSessionModificationRequest, [T_MTEDTControlInformation]);
   (T_CreateTrafficEndpoint, [T_TGPPInterfaceType]);
   (T_UpdateTrafficEndpoint, [T_TGPPInterfaceType]);
   (T_CreatedTrafficEndpoint, [T_FTEID]);
   (T_SessionReport, [T_AccessAvailabilityReport]);
   (T_ATSSSControlParameters, [T_MPTCPParameters]);
   (T_UpdateFAR, [T_RedundantTransmissionForwardingParameters]);
   (T_UsageReportWithinSessionReportRequest, [T_NetworkInstance]);
   (T_UEIPAddressUsageInformation, [T_SequenceNumber; T_Metric; T_NetworkInstance; T_UEIPAddressPoolIdentity; T_SNSSAI]);
   (T_GTPUPathQoSControlInformation, [T_MeasurementPeriod]);
   (T_ClockDriftReport, [T_TimeOffsetMeasurement; T_CumulativeRateRatioMeasurement]);
   (T_TSCManagementInformationWithinSessionModificationRequest, [T_NWTTPortNumber]);
   (T_TSCManagementInformationWithinSessionModificationResponse, [T_NWTTPortNumber]);
   (T_TSCManagementInformationWithinSessionReportRequest, [T_NWTTPortNumber])].
Definition unreached (t c : N) : Prop := exists cs, In (t, cs) unreachable /\ In c cs.
