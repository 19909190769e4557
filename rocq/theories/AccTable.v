(** Generated by tools/genacc.py from the text of /repo/ie/*.go.
    The accessor methods of *IE: every method returning a value and an error, except those of ie/ie.go and ie/ie_grouped.go
    (modelled in IE.v) and LocalFTEIDN, which takes an argument (AccRun.v). *)
From Verif Require Import Base IETypes IE Access.

Inductive acc :=
| A_AccessAvailabilityControlInformation
| A_AccessAvailabilityInformation
| A_AvailabilityStatus
| A_AccessType
| A_AccessAvailabilityReport
| A_ActivatePredefinedRules
| A_ActivationTime
| A_AdditionalMonitoringTime
| A_AdditionalUsageReportsInformation
| A_AggregatedURRID
| A_AggregatedURRs
| A_AlternativeSMFIPAddress
| A_APNDNN
| A_ApplicationDetectionInformation
| A_ApplicationID
| A_ApplicationIDsPFDs
| A_ApplicationInstanceID
| A_ApplyAction
| A_ATSSSControlParameters
| A_ATSSSLLControlInformation
| A_ATSSSLLInformation
| A_ATSSSLLParameters
| A_AveragePacketDelay
| A_AveragingWindow
| A_BARID
| A_BridgeManagementInformationContainer
| A_CTAG
| A_Cause
| A_ClockDriftControlInformation
| A_ClockDriftReport
| A_CPFunctionFeatures
| A_CPPFCPEntityIPAddress
| A_CreateBAR
| A_CreateBridgeInfoForTSC
| A_CreateFAR
| A_CreateMAR
| A_CreatePDR
| A_CreateQER
| A_CreateSRR
| A_CreateTrafficEndpoint
| A_CreateURR
| A_CreatedBridgeInfoForTSC
| A_CreatedPDR
| A_CreatedTrafficEndpoint
| A_LocalFTEID
| A_CumulativeRateRatioMeasurement
| A_CumulativeRateRatioThreshold
| A_DataNetworkAccessIdentifier
| A_DataStatus
| A_DeactivatePredefinedRules
| A_DeactivationTime
| A_DestinationInterface
| A_DLBufferingDuration
| A_DLBufferingSuggestedPacketCount
| A_DLDataPacketsSize
| A_DLFlowLevelMarking
| A_DownlinkDataNotificationDelay
| A_DownlinkDataReport
| A_DownlinkDataServiceInformation
| A_PPI
| A_DroppedDLTrafficThreshold
| A_DSTTPortNumber
| A_DuplicatingParameters
| A_DurationMeasurement
| A_EndTime
| A_ErrorIndicationReport
| A_EthernetContextInformation
| A_EthernetFilterID
| A_EthernetFilterProperties
| A_EthernetInactivityTimer
| A_EthernetPacketFilter
| A_EthernetPDUSessionInformation
| A_EthernetTrafficInformation
| A_Ethertype
| A_EventQuota
| A_EventThreshold
| A_EventTimeStamp
| A_FSEID
| A_FTEID
| A_RuleIDType
| A_FailedRuleID
| A_FARID
| A_FlowInformation
| A_FlowDirection
| A_FlowDescription
| A_ForwardingParameters
| A_ForwardingPolicy
| A_ForwardingPolicyIdentifier
| A_FQCSID
| A_NodeIDType
| A_NodeAddress
| A_CSIDs
| A_FramedIPv6Route
| A_FramedRoute
| A_FramedRouting
| A_GateStatus
| A_GateStatusUL
| A_GateStatusDL
| A_GateStatusULDL
| A_GBR
| A_GBRUL
| A_GBRDL
| A_GracefulReleasePeriod
| A_GTPUPathInterfaceType
| A_GTPUPathQoSControlInformation
| A_GTPUPathQoSReport
| A_HeaderEnrichment
| A_InactivityDetectionTime
| A_IPMulticastAddress
| A_IPMulticastAddressingInfo
| A_IPVersion
| A_JoinIPMulticastInformationWithinUsageReport
| A_LeaveIPMulticastInformationWithinUsageReport
| A_LinkedURRID
| A_LoadControlInformation
| A_MACAddressesDetected
| A_MACAddressesRemoved
| A_MACAddress
| A_MARID
| A_MaximumPacketDelay
| A_MBR
| A_MBRUL
| A_MBRDL
| A_MeasurementInformation
| A_MeasurementMethod
| A_MeasurementPeriod
| A_Metric
| A_MinimumPacketDelay
| A_MinimumWaitTime
| A_MonitoringTime
| A_MPTCPAddressInformation
| A_MPTCPApplicableIndication
| A_MPTCPControlInformation
| A_MPTCPParameters
| A_MTEDTControlInformation
| A_Multiplier
| A_ValueDigits
| A_Exponent
| A_NetworkInstance
| A_NetworkInstanceFQDN
| A_NetworkInstanceHeuristic
| A_NFInstanceID
| A_NodeID
| A_NodeReportType
| A_NonTGPPAccessForwardingActionInformation
| A_NumberOfReports
| A_NumberOfUEIPAddresses
| A_NWTTPortNumber
| A_OCIFlags
| A_OffendingIE
| A_OuterHeaderCreation
| A_OuterHeaderRemoval
| A_OuterHeaderRemovalDescription
| A_GTPUExtensionHeaderDeletion
| A_OverloadControlInformation
| A_PacketDelayThresholds
| A_PacketRateStatusReport
| A_PacketRateStatus
| A_PacketRate
| A_PacketReplicationAndDetectionCarryOnInformation
| A_PagingPolicyIndicator
| A_PDI
| A_PDNType
| A_PDRID
| A_PFCPAssociationReleaseRequest
| A_PFCPSessionRetentionInformation
| A_PFCPASReqFlags
| A_PFCPASRspFlags
| A_PFCPAUReqFlags
| A_PFCPSEReqFlags
| A_PFCPSMReqFlags
| A_PFCPSRReqFlags
| A_PFCPSRRspFlags
| A_PFDContents
| A_PFDContext
| A_PMFAddressInformation
| A_PMFControlInformation
| A_PMFParameters
| A_PortManagementInformationContainer
| A_Precedence
| A_Priority
| A_ProvideATSSSControlInformation
| A_ProvideRDSConfigurationInformation
| A_Proxying
| A_QERControlIndications
| A_QERCorrelationID
| A_QERID
| A_QFI
| A_QoSInformationInGTPUPathQoSReport
| A_QoSMonitoringMeasurement
| A_QoSMonitoringPerQoSFlowControlInformation
| A_QoSMonitoringReport
| A_QoSReportTrigger
| A_QueryPacketRateStatus
| A_QueryURRReference
| A_QueryURR
| A_QuotaHoldingTime
| A_QuotaValidityTime
| A_RDSConfigurationInformation
| A_RecoveryTimeStamp
| A_RedirectInformation
| A_RedundantTransmissionForwardingParameters
| A_RedundantTransmissionParameters
| A_RemoteGTPUPeer
| A_RemoveBAR
| A_RemoveFAR
| A_RemoveMAR
| A_RemovePDR
| A_RemoveQER
| A_RemoveSRR
| A_RemoveTrafficEndpoint
| A_RemoveURR
| A_ReportType
| A_ReportingFrequency
| A_ReportingTriggers
| A_RequestedAccessAvailabilityInformation
| A_RequestedClockDriftInformation
| A_RequestedQoSMonitoring
| A_RQI
| A_SNSSAI
| A_SST
| A_SD
| A_STAG
| A_SDFFilter
| A_SequenceNumber
| A_SessionReport
| A_SMFSetID
| A_SourceInterface
| A_SourceIPAddress
| A_SRRID
| A_StartTime
| A_SteeringFunctionality
| A_SteeringMode
| A_SubsequentEventQuota
| A_SubsequentEventThreshold
| A_SubsequentTimeQuota
| A_SubsequentTimeThreshold
| A_SubsequentVolumeQuota
| A_SubsequentVolumeThreshold
| A_SuggestedBufferingPacketsCount
| A_TGPPAccessForwardingActionInformation
| A_TGPPInterfaceType
| A_TimeOfFirstPacket
| A_TimeOfLastPacket
| A_TimeOffsetMeasurement
| A_TimeOffsetThreshold
| A_TimeQuotaMechanism
| A_TimeQuota
| A_TimeThreshold
| A_Timer
| A_TraceInformation
| A_TrafficEndpointID
| A_TransportDelayReporting
| A_TransportLevelMarking
| A_TSCManagementInformation
| A_PortManagementInformationForTSC
| A_TSNBridgeID
| A_TSNTimeDomainNumber
| A_UEIPAddressPoolIdentity
| A_UEIPAddressPoolIdentityString
| A_UEIPAddressPoolInformation
| A_UEIPAddressUsageInformation
| A_UEIPAddress
| A_UELinkSpecificIPAddress
| A_UPFunctionFeatures
| A_UpdateTGPPAccessForwardingActionInformation
| A_UpdateBAR
| A_UpdateDuplicatingParameters
| A_UpdateFAR
| A_UpdateForwardingParameters
| A_UpdateMAR
| A_UpdateNonTGPPAccessForwardingActionInformation
| A_UpdatePDR
| A_UpdateQER
| A_UpdateSRR
| A_UpdateTrafficEndpoint
| A_UpdateURR
| A_UpdatedPDR
| A_URSEQN
| A_URRID
| A_UsageInformation
| A_UsageReportTrigger
| A_UsageReport
| A_UserID
| A_UserPlaneInactivityTimer
| A_UserPlaneIPResourceInformation
| A_UserPlanePathFailureReport
| A_UserPlanePathRecoveryReport
| A_ValidityTimer
| A_VolumeMeasurement
| A_VolumeQuota
| A_VolumeThreshold
| A_Weight.

Definition all_accs : list acc := [
  A_AccessAvailabilityControlInformation;
  A_AccessAvailabilityInformation;
  A_AvailabilityStatus;
  A_AccessType;
  A_AccessAvailabilityReport;
  A_ActivatePredefinedRules;
  A_ActivationTime;
  A_AdditionalMonitoringTime;
  A_AdditionalUsageReportsInformation;
  A_AggregatedURRID;
  A_AggregatedURRs;
  A_AlternativeSMFIPAddress;
  A_APNDNN;
  A_ApplicationDetectionInformation;
  A_ApplicationID;
  A_ApplicationIDsPFDs;
  A_ApplicationInstanceID;
  A_ApplyAction;
  A_ATSSSControlParameters;
  A_ATSSSLLControlInformation;
  A_ATSSSLLInformation;
  A_ATSSSLLParameters;
  A_AveragePacketDelay;
  A_AveragingWindow;
  A_BARID;
  A_BridgeManagementInformationContainer;
  A_CTAG;
  A_Cause;
  A_ClockDriftControlInformation;
  A_ClockDriftReport;
  A_CPFunctionFeatures;
  A_CPPFCPEntityIPAddress;
  A_CreateBAR;
  A_CreateBridgeInfoForTSC;
  A_CreateFAR;
  A_CreateMAR;
  A_CreatePDR;
  A_CreateQER;
  A_CreateSRR;
  A_CreateTrafficEndpoint;
  A_CreateURR;
  A_CreatedBridgeInfoForTSC;
  A_CreatedPDR;
  A_CreatedTrafficEndpoint;
  A_LocalFTEID;
  A_CumulativeRateRatioMeasurement;
  A_CumulativeRateRatioThreshold;
  A_DataNetworkAccessIdentifier;
  A_DataStatus;
  A_DeactivatePredefinedRules;
  A_DeactivationTime;
  A_DestinationInterface;
  A_DLBufferingDuration;
  A_DLBufferingSuggestedPacketCount;
  A_DLDataPacketsSize;
  A_DLFlowLevelMarking;
  A_DownlinkDataNotificationDelay;
  A_DownlinkDataReport;
  A_DownlinkDataServiceInformation;
  A_PPI;
  A_DroppedDLTrafficThreshold;
  A_DSTTPortNumber;
  A_DuplicatingParameters;
  A_DurationMeasurement;
  A_EndTime;
  A_ErrorIndicationReport;
  A_EthernetContextInformation;
  A_EthernetFilterID;
  A_EthernetFilterProperties;
  A_EthernetInactivityTimer;
  A_EthernetPacketFilter;
  A_EthernetPDUSessionInformation;
  A_EthernetTrafficInformation;
  A_Ethertype;
  A_EventQuota;
  A_EventThreshold;
  A_EventTimeStamp;
  A_FSEID;
  A_FTEID;
  A_RuleIDType;
  A_FailedRuleID;
  A_FARID;
  A_FlowInformation;
  A_FlowDirection;
  A_FlowDescription;
  A_ForwardingParameters;
  A_ForwardingPolicy;
  A_ForwardingPolicyIdentifier;
  A_FQCSID;
  A_NodeIDType;
  A_NodeAddress;
  A_CSIDs;
  A_FramedIPv6Route;
  A_FramedRoute;
  A_FramedRouting;
  A_GateStatus;
  A_GateStatusUL;
  A_GateStatusDL;
  A_GateStatusULDL;
  A_GBR;
  A_GBRUL;
  A_GBRDL;
  A_GracefulReleasePeriod;
  A_GTPUPathInterfaceType;
  A_GTPUPathQoSControlInformation;
  A_GTPUPathQoSReport;
  A_HeaderEnrichment;
  A_InactivityDetectionTime;
  A_IPMulticastAddress;
  A_IPMulticastAddressingInfo;
  A_IPVersion;
  A_JoinIPMulticastInformationWithinUsageReport;
  A_LeaveIPMulticastInformationWithinUsageReport;
  A_LinkedURRID;
  A_LoadControlInformation;
  A_MACAddressesDetected;
  A_MACAddressesRemoved;
  A_MACAddress;
  A_MARID;
  A_MaximumPacketDelay;
  A_MBR;
  A_MBRUL;
  A_MBRDL;
  A_MeasurementInformation;
  A_MeasurementMethod;
  A_MeasurementPeriod;
  A_Metric;
  A_MinimumPacketDelay;
  A_MinimumWaitTime;
  A_MonitoringTime;
  A_MPTCPAddressInformation;
  A_MPTCPApplicableIndication;
  A_MPTCPControlInformation;
  A_MPTCPParameters;
  A_MTEDTControlInformation;
  A_Multiplier;
  A_ValueDigits;
  A_Exponent;
  A_NetworkInstance;
  A_NetworkInstanceFQDN;
  A_NetworkInstanceHeuristic;
  A_NFInstanceID;
  A_NodeID;
  A_NodeReportType;
  A_NonTGPPAccessForwardingActionInformation;
  A_NumberOfReports;
  A_NumberOfUEIPAddresses;
  A_NWTTPortNumber;
  A_OCIFlags;
  A_OffendingIE;
  A_OuterHeaderCreation;
  A_OuterHeaderRemoval;
  A_OuterHeaderRemovalDescription;
  A_GTPUExtensionHeaderDeletion;
  A_OverloadControlInformation;
  A_PacketDelayThresholds;
  A_PacketRateStatusReport;
  A_PacketRateStatus;
  A_PacketRate;
  A_PacketReplicationAndDetectionCarryOnInformation;
  A_PagingPolicyIndicator;
  A_PDI;
  A_PDNType;
  A_PDRID;
  A_PFCPAssociationReleaseRequest;
  A_PFCPSessionRetentionInformation;
  A_PFCPASReqFlags;
  A_PFCPASRspFlags;
  A_PFCPAUReqFlags;
  A_PFCPSEReqFlags;
  A_PFCPSMReqFlags;
  A_PFCPSRReqFlags;
  A_PFCPSRRspFlags;
  A_PFDContents;
  A_PFDContext;
  A_PMFAddressInformation;
  A_PMFControlInformation;
  A_PMFParameters;
  A_PortManagementInformationContainer;
  A_Precedence;
  A_Priority;
  A_ProvideATSSSControlInformation;
  A_ProvideRDSConfigurationInformation;
  A_Proxying;
  A_QERControlIndications;
  A_QERCorrelationID;
  A_QERID;
  A_QFI;
  A_QoSInformationInGTPUPathQoSReport;
  A_QoSMonitoringMeasurement;
  A_QoSMonitoringPerQoSFlowControlInformation;
  A_QoSMonitoringReport;
  A_QoSReportTrigger;
  A_QueryPacketRateStatus;
  A_QueryURRReference;
  A_QueryURR;
  A_QuotaHoldingTime;
  A_QuotaValidityTime;
  A_RDSConfigurationInformation;
  A_RecoveryTimeStamp;
  A_RedirectInformation;
  A_RedundantTransmissionForwardingParameters;
  A_RedundantTransmissionParameters;
  A_RemoteGTPUPeer;
  A_RemoveBAR;
  A_RemoveFAR;
  A_RemoveMAR;
  A_RemovePDR;
  A_RemoveQER;
  A_RemoveSRR;
  A_RemoveTrafficEndpoint;
  A_RemoveURR;
  A_ReportType;
  A_ReportingFrequency;
  A_ReportingTriggers;
  A_RequestedAccessAvailabilityInformation;
  A_RequestedClockDriftInformation;
  A_RequestedQoSMonitoring;
  A_RQI;
  A_SNSSAI;
  A_SST;
  A_SD;
  A_STAG;
  A_SDFFilter;
  A_SequenceNumber;
  A_SessionReport;
  A_SMFSetID;
  A_SourceInterface;
  A_SourceIPAddress;
  A_SRRID;
  A_StartTime;
  A_SteeringFunctionality;
  A_SteeringMode;
  A_SubsequentEventQuota;
  A_SubsequentEventThreshold;
  A_SubsequentTimeQuota;
  A_SubsequentTimeThreshold;
  A_SubsequentVolumeQuota;
  A_SubsequentVolumeThreshold;
  A_SuggestedBufferingPacketsCount;
  A_TGPPAccessForwardingActionInformation;
  A_TGPPInterfaceType;
  A_TimeOfFirstPacket;
  A_TimeOfLastPacket;
  A_TimeOffsetMeasurement;
  A_TimeOffsetThreshold;
  A_TimeQuotaMechanism;
  A_TimeQuota;
  A_TimeThreshold;
  A_Timer;
  A_TraceInformation;
  A_TrafficEndpointID;
  A_TransportDelayReporting;
  A_TransportLevelMarking;
  A_TSCManagementInformation;
  A_PortManagementInformationForTSC;
  A_TSNBridgeID;
  A_TSNTimeDomainNumber;
  A_UEIPAddressPoolIdentity;
  A_UEIPAddressPoolIdentityString;
  A_UEIPAddressPoolInformation;
  A_UEIPAddressUsageInformation;
  A_UEIPAddress;
  A_UELinkSpecificIPAddress;
  A_UPFunctionFeatures;
  A_UpdateTGPPAccessForwardingActionInformation;
  A_UpdateBAR;
  A_UpdateDuplicatingParameters;
  A_UpdateFAR;
  A_UpdateForwardingParameters;
  A_UpdateMAR;
  A_UpdateNonTGPPAccessForwardingActionInformation;
  A_UpdatePDR;
  A_UpdateQER;
  A_UpdateSRR;
  A_UpdateTrafficEndpoint;
  A_UpdateURR;
  A_UpdatedPDR;
  A_URSEQN;
  A_URRID;
  A_UsageInformation;
  A_UsageReportTrigger;
  A_UsageReport;
  A_UserID;
  A_UserPlaneInactivityTimer;
  A_UserPlaneIPResourceInformation;
  A_UserPlanePathFailureReport;
  A_UserPlanePathRecoveryReport;
  A_ValidityTimer;
  A_VolumeMeasurement;
  A_VolumeQuota;
  A_VolumeThreshold;
  A_Weight].

Definition acc_id (a : acc) : N :=
  match a with
  | A_AccessAvailabilityControlInformation => 0%N
  | A_AccessAvailabilityInformation => 1%N
  | A_AvailabilityStatus => 2%N
  | A_AccessType => 3%N
  | A_AccessAvailabilityReport => 4%N
  | A_ActivatePredefinedRules => 5%N
  | A_ActivationTime => 6%N
  | A_AdditionalMonitoringTime => 7%N
  | A_AdditionalUsageReportsInformation => 8%N
  | A_AggregatedURRID => 9%N
  | A_AggregatedURRs => 10%N
  | A_AlternativeSMFIPAddress => 11%N
  | A_APNDNN => 12%N
  | A_ApplicationDetectionInformation => 13%N
  | A_ApplicationID => 14%N
  | A_ApplicationIDsPFDs => 15%N
  | A_ApplicationInstanceID => 16%N
  | A_ApplyAction => 17%N
  | A_ATSSSControlParameters => 18%N
  | A_ATSSSLLControlInformation => 19%N
  | A_ATSSSLLInformation => 20%N
  | A_ATSSSLLParameters => 21%N
  | A_AveragePacketDelay => 22%N
  | A_AveragingWindow => 23%N
  | A_BARID => 24%N
  | A_BridgeManagementInformationContainer => 25%N
  | A_CTAG => 26%N
  | A_Cause => 27%N
  | A_ClockDriftControlInformation => 28%N
  | A_ClockDriftReport => 29%N
  | A_CPFunctionFeatures => 30%N
  | A_CPPFCPEntityIPAddress => 31%N
  | A_CreateBAR => 32%N
  | A_CreateBridgeInfoForTSC => 33%N
  | A_CreateFAR => 34%N
  | A_CreateMAR => 35%N
  | A_CreatePDR => 36%N
  | A_CreateQER => 37%N
  | A_CreateSRR => 38%N
  | A_CreateTrafficEndpoint => 39%N
  | A_CreateURR => 40%N
  | A_CreatedBridgeInfoForTSC => 41%N
  | A_CreatedPDR => 42%N
  | A_CreatedTrafficEndpoint => 43%N
  | A_LocalFTEID => 44%N
  | A_CumulativeRateRatioMeasurement => 45%N
  | A_CumulativeRateRatioThreshold => 46%N
  | A_DataNetworkAccessIdentifier => 47%N
  | A_DataStatus => 48%N
  | A_DeactivatePredefinedRules => 49%N
  | A_DeactivationTime => 50%N
  | A_DestinationInterface => 51%N
  | A_DLBufferingDuration => 52%N
  | A_DLBufferingSuggestedPacketCount => 53%N
  | A_DLDataPacketsSize => 54%N
  | A_DLFlowLevelMarking => 55%N
  | A_DownlinkDataNotificationDelay => 56%N
  | A_DownlinkDataReport => 57%N
  | A_DownlinkDataServiceInformation => 58%N
  | A_PPI => 59%N
  | A_DroppedDLTrafficThreshold => 60%N
  | A_DSTTPortNumber => 61%N
  | A_DuplicatingParameters => 62%N
  | A_DurationMeasurement => 63%N
  | A_EndTime => 64%N
  | A_ErrorIndicationReport => 65%N
  | A_EthernetContextInformation => 66%N
  | A_EthernetFilterID => 67%N
  | A_EthernetFilterProperties => 68%N
  | A_EthernetInactivityTimer => 69%N
  | A_EthernetPacketFilter => 70%N
  | A_EthernetPDUSessionInformation => 71%N
  | A_EthernetTrafficInformation => 72%N
  | A_Ethertype => 73%N
  | A_EventQuota => 74%N
  | A_EventThreshold => 75%N
  | A_EventTimeStamp => 76%N
  | A_FSEID => 77%N
  | A_FTEID => 78%N
  | A_RuleIDType => 79%N
  | A_FailedRuleID => 80%N
  | A_FARID => 81%N
  | A_FlowInformation => 82%N
  | A_FlowDirection => 83%N
  | A_FlowDescription => 84%N
  | A_ForwardingParameters => 85%N
  | A_ForwardingPolicy => 86%N
  | A_ForwardingPolicyIdentifier => 87%N
  | A_FQCSID => 88%N
  | A_NodeIDType => 89%N
  | A_NodeAddress => 90%N
  | A_CSIDs => 91%N
  | A_FramedIPv6Route => 92%N
  | A_FramedRoute => 93%N
  | A_FramedRouting => 94%N
  | A_GateStatus => 95%N
  | A_GateStatusUL => 96%N
  | A_GateStatusDL => 97%N
  | A_GateStatusULDL => 98%N
  | A_GBR => 99%N
  | A_GBRUL => 100%N
  | A_GBRDL => 101%N
  | A_GracefulReleasePeriod => 102%N
  | A_GTPUPathInterfaceType => 103%N
  | A_GTPUPathQoSControlInformation => 104%N
  | A_GTPUPathQoSReport => 105%N
  | A_HeaderEnrichment => 106%N
  | A_InactivityDetectionTime => 107%N
  | A_IPMulticastAddress => 108%N
  | A_IPMulticastAddressingInfo => 109%N
  | A_IPVersion => 110%N
  | A_JoinIPMulticastInformationWithinUsageReport => 111%N
  | A_LeaveIPMulticastInformationWithinUsageReport => 112%N
  | A_LinkedURRID => 113%N
  | A_LoadControlInformation => 114%N
  | A_MACAddressesDetected => 115%N
  | A_MACAddressesRemoved => 116%N
  | A_MACAddress => 117%N
  | A_MARID => 118%N
  | A_MaximumPacketDelay => 119%N
  | A_MBR => 120%N
  | A_MBRUL => 121%N
  | A_MBRDL => 122%N
  | A_MeasurementInformation => 123%N
  | A_MeasurementMethod => 124%N
  | A_MeasurementPeriod => 125%N
  | A_Metric => 126%N
  | A_MinimumPacketDelay => 127%N
  | A_MinimumWaitTime => 128%N
  | A_MonitoringTime => 129%N
  | A_MPTCPAddressInformation => 130%N
  | A_MPTCPApplicableIndication => 131%N
  | A_MPTCPControlInformation => 132%N
  | A_MPTCPParameters => 133%N
  | A_MTEDTControlInformation => 134%N
  | A_Multiplier => 135%N
  | A_ValueDigits => 136%N
  | A_Exponent => 137%N
  | A_NetworkInstance => 138%N
  | A_NetworkInstanceFQDN => 139%N
  | A_NetworkInstanceHeuristic => 140%N
  | A_NFInstanceID => 141%N
  | A_NodeID => 142%N
  | A_NodeReportType => 143%N
  | A_NonTGPPAccessForwardingActionInformation => 144%N
  | A_NumberOfReports => 145%N
  | A_NumberOfUEIPAddresses => 146%N
  | A_NWTTPortNumber => 147%N
  | A_OCIFlags => 148%N
  | A_OffendingIE => 149%N
  | A_OuterHeaderCreation => 150%N
  | A_OuterHeaderRemoval => 151%N
  | A_OuterHeaderRemovalDescription => 152%N
  | A_GTPUExtensionHeaderDeletion => 153%N
  | A_OverloadControlInformation => 154%N
  | A_PacketDelayThresholds => 155%N
  | A_PacketRateStatusReport => 156%N
  | A_PacketRateStatus => 157%N
  | A_PacketRate => 158%N
  | A_PacketReplicationAndDetectionCarryOnInformation => 159%N
  | A_PagingPolicyIndicator => 160%N
  | A_PDI => 161%N
  | A_PDNType => 162%N
  | A_PDRID => 163%N
  | A_PFCPAssociationReleaseRequest => 164%N
  | A_PFCPSessionRetentionInformation => 165%N
  | A_PFCPASReqFlags => 166%N
  | A_PFCPASRspFlags => 167%N
  | A_PFCPAUReqFlags => 168%N
  | A_PFCPSEReqFlags => 169%N
  | A_PFCPSMReqFlags => 170%N
  | A_PFCPSRReqFlags => 171%N
  | A_PFCPSRRspFlags => 172%N
  | A_PFDContents => 173%N
  | A_PFDContext => 174%N
  | A_PMFAddressInformation => 175%N
  | A_PMFControlInformation => 176%N
  | A_PMFParameters => 177%N
  | A_PortManagementInformationContainer => 178%N
  | A_Precedence => 179%N
  | A_Priority => 180%N
  | A_ProvideATSSSControlInformation => 181%N
  | A_ProvideRDSConfigurationInformation => 182%N
  | A_Proxying => 183%N
  | A_QERControlIndications => 184%N
  | A_QERCorrelationID => 185%N
  | A_QERID => 186%N
  | A_QFI => 187%N
  | A_QoSInformationInGTPUPathQoSReport => 188%N
  | A_QoSMonitoringMeasurement => 189%N
  | A_QoSMonitoringPerQoSFlowControlInformation => 190%N
  | A_QoSMonitoringReport => 191%N
  | A_QoSReportTrigger => 192%N
  | A_QueryPacketRateStatus => 193%N
  | A_QueryURRReference => 194%N
  | A_QueryURR => 195%N
  | A_QuotaHoldingTime => 196%N
  | A_QuotaValidityTime => 197%N
  | A_RDSConfigurationInformation => 198%N
  | A_RecoveryTimeStamp => 199%N
  | A_RedirectInformation => 200%N
  | A_RedundantTransmissionForwardingParameters => 201%N
  | A_RedundantTransmissionParameters => 202%N
  | A_RemoteGTPUPeer => 203%N
  | A_RemoveBAR => 204%N
  | A_RemoveFAR => 205%N
  | A_RemoveMAR => 206%N
  | A_RemovePDR => 207%N
  | A_RemoveQER => 208%N
  | A_RemoveSRR => 209%N
  | A_RemoveTrafficEndpoint => 210%N
  | A_RemoveURR => 211%N
  | A_ReportType => 212%N
  | A_ReportingFrequency => 213%N
  | A_ReportingTriggers => 214%N
  | A_RequestedAccessAvailabilityInformation => 215%N
  | A_RequestedClockDriftInformation => 216%N
  | A_RequestedQoSMonitoring => 217%N
  | A_RQI => 218%N
  | A_SNSSAI => 219%N
  | A_SST => 220%N
  | A_SD => 221%N
  | A_STAG => 222%N
  | A_SDFFilter => 223%N
  | A_SequenceNumber => 224%N
  | A_SessionReport => 225%N
  | A_SMFSetID => 226%N
  | A_SourceInterface => 227%N
  | A_SourceIPAddress => 228%N
  | A_SRRID => 229%N
  | A_StartTime => 230%N
  | A_SteeringFunctionality => 231%N
  | A_SteeringMode => 232%N
  | A_SubsequentEventQuota => 233%N
  | A_SubsequentEventThreshold => 234%N
  | A_SubsequentTimeQuota => 235%N
  | A_SubsequentTimeThreshold => 236%N
  | A_SubsequentVolumeQuota => 237%N
  | A_SubsequentVolumeThreshold => 238%N
  | A_SuggestedBufferingPacketsCount => 239%N
  | A_TGPPAccessForwardingActionInformation => 240%N
  | A_TGPPInterfaceType => 241%N
  | A_TimeOfFirstPacket => 242%N
  | A_TimeOfLastPacket => 243%N
  | A_TimeOffsetMeasurement => 244%N
  | A_TimeOffsetThreshold => 245%N
  | A_TimeQuotaMechanism => 246%N
  | A_TimeQuota => 247%N
  | A_TimeThreshold => 248%N
  | A_Timer => 249%N
  | A_TraceInformation => 250%N
  | A_TrafficEndpointID => 251%N
  | A_TransportDelayReporting => 252%N
  | A_TransportLevelMarking => 253%N
  | A_TSCManagementInformation => 254%N
  | A_PortManagementInformationForTSC => 255%N
  | A_TSNBridgeID => 256%N
  | A_TSNTimeDomainNumber => 257%N
  | A_UEIPAddressPoolIdentity => 258%N
  | A_UEIPAddressPoolIdentityString => 259%N
  | A_UEIPAddressPoolInformation => 260%N
  | A_UEIPAddressUsageInformation => 261%N
  | A_UEIPAddress => 262%N
  | A_UELinkSpecificIPAddress => 263%N
  | A_UPFunctionFeatures => 264%N
  | A_UpdateTGPPAccessForwardingActionInformation => 265%N
  | A_UpdateBAR => 266%N
  | A_UpdateDuplicatingParameters => 267%N
  | A_UpdateFAR => 268%N
  | A_UpdateForwardingParameters => 269%N
  | A_UpdateMAR => 270%N
  | A_UpdateNonTGPPAccessForwardingActionInformation => 271%N
  | A_UpdatePDR => 272%N
  | A_UpdateQER => 273%N
  | A_UpdateSRR => 274%N
  | A_UpdateTrafficEndpoint => 275%N
  | A_UpdateURR => 276%N
  | A_UpdatedPDR => 277%N
  | A_URSEQN => 278%N
  | A_URRID => 279%N
  | A_UsageInformation => 280%N
  | A_UsageReportTrigger => 281%N
  | A_UsageReport => 282%N
  | A_UserID => 283%N
  | A_UserPlaneInactivityTimer => 284%N
  | A_UserPlaneIPResourceInformation => 285%N
  | A_UserPlanePathFailureReport => 286%N
  | A_UserPlanePathRecoveryReport => 287%N
  | A_ValidityTimer => 288%N
  | A_VolumeMeasurement => 289%N
  | A_VolumeQuota => 290%N
  | A_VolumeThreshold => 291%N
  | A_Weight => 292%N
  end.

Inductive kind := KN | KNN | KNs | KB | KS | KNode | KIEs | KT | KD | KF (k : fkind).
(** the result type in the Go signature (other than error) *)
Definition acc_kind (a : acc) : kind :=
  match a with
  | A_AccessAvailabilityControlInformation => KIEs
  | A_AccessAvailabilityInformation => KN
  | A_AvailabilityStatus => KN
  | A_AccessType => KN
  | A_AccessAvailabilityReport => KIEs
  | A_ActivatePredefinedRules => KS
  | A_ActivationTime => KT
  | A_AdditionalMonitoringTime => KIEs
  | A_AdditionalUsageReportsInformation => KN
  | A_AggregatedURRID => KN
  | A_AggregatedURRs => KIEs
  | A_AlternativeSMFIPAddress => KF K_AlternativeSMFIPAddress
  | A_APNDNN => KS
  | A_ApplicationDetectionInformation => KIEs
  | A_ApplicationID => KS
  | A_ApplicationIDsPFDs => KIEs
  | A_ApplicationInstanceID => KS
  | A_ApplyAction => KB
  | A_ATSSSControlParameters => KIEs
  | A_ATSSSLLControlInformation => KN
  | A_ATSSSLLInformation => KN
  | A_ATSSSLLParameters => KIEs
  | A_AveragePacketDelay => KD
  | A_AveragingWindow => KN
  | A_BARID => KN
  | A_BridgeManagementInformationContainer => KS
  | A_CTAG => KF K_CTAG
  | A_Cause => KN
  | A_ClockDriftControlInformation => KIEs
  | A_ClockDriftReport => KIEs
  | A_CPFunctionFeatures => KB
  | A_CPPFCPEntityIPAddress => KF K_CPPFCPEntityIPAddress
  | A_CreateBAR => KIEs
  | A_CreateBridgeInfoForTSC => KN
  | A_CreateFAR => KIEs
  | A_CreateMAR => KIEs
  | A_CreatePDR => KIEs
  | A_CreateQER => KIEs
  | A_CreateSRR => KIEs
  | A_CreateTrafficEndpoint => KIEs
  | A_CreateURR => KIEs
  | A_CreatedBridgeInfoForTSC => KIEs
  | A_CreatedPDR => KIEs
  | A_CreatedTrafficEndpoint => KIEs
  | A_LocalFTEID => KF K_FTEID
  | A_CumulativeRateRatioMeasurement => KN
  | A_CumulativeRateRatioThreshold => KN
  | A_DataNetworkAccessIdentifier => KS
  | A_DataStatus => KN
  | A_DeactivatePredefinedRules => KS
  | A_DeactivationTime => KT
  | A_DestinationInterface => KN
  | A_DLBufferingDuration => KD
  | A_DLBufferingSuggestedPacketCount => KN
  | A_DLDataPacketsSize => KN
  | A_DLFlowLevelMarking => KF K_DLFlowLevelMarking
  | A_DownlinkDataNotificationDelay => KD
  | A_DownlinkDataReport => KIEs
  | A_DownlinkDataServiceInformation => KB
  | A_PPI => KN
  | A_DroppedDLTrafficThreshold => KN
  | A_DSTTPortNumber => KN
  | A_DuplicatingParameters => KIEs
  | A_DurationMeasurement => KD
  | A_EndTime => KT
  | A_ErrorIndicationReport => KIEs
  | A_EthernetContextInformation => KIEs
  | A_EthernetFilterID => KN
  | A_EthernetFilterProperties => KN
  | A_EthernetInactivityTimer => KD
  | A_EthernetPacketFilter => KIEs
  | A_EthernetPDUSessionInformation => KN
  | A_EthernetTrafficInformation => KIEs
  | A_Ethertype => KN
  | A_EventQuota => KN
  | A_EventThreshold => KN
  | A_EventTimeStamp => KT
  | A_FSEID => KF K_FSEID
  | A_FTEID => KF K_FTEID
  | A_RuleIDType => KN
  | A_FailedRuleID => KN
  | A_FARID => KN
  | A_FlowInformation => KB
  | A_FlowDirection => KN
  | A_FlowDescription => KS
  | A_ForwardingParameters => KIEs
  | A_ForwardingPolicy => KB
  | A_ForwardingPolicyIdentifier => KS
  | A_FQCSID => KB
  | A_NodeIDType => KN
  | A_NodeAddress => KB
  | A_CSIDs => KNs
  | A_FramedIPv6Route => KS
  | A_FramedRoute => KS
  | A_FramedRouting => KN
  | A_GateStatus => KN
  | A_GateStatusUL => KN
  | A_GateStatusDL => KN
  | A_GateStatusULDL => KNN
  | A_GBR => KB
  | A_GBRUL => KN
  | A_GBRDL => KN
  | A_GracefulReleasePeriod => KD
  | A_GTPUPathInterfaceType => KN
  | A_GTPUPathQoSControlInformation => KIEs
  | A_GTPUPathQoSReport => KIEs
  | A_HeaderEnrichment => KF K_HeaderEnrichment
  | A_InactivityDetectionTime => KN
  | A_IPMulticastAddress => KF K_IPMulticastAddress
  | A_IPMulticastAddressingInfo => KIEs
  | A_IPVersion => KN
  | A_JoinIPMulticastInformationWithinUsageReport => KIEs
  | A_LeaveIPMulticastInformationWithinUsageReport => KIEs
  | A_LinkedURRID => KN
  | A_LoadControlInformation => KIEs
  | A_MACAddressesDetected => KF K_MACAddressesDetected
  | A_MACAddressesRemoved => KF K_MACAddressesRemoved
  | A_MACAddress => KF K_MACAddress
  | A_MARID => KN
  | A_MaximumPacketDelay => KD
  | A_MBR => KB
  | A_MBRUL => KN
  | A_MBRDL => KN
  | A_MeasurementInformation => KN
  | A_MeasurementMethod => KN
  | A_MeasurementPeriod => KD
  | A_Metric => KN
  | A_MinimumPacketDelay => KD
  | A_MinimumWaitTime => KD
  | A_MonitoringTime => KT
  | A_MPTCPAddressInformation => KF K_MPTCPAddressInformation
  | A_MPTCPApplicableIndication => KN
  | A_MPTCPControlInformation => KN
  | A_MPTCPParameters => KIEs
  | A_MTEDTControlInformation => KN
  | A_Multiplier => KB
  | A_ValueDigits => KN
  | A_Exponent => KN
  | A_NetworkInstance => KS
  | A_NetworkInstanceFQDN => KS
  | A_NetworkInstanceHeuristic => KS
  | A_NFInstanceID => KB
  | A_NodeID => KNode
  | A_NodeReportType => KN
  | A_NonTGPPAccessForwardingActionInformation => KIEs
  | A_NumberOfReports => KN
  | A_NumberOfUEIPAddresses => KF K_NumberOfUEIPAddresses
  | A_NWTTPortNumber => KN
  | A_OCIFlags => KN
  | A_OffendingIE => KN
  | A_OuterHeaderCreation => KF K_OuterHeaderCreation
  | A_OuterHeaderRemoval => KB
  | A_OuterHeaderRemovalDescription => KN
  | A_GTPUExtensionHeaderDeletion => KN
  | A_OverloadControlInformation => KIEs
  | A_PacketDelayThresholds => KF K_PacketDelayThresholds
  | A_PacketRateStatusReport => KIEs
  | A_PacketRateStatus => KF K_PacketRateStatus
  | A_PacketRate => KF K_PacketRate
  | A_PacketReplicationAndDetectionCarryOnInformation => KN
  | A_PagingPolicyIndicator => KN
  | A_PDI => KIEs
  | A_PDNType => KN
  | A_PDRID => KN
  | A_PFCPAssociationReleaseRequest => KN
  | A_PFCPSessionRetentionInformation => KIEs
  | A_PFCPASReqFlags => KN
  | A_PFCPASRspFlags => KN
  | A_PFCPAUReqFlags => KN
  | A_PFCPSEReqFlags => KN
  | A_PFCPSMReqFlags => KN
  | A_PFCPSRReqFlags => KN
  | A_PFCPSRRspFlags => KN
  | A_PFDContents => KF K_PFDContents
  | A_PFDContext => KIEs
  | A_PMFAddressInformation => KF K_PMFAddressInformation
  | A_PMFControlInformation => KN
  | A_PMFParameters => KIEs
  | A_PortManagementInformationContainer => KS
  | A_Precedence => KN
  | A_Priority => KN
  | A_ProvideATSSSControlInformation => KIEs
  | A_ProvideRDSConfigurationInformation => KIEs
  | A_Proxying => KN
  | A_QERControlIndications => KN
  | A_QERCorrelationID => KN
  | A_QERID => KN
  | A_QFI => KN
  | A_QoSInformationInGTPUPathQoSReport => KIEs
  | A_QoSMonitoringMeasurement => KF K_QoSMonitoringMeasurement
  | A_QoSMonitoringPerQoSFlowControlInformation => KIEs
  | A_QoSMonitoringReport => KIEs
  | A_QoSReportTrigger => KN
  | A_QueryPacketRateStatus => KIEs
  | A_QueryURRReference => KN
  | A_QueryURR => KIEs
  | A_QuotaHoldingTime => KD
  | A_QuotaValidityTime => KD
  | A_RDSConfigurationInformation => KN
  | A_RecoveryTimeStamp => KT
  | A_RedirectInformation => KF K_RedirectInformation
  | A_RedundantTransmissionForwardingParameters => KIEs
  | A_RedundantTransmissionParameters => KIEs
  | A_RemoteGTPUPeer => KF K_RemoteGTPUPeer
  | A_RemoveBAR => KIEs
  | A_RemoveFAR => KIEs
  | A_RemoveMAR => KIEs
  | A_RemovePDR => KIEs
  | A_RemoveQER => KIEs
  | A_RemoveSRR => KIEs
  | A_RemoveTrafficEndpoint => KIEs
  | A_RemoveURR => KIEs
  | A_ReportType => KN
  | A_ReportingFrequency => KN
  | A_ReportingTriggers => KB
  | A_RequestedAccessAvailabilityInformation => KN
  | A_RequestedClockDriftInformation => KN
  | A_RequestedQoSMonitoring => KN
  | A_RQI => KN
  | A_SNSSAI => KB
  | A_SST => KN
  | A_SD => KN
  | A_STAG => KF K_STAG
  | A_SDFFilter => KF K_SDFFilter
  | A_SequenceNumber => KN
  | A_SessionReport => KIEs
  | A_SMFSetID => KS
  | A_SourceInterface => KN
  | A_SourceIPAddress => KF K_SourceIPAddress
  | A_SRRID => KN
  | A_StartTime => KT
  | A_SteeringFunctionality => KN
  | A_SteeringMode => KN
  | A_SubsequentEventQuota => KN
  | A_SubsequentEventThreshold => KN
  | A_SubsequentTimeQuota => KD
  | A_SubsequentTimeThreshold => KD
  | A_SubsequentVolumeQuota => KF K_SubsequentVolumeQuota
  | A_SubsequentVolumeThreshold => KF K_SubsequentVolumeThreshold
  | A_SuggestedBufferingPacketsCount => KN
  | A_TGPPAccessForwardingActionInformation => KIEs
  | A_TGPPInterfaceType => KN
  | A_TimeOfFirstPacket => KT
  | A_TimeOfLastPacket => KT
  | A_TimeOffsetMeasurement => KD
  | A_TimeOffsetThreshold => KD
  | A_TimeQuotaMechanism => KB
  | A_TimeQuota => KD
  | A_TimeThreshold => KD
  | A_Timer => KD
  | A_TraceInformation => KF K_TraceInformation
  | A_TrafficEndpointID => KN
  | A_TransportDelayReporting => KIEs
  | A_TransportLevelMarking => KN
  | A_TSCManagementInformation => KIEs
  | A_PortManagementInformationForTSC => KIEs
  | A_TSNBridgeID => KB
  | A_TSNTimeDomainNumber => KN
  | A_UEIPAddressPoolIdentity => KB
  | A_UEIPAddressPoolIdentityString => KS
  | A_UEIPAddressPoolInformation => KIEs
  | A_UEIPAddressUsageInformation => KIEs
  | A_UEIPAddress => KF K_UEIPAddress
  | A_UELinkSpecificIPAddress => KF K_UELinkSpecificIPAddress
  | A_UPFunctionFeatures => KB
  | A_UpdateTGPPAccessForwardingActionInformation => KIEs
  | A_UpdateBAR => KIEs
  | A_UpdateDuplicatingParameters => KIEs
  | A_UpdateFAR => KIEs
  | A_UpdateForwardingParameters => KIEs
  | A_UpdateMAR => KIEs
  | A_UpdateNonTGPPAccessForwardingActionInformation => KIEs
  | A_UpdatePDR => KIEs
  | A_UpdateQER => KIEs
  | A_UpdateSRR => KIEs
  | A_UpdateTrafficEndpoint => KIEs
  | A_UpdateURR => KIEs
  | A_UpdatedPDR => KIEs
  | A_URSEQN => KN
  | A_URRID => KN
  | A_UsageInformation => KN
  | A_UsageReportTrigger => KB
  | A_UsageReport => KIEs
  | A_UserID => KF K_UserID
  | A_UserPlaneInactivityTimer => KD
  | A_UserPlaneIPResourceInformation => KF K_UserPlaneIPResourceInformation
  | A_UserPlanePathFailureReport => KIEs
  | A_UserPlanePathRecoveryReport => KIEs
  | A_ValidityTimer => KD
  | A_VolumeMeasurement => KF K_VolumeMeasurement
  | A_VolumeQuota => KF K_VolumeQuota
  | A_VolumeThreshold => KF K_VolumeThreshold
  | A_Weight => KN
  end.

Definition acc_def (a : acc) : adef acc :=
  match a with
  | A_AccessAvailabilityControlInformation => (* ie/access-availability-control-information.go:13-53 *)
      mkdef []
        [([T_AccessAvailabilityControlInformation], Leaf LChildren);
         ([T_CreateSRR], Via A_CreateSRR [T_AccessAvailabilityControlInformation] A_AccessAvailabilityControlInformation);
         ([T_UpdateSRR], Via A_UpdateSRR [T_AccessAvailabilityControlInformation] A_AccessAvailabilityControlInformation);
         ([T_SessionReport], Via A_SessionReport [T_AccessAvailabilityControlInformation] A_AccessAvailabilityControlInformation)] (Leaf LInvalid)
  | A_AccessAvailabilityInformation => (* ie/access-availability-information.go:25-44 *)
      mkdef []
        [([T_AccessAvailabilityInformation], Leaf (LUint 1));
         ([T_AccessAvailabilityReport], Via A_AccessAvailabilityReport [T_AccessAvailabilityInformation] A_AccessAvailabilityInformation)] (Leaf LInvalid)
  | A_AvailabilityStatus => (* ie/access-availability-information.go:47-54 *)
      mkdef []
        [] (Then A_AccessAvailabilityInformation (PBits 2 3))
  | A_AccessType => (* ie/access-availability-information.go:57-64 *)
      mkdef []
        [] (Then A_AccessAvailabilityInformation (PBits 0 3))
  | A_AccessAvailabilityReport => (* ie/access-availability-report.go:13-19 *)
      mkdef [GType T_AccessAvailabilityReport]
        [] (Leaf LChildren)
  | A_ActivatePredefinedRules => (* ie/activate-predefined-rules.go:13-42 *)
      mkdef []
        [([T_ActivatePredefinedRules], Leaf LString);
         ([T_CreatePDR], Via A_CreatePDR [T_ActivatePredefinedRules] A_ActivatePredefinedRules);
         ([T_UpdatePDR], Via A_UpdatePDR [T_ActivatePredefinedRules] A_ActivatePredefinedRules)] (Leaf LInvalid)
  | A_ActivationTime => (* ie/activation-time.go:18-47 *)
      mkdef []
        [([T_ActivationTime], Leaf LTime);
         ([T_CreatePDR], Via A_CreatePDR [T_ActivationTime] A_ActivationTime);
         ([T_UpdatePDR], Via A_UpdatePDR [T_ActivationTime] A_ActivationTime)] (Leaf LInvalid)
  | A_AdditionalMonitoringTime => (* ie/additional-monitoring-time.go:13-42 *)
      mkdef []
        [([T_AdditionalMonitoringTime], Leaf LChildren);
         ([T_CreateURR], Via A_CreateURR [T_AdditionalMonitoringTime] A_AdditionalMonitoringTime);
         ([T_UpdateURR], Via A_UpdateURR [T_AdditionalMonitoringTime] A_AdditionalMonitoringTime)] (Leaf LInvalid)
  | A_AdditionalUsageReportsInformation => (* ie/additional-usage-reports-information.go:21-31 *)
      mkdef [GType T_AdditionalUsageReportsInformation; GLen 2]
        [] (Leaf LAuri)
  | A_AggregatedURRID => (* ie/aggregated-urr-id.go:13-31 *)
      mkdef []
        [([T_AggregatedURRID], Leaf (LUint 4));
         ([T_AggregatedURRs], Via A_AggregatedURRs [T_AggregatedURRID] A_AggregatedURRID)] (Leaf LInvalid)
  | A_AggregatedURRs => (* ie/aggregated-urrs.go:13-42 *)
      mkdef []
        [([T_AggregatedURRs], Leaf LChildren);
         ([T_CreateURR], Via A_CreateURR [T_AggregatedURRs] A_AggregatedURRs);
         ([T_UpdateURR], Via A_UpdateURR [T_AggregatedURRs] A_AggregatedURRs)] (Leaf LInvalid)
  | A_AlternativeSMFIPAddress => (* ie/alternative-smf-ip-address.go:25-36 *)
      mkdef [GType T_AlternativeSMFIPAddress]
        [] (Leaf (LFields K_AlternativeSMFIPAddress))
  | A_APNDNN => (* ie/apn-dnn.go:13-19 *)
      mkdef [GType T_APNDNN]
        [] (Leaf LFQDN)
  | A_ApplicationDetectionInformation => (* ie/application-detection-information.go:13-33 *)
      mkdef []
        [([T_ApplicationDetectionInformation], Leaf LChildren);
         ([T_UsageReportWithinSessionModificationResponse; T_UsageReportWithinSessionDeletionResponse; T_UsageReportWithinSessionReportRequest], Via A_UsageReport [T_ApplicationDetectionInformation] A_ApplicationDetectionInformation)] (Leaf LInvalid)
  | A_ApplicationID => (* ie/application-id.go:13-75 *)
      mkdef []
        [([T_ApplicationID], Leaf LString);
         ([T_CreatePDR], Via A_CreatePDR [T_PDI] A_ApplicationID);
         ([T_PDI], Via A_PDI [T_ApplicationID] A_ApplicationID);
         ([T_ApplicationIDsPFDs], Via A_ApplicationIDsPFDs [T_ApplicationID] A_ApplicationID);
         ([T_ApplicationDetectionInformation], Via A_ApplicationDetectionInformation [T_ApplicationID] A_ApplicationID);
         ([T_UsageReportWithinSessionReportRequest], Via A_UsageReport [T_ApplicationDetectionInformation] A_ApplicationID)] (Leaf LInvalid)
  | A_ApplicationIDsPFDs => (* ie/application-ids-pfds.go:13-19 *)
      mkdef [GType T_ApplicationIDsPFDs]
        [] (Leaf LChildren)
  | A_ApplicationInstanceID => (* ie/application-instance-id.go:13-42 *)
      mkdef []
        [([T_ApplicationInstanceID], Leaf LString);
         ([T_ApplicationDetectionInformation], Via A_ApplicationDetectionInformation [T_ApplicationInstanceID] A_ApplicationInstanceID);
         ([T_UsageReportWithinSessionReportRequest], Via A_UsageReport [T_ApplicationDetectionInformation] A_ApplicationInstanceID)] (Leaf LInvalid)
  | A_ApplyAction => (* ie/apply-action.go:15-47 *)
      mkdef []
        [([T_ApplyAction], Leaf LApplyAction);
         ([T_CreateFAR], Via A_CreateFAR [T_ApplyAction] A_ApplyAction);
         ([T_UpdateFAR], Via A_UpdateFAR [T_ApplyAction] A_ApplyAction)] (Leaf LInvalid)
  | A_ATSSSControlParameters => (* ie/atsss-control-parameters.go:13-19 *)
      mkdef [GType T_ATSSSControlParameters]
        [] (Leaf LChildren)
  | A_ATSSSLLControlInformation => (* ie/atsss-ll-control-information.go:13-31 *)
      mkdef []
        [([T_ATSSSLLControlInformation], Leaf (LUint 1));
         ([T_ProvideATSSSControlInformation], Via A_ProvideATSSSControlInformation [T_ATSSSLLControlInformation] A_ATSSSLLControlInformation)] (Leaf LInvalid)
  | A_ATSSSLLInformation => (* ie/atsss-ll-information.go:13-42 *)
      mkdef []
        [([T_ATSSSLLInformation], Leaf (LUint 1));
         ([T_ATSSSControlParameters], Via A_ATSSSControlParameters [T_ATSSSLLParameters] A_ATSSSLLInformation);
         ([T_ATSSSLLParameters], Via A_ATSSSLLParameters [T_ATSSSLLInformation] A_ATSSSLLInformation)] (Leaf LInvalid)
  | A_ATSSSLLParameters => (* ie/atsss-ll-parameters.go:13-31 *)
      mkdef []
        [([T_ATSSSLLParameters], Leaf LChildren);
         ([T_ATSSSControlParameters], Via A_ATSSSControlParameters [T_ATSSSLLParameters] A_ATSSSLLParameters)] (Leaf LInvalid)
  | A_AveragePacketDelay => (* ie/average-packet-delay.go:21-65 *)
      mkdef [GLen 4]
        [([T_AveragePacketDelay], Leaf LMillis32);
         ([T_GTPUPathQoSControlInformation], Via A_GTPUPathQoSControlInformation [T_AveragePacketDelay] A_AveragePacketDelay);
         ([T_GTPUPathQoSReport], Via A_GTPUPathQoSReport [T_AveragePacketDelay] A_AveragePacketDelay);
         ([T_QoSInformationInGTPUPathQoSReport], Via A_QoSInformationInGTPUPathQoSReport [T_AveragePacketDelay] A_AveragePacketDelay)] (Leaf LInvalid)
  | A_AveragingWindow => (* ie/averaging-window.go:13-42 *)
      mkdef []
        [([T_AveragingWindow], Leaf (LUint 4));
         ([T_CreateQER], Via A_CreateQER [T_AveragingWindow] A_AveragingWindow);
         ([T_UpdateQER], Via A_UpdateQER [T_AveragingWindow] A_AveragingWindow)] (Leaf LInvalid)
  | A_BARID => (* ie/bar-id.go:13-76 *)
      mkdef []
        [([T_BARID], Leaf (LUint 1));
         ([T_CreateFAR], Via A_CreateFAR [T_BARID] A_BARID);
         ([T_UpdateFAR], Via A_UpdateFAR [T_BARID] A_BARID);
         ([T_CreateBAR], Via A_CreateBAR [T_BARID] A_BARID);
         ([T_UpdateBARWithinSessionReportResponse; T_UpdateBARWithinSessionModificationRequest], Via A_UpdateBAR [T_BARID] A_BARID);
         ([T_RemoveBAR], Via A_RemoveBAR [T_BARID] A_BARID)] (Leaf LInvalid)
  | A_BridgeManagementInformationContainer => (* ie/bridge-management-information-container.go:13-33 *)
      mkdef []
        [([T_BridgeManagementInformationContainer], Leaf LString);
         ([T_TSCManagementInformationWithinSessionModificationRequest; T_TSCManagementInformationWithinSessionModificationResponse; T_TSCManagementInformationWithinSessionReportRequest], Via A_TSCManagementInformation [T_BridgeManagementInformationContainer] A_BridgeManagementInformationContainer)] (Leaf LInvalid)
  | A_CTAG => (* ie/c-tag.go:25-82 *)
      mkdef []
        [([T_CTAG], Leaf (LFields K_CTAG));
         ([T_PDI], Via A_PDI [T_EthernetPacketFilter] A_CTAG);
         ([T_EthernetPacketFilter], Via A_EthernetPacketFilter [T_CTAG] A_CTAG);
         ([T_MACAddressesDetected], Then A_MACAddressesDetected PCTag);
         ([T_MACAddressesRemoved], Then A_MACAddressesRemoved PCTag);
         ([T_EthernetContextInformation], Via A_EthernetContextInformation [T_MACAddressesDetected] A_CTAG)] (Leaf LInvalid)
  | A_Cause => (* ie/cause.go:34-39 *)
      mkdef [GType T_Cause]
        [] (Leaf (LUint 1))
  | A_ClockDriftControlInformation => (* ie/clock-drift-control-information.go:13-19 *)
      mkdef [GType T_ClockDriftControlInformation]
        [] (Leaf LChildren)
  | A_ClockDriftReport => (* ie/clock-drift-report.go:13-19 *)
      mkdef [GType T_ClockDriftReport]
        [] (Leaf LChildren)
  | A_CPFunctionFeatures => (* ie/cp-function-features.go:15-23 *)
      mkdef [GType T_CPFunctionFeatures; GLen 1]
        [] (Leaf LPayload)
  | A_CPPFCPEntityIPAddress => (* ie/cp-pfcp-entity-ip-address.go:25-48 *)
      mkdef []
        [([T_CPPFCPEntityIPAddress], Leaf (LFields K_CPPFCPEntityIPAddress));
         ([T_PFCPSessionRetentionInformation], Via A_PFCPSessionRetentionInformation [T_CPPFCPEntityIPAddress] A_CPPFCPEntityIPAddress)] (Leaf LInvalid)
  | A_CreateBAR => (* ie/create-bar.go:13-20 *)
      mkdef []
        [([T_CreateBAR], Leaf LChildren)] (Leaf LInvalid)
  | A_CreateBridgeInfoForTSC => (* ie/create-bridge-info-for-tsc.go:13-20 *)
      mkdef []
        [([T_CreateBridgeInfoForTSC], Leaf (LUint 1))] (Leaf LInvalid)
  | A_CreateFAR => (* ie/create-far.go:13-19 *)
      mkdef [GType T_CreateFAR]
        [] (Leaf LChildren)
  | A_CreateMAR => (* ie/create-mar.go:13-19 *)
      mkdef [GType T_CreateMAR]
        [] (Leaf LChildren)
  | A_CreatePDR => (* ie/create-pdr.go:13-19 *)
      mkdef [GType T_CreatePDR]
        [] (Leaf LChildren)
  | A_CreateQER => (* ie/create-qer.go:13-19 *)
      mkdef [GType T_CreateQER]
        [] (Leaf LChildren)
  | A_CreateSRR => (* ie/create-srr.go:13-20 *)
      mkdef []
        [([T_CreateSRR], Leaf LChildren)] (Leaf LInvalid)
  | A_CreateTrafficEndpoint => (* ie/create-traffic-endpoint.go:13-19 *)
      mkdef [GType T_CreateTrafficEndpoint]
        [] (Leaf LChildren)
  | A_CreateURR => (* ie/create-urr.go:14-20 *)
      mkdef [GType T_CreateURR]
        [] (Leaf LChildren)
  | A_CreatedBridgeInfoForTSC => (* ie/created-bridge-info-for-tsc.go:13-19 *)
      mkdef [GType T_CreatedBridgeInfoForTSC]
        [] (Leaf LChildren)
  | A_CreatedPDR => (* ie/created-pdr.go:13-19 *)
      mkdef [GType T_CreatedPDR]
        [] (Leaf LChildren)
  | A_CreatedTrafficEndpoint => (* ie/created-traffic-endpoint.go:13-19 *)
      mkdef [GType T_CreatedTrafficEndpoint]
        [] (Leaf LChildren)
  | A_LocalFTEID => (* ie/created-traffic-endpoint.go:25-41 *)
      mkdef []
        [([T_CreatedTrafficEndpoint], Via A_CreatedTrafficEndpoint [T_FTEID] A_FTEID)] (Leaf LInvalid)
  | A_CumulativeRateRatioMeasurement => (* ie/cumulative-rate-ratio-measurement.go:13-20 *)
      mkdef []
        [([T_CumulativeRateRatioMeasurement], Leaf (LUint 4))] (Leaf LInvalid)
  | A_CumulativeRateRatioThreshold => (* ie/cumulative-rate-ratio-threshold.go:13-44 *)
      mkdef []
        [([T_CumulativeRateRatioThreshold], Leaf (LUint 4));
         ([T_ClockDriftControlInformation], Via A_ClockDriftControlInformation [T_CumulativeRateRatioThreshold] A_CumulativeRateRatioThreshold);
         ([T_ClockDriftReport], Via A_ClockDriftReport [T_CumulativeRateRatioThreshold] A_CumulativeRateRatioThreshold)] (Leaf LInvalid)
  | A_DataNetworkAccessIdentifier => (* ie/data-network-access-identifier.go:13-42 *)
      mkdef []
        [([T_DataNetworkAccessIdentifier], Leaf LString);
         ([T_ForwardingParameters], Via A_ForwardingParameters [T_DataNetworkAccessIdentifier] A_DataNetworkAccessIdentifier);
         ([T_UpdateForwardingParameters], Via A_UpdateForwardingParameters [T_DataNetworkAccessIdentifier] A_DataNetworkAccessIdentifier)] (Leaf LInvalid)
  | A_DataStatus => (* ie/data-status.go:13-31 *)
      mkdef []
        [([T_DataStatus], Leaf (LUint 1));
         ([T_DownlinkDataReport], Via A_DownlinkDataReport [T_DataStatus] A_DataStatus)] (Leaf LInvalid)
  | A_DeactivatePredefinedRules => (* ie/deactivate-predefined-rules.go:13-31 *)
      mkdef []
        [([T_DeactivatePredefinedRules], Leaf LString);
         ([T_UpdatePDR], Via A_UpdatePDR [T_DeactivatePredefinedRules] A_DeactivatePredefinedRules)] (Leaf LInvalid)
  | A_DeactivationTime => (* ie/deactivation-time.go:18-47 *)
      mkdef []
        [([T_DeactivationTime], Leaf LTime);
         ([T_CreatePDR], Via A_CreatePDR [T_DeactivationTime] A_DeactivationTime);
         ([T_UpdatePDR], Via A_UpdatePDR [T_DeactivationTime] A_DeactivationTime)] (Leaf LInvalid)
  | A_DestinationInterface => (* ie/destination-interface.go:23-74 *)
      mkdef []
        [([T_DestinationInterface], Leaf (LUint 1));
         ([T_ForwardingParameters], Via A_ForwardingParameters [T_DestinationInterface] A_DestinationInterface);
         ([T_UpdateForwardingParameters], Via A_UpdateForwardingParameters [T_DestinationInterface] A_DestinationInterface);
         ([T_DuplicatingParameters], Via A_DuplicatingParameters [T_DestinationInterface] A_DestinationInterface);
         ([T_UpdateDuplicatingParameters], Via A_UpdateDuplicatingParameters [T_DestinationInterface] A_DestinationInterface)] (Leaf LInvalid)
  | A_DLBufferingDuration => (* ie/dl-buffering-duration.go:55-94 *)
      mkdef [GLen 1]
        [([T_DLBufferingDuration], Leaf LTimer);
         ([T_UpdateBARWithinSessionReportResponse], Via A_UpdateBAR [T_DLBufferingDuration] A_DLBufferingDuration)] (Leaf LInvalid)
  | A_DLBufferingSuggestedPacketCount => (* ie/dl-buffering-suggested-packet-count.go:21-47 *)
      mkdef []
        [([T_DLBufferingSuggestedPacketCount], Leaf LSuggestedCount);
         ([T_UpdateBARWithinSessionReportResponse], Via A_UpdateBAR [T_DLBufferingSuggestedPacketCount] A_DLBufferingSuggestedPacketCount)] (Leaf LInvalid)
  | A_DLDataPacketsSize => (* ie/dl-data-packets-size.go:13-31 *)
      mkdef []
        [([T_DLDataPacketsSize], Leaf (LUint 2));
         ([T_DownlinkDataReport], Via A_DownlinkDataReport [T_DLDataPacketsSize] A_DLDataPacketsSize)] (Leaf LInvalid)
  | A_DLFlowLevelMarking => (* ie/dl-flow-level-marking.go:24-58 *)
      mkdef []
        [([T_DLFlowLevelMarking], Leaf (LFields K_DLFlowLevelMarking));
         ([T_CreateQER], Via A_CreateQER [T_DLFlowLevelMarking] A_DLFlowLevelMarking);
         ([T_UpdateQER], Via A_UpdateQER [T_DLFlowLevelMarking] A_DLFlowLevelMarking)] (Leaf LInvalid)
  | A_DownlinkDataNotificationDelay => (* ie/downlink-data-notification-delay.go:20-54 *)
      mkdef [GLen 1]
        [([T_DownlinkDataNotificationDelay], Leaf LOctet50ms);
         ([T_CreateBAR], Via A_CreateBAR [T_DownlinkDataNotificationDelay] A_DownlinkDataNotificationDelay);
         ([T_UpdateBARWithinSessionReportResponse; T_UpdateBARWithinSessionModificationRequest], Via A_UpdateBAR [T_DownlinkDataNotificationDelay] A_DownlinkDataNotificationDelay)] (Leaf LInvalid)
  | A_DownlinkDataReport => (* ie/downlink-data-report.go:13-19 *)
      mkdef [GType T_DownlinkDataReport]
        [] (Leaf LChildren)
  | A_DownlinkDataServiceInformation => (* ie/downlink-data-service-information.go:27-45 *)
      mkdef []
        [([T_DownlinkDataServiceInformation], Leaf LPayload);
         ([T_DownlinkDataReport], Via A_DownlinkDataReport [T_DownlinkDataServiceInformation] A_DownlinkDataServiceInformation)] (Leaf LInvalid)
  | A_PPI => (* ie/downlink-data-service-information.go:72-81 *)
      mkdef [GType T_DownlinkDataServiceInformation; GLen 2]
        [] (Leaf LPPI)
  | A_DroppedDLTrafficThreshold => (* ie/dropped-dl-traffic-threshold.go:44-73 *)
      mkdef []
        [([T_DroppedDLTrafficThreshold], Leaf (LUint 1));
         ([T_CreateURR], Via A_CreateURR [T_DroppedDLTrafficThreshold] A_DroppedDLTrafficThreshold);
         ([T_UpdateURR], Via A_UpdateURR [T_DroppedDLTrafficThreshold] A_DroppedDLTrafficThreshold)] (Leaf LInvalid)
  | A_DSTTPortNumber => (* ie/ds-tt-port-number.go:13-32 *)
      mkdef []
        [([T_DSTTPortNumber], Leaf (LUint 4));
         ([T_CreatedBridgeInfoForTSC], Via A_CreatedBridgeInfoForTSC [T_DSTTPortNumber] A_DSTTPortNumber)] (Leaf LInvalid)
  | A_DuplicatingParameters => (* ie/duplicating-parameters.go:13-31 *)
      mkdef []
        [([T_DuplicatingParameters], Leaf LChildren);
         ([T_CreateFAR], Via A_CreateFAR [T_DuplicatingParameters] A_DuplicatingParameters)] (Leaf LInvalid)
  | A_DurationMeasurement => (* ie/duration-measurement.go:21-45 *)
      mkdef [GLen 4]
        [([T_DurationMeasurement], Leaf LSecs32);
         ([T_UsageReportWithinSessionModificationResponse; T_UsageReportWithinSessionDeletionResponse; T_UsageReportWithinSessionReportRequest], Via A_UsageReport [T_DurationMeasurement] A_DurationMeasurement)] (Leaf LInvalid)
  | A_EndTime => (* ie/end-time.go:18-39 *)
      mkdef []
        [([T_EndTime], Leaf LTime);
         ([T_UsageReportWithinSessionModificationResponse; T_UsageReportWithinSessionDeletionResponse; T_UsageReportWithinSessionReportRequest], Via A_UsageReport [T_EndTime] A_EndTime)] (Leaf LInvalid)
  | A_ErrorIndicationReport => (* ie/error-indication-report.go:13-19 *)
      mkdef [GType T_ErrorIndicationReport]
        [] (Leaf LChildren)
  | A_EthernetContextInformation => (* ie/ethernet-context-information.go:13-19 *)
      mkdef [GType T_EthernetContextInformation]
        [] (Leaf LChildren)
  | A_EthernetFilterID => (* ie/ethernet-filter-id.go:13-43 *)
      mkdef []
        [([T_EthernetFilterID], Leaf (LUint 4));
         ([T_PDI], Via A_PDI [T_EthernetPacketFilter] A_EthernetFilterID);
         ([T_EthernetPacketFilter], Via A_EthernetPacketFilter [T_EthernetFilterID] A_EthernetFilterID)] (Leaf LInvalid)
  | A_EthernetFilterProperties => (* ie/ethernet-filter-properties.go:13-42 *)
      mkdef []
        [([T_EthernetFilterProperties], Leaf (LUint 1));
         ([T_PDI], Via A_PDI [T_EthernetFilterProperties] A_EthernetFilterProperties);
         ([T_EthernetPacketFilter], Via A_EthernetPacketFilter [T_EthernetFilterProperties] A_EthernetFilterProperties)] (Leaf LInvalid)
  | A_EthernetInactivityTimer => (* ie/ethernet-inactivity-timer.go:21-54 *)
      mkdef [GLen 4]
        [([T_EthernetInactivityTimer], Leaf LSecs32);
         ([T_CreateURR], Via A_CreateURR [T_EthernetInactivityTimer] A_EthernetInactivityTimer);
         ([T_UpdateURR], Via A_UpdateURR [T_EthernetInactivityTimer] A_EthernetInactivityTimer)] (Leaf LInvalid)
  | A_EthernetPacketFilter => (* ie/ethernet-packet-filter.go:13-42 *)
      mkdef []
        [([T_EthernetPacketFilter], Leaf LChildren);
         ([T_CreatePDR], Via A_CreatePDR [T_PDI] A_EthernetPacketFilter);
         ([T_PDI], Via A_PDI [T_EthernetPacketFilter] A_EthernetPacketFilter)] (Leaf LInvalid)
  | A_EthernetPDUSessionInformation => (* ie/ethernet-pdu-session-information.go:13-53 *)
      mkdef []
        [([T_EthernetPDUSessionInformation], Leaf (LUint 1));
         ([T_CreatePDR], Via A_CreatePDR [T_PDI] A_EthernetPDUSessionInformation);
         ([T_PDI], Via A_PDI [T_EthernetPDUSessionInformation] A_EthernetPDUSessionInformation);
         ([T_CreateTrafficEndpoint], Via A_CreateTrafficEndpoint [T_EthernetPDUSessionInformation] A_EthernetPDUSessionInformation)] (Leaf LInvalid)
  | A_EthernetTrafficInformation => (* ie/ethernet-traffic-information.go:13-33 *)
      mkdef []
        [([T_EthernetTrafficInformation], Leaf LChildren);
         ([T_UsageReportWithinSessionModificationResponse; T_UsageReportWithinSessionDeletionResponse; T_UsageReportWithinSessionReportRequest], Via A_UsageReport [T_EthernetTrafficInformation] A_EthernetTrafficInformation)] (Leaf LInvalid)
  | A_Ethertype => (* ie/ethertype.go:13-43 *)
      mkdef []
        [([T_Ethertype], Leaf (LUint 2));
         ([T_PDI], Via A_PDI [T_Ethertype] A_Ethertype);
         ([T_EthernetPacketFilter], Via A_EthernetPacketFilter [T_Ethertype] A_Ethertype)] (Leaf LInvalid)
  | A_EventQuota => (* ie/event-quota.go:13-53 *)
      mkdef []
        [([T_EventQuota], Leaf (LUint 4));
         ([T_CreateURR], Via A_CreateURR [T_EventQuota] A_EventQuota);
         ([T_UpdateURR], Via A_UpdateURR [T_EventQuota] A_EventQuota);
         ([T_AdditionalMonitoringTime], Via A_AdditionalMonitoringTime [T_EventQuota] A_EventQuota)] (Leaf LInvalid)
  | A_EventThreshold => (* ie/event-threshold.go:13-53 *)
      mkdef []
        [([T_EventThreshold], Leaf (LUint 4));
         ([T_CreateURR], Via A_CreateURR [T_EventThreshold] A_EventThreshold);
         ([T_UpdateURR], Via A_UpdateURR [T_EventThreshold] A_EventThreshold);
         ([T_AdditionalMonitoringTime], Via A_AdditionalMonitoringTime [T_EventThreshold] A_EventThreshold)] (Leaf LInvalid)
  | A_EventTimeStamp => (* ie/event-time-stamp.go:18-71 *)
      mkdef []
        [([T_EventTimeStamp], Leaf LTime);
         ([T_UsageReportWithinSessionReportRequest], Via A_UsageReport [T_EventTimeStamp] A_EventTimeStamp);
         ([T_GTPUPathQoSReport], Via A_GTPUPathQoSReport [T_EventTimeStamp] A_EventTimeStamp);
         ([T_QoSMonitoringReport], Via A_QoSMonitoringReport [T_EventTimeStamp] A_EventTimeStamp);
         ([T_ClockDriftReport], Via A_ClockDriftReport [T_EventTimeStamp] A_EventTimeStamp)] (Leaf LInvalid)
  | A_FSEID => (* ie/f-seid.go:26-37 *)
      mkdef [GType T_FSEID]
        [] (Leaf (LFields K_FSEID))
  | A_FTEID => (* ie/f-teid.go:27-119 *)
      mkdef []
        [([T_FTEID], Leaf (LFields K_FTEID));
         ([T_PDI], Via A_PDI [T_FTEID; T_RedundantTransmissionParameters] A_FTEID);
         ([T_CreatedPDR], Via A_CreatedPDR [T_FTEID] A_FTEID);
         ([T_ErrorIndicationReport], Via A_ErrorIndicationReport [T_FTEID] A_FTEID);
         ([T_CreateTrafficEndpoint], Via A_CreateTrafficEndpoint [T_FTEID] A_FTEID);
         ([T_CreatedTrafficEndpoint], Leaf (LFail EOther));
         ([T_UpdateTrafficEndpoint], Via A_UpdateTrafficEndpoint [T_FTEID] A_FTEID);
         ([T_RedundantTransmissionParameters], Via A_RedundantTransmissionParameters [T_FTEID] A_FTEID);
         ([T_UpdatedPDR], Via A_UpdatedPDR [T_FTEID] A_FTEID)] (Leaf LInvalid)
  | A_RuleIDType => (* ie/failed-rule-id.go:42-48 *)
      mkdef [GType T_FailedRuleID]
        [] (Leaf (LUint 1))
  | A_FailedRuleID => (* ie/failed-rule-id.go:51-78 *)
      mkdef [GType T_FailedRuleID; GLen 1]
        [] (Leaf LFailedRuleID)
  | A_FARID => (* ie/far-id.go:13-165 *)
      mkdef []
        [([T_FARID], Leaf (LUint 4));
         ([T_CreatePDR], Via A_CreatePDR [T_FARID] A_FARID);
         ([T_UpdatePDR], Via A_UpdatePDR [T_FARID] A_FARID);
         ([T_CreateFAR], Via A_CreateFAR [T_FARID] A_FARID);
         ([T_UpdateFAR], Via A_UpdateFAR [T_FARID] A_FARID);
         ([T_CreateURR], Via A_CreateURR [T_FARID] A_FARID);
         ([T_UpdateURR], Via A_UpdateURR [T_FARID] A_FARID);
         ([T_RemoveFAR], Via A_RemoveFAR [T_FARID] A_FARID);
         ([T_CreateMAR], Via A_CreateMAR [T_TGPPAccessForwardingActionInformation; T_NonTGPPAccessForwardingActionInformation] A_FARID);
         ([T_UpdateMAR], Via A_UpdateMAR [T_TGPPAccessForwardingActionInformation; T_NonTGPPAccessForwardingActionInformation] A_FARID);
         ([T_TGPPAccessForwardingActionInformation], Via A_TGPPAccessForwardingActionInformation [T_FARID] A_FARID);
         ([T_NonTGPPAccessForwardingActionInformation], Via A_NonTGPPAccessForwardingActionInformation [T_FARID] A_FARID);
         ([T_UpdateTGPPAccessForwardingActionInformation], Via A_UpdateTGPPAccessForwardingActionInformation [T_FARID] A_FARID);
         ([T_UpdateNonTGPPAccessForwardingActionInformation], Via A_UpdateNonTGPPAccessForwardingActionInformation [T_FARID] A_FARID)] (Leaf LInvalid)
  | A_FlowInformation => (* ie/flow-information.go:34-63 *)
      mkdef []
        [([T_FlowInformation], Leaf LPayload);
         ([T_ApplicationDetectionInformation], Via A_ApplicationDetectionInformation [T_FlowInformation] A_FlowInformation);
         ([T_UsageReportWithinSessionReportRequest], Via A_UsageReport [T_ApplicationDetectionInformation] A_FlowInformation)] (Leaf LInvalid)
  | A_FlowDirection => (* ie/flow-information.go:66-87 *)
      mkdef []
        [([T_FlowInformation], Leaf LFlowDirection);
         ([T_ApplicationDetectionInformation], Via A_ApplicationDetectionInformation [T_FlowInformation] A_FlowDirection)] (Leaf LInvalid)
  | A_FlowDescription => (* ie/flow-information.go:90-113 *)
      mkdef []
        [([T_FlowInformation], Leaf LFlowDescription);
         ([T_ApplicationDetectionInformation], Via A_ApplicationDetectionInformation [T_FlowInformation] A_FlowDescription)] (Leaf LInvalid)
  | A_ForwardingParameters => (* ie/forwarding-parameters.go:13-31 *)
      mkdef []
        [([T_ForwardingParameters], Leaf LChildren);
         ([T_CreateFAR], Via A_CreateFAR [T_ForwardingParameters] A_ForwardingParameters)] (Leaf LInvalid)
  | A_ForwardingPolicy => (* ie/forwarding-policy.go:21-72 *)
      mkdef []
        [([T_ForwardingPolicy], Leaf LPayload);
         ([T_ForwardingParameters], Via A_ForwardingParameters [T_ForwardingPolicy] A_ForwardingPolicy);
         ([T_UpdateForwardingParameters], Via A_UpdateForwardingParameters [T_ForwardingPolicy] A_ForwardingPolicy);
         ([T_DuplicatingParameters], Via A_DuplicatingParameters [T_ForwardingPolicy] A_ForwardingPolicy);
         ([T_UpdateDuplicatingParameters], Via A_UpdateDuplicatingParameters [T_ForwardingPolicy] A_ForwardingPolicy)] (Leaf LInvalid)
  | A_ForwardingPolicyIdentifier => (* ie/forwarding-policy.go:75-92 *)
      mkdef []
        [] (Then A_ForwardingPolicy PPolicyID)
  | A_FQCSID => (* ie/fq-csid.go:55-64 *)
      mkdef [GType T_FQCSID; GLen 3]
        [] (Leaf LPayload)
  | A_NodeIDType => (* ie/fq-csid.go:67-78 *)
      mkdef [GLen 1]
        [([T_FQCSID], Leaf LNodeIDType)] (Leaf LInvalid)
  | A_NodeAddress => (* ie/fq-csid.go:81-105 *)
      mkdef [GLen 1]
        [([T_FQCSID], Leaf LNodeAddress)] (Leaf LInvalid)
  | A_CSIDs => (* ie/fq-csid.go:108-134 *)
      mkdef [GLen 1]
        [([T_FQCSID], Leaf LCSIDs)] (Leaf LInvalid)
  | A_FramedIPv6Route => (* ie/framed-ipv6-route.go:13-42 *)
      mkdef []
        [([T_FramedIPv6Route], Leaf LString);
         ([T_CreateTrafficEndpoint], Via A_CreateTrafficEndpoint [T_FramedIPv6Route] A_FramedIPv6Route);
         ([T_UpdateTrafficEndpoint], Via A_UpdateTrafficEndpoint [T_FramedIPv6Route] A_FramedIPv6Route)] (Leaf LInvalid)
  | A_FramedRoute => (* ie/framed-route.go:13-42 *)
      mkdef []
        [([T_FramedRoute], Leaf LString);
         ([T_CreateTrafficEndpoint], Via A_CreateTrafficEndpoint [T_FramedRoute] A_FramedRoute);
         ([T_UpdateTrafficEndpoint], Via A_UpdateTrafficEndpoint [T_FramedRoute] A_FramedRoute)] (Leaf LInvalid)
  | A_FramedRouting => (* ie/framed-routing.go:23-52 *)
      mkdef []
        [([T_FramedRouting], Leaf (LUint 4));
         ([T_CreateTrafficEndpoint], Via A_CreateTrafficEndpoint [T_FramedRouting] A_FramedRouting);
         ([T_UpdateTrafficEndpoint], Via A_UpdateTrafficEndpoint [T_FramedRouting] A_FramedRouting)] (Leaf LInvalid)
  | A_GateStatus => (* ie/gate-status.go:19-48 *)
      mkdef []
        [([T_GateStatus], Leaf (LUint 1));
         ([T_CreateQER], Via A_CreateQER [T_GateStatus] A_GateStatus);
         ([T_UpdateQER], Via A_UpdateQER [T_GateStatus] A_GateStatus)] (Leaf LInvalid)
  | A_GateStatusUL => (* ie/gate-status.go:51-58 *)
      mkdef []
        [] (Then A_GateStatus (PBits 2 3))
  | A_GateStatusDL => (* ie/gate-status.go:61-68 *)
      mkdef []
        [] (Then A_GateStatus (PBits 0 3))
  | A_GateStatusULDL => (* ie/gate-status.go:71-78 *)
      mkdef []
        [] (Then A_GateStatus PGateULDL)
  | A_GBR => (* ie/gbr.go:22-55 *)
      mkdef [GLen 10]
        [([T_GBR], Leaf LPayload);
         ([T_CreateQER], Via A_CreateQER [T_GBR] A_GBR);
         ([T_UpdateQER], Via A_UpdateQER [T_GBR] A_GBR)] (Leaf LInvalid)
  | A_GBRUL => (* ie/gbr.go:58-64 *)
      mkdef []
        [] (Then A_GBR (PU40 0 5))
  | A_GBRDL => (* ie/gbr.go:67-73 *)
      mkdef []
        [] (Then A_GBR (PU40 5 10))
  | A_GracefulReleasePeriod => (* ie/graceful-release-period.go:55-82 *)
      mkdef [GType T_GracefulReleasePeriod; GLen 1]
        [] (Leaf LTimer)
  | A_GTPUPathInterfaceType => (* ie/gtp-u-path-interface-type.go:13-43 *)
      mkdef []
        [([T_GTPUPathInterfaceType], Leaf (LUint 1));
         ([T_GTPUPathQoSControlInformation], Via A_GTPUPathQoSControlInformation [T_GTPUPathInterfaceType] A_GTPUPathInterfaceType);
         ([T_GTPUPathQoSReport], Via A_GTPUPathQoSReport [T_GTPUPathInterfaceType] A_GTPUPathInterfaceType)] (Leaf LInvalid)
  | A_GTPUPathQoSControlInformation => (* ie/gtp-u-path-qos-control-information.go:13-19 *)
      mkdef [GType T_GTPUPathQoSControlInformation]
        [] (Leaf LChildren)
  | A_GTPUPathQoSReport => (* ie/gtp-u-path-qos-report.go:13-19 *)
      mkdef [GType T_GTPUPathQoSReport]
        [] (Leaf LChildren)
  | A_HeaderEnrichment => (* ie/header-enrichment.go:28-61 *)
      mkdef []
        [([T_HeaderEnrichment], Leaf (LFields K_HeaderEnrichment));
         ([T_ForwardingParameters], Via A_ForwardingParameters [T_HeaderEnrichment] A_HeaderEnrichment);
         ([T_UpdateForwardingParameters], Via A_UpdateForwardingParameters [T_HeaderEnrichment] A_HeaderEnrichment)] (Leaf LInvalid)
  | A_InactivityDetectionTime => (* ie/inactivity-detection-time.go:13-42 *)
      mkdef []
        [([T_InactivityDetectionTime], Leaf (LUint 4));
         ([T_CreateURR], Via A_CreateURR [T_InactivityDetectionTime] A_InactivityDetectionTime);
         ([T_UpdateURR], Via A_UpdateURR [T_InactivityDetectionTime] A_InactivityDetectionTime)] (Leaf LInvalid)
  | A_IPMulticastAddress => (* ie/ip-multicast-address.go:25-92 *)
      mkdef []
        [([T_IPMulticastAddress], Leaf (LFields K_IPMulticastAddress));
         ([T_CreatePDR], Via A_CreatePDR [T_IPMulticastAddressingInfo] A_IPMulticastAddress);
         ([T_UpdatePDR], Via A_UpdatePDR [T_IPMulticastAddressingInfo] A_IPMulticastAddress);
         ([T_IPMulticastAddressingInfo], Via A_IPMulticastAddressingInfo [T_IPMulticastAddress] A_IPMulticastAddress);
         ([T_JoinIPMulticastInformationWithinUsageReport], Via A_JoinIPMulticastInformationWithinUsageReport [T_IPMulticastAddress] A_IPMulticastAddress);
         ([T_LeaveIPMulticastInformationWithinUsageReport], Via A_LeaveIPMulticastInformationWithinUsageReport [T_IPMulticastAddress] A_IPMulticastAddress)] (Leaf LInvalid)
  | A_IPMulticastAddressingInfo => (* ie/ip-multicast-addressing-info.go:13-42 *)
      mkdef []
        [([T_IPMulticastAddressingInfo], Leaf LChildren);
         ([T_CreatePDR], Via A_CreatePDR [T_IPMulticastAddressingInfo] A_IPMulticastAddressingInfo);
         ([T_UpdatePDR], Via A_UpdatePDR [T_IPMulticastAddressingInfo] A_IPMulticastAddressingInfo)] (Leaf LInvalid)
  | A_IPVersion => (* ie/ip-version.go:20-38 *)
      mkdef []
        [([T_IPVersion], Leaf (LUint 1));
         ([T_UEIPAddressPoolInformation], Via A_UEIPAddressPoolInformation [T_IPVersion] A_IPVersion)] (Leaf LInvalid)
  | A_JoinIPMulticastInformationWithinUsageReport => (* ie/join-ip-multicast-information.go:13-31 *)
      mkdef []
        [([T_JoinIPMulticastInformationWithinUsageReport], Leaf LChildren);
         ([T_UsageReportWithinSessionReportRequest], Via A_UsageReport [T_JoinIPMulticastInformationWithinUsageReport] A_JoinIPMulticastInformationWithinUsageReport)] (Leaf LInvalid)
  | A_LeaveIPMulticastInformationWithinUsageReport => (* ie/leave-ip-multicast-information.go:13-31 *)
      mkdef []
        [([T_LeaveIPMulticastInformationWithinUsageReport], Leaf LChildren);
         ([T_UsageReportWithinSessionReportRequest], Via A_UsageReport [T_LeaveIPMulticastInformationWithinUsageReport] A_LeaveIPMulticastInformationWithinUsageReport)] (Leaf LInvalid)
  | A_LinkedURRID => (* ie/linked-urr-id.go:13-42 *)
      mkdef []
        [([T_LinkedURRID], Leaf (LUint 4));
         ([T_CreateURR], Via A_CreateURR [T_LinkedURRID] A_LinkedURRID);
         ([T_UpdateURR], Via A_UpdateURR [T_LinkedURRID] A_LinkedURRID)] (Leaf LInvalid)
  | A_LoadControlInformation => (* ie/load-control-information.go:13-19 *)
      mkdef [GType T_LoadControlInformation]
        [] (Leaf LChildren)
  | A_MACAddressesDetected => (* ie/mac-address-detected.go:25-72 *)
      mkdef []
        [([T_MACAddressesDetected], Leaf (LFields K_MACAddressesDetected));
         ([T_EthernetTrafficInformation], Via A_EthernetTrafficInformation [T_MACAddressesDetected] A_MACAddressesDetected);
         ([T_EthernetContextInformation], Via A_EthernetContextInformation [T_MACAddressesDetected] A_MACAddressesDetected);
         ([T_UsageReportWithinSessionModificationResponse; T_UsageReportWithinSessionDeletionResponse; T_UsageReportWithinSessionReportRequest], Via A_UsageReport [T_EthernetTrafficInformation] A_MACAddressesDetected)] (Leaf LInvalid)
  | A_MACAddressesRemoved => (* ie/mac-address-removed.go:25-61 *)
      mkdef []
        [([T_MACAddressesRemoved], Leaf (LFields K_MACAddressesRemoved));
         ([T_EthernetTrafficInformation], Via A_EthernetTrafficInformation [T_MACAddressesRemoved] A_MACAddressesRemoved);
         ([T_UsageReportWithinSessionModificationResponse; T_UsageReportWithinSessionDeletionResponse; T_UsageReportWithinSessionReportRequest], Via A_UsageReport [T_EthernetTrafficInformation] A_MACAddressesRemoved)] (Leaf LInvalid)
  | A_MACAddress => (* ie/mac-address.go:25-59 *)
      mkdef []
        [([T_MACAddress], Leaf (LFields K_MACAddress));
         ([T_PDI], Via A_PDI [T_EthernetPacketFilter] A_MACAddress);
         ([T_EthernetPacketFilter], Via A_EthernetPacketFilter [T_MACAddress] A_MACAddress)] (Leaf LInvalid)
  | A_MARID => (* ie/mar-id.go:13-64 *)
      mkdef []
        [([T_MARID], Leaf (LUint 2));
         ([T_CreatePDR], Via A_CreatePDR [T_MARID] A_MARID);
         ([T_CreateMAR], Via A_CreateMAR [T_MARID] A_MARID);
         ([T_RemoveMAR], Via A_RemoveMAR [T_MARID] A_MARID);
         ([T_UpdateMAR], Via A_UpdateMAR [T_MARID] A_MARID)] (Leaf LInvalid)
  | A_MaximumPacketDelay => (* ie/maximum-packet-delay.go:21-65 *)
      mkdef [GLen 4]
        [([T_MaximumPacketDelay], Leaf LMillis32);
         ([T_GTPUPathQoSControlInformation], Via A_GTPUPathQoSControlInformation [T_MaximumPacketDelay] A_MaximumPacketDelay);
         ([T_GTPUPathQoSReport], Via A_GTPUPathQoSReport [T_MaximumPacketDelay] A_MaximumPacketDelay);
         ([T_QoSInformationInGTPUPathQoSReport], Via A_QoSInformationInGTPUPathQoSReport [T_MaximumPacketDelay] A_MaximumPacketDelay)] (Leaf LInvalid)
  | A_MBR => (* ie/mbr.go:22-55 *)
      mkdef [GLen 10]
        [([T_MBR], Leaf LPayload);
         ([T_CreateQER], Via A_CreateQER [T_MBR] A_MBR);
         ([T_UpdateQER], Via A_UpdateQER [T_MBR] A_MBR)] (Leaf LInvalid)
  | A_MBRUL => (* ie/mbr.go:58-64 *)
      mkdef []
        [] (Then A_MBR (PU40 0 5))
  | A_MBRDL => (* ie/mbr.go:67-73 *)
      mkdef []
        [] (Then A_MBR (PU40 5 10))
  | A_MeasurementInformation => (* ie/measurement-information.go:13-42 *)
      mkdef []
        [([T_MeasurementInformation], Leaf (LUint 1));
         ([T_CreateURR], Via A_CreateURR [T_MeasurementInformation] A_MeasurementInformation);
         ([T_UpdateURR], Via A_UpdateURR [T_MeasurementInformation] A_MeasurementInformation)] (Leaf LInvalid)
  | A_MeasurementMethod => (* ie/measurement-method.go:13-53 *)
      mkdef []
        [([T_MeasurementMethod], Leaf (LUint 1));
         ([T_CreateURR], Via A_CreateURR [T_MeasurementMethod] A_MeasurementMethod);
         ([T_UpdateURR], Via A_UpdateURR [T_MeasurementMethod] A_MeasurementMethod);
         ([T_GTPUPathQoSControlInformation], Via A_GTPUPathQoSControlInformation [T_MeasurementMethod] A_MeasurementMethod)] (Leaf LInvalid)
  | A_MeasurementPeriod => (* ie/measurement-period.go:21-65 *)
      mkdef [GLen 4]
        [([T_MeasurementPeriod], Leaf LSecs32);
         ([T_CreateURR], Via A_CreateURR [T_MeasurementPeriod] A_MeasurementPeriod);
         ([T_UpdateURR], Via A_UpdateURR [T_MeasurementPeriod] A_MeasurementPeriod);
         ([T_QoSMonitoringPerQoSFlowControlInformation], Via A_QoSMonitoringPerQoSFlowControlInformation [T_MeasurementPeriod] A_MeasurementPeriod)] (Leaf LInvalid)
  | A_Metric => (* ie/metric.go:13-42 *)
      mkdef []
        [([T_Metric], Leaf (LUint 1));
         ([T_LoadControlInformation], Via A_LoadControlInformation [T_Metric] A_Metric);
         ([T_OverloadControlInformation], Via A_OverloadControlInformation [T_Metric] A_Metric)] (Leaf LInvalid)
  | A_MinimumPacketDelay => (* ie/minimum-packet-delay.go:21-65 *)
      mkdef [GLen 4]
        [([T_MinimumPacketDelay], Leaf LMillis32);
         ([T_GTPUPathQoSControlInformation], Via A_GTPUPathQoSControlInformation [T_MinimumPacketDelay] A_MinimumPacketDelay);
         ([T_GTPUPathQoSReport], Via A_GTPUPathQoSReport [T_MinimumPacketDelay] A_MinimumPacketDelay);
         ([T_QoSInformationInGTPUPathQoSReport], Via A_QoSInformationInGTPUPathQoSReport [T_MinimumPacketDelay] A_MinimumPacketDelay)] (Leaf LInvalid)
  | A_MinimumWaitTime => (* ie/minimum-wait-time.go:21-43 *)
      mkdef [GLen 4]
        [([T_MinimumWaitTime], Leaf LSecs32);
         ([T_QoSMonitoringPerQoSFlowControlInformation], Via A_QoSMonitoringPerQoSFlowControlInformation [T_MinimumWaitTime] A_MinimumWaitTime)] (Leaf LInvalid)
  | A_MonitoringTime => (* ie/monitoring-time.go:18-58 *)
      mkdef []
        [([T_MonitoringTime], Leaf LTime);
         ([T_CreateURR], Via A_CreateURR [T_MonitoringTime] A_MonitoringTime);
         ([T_UpdateURR], Via A_UpdateURR [T_MonitoringTime] A_MonitoringTime);
         ([T_AdditionalMonitoringTime], Via A_AdditionalMonitoringTime [T_MonitoringTime] A_MonitoringTime)] (Leaf LInvalid)
  | A_MPTCPAddressInformation => (* ie/mptcp-address-information.go:31-65 *)
      mkdef []
        [([T_MPTCPAddressInformation], Leaf (LFields K_MPTCPAddressInformation));
         ([T_ATSSSControlParameters], Via A_ATSSSControlParameters [T_MPTCPParameters] A_MPTCPAddressInformation);
         ([T_MPTCPParameters], Via A_MPTCPParameters [T_MPTCPAddressInformation] A_MPTCPAddressInformation)] (Leaf LInvalid)
  | A_MPTCPApplicableIndication => (* ie/mptcp-applicable-indication.go:13-31 *)
      mkdef []
        [([T_MPTCPApplicableIndication], Leaf (LUint 1));
         ([T_CreatePDR], Via A_CreatePDR [T_MPTCPApplicableIndication] A_MPTCPApplicableIndication)] (Leaf LInvalid)
  | A_MPTCPControlInformation => (* ie/mptcp-control-information.go:13-31 *)
      mkdef []
        [([T_MPTCPControlInformation], Leaf (LUint 1));
         ([T_ProvideATSSSControlInformation], Via A_ProvideATSSSControlInformation [T_MPTCPControlInformation] A_MPTCPControlInformation)] (Leaf LInvalid)
  | A_MPTCPParameters => (* ie/mptcp-parameters.go:13-19 *)
      mkdef [GType T_MPTCPParameters]
        [] (Leaf LChildren)
  | A_MTEDTControlInformation => (* ie/mt-edt-control-information.go:13-31 *)
      mkdef []
        [([T_MTEDTControlInformation], Leaf (LUint 1));
         ([T_CreateBAR], Via A_CreateBAR [T_MTEDTControlInformation] A_MTEDTControlInformation)] (Leaf LInvalid)
  | A_Multiplier => (* ie/multiplier.go:22-40 *)
      mkdef []
        [([T_Multiplier], Leaf LPayload);
         ([T_AggregatedURRs], Via A_AggregatedURRs [T_Multiplier] A_Multiplier)] (Leaf LInvalid)
  | A_ValueDigits => (* ie/multiplier.go:43-61 *)
      mkdef []
        [([T_Multiplier], Leaf (LUint 8));
         ([T_AggregatedURRs], Via A_AggregatedURRs [T_Multiplier] A_ValueDigits)] (Leaf LInvalid)
  | A_Exponent => (* ie/multiplier.go:64-86 *)
      mkdef [GLen 12]
        [([T_Multiplier], Leaf LExponent);
         ([T_AggregatedURRs], Via A_AggregatedURRs [T_Multiplier] A_Exponent)] (Leaf LInvalid)
  | A_NetworkInstance => (* ie/network-instance.go:21-106 *)
      mkdef []
        [([T_NetworkInstance], Leaf LString);
         ([T_PDI], ViaOwn A_PDI [T_NetworkInstance; T_RedundantTransmissionParameters] A_NetworkInstance);
         ([T_ForwardingParameters], Via A_ForwardingParameters [T_NetworkInstance] A_NetworkInstance);
         ([T_UpdateForwardingParameters], Via A_UpdateForwardingParameters [T_NetworkInstance] A_NetworkInstance);
         ([T_CreateTrafficEndpoint], Via A_CreateTrafficEndpoint [T_NetworkInstance] A_NetworkInstance);
         ([T_UpdateTrafficEndpoint], Via A_UpdateTrafficEndpoint [T_NetworkInstance] A_NetworkInstance);
         ([T_RedundantTransmissionParameters], Via A_RedundantTransmissionParameters [T_NetworkInstance] A_NetworkInstance);
         ([T_UEIPAddressPoolInformation], Via A_UEIPAddressPoolInformation [T_NetworkInstance] A_NetworkInstance)] (Leaf LInvalid)
  | A_NetworkInstanceFQDN => (* ie/network-instance.go:110-118 *)
      mkdef []
        [] (Then A_NetworkInstance POwnFQDN)
  | A_NetworkInstanceHeuristic => (* ie/network-instance.go:123-134 *)
      mkdef []
        [] (OrElse A_NetworkInstanceFQDN A_NetworkInstance)
  | A_NFInstanceID => (* ie/nf-instance-id.go:17-39 *)
      mkdef [GLen 16]
        [([T_NFInstanceID], Leaf LNFInstanceID);
         ([T_EthernetPacketFilter], Via A_EthernetPacketFilter [T_NFInstanceID] A_NFInstanceID)] (Leaf LInvalid)
  | A_NodeID => (* ie/node-id.go:77-113 *)
      mkdef [GType T_NodeID; GLen 2]
        [] (Leaf LNodeID)
  | A_NodeReportType => (* ie/node-report-type.go:13-19 *)
      mkdef [GType T_NodeReportType]
        [] (Leaf (LUint 1))
  | A_NonTGPPAccessForwardingActionInformation => (* ie/non-3gpp-access-forwarding-action-information.go:13-42 *)
      mkdef []
        [([T_NonTGPPAccessForwardingActionInformation], Leaf LChildren);
         ([T_CreateMAR], Via A_CreateMAR [T_NonTGPPAccessForwardingActionInformation] A_NonTGPPAccessForwardingActionInformation);
         ([T_UpdateMAR], Via A_UpdateMAR [T_NonTGPPAccessForwardingActionInformation] A_NonTGPPAccessForwardingActionInformation)] (Leaf LInvalid)
  | A_NumberOfReports => (* ie/number-of-reports.go:13-42 *)
      mkdef []
        [([T_NumberOfReports], Leaf (LUint 2));
         ([T_CreateURR], Via A_CreateURR [T_NumberOfReports] A_NumberOfReports);
         ([T_UpdateURR], Via A_UpdateURR [T_NumberOfReports] A_NumberOfReports)] (Leaf LInvalid)
  | A_NumberOfUEIPAddresses => (* ie/number-of-ue-ip-addresses.go:25-48 *)
      mkdef []
        [([T_NumberOfUEIPAddresses], Leaf (LFields K_NumberOfUEIPAddresses));
         ([T_UEIPAddressUsageInformation], Via A_UEIPAddressUsageInformation [T_NumberOfUEIPAddresses] A_NumberOfUEIPAddresses)] (Leaf LInvalid)
  | A_NWTTPortNumber => (* ie/nw-tt-port-number.go:13-32 *)
      mkdef []
        [([T_NWTTPortNumber], Leaf (LUint 4));
         ([T_CreatedBridgeInfoForTSC], Via A_CreatedBridgeInfoForTSC [T_NWTTPortNumber] A_NWTTPortNumber)] (Leaf LInvalid)
  | A_OCIFlags => (* ie/oci-flags.go:13-31 *)
      mkdef []
        [([T_OCIFlags], Leaf (LUint 1));
         ([T_OverloadControlInformation], Via A_OverloadControlInformation [T_OCIFlags] A_OCIFlags)] (Leaf LInvalid)
  | A_OffendingIE => (* ie/offending-ie.go:13-23 *)
      mkdef [GType T_OffendingIE]
        [] (Leaf (LUint 2))
  | A_OuterHeaderCreation => (* ie/outer-header-creation.go:25-91 *)
      mkdef []
        [([T_OuterHeaderCreation], Leaf (LFields K_OuterHeaderCreation));
         ([T_ForwardingParameters], Via A_ForwardingParameters [T_OuterHeaderCreation] A_OuterHeaderCreation);
         ([T_UpdateForwardingParameters], Via A_UpdateForwardingParameters [T_OuterHeaderCreation] A_OuterHeaderCreation);
         ([T_DuplicatingParameters], Via A_DuplicatingParameters [T_OuterHeaderCreation] A_OuterHeaderCreation);
         ([T_UpdateDuplicatingParameters], Via A_UpdateDuplicatingParameters [T_OuterHeaderCreation] A_OuterHeaderCreation);
         ([T_RedundantTransmissionParameters], Via A_RedundantTransmissionParameters [T_OuterHeaderCreation] A_OuterHeaderCreation)] (Leaf LInvalid)
  | A_OuterHeaderRemoval => (* ie/outer-header-removal.go:15-51 *)
      mkdef [GLen 1]
        [([T_OuterHeaderRemoval], Leaf LPayload);
         ([T_CreatePDR], Via A_CreatePDR [T_OuterHeaderRemoval] A_OuterHeaderRemoval);
         ([T_UpdatePDR], Via A_UpdatePDR [T_OuterHeaderRemoval] A_OuterHeaderRemoval)] (Leaf LInvalid)
  | A_OuterHeaderRemovalDescription => (* ie/outer-header-removal.go:54-61 *)
      mkdef []
        [] (Then A_OuterHeaderRemoval PIndex0)
  | A_GTPUExtensionHeaderDeletion => (* ie/outer-header-removal.go:64-77 *)
      mkdef []
        [] (Then A_OuterHeaderRemoval PIndex1)
  | A_OverloadControlInformation => (* ie/overload-control-information.go:13-19 *)
      mkdef [GType T_OverloadControlInformation]
        [] (Leaf LChildren)
  | A_PacketDelayThresholds => (* ie/packet-delay-thresholds.go:25-48 *)
      mkdef []
        [([T_PacketDelayThresholds], Leaf (LFields K_PacketDelayThresholds));
         ([T_QoSMonitoringPerQoSFlowControlInformation], Via A_QoSMonitoringPerQoSFlowControlInformation [T_PacketDelayThresholds] A_PacketDelayThresholds)] (Leaf LInvalid)
  | A_PacketRateStatusReport => (* ie/packet-rate-status-report.go:18-25 *)
      mkdef []
        [([T_PacketRateStatusReport; T_PacketRateStatusReportWithinSessionModificationResponse], Leaf LChildren)] (Leaf LInvalid)
  | A_PacketRateStatus => (* ie/packet-rate-status.go:26-71 *)
      mkdef []
        [([T_PacketRateStatus], Leaf (LFields K_PacketRateStatus));
         ([T_CreateQER], Via A_CreateQER [T_PacketRateStatus] A_PacketRateStatus);
         ([T_UpdateQER], Via A_UpdateQER [T_PacketRateStatus] A_PacketRateStatus);
         ([T_PacketRateStatusReport], Via A_PacketRateStatusReport [T_PacketRateStatus] A_PacketRateStatus)] (Leaf LInvalid)
  | A_PacketRate => (* ie/packet-rate.go:33-67 *)
      mkdef []
        [([T_PacketRate], Leaf (LFields K_PacketRate));
         ([T_CreateQER], Via A_CreateQER [T_PacketRate] A_PacketRate);
         ([T_UpdateQER], Via A_UpdateQER [T_PacketRate] A_PacketRate)] (Leaf LInvalid)
  | A_PacketReplicationAndDetectionCarryOnInformation => (* ie/packet-replication-and-detection-carry-on-information.go:13-31 *)
      mkdef []
        [([T_PacketReplicationAndDetectionCarryOnInformation], Leaf (LUint 1));
         ([T_CreatePDR], Via A_CreatePDR [T_PacketReplicationAndDetectionCarryOnInformation] A_PacketReplicationAndDetectionCarryOnInformation)] (Leaf LInvalid)
  | A_PagingPolicyIndicator => (* ie/paging-policy-indicator.go:15-48 *)
      mkdef [GLen 1]
        [([T_PagingPolicyIndicator], Leaf LPPIndicator);
         ([T_CreateQER], Via A_CreateQER [T_PagingPolicyIndicator] A_PagingPolicyIndicator);
         ([T_UpdateQER], Via A_UpdateQER [T_PagingPolicyIndicator] A_PagingPolicyIndicator)] (Leaf LInvalid)
  | A_PDI => (* ie/pdi.go:13-42 *)
      mkdef []
        [([T_PDI], Leaf LChildren);
         ([T_CreatePDR], Via A_CreatePDR [T_PDI] A_PDI);
         ([T_UpdatePDR], Via A_UpdatePDR [T_PDI] A_PDI)] (Leaf LInvalid)
  | A_PDNType => (* ie/pdn-type.go:23-29 *)
      mkdef [GType T_PDNType]
        [] (Leaf (LUint 1))
  | A_PDRID => (* ie/pdr-id.go:13-108 *)
      mkdef []
        [([T_PDRID], Leaf (LUint 2));
         ([T_CreatePDR], Via A_CreatePDR [T_PDRID] A_PDRID);
         ([T_UpdatePDR], Via A_UpdatePDR [T_PDRID] A_PDRID);
         ([T_RemovePDR], Via A_RemovePDR [T_PDRID] A_PDRID);
         ([T_CreatedPDR], Via A_CreatedPDR [T_PDRID] A_PDRID);
         ([T_ApplicationDetectionInformation], Via A_ApplicationDetectionInformation [T_PDRID] A_PDRID);
         ([T_UsageReportWithinSessionReportRequest], Via A_UsageReport [T_ApplicationDetectionInformation] A_PDRID);
         ([T_DownlinkDataReport], Via A_DownlinkDataReport [T_PDRID] A_PDRID);
         ([T_UpdatedPDR], Via A_UpdatedPDR [T_PDRID] A_PDRID)] (Leaf LInvalid)
  | A_PFCPAssociationReleaseRequest => (* ie/pfcp-association-release-request.go:13-19 *)
      mkdef [GType T_PFCPAssociationReleaseRequest]
        [] (Leaf (LUint 1))
  | A_PFCPSessionRetentionInformation => (* ie/pfcp-session-retention-information.go:13-19 *)
      mkdef [GType T_PFCPSessionRetentionInformation]
        [] (Leaf LChildren)
  | A_PFCPASReqFlags => (* ie/pfcpasreq-flags.go:13-19 *)
      mkdef [GType T_PFCPASReqFlags]
        [] (Leaf (LUint 1))
  | A_PFCPASRspFlags => (* ie/pfcpasrsp-flags.go:13-19 *)
      mkdef [GType T_PFCPASRspFlags]
        [] (Leaf (LUint 1))
  | A_PFCPAUReqFlags => (* ie/pfcpaureq-flags.go:13-19 *)
      mkdef [GType T_PFCPAUReqFlags]
        [] (Leaf (LUint 1))
  | A_PFCPSEReqFlags => (* ie/pfcpsereq-flags.go:13-19 *)
      mkdef [GType T_PFCPSEReqFlags]
        [] (Leaf (LUint 1))
  | A_PFCPSMReqFlags => (* ie/pfcpsmreq-flags.go:13-42 *)
      mkdef []
        [([T_PFCPSMReqFlags], Leaf (LUint 1));
         ([T_ForwardingParameters], Via A_ForwardingParameters [T_PFCPSMReqFlags] A_PFCPSMReqFlags);
         ([T_UpdateForwardingParameters], Via A_UpdateForwardingParameters [T_PFCPSMReqFlags] A_PFCPSMReqFlags)] (Leaf LInvalid)
  | A_PFCPSRReqFlags => (* ie/pfcpsrreq-flags.go:13-19 *)
      mkdef [GType T_PFCPSRReqFlags]
        [] (Leaf (LUint 1))
  | A_PFCPSRRspFlags => (* ie/pfcpsrrsp-flags.go:13-19 *)
      mkdef [GType T_PFCPSRRspFlags]
        [] (Leaf (LUint 1))
  | A_PFDContents => (* ie/pfd-contents.go:26-59 *)
      mkdef []
        [([T_PFDContents], Leaf (LFields K_PFDContents));
         ([T_PFDContext], Via A_PFDContext [T_PFDContents] A_PFDContents);
         ([T_ApplicationIDsPFDs], Via A_ApplicationIDsPFDs [T_PFDContext] A_PFDContents)] (Leaf LInvalid)
  | A_PFDContext => (* ie/pfd-context.go:13-31 *)
      mkdef []
        [([T_PFDContext], Leaf LChildren);
         ([T_ApplicationIDsPFDs], Via A_ApplicationIDsPFDs [T_PFDContext] A_PFDContext)] (Leaf LInvalid)
  | A_PMFAddressInformation => (* ie/pmf-address-information.go:26-60 *)
      mkdef []
        [([T_PMFAddressInformation], Leaf (LFields K_PMFAddressInformation));
         ([T_ATSSSControlParameters], Via A_ATSSSControlParameters [T_PMFParameters] A_PMFAddressInformation);
         ([T_PMFParameters], Via A_PMFParameters [T_PMFAddressInformation] A_PMFAddressInformation)] (Leaf LInvalid)
  | A_PMFControlInformation => (* ie/pmf-control-information.go:13-31 *)
      mkdef []
        [([T_PMFControlInformation], Leaf (LUint 1));
         ([T_ProvideATSSSControlInformation], Via A_ProvideATSSSControlInformation [T_PMFControlInformation] A_PMFControlInformation)] (Leaf LInvalid)
  | A_PMFParameters => (* ie/pmf-parameters.go:13-31 *)
      mkdef []
        [([T_PMFParameters], Leaf LChildren);
         ([T_ATSSSControlParameters], Via A_ATSSSControlParameters [T_PMFParameters] A_PMFParameters)] (Leaf LInvalid)
  | A_PortManagementInformationContainer => (* ie/port-management-information-container.go:13-33 *)
      mkdef []
        [([T_PortManagementInformationContainer], Leaf LString);
         ([T_TSCManagementInformationWithinSessionModificationRequest; T_TSCManagementInformationWithinSessionModificationResponse; T_TSCManagementInformationWithinSessionReportRequest], Via A_TSCManagementInformation [T_PortManagementInformationContainer] A_PortManagementInformationContainer)] (Leaf LInvalid)
  | A_Precedence => (* ie/precedence.go:13-42 *)
      mkdef []
        [([T_Precedence], Leaf (LUint 4));
         ([T_CreatePDR], Via A_CreatePDR [T_Precedence] A_Precedence);
         ([T_UpdatePDR], Via A_UpdatePDR [T_Precedence] A_Precedence)] (Leaf LInvalid)
  | A_Priority => (* ie/priority.go:22-97 *)
      mkdef []
        [([T_Priority], Leaf (LUint 1));
         ([T_CreateMAR], Via A_CreateMAR [T_TGPPAccessForwardingActionInformation; T_NonTGPPAccessForwardingActionInformation] A_Priority);
         ([T_UpdateMAR], Via A_UpdateMAR [T_TGPPAccessForwardingActionInformation; T_NonTGPPAccessForwardingActionInformation] A_Priority);
         ([T_TGPPAccessForwardingActionInformation], Via A_TGPPAccessForwardingActionInformation [T_Priority] A_Priority);
         ([T_NonTGPPAccessForwardingActionInformation], Via A_NonTGPPAccessForwardingActionInformation [T_Priority] A_Priority);
         ([T_UpdateTGPPAccessForwardingActionInformation], Via A_UpdateTGPPAccessForwardingActionInformation [T_Priority] A_Priority);
         ([T_UpdateNonTGPPAccessForwardingActionInformation], Via A_UpdateNonTGPPAccessForwardingActionInformation [T_Priority] A_Priority)] (Leaf LInvalid)
  | A_ProvideATSSSControlInformation => (* ie/provide-atsss-control-information.go:13-19 *)
      mkdef [GType T_ProvideATSSSControlInformation]
        [] (Leaf LChildren)
  | A_ProvideRDSConfigurationInformation => (* ie/provide-rds-configuration-information.go:13-19 *)
      mkdef [GType T_ProvideRDSConfigurationInformation]
        [] (Leaf LChildren)
  | A_Proxying => (* ie/proxying.go:13-42 *)
      mkdef []
        [([T_Proxying], Leaf (LUint 1));
         ([T_ForwardingParameters], Via A_ForwardingParameters [T_Proxying] A_Proxying);
         ([T_UpdateForwardingParameters], Via A_UpdateForwardingParameters [T_Proxying] A_Proxying)] (Leaf LInvalid)
  | A_QERControlIndications => (* ie/qer-control-indications.go:13-43 *)
      mkdef []
        [([T_QERControlIndications], Leaf (LUint 1));
         ([T_CreateQER], Via A_CreateQER [T_QERControlIndications] A_QERControlIndications);
         ([T_UpdateQER], Via A_UpdateQER [T_QERControlIndications] A_QERControlIndications)] (Leaf LInvalid)
  | A_QERCorrelationID => (* ie/qer-correlation-id.go:13-42 *)
      mkdef []
        [([T_QERCorrelationID], Leaf (LUint 4));
         ([T_CreateQER], Via A_CreateQER [T_QERCorrelationID] A_QERCorrelationID);
         ([T_UpdateQER], Via A_UpdateQER [T_QERCorrelationID] A_QERCorrelationID)] (Leaf LInvalid)
  | A_QERID => (* ie/qer-id.go:13-86 *)
      mkdef []
        [([T_QERID], Leaf (LUint 4));
         ([T_CreatePDR], Via A_CreatePDR [T_QERID] A_QERID);
         ([T_UpdatePDR], Via A_UpdatePDR [T_QERID] A_QERID);
         ([T_CreateQER], Via A_CreateQER [T_QERID] A_QERID);
         ([T_UpdateQER], Via A_UpdateQER [T_QERID] A_QERID);
         ([T_RemoveQER], Via A_RemoveQER [T_QERID] A_QERID);
         ([T_PacketRateStatusReport], Via A_PacketRateStatusReport [T_QERID] A_QERID)] (Leaf LInvalid)
  | A_QFI => (* ie/qfi.go:15-94 *)
      mkdef []
        [([T_QFI], Leaf (LUint 1));
         ([T_DownlinkDataServiceInformation], Leaf LQFI);
         ([T_CreateQER], Via A_CreateQER [T_QFI] A_QFI);
         ([T_UpdateQER], Via A_UpdateQER [T_QFI] A_QFI);
         ([T_CreateTrafficEndpoint], Via A_CreateTrafficEndpoint [T_QFI] A_QFI);
         ([T_UpdateTrafficEndpoint], Via A_UpdateTrafficEndpoint [T_QFI] A_QFI);
         ([T_QoSMonitoringPerQoSFlowControlInformation], Via A_QoSMonitoringPerQoSFlowControlInformation [T_QFI] A_QFI);
         ([T_QoSMonitoringReport], Via A_QoSMonitoringReport [T_QFI] A_QFI)] (Leaf LInvalid)
  | A_QoSInformationInGTPUPathQoSReport => (* ie/qos-information-in-gtp-u-path-qos-report.go:13-31 *)
      mkdef []
        [([T_QoSInformationInGTPUPathQoSReport], Leaf LChildren);
         ([T_GTPUPathQoSReport], Via A_GTPUPathQoSReport [T_QoSInformationInGTPUPathQoSReport] A_QoSInformationInGTPUPathQoSReport)] (Leaf LInvalid)
  | A_QoSMonitoringMeasurement => (* ie/qos-monitoring-measurement.go:25-48 *)
      mkdef []
        [([T_QoSMonitoringMeasurement], Leaf (LFields K_QoSMonitoringMeasurement));
         ([T_QoSMonitoringReport], Via A_QoSMonitoringReport [T_QoSMonitoringMeasurement] A_QoSMonitoringMeasurement)] (Leaf LInvalid)
  | A_QoSMonitoringPerQoSFlowControlInformation => (* ie/qos-monitoring-per-qos-flow-control-information.go:13-42 *)
      mkdef []
        [([T_QoSMonitoringPerQoSFlowControlInformation], Leaf LChildren);
         ([T_CreateSRR], Via A_CreateSRR [T_QoSMonitoringPerQoSFlowControlInformation] A_QoSMonitoringPerQoSFlowControlInformation);
         ([T_UpdateSRR], Via A_UpdateSRR [T_QoSMonitoringPerQoSFlowControlInformation] A_QoSMonitoringPerQoSFlowControlInformation)] (Leaf LInvalid)
  | A_QoSMonitoringReport => (* ie/qos-monitoring-report.go:13-31 *)
      mkdef []
        [([T_QoSMonitoringReport], Leaf LChildren);
         ([T_SessionReport], Via A_SessionReport [T_QoSMonitoringReport] A_QoSMonitoringReport)] (Leaf LInvalid)
  | A_QoSReportTrigger => (* ie/qos-report-trigger.go:13-43 *)
      mkdef []
        [([T_QoSReportTrigger], Leaf (LUint 1));
         ([T_GTPUPathQoSControlInformation], Via A_GTPUPathQoSControlInformation [T_QoSReportTrigger] A_QoSReportTrigger);
         ([T_GTPUPathQoSReport], Via A_GTPUPathQoSReport [T_QoSReportTrigger] A_QoSReportTrigger)] (Leaf LInvalid)
  | A_QueryPacketRateStatus => (* ie/query-packet-rate-status.go:13-19 *)
      mkdef [GType T_QueryPacketRateStatusWithinSessionModificationRequest]
        [] (Leaf LChildren)
  | A_QueryURRReference => (* ie/query-urr-reference.go:13-32 *)
      mkdef []
        [([T_QueryURRReference], Leaf (LUint 4));
         ([T_UsageReportWithinSessionModificationResponse; T_UsageReportWithinSessionReportRequest], Via A_UsageReport [T_QueryURRReference] A_QueryURRReference)] (Leaf LInvalid)
  | A_QueryURR => (* ie/query-urr.go:13-19 *)
      mkdef [GType T_QueryURR]
        [] (Leaf LChildren)
  | A_QuotaHoldingTime => (* ie/quota-holding-time.go:21-54 *)
      mkdef [GLen 4]
        [([T_QuotaHoldingTime], Leaf LSecs32);
         ([T_CreateURR], Via A_CreateURR [T_QuotaHoldingTime] A_QuotaHoldingTime);
         ([T_UpdateURR], Via A_UpdateURR [T_QuotaHoldingTime] A_QuotaHoldingTime)] (Leaf LInvalid)
  | A_QuotaValidityTime => (* ie/quota-validity-time.go:19-53 *)
      mkdef [GLen 4]
        [([T_QuotaValidityTime], Leaf LSecs32);
         ([T_CreateURR], Via A_CreateURR [T_QuotaValidityTime] A_QuotaValidityTime);
         ([T_UpdateURR], Via A_UpdateURR [T_QuotaValidityTime] A_QuotaValidityTime)] (Leaf LInvalid)
  | A_RDSConfigurationInformation => (* ie/rds-configuration-information.go:13-31 *)
      mkdef []
        [([T_RDSConfigurationInformation], Leaf (LUint 1));
         ([T_ProvideRDSConfigurationInformation], Via A_ProvideRDSConfigurationInformation [T_RDSConfigurationInformation] A_RDSConfigurationInformation)] (Leaf LInvalid)
  | A_RecoveryTimeStamp => (* ie/recovery-time-stamp.go:18-24 *)
      mkdef [GType T_RecoveryTimeStamp]
        [] (Leaf LTime)
  | A_RedirectInformation => (* ie/redirect-information.go:25-58 *)
      mkdef []
        [([T_RedirectInformation], Leaf (LFields K_RedirectInformation));
         ([T_ForwardingParameters], Via A_ForwardingParameters [T_RedirectInformation] A_RedirectInformation);
         ([T_UpdateForwardingParameters], Via A_UpdateForwardingParameters [T_RedirectInformation] A_RedirectInformation)] (Leaf LInvalid)
  | A_RedundantTransmissionForwardingParameters => (* ie/redundant-transmission-forwarding-parameters.go:13-31 *)
      mkdef []
        [([T_RedundantTransmissionForwardingParameters], Leaf LChildren);
         ([T_CreateFAR], Via A_CreateFAR [T_RedundantTransmissionForwardingParameters] A_RedundantTransmissionForwardingParameters)] (Leaf LInvalid)
  | A_RedundantTransmissionParameters => (* ie/redundant-transmission-parameters.go:23-96 *)
      mkdef []
        [([T_RedundantTransmissionParameters], Leaf LChildren);
         ([T_CreatePDR], Via A_CreatePDR [T_PDI] A_RedundantTransmissionParameters);
         ([T_PDI], Via A_PDI [T_RedundantTransmissionParameters] A_RedundantTransmissionParameters);
         ([T_CreateFAR], Via A_CreateFAR [T_RedundantTransmissionParameters] A_RedundantTransmissionParameters);
         ([T_UpdateFAR], Via A_UpdateFAR [T_RedundantTransmissionParameters] A_RedundantTransmissionParameters);
         ([T_CreateTrafficEndpoint], Via A_CreateTrafficEndpoint [T_RedundantTransmissionParameters] A_RedundantTransmissionParameters);
         ([T_UpdateTrafficEndpoint], Via A_UpdateTrafficEndpoint [T_RedundantTransmissionParameters] A_RedundantTransmissionParameters)] (Leaf LInvalid)
  | A_RemoteGTPUPeer => (* ie/remote-gtp-u-peer.go:25-81 *)
      mkdef []
        [([T_RemoteGTPUPeer], Leaf (LFields K_RemoteGTPUPeer));
         ([T_UserPlanePathFailureReport], Via A_UserPlanePathFailureReport [T_RemoteGTPUPeer] A_RemoteGTPUPeer);
         ([T_UserPlanePathRecoveryReport], Via A_UserPlanePathRecoveryReport [T_RemoteGTPUPeer] A_RemoteGTPUPeer);
         ([T_GTPUPathQoSControlInformation], Via A_GTPUPathQoSControlInformation [T_RemoteGTPUPeer] A_RemoteGTPUPeer);
         ([T_GTPUPathQoSReport], Via A_GTPUPathQoSReport [T_RemoteGTPUPeer] A_RemoteGTPUPeer)] (Leaf LInvalid)
  | A_RemoveBAR => (* ie/remove-bar.go:13-19 *)
      mkdef [GType T_RemoveBAR]
        [] (Leaf LChildren)
  | A_RemoveFAR => (* ie/remove-far.go:13-19 *)
      mkdef [GType T_RemoveFAR]
        [] (Leaf LChildren)
  | A_RemoveMAR => (* ie/remove-mar.go:13-19 *)
      mkdef [GType T_RemoveMAR]
        [] (Leaf LChildren)
  | A_RemovePDR => (* ie/remove-pdr.go:13-19 *)
      mkdef [GType T_RemovePDR]
        [] (Leaf LChildren)
  | A_RemoveQER => (* ie/remove-qer.go:13-19 *)
      mkdef [GType T_RemoveQER]
        [] (Leaf LChildren)
  | A_RemoveSRR => (* ie/remove-srr.go:13-19 *)
      mkdef [GType T_RemoveSRR]
        [] (Leaf LChildren)
  | A_RemoveTrafficEndpoint => (* ie/remove-traffic-endpoint.go:13-19 *)
      mkdef [GType T_RemoveTrafficEndpoint]
        [] (Leaf LChildren)
  | A_RemoveURR => (* ie/remove-urr.go:13-19 *)
      mkdef [GType T_RemoveURR]
        [] (Leaf LChildren)
  | A_ReportType => (* ie/report-type.go:13-19 *)
      mkdef [GType T_ReportType]
        [] (Leaf (LUint 1))
  | A_ReportingFrequency => (* ie/reporting-frequency.go:13-32 *)
      mkdef []
        [([T_ReportingFrequency], Leaf (LUint 1));
         ([T_QoSMonitoringPerQoSFlowControlInformation], Via A_QoSMonitoringPerQoSFlowControlInformation [T_ReportingFrequency] A_ReportingFrequency)] (Leaf LInvalid)
  | A_ReportingTriggers => (* ie/reporting-triggers.go:17-50 *)
      mkdef [GLen 2]
        [([T_ReportingTriggers], Leaf LPayload);
         ([T_CreateURR], Via A_CreateURR [T_ReportingTriggers] A_ReportingTriggers);
         ([T_UpdateURR], Via A_UpdateURR [T_ReportingTriggers] A_ReportingTriggers)] (Leaf LInvalid)
  | A_RequestedAccessAvailabilityInformation => (* ie/requested-access-availability-information.go:13-32 *)
      mkdef []
        [([T_RequestedAccessAvailabilityInformation], Leaf (LUint 1));
         ([T_AccessAvailabilityControlInformation], Via A_AccessAvailabilityControlInformation [T_RequestedAccessAvailabilityInformation] A_RequestedAccessAvailabilityInformation)] (Leaf LInvalid)
  | A_RequestedClockDriftInformation => (* ie/requested-clock-drift-information.go:13-32 *)
      mkdef []
        [([T_RequestedClockDriftInformation], Leaf (LUint 1));
         ([T_ClockDriftControlInformation], Via A_ClockDriftControlInformation [T_RequestedClockDriftInformation] A_RequestedClockDriftInformation)] (Leaf LInvalid)
  | A_RequestedQoSMonitoring => (* ie/requested-qos-monitoring.go:13-32 *)
      mkdef []
        [([T_RequestedQoSMonitoring], Leaf (LUint 1));
         ([T_QoSMonitoringPerQoSFlowControlInformation], Via A_QoSMonitoringPerQoSFlowControlInformation [T_RequestedQoSMonitoring] A_RequestedQoSMonitoring)] (Leaf LInvalid)
  | A_RQI => (* ie/rqi.go:13-42 *)
      mkdef []
        [([T_RQI], Leaf (LUint 1));
         ([T_CreateQER], Via A_CreateQER [T_RQI] A_RQI);
         ([T_UpdateQER], Via A_UpdateQER [T_RQI] A_RQI)] (Leaf LInvalid)
  | A_SNSSAI => (* ie/s-nssai.go:22-44 *)
      mkdef [GLen 4]
        [([T_SNSSAI], Leaf LSNSSAI);
         ([T_UEIPAddressPoolInformation], Via A_UEIPAddressPoolInformation [T_SNSSAI] A_SNSSAI)] (Leaf LInvalid)
  | A_SST => (* ie/s-nssai.go:47-54 *)
      mkdef []
        [] (Then A_SNSSAI PIndex0)
  | A_SD => (* ie/s-nssai.go:57-64 *)
      mkdef []
        [] (Then A_SNSSAI PSD)
  | A_STAG => (* ie/s-tag.go:25-82 *)
      mkdef []
        [([T_STAG], Leaf (LFields K_STAG));
         ([T_PDI], Via A_PDI [T_EthernetPacketFilter] A_STAG);
         ([T_EthernetPacketFilter], Via A_EthernetPacketFilter [T_STAG] A_STAG);
         ([T_MACAddressesDetected], Then A_MACAddressesDetected PSTag);
         ([T_MACAddressesRemoved], Then A_MACAddressesRemoved PSTag);
         ([T_EthernetContextInformation], Via A_EthernetContextInformation [T_MACAddressesDetected] A_STAG)] (Leaf LInvalid)
  | A_SDFFilter => (* ie/sdf-filter.go:26-71 *)
      mkdef []
        [([T_SDFFilter], Leaf (LFields K_SDFFilter));
         ([T_CreatePDR], Via A_CreatePDR [T_PDI] A_SDFFilter);
         ([T_PDI], Via A_PDI [T_SDFFilter] A_SDFFilter);
         ([T_EthernetPacketFilter], Via A_EthernetPacketFilter [T_SDFFilter] A_SDFFilter)] (Leaf LInvalid)
  | A_SequenceNumber => (* ie/sequence-number.go:13-43 *)
      mkdef []
        [([T_SequenceNumber], Leaf (LUint 4));
         ([T_LoadControlInformation], Via A_LoadControlInformation [T_SequenceNumber] A_SequenceNumber);
         ([T_OverloadControlInformation], Via A_OverloadControlInformation [T_SequenceNumber] A_SequenceNumber)] (Leaf LInvalid)
  | A_SessionReport => (* ie/session-report.go:13-20 *)
      mkdef []
        [([T_SessionReport], Leaf LChildren)] (Leaf LInvalid)
  | A_SMFSetID => (* ie/smf-set-id.go:13-19 *)
      mkdef [GType T_SMFSetID]
        [] (Leaf LFQDN)
  | A_SourceInterface => (* ie/source-interface.go:22-62 *)
      mkdef []
        [([T_SourceInterface], Leaf (LUint 1));
         ([T_CreatePDR], Via A_CreatePDR [T_PDI] A_SourceInterface);
         ([T_UpdatePDR], Via A_UpdatePDR [T_PDI] A_SourceInterface);
         ([T_PDI], Via A_PDI [T_SourceInterface] A_SourceInterface)] (Leaf LInvalid)
  | A_SourceIPAddress => (* ie/source-ip-address.go:25-81 *)
      mkdef []
        [([T_SourceIPAddress], Leaf (LFields K_SourceIPAddress));
         ([T_CreatePDR], Via A_CreatePDR [T_IPMulticastAddressingInfo] A_SourceIPAddress);
         ([T_IPMulticastAddressingInfo], Via A_IPMulticastAddressingInfo [T_SourceIPAddress] A_SourceIPAddress);
         ([T_JoinIPMulticastInformationWithinUsageReport], Via A_JoinIPMulticastInformationWithinUsageReport [T_SourceIPAddress] A_SourceIPAddress);
         ([T_LeaveIPMulticastInformationWithinUsageReport], Via A_LeaveIPMulticastInformationWithinUsageReport [T_SourceIPAddress] A_SourceIPAddress)] (Leaf LInvalid)
  | A_SRRID => (* ie/srr-id.go:13-68 *)
      mkdef []
        [([T_SRRID], Leaf (LUint 1));
         ([T_RemoveSRR], Via A_RemoveSRR [T_SRRID] A_SRRID);
         ([T_CreateSRR], Via A_CreateSRR [T_SRRID] A_SRRID);
         ([T_UpdateSRR], Via A_UpdateSRR [T_SRRID] A_SRRID);
         ([T_SessionReport], Via A_SessionReport [T_SRRID] A_SRRID)] (Leaf LInvalid)
  | A_StartTime => (* ie/start-time.go:18-60 *)
      mkdef []
        [([T_StartTime], Leaf LTime);
         ([T_UsageReportWithinSessionModificationResponse; T_UsageReportWithinSessionDeletionResponse; T_UsageReportWithinSessionReportRequest], Via A_UsageReport [T_StartTime] A_StartTime);
         ([T_GTPUPathQoSReport], Via A_GTPUPathQoSReport [T_StartTime] A_StartTime);
         ([T_QoSMonitoringReport], Via A_QoSMonitoringReport [T_StartTime] A_StartTime)] (Leaf LInvalid)
  | A_SteeringFunctionality => (* ie/steering-functionality.go:19-48 *)
      mkdef []
        [([T_SteeringFunctionality], Leaf (LUint 1));
         ([T_CreateMAR], Via A_CreateMAR [T_SteeringFunctionality] A_SteeringFunctionality);
         ([T_UpdateMAR], Via A_UpdateMAR [T_SteeringFunctionality] A_SteeringFunctionality)] (Leaf LInvalid)
  | A_SteeringMode => (* ie/steering-mode.go:21-50 *)
      mkdef []
        [([T_SteeringMode], Leaf (LUint 1));
         ([T_CreateMAR], Via A_CreateMAR [T_SteeringMode] A_SteeringMode);
         ([T_UpdateMAR], Via A_UpdateMAR [T_SteeringMode] A_SteeringMode)] (Leaf LInvalid)
  | A_SubsequentEventQuota => (* ie/subsequent-event-quota.go:13-53 *)
      mkdef []
        [([T_SubsequentEventQuota], Leaf (LUint 4));
         ([T_CreateURR], Via A_CreateURR [T_SubsequentEventQuota] A_SubsequentEventQuota);
         ([T_UpdateURR], Via A_UpdateURR [T_SubsequentEventQuota] A_SubsequentEventQuota);
         ([T_AdditionalMonitoringTime], Via A_AdditionalMonitoringTime [T_SubsequentEventQuota] A_SubsequentEventQuota)] (Leaf LInvalid)
  | A_SubsequentEventThreshold => (* ie/subsequent-event-threshold.go:13-53 *)
      mkdef []
        [([T_SubsequentEventThreshold], Leaf (LUint 4));
         ([T_CreateURR], Via A_CreateURR [T_SubsequentEventThreshold] A_SubsequentEventThreshold);
         ([T_UpdateURR], Via A_UpdateURR [T_SubsequentEventThreshold] A_SubsequentEventThreshold);
         ([T_AdditionalMonitoringTime], Via A_AdditionalMonitoringTime [T_SubsequentEventThreshold] A_SubsequentEventThreshold)] (Leaf LInvalid)
  | A_SubsequentTimeQuota => (* ie/subsequent-time-quota.go:20-60 *)
      mkdef []
        [([T_SubsequentTimeQuota], Leaf LSecs32);
         ([T_CreateURR], Via A_CreateURR [T_SubsequentTimeQuota] A_SubsequentTimeQuota);
         ([T_UpdateURR], Via A_UpdateURR [T_SubsequentTimeQuota] A_SubsequentTimeQuota);
         ([T_AdditionalMonitoringTime], Via A_AdditionalMonitoringTime [T_SubsequentTimeQuota] A_SubsequentTimeQuota)] (Leaf LInvalid)
  | A_SubsequentTimeThreshold => (* ie/subsequent-time-threshold.go:19-64 *)
      mkdef [GLen 4]
        [([T_SubsequentTimeThreshold], Leaf LSecs32);
         ([T_CreateURR], Via A_CreateURR [T_SubsequentTimeThreshold] A_SubsequentTimeThreshold);
         ([T_UpdateURR], Via A_UpdateURR [T_SubsequentTimeThreshold] A_SubsequentTimeThreshold);
         ([T_AdditionalMonitoringTime], Via A_AdditionalMonitoringTime [T_SubsequentTimeThreshold] A_SubsequentTimeThreshold)] (Leaf LInvalid)
  | A_SubsequentVolumeQuota => (* ie/subsequent-volume-quota.go:25-70 *)
      mkdef []
        [([T_SubsequentVolumeQuota], Leaf (LFields K_SubsequentVolumeQuota));
         ([T_CreateURR], Via A_CreateURR [T_SubsequentVolumeQuota] A_SubsequentVolumeQuota);
         ([T_UpdateURR], Via A_UpdateURR [T_SubsequentVolumeQuota] A_SubsequentVolumeQuota);
         ([T_AdditionalMonitoringTime], Via A_AdditionalMonitoringTime [T_SubsequentVolumeQuota] A_SubsequentVolumeQuota)] (Leaf LInvalid)
  | A_SubsequentVolumeThreshold => (* ie/subsequent-volume-threshold.go:25-70 *)
      mkdef []
        [([T_SubsequentVolumeThreshold], Leaf (LFields K_SubsequentVolumeThreshold));
         ([T_CreateURR], Via A_CreateURR [T_SubsequentVolumeThreshold] A_SubsequentVolumeThreshold);
         ([T_UpdateURR], Via A_UpdateURR [T_SubsequentVolumeThreshold] A_SubsequentVolumeThreshold);
         ([T_AdditionalMonitoringTime], Via A_AdditionalMonitoringTime [T_SubsequentVolumeThreshold] A_SubsequentVolumeThreshold)] (Leaf LInvalid)
  | A_SuggestedBufferingPacketsCount => (* ie/suggested-buffering-packets-count.go:13-43 *)
      mkdef []
        [([T_SuggestedBufferingPacketsCount], Leaf (LUint 1));
         ([T_CreateBAR], Via A_CreateBAR [T_SuggestedBufferingPacketsCount] A_SuggestedBufferingPacketsCount);
         ([T_UpdateBARWithinSessionReportResponse; T_UpdateBARWithinSessionModificationRequest], Via A_UpdateBAR [T_SuggestedBufferingPacketsCount] A_SuggestedBufferingPacketsCount)] (Leaf LInvalid)
  | A_TGPPAccessForwardingActionInformation => (* ie/tgpp-access-forwarding-action-information.go:13-42 *)
      mkdef []
        [([T_TGPPAccessForwardingActionInformation], Leaf LChildren);
         ([T_CreateMAR], Via A_CreateMAR [T_TGPPAccessForwardingActionInformation] A_TGPPAccessForwardingActionInformation);
         ([T_UpdateMAR], Via A_UpdateMAR [T_TGPPAccessForwardingActionInformation] A_TGPPAccessForwardingActionInformation)] (Leaf LInvalid)
  | A_TGPPInterfaceType => (* ie/tgpp-interface-type.go:40-73 *)
      mkdef [GLen 1]
        [([T_TGPPInterfaceType], Leaf LTGPPInterface);
         ([T_ForwardingParameters], Via A_ForwardingParameters [T_TGPPInterfaceType] A_TGPPInterfaceType);
         ([T_UpdateForwardingParameters], Via A_UpdateForwardingParameters [T_TGPPInterfaceType] A_TGPPInterfaceType)] (Leaf LInvalid)
  | A_TimeOfFirstPacket => (* ie/time-of-first-packet.go:18-38 *)
      mkdef []
        [([T_TimeOfFirstPacket], Leaf LTime);
         ([T_UsageReportWithinSessionModificationResponse; T_UsageReportWithinSessionDeletionResponse; T_UsageReportWithinSessionReportRequest], Via A_UsageReport [T_TimeOfFirstPacket] A_TimeOfFirstPacket)] (Leaf LInvalid)
  | A_TimeOfLastPacket => (* ie/time-of-last-packet.go:18-38 *)
      mkdef []
        [([T_TimeOfLastPacket], Leaf LTime);
         ([T_UsageReportWithinSessionModificationResponse; T_UsageReportWithinSessionDeletionResponse; T_UsageReportWithinSessionReportRequest], Via A_UsageReport [T_TimeOfLastPacket] A_TimeOfLastPacket)] (Leaf LInvalid)
  | A_TimeOffsetMeasurement => (* ie/time-offset-measurement.go:19-30 *)
      mkdef [GLen 8]
        [([T_TimeOffsetMeasurement], Leaf LNanos64)] (Leaf LInvalid)
  | A_TimeOffsetThreshold => (* ie/time-offset-threshold.go:19-54 *)
      mkdef [GLen 8]
        [([T_TimeOffsetThreshold], Leaf LNanos64);
         ([T_ClockDriftControlInformation], Via A_ClockDriftControlInformation [T_TimeOffsetThreshold] A_TimeOffsetThreshold);
         ([T_ClockDriftReport], Via A_ClockDriftReport [T_TimeOffsetThreshold] A_TimeOffsetThreshold)] (Leaf LInvalid)
  | A_TimeQuotaMechanism => (* ie/time-quota-mechanism.go:28-57 *)
      mkdef []
        [([T_TimeQuotaMechanism], Leaf LPayload);
         ([T_CreateURR], Via A_CreateURR [T_TimeQuotaMechanism] A_TimeQuotaMechanism);
         ([T_UpdateURR], Via A_UpdateURR [T_TimeQuotaMechanism] A_TimeQuotaMechanism)] (Leaf LInvalid)
  | A_TimeQuota => (* ie/time-quota.go:21-54 *)
      mkdef [GLen 4]
        [([T_TimeQuota], Leaf LSecs32);
         ([T_CreateURR], Via A_CreateURR [T_TimeQuota] A_TimeQuota);
         ([T_UpdateURR], Via A_UpdateURR [T_TimeQuota] A_TimeQuota)] (Leaf LInvalid)
  | A_TimeThreshold => (* ie/time-threshold.go:19-53 *)
      mkdef [GLen 4]
        [([T_TimeThreshold], Leaf LSecs32);
         ([T_CreateURR], Via A_CreateURR [T_TimeThreshold] A_TimeThreshold);
         ([T_UpdateURR], Via A_UpdateURR [T_TimeThreshold] A_TimeThreshold)] (Leaf LInvalid)
  | A_Timer => (* ie/timer.go:55-105 *)
      mkdef [GLen 1]
        [([T_Timer], Leaf LTimer);
         ([T_OverloadControlInformation], Via A_OverloadControlInformation [T_Timer] A_Timer);
         ([T_GTPUPathQoSControlInformation], Via A_GTPUPathQoSControlInformation [T_Timer] A_Timer)] (Leaf LInvalid)
  | A_TraceInformation => (* ie/trace-information.go:27-39 *)
      mkdef []
        [([T_TraceInformation], Leaf (LFields K_TraceInformation))] (Leaf LInvalid)
  | A_TrafficEndpointID => (* ie/traffic-endpoint-id.go:13-108 *)
      mkdef []
        [([T_TrafficEndpointID], Leaf (LUint 1));
         ([T_CreatePDR], Via A_CreatePDR [T_PDI] A_TrafficEndpointID);
         ([T_PDI], Via A_PDI [T_TrafficEndpointID] A_TrafficEndpointID);
         ([T_ForwardingParameters], Via A_ForwardingParameters [T_TrafficEndpointID] A_TrafficEndpointID);
         ([T_UpdateForwardingParameters], Via A_UpdateForwardingParameters [T_TrafficEndpointID] A_TrafficEndpointID);
         ([T_CreateTrafficEndpoint], Via A_CreateTrafficEndpoint [T_TrafficEndpointID] A_TrafficEndpointID);
         ([T_CreatedTrafficEndpoint], Via A_CreatedTrafficEndpoint [T_TrafficEndpointID] A_TrafficEndpointID);
         ([T_UpdateTrafficEndpoint], Via A_UpdateTrafficEndpoint [T_TrafficEndpointID] A_TrafficEndpointID);
         ([T_RemoveTrafficEndpoint], Via A_RemoveTrafficEndpoint [T_TrafficEndpointID] A_TrafficEndpointID)] (Leaf LInvalid)
  | A_TransportDelayReporting => (* ie/transport-delay-reporting.go:13-42 *)
      mkdef []
        [([T_TransportDelayReporting], Leaf LChildren);
         ([T_CreatePDR], Via A_CreatePDR [T_TransportDelayReporting] A_TransportDelayReporting);
         ([T_UpdatePDR], Via A_UpdatePDR [T_TransportDelayReporting] A_TransportDelayReporting)] (Leaf LInvalid)
  | A_TransportLevelMarking => (* ie/transport-level-marking.go:13-98 *)
      mkdef []
        [([T_TransportLevelMarking], Leaf (LUint 2));
         ([T_ForwardingParameters], Via A_ForwardingParameters [T_TransportLevelMarking] A_TransportLevelMarking);
         ([T_UpdateForwardingParameters], Via A_UpdateForwardingParameters [T_TransportLevelMarking] A_TransportLevelMarking);
         ([T_DuplicatingParameters], Via A_DuplicatingParameters [T_TransportLevelMarking] A_TransportLevelMarking);
         ([T_UpdateDuplicatingParameters], Via A_UpdateDuplicatingParameters [T_TransportLevelMarking] A_TransportLevelMarking);
         ([T_GTPUPathQoSControlInformation], Via A_GTPUPathQoSControlInformation [T_TransportLevelMarking] A_TransportLevelMarking);
         ([T_GTPUPathQoSReport], Via A_GTPUPathQoSReport [T_TransportLevelMarking] A_TransportLevelMarking);
         ([T_QoSInformationInGTPUPathQoSReport], Via A_QoSInformationInGTPUPathQoSReport [T_TransportLevelMarking] A_TransportLevelMarking)] (Leaf LInvalid)
  | A_TSCManagementInformation => (* ie/tsc-management-information.go:28-38 *)
      mkdef []
        [([T_TSCManagementInformationWithinSessionModificationRequest; T_TSCManagementInformationWithinSessionModificationResponse; T_TSCManagementInformationWithinSessionReportRequest], Leaf LChildren)] (Leaf LInvalid)
  | A_PortManagementInformationForTSC => (* ie/tsc-management-information.go:61-71 *)
      mkdef []
        [([T_PortManagementInformationForTSCWithinSessionModificationRequest; T_PortManagementInformationForTSCWithinSessionModificationResponse; T_PortManagementInformationForTSCWithinSessionReportRequest], Leaf LChildren)] (Leaf LInvalid)
  | A_TSNBridgeID => (* ie/tsn-bridge-id.go:35-66 *)
      mkdef [GLen 1]
        [([T_TSNBridgeID], Leaf LTSNBridgeID);
         ([T_CreatedBridgeInfoForTSC], Via A_CreatedBridgeInfoForTSC [T_TSNBridgeID] A_TSNBridgeID)] (Leaf LInvalid)
  | A_TSNTimeDomainNumber => (* ie/tsn-time-domain-number.go:13-44 *)
      mkdef []
        [([T_TSNTimeDomainNumber], Leaf (LUint 1));
         ([T_ClockDriftControlInformation], Via A_ClockDriftControlInformation [T_TSNTimeDomainNumber] A_TSNTimeDomainNumber);
         ([T_ClockDriftReport], Via A_ClockDriftReport [T_TSNTimeDomainNumber] A_TSNTimeDomainNumber)] (Leaf LInvalid)
  | A_UEIPAddressPoolIdentity => (* ie/ue-ip-address-pool-identity.go:24-57 *)
      mkdef [GLen 1]
        [([T_UEIPAddressPoolIdentity], Leaf LPayload);
         ([T_CreatePDR], Via A_CreatePDR [T_UEIPAddressPoolIdentity] A_UEIPAddressPoolIdentity);
         ([T_UEIPAddressPoolInformation], Via A_UEIPAddressPoolInformation [T_UEIPAddressPoolIdentity] A_UEIPAddressPoolIdentity)] (Leaf LInvalid)
  | A_UEIPAddressPoolIdentityString => (* ie/ue-ip-address-pool-identity.go:60-76 *)
      mkdef []
        [] (Then A_UEIPAddressPoolIdentity PPoolID)
  | A_UEIPAddressPoolInformation => (* ie/ue-ip-address-pool-information.go:13-19 *)
      mkdef [GType T_UEIPAddressPoolInformation]
        [] (Leaf LChildren)
  | A_UEIPAddressUsageInformation => (* ie/ue-ip-address-usage-information.go:13-20 *)
      mkdef []
        [([T_UEIPAddressUsageInformation], Leaf LChildren)] (Leaf LInvalid)
  | A_UEIPAddress => (* ie/ue-ip-address.go:24-113 *)
      mkdef []
        [([T_UEIPAddress], Leaf (LFields K_UEIPAddress));
         ([T_CreatePDR], Via A_CreatePDR [T_PDI] A_UEIPAddress);
         ([T_PDI], Via A_PDI [T_UEIPAddress] A_UEIPAddress);
         ([T_CreatedPDR], Via A_CreatedPDR [T_UEIPAddress] A_UEIPAddress);
         ([T_UsageReportWithinSessionReportRequest], Via A_UsageReport [T_UEIPAddress] A_UEIPAddress);
         ([T_CreateTrafficEndpoint], Via A_CreateTrafficEndpoint [T_UEIPAddress] A_UEIPAddress);
         ([T_CreatedTrafficEndpoint], Via A_CreatedTrafficEndpoint [T_UEIPAddress] A_UEIPAddress);
         ([T_UpdateTrafficEndpoint], Via A_UpdateTrafficEndpoint [T_UEIPAddress] A_UEIPAddress)] (Leaf LInvalid)
  | A_UELinkSpecificIPAddress => (* ie/ue-link-specific-ip-address.go:25-59 *)
      mkdef []
        [([T_UELinkSpecificIPAddress], Leaf (LFields K_UELinkSpecificIPAddress));
         ([T_ATSSSControlParameters], Via A_ATSSSControlParameters [T_MPTCPParameters] A_UELinkSpecificIPAddress);
         ([T_MPTCPParameters], Via A_MPTCPParameters [T_UELinkSpecificIPAddress] A_UELinkSpecificIPAddress)] (Leaf LInvalid)
  | A_UPFunctionFeatures => (* ie/up-function-features.go:30-36 *)
      mkdef [GType T_UPFunctionFeatures]
        [] (Leaf LPayload)
  | A_UpdateTGPPAccessForwardingActionInformation => (* ie/update-3gpp-access-forwarding-action-information.go:13-31 *)
      mkdef []
        [([T_UpdateTGPPAccessForwardingActionInformation], Leaf LChildren);
         ([T_UpdateMAR], Via A_UpdateMAR [T_UpdateTGPPAccessForwardingActionInformation] A_UpdateTGPPAccessForwardingActionInformation)] (Leaf LInvalid)
  | A_UpdateBAR => (* ie/update-bar.go:23-32 *)
      mkdef []
        [([T_UpdateBARWithinSessionModificationRequest; T_UpdateBARWithinSessionReportResponse], Leaf LChildren)] (Leaf LInvalid)
  | A_UpdateDuplicatingParameters => (* ie/update-duplicating-parameters.go:13-31 *)
      mkdef []
        [([T_UpdateDuplicatingParameters], Leaf LChildren);
         ([T_UpdateFAR], Via A_UpdateFAR [T_UpdateDuplicatingParameters] A_UpdateDuplicatingParameters)] (Leaf LInvalid)
  | A_UpdateFAR => (* ie/update-far.go:13-19 *)
      mkdef [GType T_UpdateFAR]
        [] (Leaf LChildren)
  | A_UpdateForwardingParameters => (* ie/update-forwarding-parameters.go:13-31 *)
      mkdef []
        [([T_UpdateForwardingParameters], Leaf LChildren);
         ([T_UpdateFAR], Via A_UpdateFAR [T_UpdateForwardingParameters] A_UpdateForwardingParameters)] (Leaf LInvalid)
  | A_UpdateMAR => (* ie/update-mar.go:13-19 *)
      mkdef [GType T_UpdateMAR]
        [] (Leaf LChildren)
  | A_UpdateNonTGPPAccessForwardingActionInformation => (* ie/update-non-3gpp-access-forwarding-action-information.go:13-31 *)
      mkdef []
        [([T_UpdateNonTGPPAccessForwardingActionInformation], Leaf LChildren);
         ([T_UpdateMAR], Via A_UpdateMAR [T_UpdateNonTGPPAccessForwardingActionInformation] A_UpdateNonTGPPAccessForwardingActionInformation)] (Leaf LInvalid)
  | A_UpdatePDR => (* ie/update-pdr.go:13-19 *)
      mkdef [GType T_UpdatePDR]
        [] (Leaf LChildren)
  | A_UpdateQER => (* ie/update-qer.go:13-19 *)
      mkdef [GType T_UpdateQER]
        [] (Leaf LChildren)
  | A_UpdateSRR => (* ie/update-srr.go:13-20 *)
      mkdef []
        [([T_UpdateSRR], Leaf LChildren)] (Leaf LInvalid)
  | A_UpdateTrafficEndpoint => (* ie/update-traffic-endpoint.go:13-19 *)
      mkdef [GType T_UpdateTrafficEndpoint]
        [] (Leaf LChildren)
  | A_UpdateURR => (* ie/update-urr.go:14-20 *)
      mkdef [GType T_UpdateURR]
        [] (Leaf LChildren)
  | A_UpdatedPDR => (* ie/updated-pdr.go:13-19 *)
      mkdef [GType T_UpdatedPDR]
        [] (Leaf LChildren)
  | A_URSEQN => (* ie/ur-seqn.go:13-33 *)
      mkdef []
        [([T_URSEQN], Leaf (LUint 4));
         ([T_UsageReportWithinSessionModificationResponse; T_UsageReportWithinSessionDeletionResponse; T_UsageReportWithinSessionReportRequest], Via A_UsageReport [T_URSEQN] A_URSEQN)] (Leaf LInvalid)
  | A_URRID => (* ie/urr-id.go:13-167 *)
      mkdef []
        [([T_URRID], Leaf (LUint 4));
         ([T_CreatePDR], Via A_CreatePDR [T_URRID] A_URRID);
         ([T_CreateURR], Via A_CreateURR [T_URRID] A_URRID);
         ([T_UpdateURR], Via A_UpdateURR [T_URRID] A_URRID);
         ([T_UpdatePDR], Via A_UpdatePDR [T_URRID] A_URRID);
         ([T_RemoveURR], Via A_RemoveURR [T_URRID] A_URRID);
         ([T_UsageReportWithinSessionModificationResponse; T_UsageReportWithinSessionDeletionResponse; T_UsageReportWithinSessionReportRequest], Via A_UsageReport [T_URRID] A_URRID);
         ([T_CreateMAR], Via A_CreateMAR [T_TGPPAccessForwardingActionInformation; T_NonTGPPAccessForwardingActionInformation] A_URRID);
         ([T_UpdateMAR], Via A_UpdateMAR [T_TGPPAccessForwardingActionInformation; T_NonTGPPAccessForwardingActionInformation] A_URRID);
         ([T_QueryURR], Via A_QueryURR [T_URRID] A_URRID);
         ([T_TGPPAccessForwardingActionInformation], Via A_TGPPAccessForwardingActionInformation [T_URRID] A_URRID);
         ([T_NonTGPPAccessForwardingActionInformation], Via A_NonTGPPAccessForwardingActionInformation [T_URRID] A_URRID);
         ([T_UpdateTGPPAccessForwardingActionInformation], Via A_UpdateTGPPAccessForwardingActionInformation [T_URRID] A_URRID);
         ([T_UpdateNonTGPPAccessForwardingActionInformation], Via A_UpdateNonTGPPAccessForwardingActionInformation [T_URRID] A_URRID)] (Leaf LInvalid)
  | A_UsageInformation => (* ie/usage-information.go:13-33 *)
      mkdef []
        [([T_UsageInformation], Leaf (LUint 1));
         ([T_UsageReportWithinSessionModificationResponse; T_UsageReportWithinSessionDeletionResponse; T_UsageReportWithinSessionReportRequest], Via A_UsageReport [T_UsageInformation] A_UsageInformation)] (Leaf LInvalid)
  | A_UsageReportTrigger => (* ie/usage-report-trigger.go:17-41 *)
      mkdef [GLen 2]
        [([T_UsageReportTrigger], Leaf LPayload);
         ([T_UsageReportWithinSessionModificationResponse; T_UsageReportWithinSessionDeletionResponse; T_UsageReportWithinSessionReportRequest], Via A_UsageReport [T_UsageReportTrigger] A_UsageReportTrigger)] (Leaf LInvalid)
  | A_UsageReport => (* ie/usage-report.go:28-38 *)
      mkdef []
        [([T_UsageReportWithinSessionModificationResponse; T_UsageReportWithinSessionDeletionResponse; T_UsageReportWithinSessionReportRequest], Leaf LChildren)] (Leaf LInvalid)
  | A_UserID => (* ie/user-id.go:26-36 *)
      mkdef [GType T_UserID]
        [] (Leaf (LFields K_UserID))
  | A_UserPlaneInactivityTimer => (* ie/user-plane-inactivity-timer.go:21-30 *)
      mkdef [GType T_UserPlaneInactivityTimer; GLen 4]
        [] (Leaf LSecs32)
  | A_UserPlaneIPResourceInformation => (* ie/user-plane-ip-resource-information.go:25-35 *)
      mkdef [GType T_UserPlaneIPResourceInformation]
        [] (Leaf (LFields K_UserPlaneIPResourceInformation))
  | A_UserPlanePathFailureReport => (* ie/user-plane-path-failure-report.go:13-19 *)
      mkdef [GType T_UserPlanePathFailureReport]
        [] (Leaf LChildren)
  | A_UserPlanePathRecoveryReport => (* ie/user-plane-path-recovery-report.go:13-19 *)
      mkdef [GType T_UserPlanePathRecoveryReport]
        [] (Leaf LChildren)
  | A_ValidityTimer => (* ie/validity-timer.go:21-43 *)
      mkdef [GLen 2]
        [([T_ValidityTimer], Leaf LSecs16);
         ([T_UEIPAddressUsageInformation], Via A_UEIPAddressUsageInformation [T_ValidityTimer] A_ValidityTimer)] (Leaf LInvalid)
  | A_VolumeMeasurement => (* ie/volume-measurement.go:25-50 *)
      mkdef []
        [([T_VolumeMeasurement], Leaf (LFields K_VolumeMeasurement));
         ([T_UsageReportWithinSessionModificationResponse; T_UsageReportWithinSessionDeletionResponse; T_UsageReportWithinSessionReportRequest], Via A_UsageReport [T_VolumeMeasurement] A_VolumeMeasurement)] (Leaf LInvalid)
  | A_VolumeQuota => (* ie/volume-quota.go:25-59 *)
      mkdef []
        [([T_VolumeQuota], Leaf (LFields K_VolumeQuota));
         ([T_CreateURR], Via A_CreateURR [T_VolumeQuota] A_VolumeQuota);
         ([T_UpdateURR], Via A_UpdateURR [T_VolumeQuota] A_VolumeQuota)] (Leaf LInvalid)
  | A_VolumeThreshold => (* ie/volume-threshold.go:25-59 *)
      mkdef []
        [([T_VolumeThreshold], Leaf (LFields K_VolumeThreshold));
         ([T_CreateURR], Via A_CreateURR [T_VolumeThreshold] A_VolumeThreshold);
         ([T_UpdateURR], Via A_UpdateURR [T_VolumeThreshold] A_VolumeThreshold)] (Leaf LInvalid)
  | A_Weight => (* ie/weight.go:13-88 *)
      mkdef []
        [([T_Weight], Leaf (LUint 1));
         ([T_CreateMAR], Via A_CreateMAR [T_TGPPAccessForwardingActionInformation; T_NonTGPPAccessForwardingActionInformation] A_Weight);
         ([T_UpdateMAR], Via A_UpdateMAR [T_TGPPAccessForwardingActionInformation; T_NonTGPPAccessForwardingActionInformation] A_Weight);
         ([T_TGPPAccessForwardingActionInformation], Via A_TGPPAccessForwardingActionInformation [T_Weight] A_Weight);
         ([T_NonTGPPAccessForwardingActionInformation], Via A_NonTGPPAccessForwardingActionInformation [T_Weight] A_Weight);
         ([T_UpdateTGPPAccessForwardingActionInformation], Via A_UpdateTGPPAccessForwardingActionInformation [T_Weight] A_Weight);
         ([T_UpdateNonTGPPAccessForwardingActionInformation], Via A_UpdateNonTGPPAccessForwardingActionInformation [T_Weight] A_Weight)] (Leaf LInvalid)
  end.
