(** Generated by tools/gennew.py from the text of /repo/ie/*.go.
    The IE constructors: every function that returns an *IE, except those of ie/ie.go (modelled in IE.v and New.v).
    The shapes are defined in New.v. *)
From Coq Require Import String.
From Verif Require Import Base IETypes IE Access AccTable FlagTable New.

Inductive con :=
| N_AccessAvailabilityControlInformation
| N_AccessAvailabilityInformation
| N_AccessAvailabilityReport
| N_ActivatePredefinedRules
| N_ActivationTime
| N_AdditionalMonitoringTime
| N_AdditionalUsageReportsInformation
| N_AggregatedURRID
| N_AggregatedURRs
| N_AlternativeSMFIPAddress
| N_APNDNN
| N_ApplicationDetectionInformation
| N_ApplicationID
| N_ApplicationIDsPFDs
| N_ApplicationInstanceID
| N_ApplyAction
| N_ATSSSControlParameters
| N_ATSSSLLControlInformation
| N_ATSSSLLInformation
| N_ATSSSLLParameters
| N_AveragePacketDelay
| N_AveragingWindow
| N_BARID
| N_BridgeManagementInformationContainer
| N_CTAG
| N_Cause
| N_ClockDriftControlInformation
| N_ClockDriftReport
| N_CPFunctionFeatures
| N_CPPFCPEntityIPAddress
| N_CreateBAR
| N_CreateBridgeInfoForTSC
| N_CreateFAR
| N_CreateMAR
| N_CreatePDR
| N_CreateQER
| N_CreateSRR
| N_CreateTrafficEndpoint
| N_CreateURR
| N_CreatedBridgeInfoForTSC
| N_CreatedPDR
| N_CreatedTrafficEndpoint
| N_CumulativeRateRatioMeasurement
| N_CumulativeRateRatioThreshold
| N_DataNetworkAccessIdentifier
| N_DataStatus
| N_DeactivatePredefinedRules
| N_DeactivationTime
| N_DestinationInterface
| N_DLBufferingDuration
| N_DLBufferingSuggestedPacketCount
| N_DLDataPacketsSize
| N_DLFlowLevelMarking
| N_DownlinkDataNotificationDelay
| N_DownlinkDataReport
| N_DownlinkDataServiceInformation
| N_DroppedDLTrafficThreshold
| N_DSTTPortNumber
| N_DuplicatingParameters
| N_DurationMeasurement
| N_EndTime
| N_ErrorIndicationReport
| N_EthernetContextInformation
| N_EthernetFilterID
| N_EthernetFilterProperties
| N_EthernetInactivityTimer
| N_EthernetPacketFilter
| N_EthernetPDUSessionInformation
| N_EthernetTrafficInformation
| N_Ethertype
| N_EventQuota
| N_EventThreshold
| N_EventTimeStamp
| N_FSEID
| N_FTEID
| N_FailedRuleID
| N_FARID
| N_FlowInformation
| N_ForwardingParameters
| N_ForwardingPolicy
| N_FQCSID
| N_FramedIPv6Route
| N_FramedRoute
| N_FramedRouting
| N_GateStatus
| N_GBR
| N_GracefulReleasePeriod
| N_GTPUPathInterfaceType
| N_GTPUPathQoSControlInformation
| N_GTPUPathQoSReport
| N_HeaderEnrichment
| N_InactivityDetectionTime
| N_IPMulticastAddress
| N_IPMulticastAddressingInfo
| N_IPVersion
| N_JoinIPMulticastInformationWithinUsageReport
| N_LeaveIPMulticastInformationWithinUsageReport
| N_LinkedURRID
| N_LoadControlInformation
| N_MACAddressesDetected
| N_MACAddressesRemoved
| N_MACAddress
| N_MARID
| N_MaximumPacketDelay
| N_MBR
| N_MeasurementInformation
| N_MeasurementMethod
| N_MeasurementPeriod
| N_Metric
| N_MinimumPacketDelay
| N_MinimumWaitTime
| N_MonitoringTime
| N_MPTCPAddressInformation
| N_MPTCPApplicableIndication
| N_MPTCPControlInformation
| N_MPTCPParameters
| N_MTEDTControlInformation
| N_Multiplier
| N_NetworkInstance
| N_NetworkInstanceFQDN
| N_NFInstanceID
| N_NodeID
| N_NodeIDHeuristic
| N_NodeReportType
| N_NonTGPPAccessForwardingActionInformation
| N_NumberOfReports
| N_NumberOfUEIPAddresses
| N_NWTTPortNumber
| N_OCIFlags
| N_OffendingIE
| N_OuterHeaderCreation
| N_OuterHeaderRemoval
| N_OverloadControlInformation
| N_PacketDelayThresholds
| N_PacketRateStatusReport
| N_PacketRateStatusReportWithinSessionModificationResponse
| N_PacketRateStatus
| N_PacketRate
| N_PacketReplicationAndDetectionCarryOnInformation
| N_PagingPolicyIndicator
| N_PDI
| N_PDNType
| N_PDRID
| N_PFCPAssociationReleaseRequest
| N_PFCPSessionRetentionInformation
| N_PFCPASReqFlags
| N_PFCPASRspFlags
| N_PFCPAUReqFlags
| N_PFCPSEReqFlags
| N_PFCPSMReqFlags
| N_PFCPSRReqFlags
| N_PFCPSRRspFlags
| N_PFDContents
| N_PFDContext
| N_PMFAddressInformation
| N_PMFControlInformation
| N_PMFParameters
| N_PortManagementInformationContainer
| N_Precedence
| N_Priority
| N_ProvideATSSSControlInformation
| N_ProvideRDSConfigurationInformation
| N_Proxying
| N_QERControlIndications
| N_QERCorrelationID
| N_QERID
| N_QFI
| N_QoSInformationInGTPUPathQoSReport
| N_QoSMonitoringMeasurement
| N_QoSMonitoringPerQoSFlowControlInformation
| N_QoSMonitoringReport
| N_QoSReportTrigger
| N_QueryPacketRateStatusWithinSessionModificationRequest
| N_QueryURRReference
| N_QueryURR
| N_QuotaHoldingTime
| N_QuotaValidityTime
| N_RDSConfigurationInformation
| N_RecoveryTimeStamp
| N_RedirectInformation
| N_RedundantTransmissionForwardingParameters
| N_RedundantTransmissionParameters
| N_RedundantTransmissionParametersInPDI
| N_RedundantTransmissionParametersInFAR
| N_RemoteGTPUPeer
| N_RemoveBAR
| N_RemoveFAR
| N_RemoveMAR
| N_RemovePDR
| N_RemoveQER
| N_RemoveSRR
| N_RemoveTrafficEndpoint
| N_RemoveURR
| N_ReportType
| N_ReportingFrequency
| N_ReportingTriggers
| N_RequestedAccessAvailabilityInformation
| N_RequestedClockDriftInformation
| N_RequestedQoSMonitoring
| N_RQI
| N_SNSSAI
| N_STAG
| N_SDFFilter
| N_SequenceNumber
| N_SessionReport
| N_SMFSetID
| N_SourceInterface
| N_SourceIPAddress
| N_SRRID
| N_StartTime
| N_SteeringFunctionality
| N_SteeringMode
| N_SubsequentEventQuota
| N_SubsequentEventThreshold
| N_SubsequentTimeQuota
| N_SubsequentTimeThreshold
| N_SubsequentVolumeQuota
| N_SubsequentVolumeThreshold
| N_SuggestedBufferingPacketsCount
| N_TGPPAccessForwardingActionInformation
| N_TGPPInterfaceType
| N_TimeOfFirstPacket
| N_TimeOfLastPacket
| N_TimeOffsetMeasurement
| N_TimeOffsetThreshold
| N_TimeQuotaMechanism
| N_TimeQuota
| N_TimeThreshold
| N_Timer
| N_TraceInformation
| N_TrafficEndpointID
| N_TransportDelayReporting
| N_TransportLevelMarking
| N_TSCManagementInformation
| N_TSCManagementInformationWithinSessionModificationRequest
| N_TSCManagementInformationWithinSessionModificationResponse
| N_TSCManagementInformationWithinSessionReportRequest
| N_PortManagementInformationForTSC
| N_PortManagementInformationForTSCWithinSessionModificationRequest
| N_PortManagementInformationForTSCWithinSessionModificationResponse
| N_PortManagementInformationForTSCWithinSessionReportRequest
| N_TSNBridgeID
| N_TSNTimeDomainNumber
| N_UEIPAddressPoolIdentity
| N_UEIPAddressPoolInformation
| N_UEIPAddressUsageInformation
| N_UEIPAddress
| N_UELinkSpecificIPAddress
| N_UPFunctionFeatures
| N_UpdateTGPPAccessForwardingActionInformation
| N_UpdateBAR
| N_UpdateBARWithinSessionModificationRequest
| N_UpdateBARWithinSessionReportResponse
| N_UpdateDuplicatingParameters
| N_UpdateFAR
| N_UpdateForwardingParameters
| N_UpdateMAR
| N_UpdateNonTGPPAccessForwardingActionInformation
| N_UpdatePDR
| N_UpdateQER
| N_UpdateSRR
| N_UpdateTrafficEndpoint
| N_UpdateURR
| N_UpdatedPDR
| N_URSEQN
| N_URRID
| N_UsageInformation
| N_UsageReportTrigger
| N_UsageReport
| N_UsageReportWithinSessionModificationResponse
| N_UsageReportWithinSessionDeletionResponse
| N_UsageReportWithinSessionReportRequest
| N_UserID
| N_UserPlaneInactivityTimer
| N_UserPlaneIPResourceInformation
| N_UserPlanePathFailureReport
| N_UserPlanePathRecoveryReport
| N_ValidityTimer
| N_VolumeMeasurement
| N_VolumeQuota
| N_VolumeThreshold
| N_Weight.

(** the name in the source *)
Definition con_name (c : con) : string :=
  match c with
  | N_AccessAvailabilityControlInformation => "NewAccessAvailabilityControlInformation"
  | N_AccessAvailabilityInformation => "NewAccessAvailabilityInformation"
  | N_AccessAvailabilityReport => "NewAccessAvailabilityReport"
  | N_ActivatePredefinedRules => "NewActivatePredefinedRules"
  | N_ActivationTime => "NewActivationTime"
  | N_AdditionalMonitoringTime => "NewAdditionalMonitoringTime"
  | N_AdditionalUsageReportsInformation => "NewAdditionalUsageReportsInformation"
  | N_AggregatedURRID => "NewAggregatedURRID"
  | N_AggregatedURRs => "NewAggregatedURRs"
  | N_AlternativeSMFIPAddress => "NewAlternativeSMFIPAddress"
  | N_APNDNN => "NewAPNDNN"
  | N_ApplicationDetectionInformation => "NewApplicationDetectionInformation"
  | N_ApplicationID => "NewApplicationID"
  | N_ApplicationIDsPFDs => "NewApplicationIDsPFDs"
  | N_ApplicationInstanceID => "NewApplicationInstanceID"
  | N_ApplyAction => "NewApplyAction"
  | N_ATSSSControlParameters => "NewATSSSControlParameters"
  | N_ATSSSLLControlInformation => "NewATSSSLLControlInformation"
  | N_ATSSSLLInformation => "NewATSSSLLInformation"
  | N_ATSSSLLParameters => "NewATSSSLLParameters"
  | N_AveragePacketDelay => "NewAveragePacketDelay"
  | N_AveragingWindow => "NewAveragingWindow"
  | N_BARID => "NewBARID"
  | N_BridgeManagementInformationContainer => "NewBridgeManagementInformationContainer"
  | N_CTAG => "NewCTAG"
  | N_Cause => "NewCause"
  | N_ClockDriftControlInformation => "NewClockDriftControlInformation"
  | N_ClockDriftReport => "NewClockDriftReport"
  | N_CPFunctionFeatures => "NewCPFunctionFeatures"
  | N_CPPFCPEntityIPAddress => "NewCPPFCPEntityIPAddress"
  | N_CreateBAR => "NewCreateBAR"
  | N_CreateBridgeInfoForTSC => "NewCreateBridgeInfoForTSC"
  | N_CreateFAR => "NewCreateFAR"
  | N_CreateMAR => "NewCreateMAR"
  | N_CreatePDR => "NewCreatePDR"
  | N_CreateQER => "NewCreateQER"
  | N_CreateSRR => "NewCreateSRR"
  | N_CreateTrafficEndpoint => "NewCreateTrafficEndpoint"
  | N_CreateURR => "NewCreateURR"
  | N_CreatedBridgeInfoForTSC => "NewCreatedBridgeInfoForTSC"
  | N_CreatedPDR => "NewCreatedPDR"
  | N_CreatedTrafficEndpoint => "NewCreatedTrafficEndpoint"
  | N_CumulativeRateRatioMeasurement => "NewCumulativeRateRatioMeasurement"
  | N_CumulativeRateRatioThreshold => "NewCumulativeRateRatioThreshold"
  | N_DataNetworkAccessIdentifier => "NewDataNetworkAccessIdentifier"
  | N_DataStatus => "NewDataStatus"
  | N_DeactivatePredefinedRules => "NewDeactivatePredefinedRules"
  | N_DeactivationTime => "NewDeactivationTime"
  | N_DestinationInterface => "NewDestinationInterface"
  | N_DLBufferingDuration => "NewDLBufferingDuration"
  | N_DLBufferingSuggestedPacketCount => "NewDLBufferingSuggestedPacketCount"
  | N_DLDataPacketsSize => "NewDLDataPacketsSize"
  | N_DLFlowLevelMarking => "NewDLFlowLevelMarking"
  | N_DownlinkDataNotificationDelay => "NewDownlinkDataNotificationDelay"
  | N_DownlinkDataReport => "NewDownlinkDataReport"
  | N_DownlinkDataServiceInformation => "NewDownlinkDataServiceInformation"
  | N_DroppedDLTrafficThreshold => "NewDroppedDLTrafficThreshold"
  | N_DSTTPortNumber => "NewDSTTPortNumber"
  | N_DuplicatingParameters => "NewDuplicatingParameters"
  | N_DurationMeasurement => "NewDurationMeasurement"
  | N_EndTime => "NewEndTime"
  | N_ErrorIndicationReport => "NewErrorIndicationReport"
  | N_EthernetContextInformation => "NewEthernetContextInformation"
  | N_EthernetFilterID => "NewEthernetFilterID"
  | N_EthernetFilterProperties => "NewEthernetFilterProperties"
  | N_EthernetInactivityTimer => "NewEthernetInactivityTimer"
  | N_EthernetPacketFilter => "NewEthernetPacketFilter"
  | N_EthernetPDUSessionInformation => "NewEthernetPDUSessionInformation"
  | N_EthernetTrafficInformation => "NewEthernetTrafficInformation"
  | N_Ethertype => "NewEthertype"
  | N_EventQuota => "NewEventQuota"
  | N_EventThreshold => "NewEventThreshold"
  | N_EventTimeStamp => "NewEventTimeStamp"
  | N_FSEID => "NewFSEID"
  | N_FTEID => "NewFTEID"
  | N_FailedRuleID => "NewFailedRuleID"
  | N_FARID => "NewFARID"
  | N_FlowInformation => "NewFlowInformation"
  | N_ForwardingParameters => "NewForwardingParameters"
  | N_ForwardingPolicy => "NewForwardingPolicy"
  | N_FQCSID => "NewFQCSID"
  | N_FramedIPv6Route => "NewFramedIPv6Route"
  | N_FramedRoute => "NewFramedRoute"
  | N_FramedRouting => "NewFramedRouting"
  | N_GateStatus => "NewGateStatus"
  | N_GBR => "NewGBR"
  | N_GracefulReleasePeriod => "NewGracefulReleasePeriod"
  | N_GTPUPathInterfaceType => "NewGTPUPathInterfaceType"
  | N_GTPUPathQoSControlInformation => "NewGTPUPathQoSControlInformation"
  | N_GTPUPathQoSReport => "NewGTPUPathQoSReport"
  | N_HeaderEnrichment => "NewHeaderEnrichment"
  | N_InactivityDetectionTime => "NewInactivityDetectionTime"
  | N_IPMulticastAddress => "NewIPMulticastAddress"
  | N_IPMulticastAddressingInfo => "NewIPMulticastAddressingInfo"
  | N_IPVersion => "NewIPVersion"
  | N_JoinIPMulticastInformationWithinUsageReport => "NewJoinIPMulticastInformationWithinUsageReport"
  | N_LeaveIPMulticastInformationWithinUsageReport => "NewLeaveIPMulticastInformationWithinUsageReport"
  | N_LinkedURRID => "NewLinkedURRID"
  | N_LoadControlInformation => "NewLoadControlInformation"
  | N_MACAddressesDetected => "NewMACAddressesDetected"
  | N_MACAddressesRemoved => "NewMACAddressesRemoved"
  | N_MACAddress => "NewMACAddress"
  | N_MARID => "NewMARID"
  | N_MaximumPacketDelay => "NewMaximumPacketDelay"
  | N_MBR => "NewMBR"
  | N_MeasurementInformation => "NewMeasurementInformation"
  | N_MeasurementMethod => "NewMeasurementMethod"
  | N_MeasurementPeriod => "NewMeasurementPeriod"
  | N_Metric => "NewMetric"
  | N_MinimumPacketDelay => "NewMinimumPacketDelay"
  | N_MinimumWaitTime => "NewMinimumWaitTime"
  | N_MonitoringTime => "NewMonitoringTime"
  | N_MPTCPAddressInformation => "NewMPTCPAddressInformation"
  | N_MPTCPApplicableIndication => "NewMPTCPApplicableIndication"
  | N_MPTCPControlInformation => "NewMPTCPControlInformation"
  | N_MPTCPParameters => "NewMPTCPParameters"
  | N_MTEDTControlInformation => "NewMTEDTControlInformation"
  | N_Multiplier => "NewMultiplier"
  | N_NetworkInstance => "NewNetworkInstance"
  | N_NetworkInstanceFQDN => "NewNetworkInstanceFQDN"
  | N_NFInstanceID => "NewNFInstanceID"
  | N_NodeID => "NewNodeID"
  | N_NodeIDHeuristic => "NewNodeIDHeuristic"
  | N_NodeReportType => "NewNodeReportType"
  | N_NonTGPPAccessForwardingActionInformation => "NewNonTGPPAccessForwardingActionInformation"
  | N_NumberOfReports => "NewNumberOfReports"
  | N_NumberOfUEIPAddresses => "NewNumberOfUEIPAddresses"
  | N_NWTTPortNumber => "NewNWTTPortNumber"
  | N_OCIFlags => "NewOCIFlags"
  | N_OffendingIE => "NewOffendingIE"
  | N_OuterHeaderCreation => "NewOuterHeaderCreation"
  | N_OuterHeaderRemoval => "NewOuterHeaderRemoval"
  | N_OverloadControlInformation => "NewOverloadControlInformation"
  | N_PacketDelayThresholds => "NewPacketDelayThresholds"
  | N_PacketRateStatusReport => "NewPacketRateStatusReport"
  | N_PacketRateStatusReportWithinSessionModificationResponse => "NewPacketRateStatusReportWithinSessionModificationResponse"
  | N_PacketRateStatus => "NewPacketRateStatus"
  | N_PacketRate => "NewPacketRate"
  | N_PacketReplicationAndDetectionCarryOnInformation => "NewPacketReplicationAndDetectionCarryOnInformation"
  | N_PagingPolicyIndicator => "NewPagingPolicyIndicator"
  | N_PDI => "NewPDI"
  | N_PDNType => "NewPDNType"
  | N_PDRID => "NewPDRID"
  | N_PFCPAssociationReleaseRequest => "NewPFCPAssociationReleaseRequest"
  | N_PFCPSessionRetentionInformation => "NewPFCPSessionRetentionInformation"
  | N_PFCPASReqFlags => "NewPFCPASReqFlags"
  | N_PFCPASRspFlags => "NewPFCPASRspFlags"
  | N_PFCPAUReqFlags => "NewPFCPAUReqFlags"
  | N_PFCPSEReqFlags => "NewPFCPSEReqFlags"
  | N_PFCPSMReqFlags => "NewPFCPSMReqFlags"
  | N_PFCPSRReqFlags => "NewPFCPSRReqFlags"
  | N_PFCPSRRspFlags => "NewPFCPSRRspFlags"
  | N_PFDContents => "NewPFDContents"
  | N_PFDContext => "NewPFDContext"
  | N_PMFAddressInformation => "NewPMFAddressInformation"
  | N_PMFControlInformation => "NewPMFControlInformation"
  | N_PMFParameters => "NewPMFParameters"
  | N_PortManagementInformationContainer => "NewPortManagementInformationContainer"
  | N_Precedence => "NewPrecedence"
  | N_Priority => "NewPriority"
  | N_ProvideATSSSControlInformation => "NewProvideATSSSControlInformation"
  | N_ProvideRDSConfigurationInformation => "NewProvideRDSConfigurationInformation"
  | N_Proxying => "NewProxying"
  | N_QERControlIndications => "NewQERControlIndications"
  | N_QERCorrelationID => "NewQERCorrelationID"
  | N_QERID => "NewQERID"
  | N_QFI => "NewQFI"
  | N_QoSInformationInGTPUPathQoSReport => "NewQoSInformationInGTPUPathQoSReport"
  | N_QoSMonitoringMeasurement => "NewQoSMonitoringMeasurement"
  | N_QoSMonitoringPerQoSFlowControlInformation => "NewQoSMonitoringPerQoSFlowControlInformation"
  | N_QoSMonitoringReport => "NewQoSMonitoringReport"
  | N_QoSReportTrigger => "NewQoSReportTrigger"
  | N_QueryPacketRateStatusWithinSessionModificationRequest => "NewQueryPacketRateStatusWithinSessionModificationRequest"
  | N_QueryURRReference => "NewQueryURRReference"
  | N_QueryURR => "NewQueryURR"
  | N_QuotaHoldingTime => "NewQuotaHoldingTime"
  | N_QuotaValidityTime => "NewQuotaValidityTime"
  | N_RDSConfigurationInformation => "NewRDSConfigurationInformation"
  | N_RecoveryTimeStamp => "NewRecoveryTimeStamp"
  | N_RedirectInformation => "NewRedirectInformation"
  | N_RedundantTransmissionForwardingParameters => "NewRedundantTransmissionForwardingParameters"
  | N_RedundantTransmissionParameters => "NewRedundantTransmissionParameters"
  | N_RedundantTransmissionParametersInPDI => "NewRedundantTransmissionParametersInPDI"
  | N_RedundantTransmissionParametersInFAR => "NewRedundantTransmissionParametersInFAR"
  | N_RemoteGTPUPeer => "NewRemoteGTPUPeer"
  | N_RemoveBAR => "NewRemoveBAR"
  | N_RemoveFAR => "NewRemoveFAR"
  | N_RemoveMAR => "NewRemoveMAR"
  | N_RemovePDR => "NewRemovePDR"
  | N_RemoveQER => "NewRemoveQER"
  | N_RemoveSRR => "NewRemoveSRR"
  | N_RemoveTrafficEndpoint => "NewRemoveTrafficEndpoint"
  | N_RemoveURR => "NewRemoveURR"
  | N_ReportType => "NewReportType"
  | N_ReportingFrequency => "NewReportingFrequency"
  | N_ReportingTriggers => "NewReportingTriggers"
  | N_RequestedAccessAvailabilityInformation => "NewRequestedAccessAvailabilityInformation"
  | N_RequestedClockDriftInformation => "NewRequestedClockDriftInformation"
  | N_RequestedQoSMonitoring => "NewRequestedQoSMonitoring"
  | N_RQI => "NewRQI"
  | N_SNSSAI => "NewSNSSAI"
  | N_STAG => "NewSTAG"
  | N_SDFFilter => "NewSDFFilter"
  | N_SequenceNumber => "NewSequenceNumber"
  | N_SessionReport => "NewSessionReport"
  | N_SMFSetID => "NewSMFSetID"
  | N_SourceInterface => "NewSourceInterface"
  | N_SourceIPAddress => "NewSourceIPAddress"
  | N_SRRID => "NewSRRID"
  | N_StartTime => "NewStartTime"
  | N_SteeringFunctionality => "NewSteeringFunctionality"
  | N_SteeringMode => "NewSteeringMode"
  | N_SubsequentEventQuota => "NewSubsequentEventQuota"
  | N_SubsequentEventThreshold => "NewSubsequentEventThreshold"
  | N_SubsequentTimeQuota => "NewSubsequentTimeQuota"
  | N_SubsequentTimeThreshold => "NewSubsequentTimeThreshold"
  | N_SubsequentVolumeQuota => "NewSubsequentVolumeQuota"
  | N_SubsequentVolumeThreshold => "NewSubsequentVolumeThreshold"
  | N_SuggestedBufferingPacketsCount => "NewSuggestedBufferingPacketsCount"
  | N_TGPPAccessForwardingActionInformation => "NewTGPPAccessForwardingActionInformation"
  | N_TGPPInterfaceType => "NewTGPPInterfaceType"
  | N_TimeOfFirstPacket => "NewTimeOfFirstPacket"
  | N_TimeOfLastPacket => "NewTimeOfLastPacket"
  | N_TimeOffsetMeasurement => "NewTimeOffsetMeasurement"
  | N_TimeOffsetThreshold => "NewTimeOffsetThreshold"
  | N_TimeQuotaMechanism => "NewTimeQuotaMechanism"
  | N_TimeQuota => "NewTimeQuota"
  | N_TimeThreshold => "NewTimeThreshold"
  | N_Timer => "NewTimer"
  | N_TraceInformation => "NewTraceInformation"
  | N_TrafficEndpointID => "NewTrafficEndpointID"
  | N_TransportDelayReporting => "NewTransportDelayReporting"
  | N_TransportLevelMarking => "NewTransportLevelMarking"
  | N_TSCManagementInformation => "NewTSCManagementInformation"
  | N_TSCManagementInformationWithinSessionModificationRequest => "NewTSCManagementInformationWithinSessionModificationRequest"
  | N_TSCManagementInformationWithinSessionModificationResponse => "NewTSCManagementInformationWithinSessionModificationResponse"
  | N_TSCManagementInformationWithinSessionReportRequest => "NewTSCManagementInformationWithinSessionReportRequest"
  | N_PortManagementInformationForTSC => "NewPortManagementInformationForTSC"
  | N_PortManagementInformationForTSCWithinSessionModificationRequest => "NewPortManagementInformationForTSCWithinSessionModificationRequest"
  | N_PortManagementInformationForTSCWithinSessionModificationResponse => "NewPortManagementInformationForTSCWithinSessionModificationResponse"
  | N_PortManagementInformationForTSCWithinSessionReportRequest => "NewPortManagementInformationForTSCWithinSessionReportRequest"
  | N_TSNBridgeID => "NewTSNBridgeID"
  | N_TSNTimeDomainNumber => "NewTSNTimeDomainNumber"
  | N_UEIPAddressPoolIdentity => "NewUEIPAddressPoolIdentity"
  | N_UEIPAddressPoolInformation => "NewUEIPAddressPoolInformation"
  | N_UEIPAddressUsageInformation => "NewUEIPAddressUsageInformation"
  | N_UEIPAddress => "NewUEIPAddress"
  | N_UELinkSpecificIPAddress => "NewUELinkSpecificIPAddress"
  | N_UPFunctionFeatures => "NewUPFunctionFeatures"
  | N_UpdateTGPPAccessForwardingActionInformation => "NewUpdateTGPPAccessForwardingActionInformation"
  | N_UpdateBAR => "NewUpdateBAR"
  | N_UpdateBARWithinSessionModificationRequest => "NewUpdateBARWithinSessionModificationRequest"
  | N_UpdateBARWithinSessionReportResponse => "NewUpdateBARWithinSessionReportResponse"
  | N_UpdateDuplicatingParameters => "NewUpdateDuplicatingParameters"
  | N_UpdateFAR => "NewUpdateFAR"
  | N_UpdateForwardingParameters => "NewUpdateForwardingParameters"
  | N_UpdateMAR => "NewUpdateMAR"
  | N_UpdateNonTGPPAccessForwardingActionInformation => "NewUpdateNonTGPPAccessForwardingActionInformation"
  | N_UpdatePDR => "NewUpdatePDR"
  | N_UpdateQER => "NewUpdateQER"
  | N_UpdateSRR => "NewUpdateSRR"
  | N_UpdateTrafficEndpoint => "NewUpdateTrafficEndpoint"
  | N_UpdateURR => "NewUpdateURR"
  | N_UpdatedPDR => "NewUpdatedPDR"
  | N_URSEQN => "NewURSEQN"
  | N_URRID => "NewURRID"
  | N_UsageInformation => "NewUsageInformation"
  | N_UsageReportTrigger => "NewUsageReportTrigger"
  | N_UsageReport => "NewUsageReport"
  | N_UsageReportWithinSessionModificationResponse => "NewUsageReportWithinSessionModificationResponse"
  | N_UsageReportWithinSessionDeletionResponse => "NewUsageReportWithinSessionDeletionResponse"
  | N_UsageReportWithinSessionReportRequest => "NewUsageReportWithinSessionReportRequest"
  | N_UserID => "NewUserID"
  | N_UserPlaneInactivityTimer => "NewUserPlaneInactivityTimer"
  | N_UserPlaneIPResourceInformation => "NewUserPlaneIPResourceInformation"
  | N_UserPlanePathFailureReport => "NewUserPlanePathFailureReport"
  | N_UserPlanePathRecoveryReport => "NewUserPlanePathRecoveryReport"
  | N_ValidityTimer => "NewValidityTimer"
  | N_VolumeMeasurement => "NewVolumeMeasurement"
  | N_VolumeQuota => "NewVolumeQuota"
  | N_VolumeThreshold => "NewVolumeThreshold"
  | N_Weight => "NewWeight"
  end%string.

(** the IE type; the four constructors that take it as an argument have None *)
Definition con_type (c : con) : option N :=
  match c with
  | N_AccessAvailabilityControlInformation => Some T_AccessAvailabilityControlInformation
  | N_AccessAvailabilityInformation => Some T_AccessAvailabilityInformation
  | N_AccessAvailabilityReport => Some T_AccessAvailabilityReport
  | N_ActivatePredefinedRules => Some T_ActivatePredefinedRules
  | N_ActivationTime => Some T_ActivationTime
  | N_AdditionalMonitoringTime => Some T_AdditionalMonitoringTime
  | N_AdditionalUsageReportsInformation => Some T_AdditionalUsageReportsInformation
  | N_AggregatedURRID => Some T_AggregatedURRID
  | N_AggregatedURRs => Some T_AggregatedURRs
  | N_AlternativeSMFIPAddress => Some T_AlternativeSMFIPAddress
  | N_APNDNN => Some T_APNDNN
  | N_ApplicationDetectionInformation => Some T_ApplicationDetectionInformation
  | N_ApplicationID => Some T_ApplicationID
  | N_ApplicationIDsPFDs => Some T_ApplicationIDsPFDs
  | N_ApplicationInstanceID => Some T_ApplicationInstanceID
  | N_ApplyAction => Some T_ApplyAction
  | N_ATSSSControlParameters => Some T_ATSSSControlParameters
  | N_ATSSSLLControlInformation => Some T_ATSSSLLControlInformation
  | N_ATSSSLLInformation => Some T_ATSSSLLInformation
  | N_ATSSSLLParameters => Some T_ATSSSLLParameters
  | N_AveragePacketDelay => Some T_AveragePacketDelay
  | N_AveragingWindow => Some T_AveragingWindow
  | N_BARID => Some T_BARID
  | N_BridgeManagementInformationContainer => Some T_BridgeManagementInformationContainer
  | N_CTAG => Some T_CTAG
  | N_Cause => Some T_Cause
  | N_ClockDriftControlInformation => Some T_ClockDriftControlInformation
  | N_ClockDriftReport => Some T_ClockDriftReport
  | N_CPFunctionFeatures => Some T_CPFunctionFeatures
  | N_CPPFCPEntityIPAddress => Some T_CPPFCPEntityIPAddress
  | N_CreateBAR => Some T_CreateBAR
  | N_CreateBridgeInfoForTSC => Some T_CreateBridgeInfoForTSC
  | N_CreateFAR => Some T_CreateFAR
  | N_CreateMAR => Some T_CreateMAR
  | N_CreatePDR => Some T_CreatePDR
  | N_CreateQER => Some T_CreateQER
  | N_CreateSRR => Some T_CreateSRR
  | N_CreateTrafficEndpoint => Some T_CreateTrafficEndpoint
  | N_CreateURR => Some T_CreateURR
  | N_CreatedBridgeInfoForTSC => Some T_CreatedBridgeInfoForTSC
  | N_CreatedPDR => Some T_CreatedPDR
  | N_CreatedTrafficEndpoint => Some T_CreatedTrafficEndpoint
  | N_CumulativeRateRatioMeasurement => Some T_CumulativeRateRatioMeasurement
  | N_CumulativeRateRatioThreshold => Some T_CumulativeRateRatioThreshold
  | N_DataNetworkAccessIdentifier => Some T_DataNetworkAccessIdentifier
  | N_DataStatus => Some T_DataStatus
  | N_DeactivatePredefinedRules => Some T_DeactivatePredefinedRules
  | N_DeactivationTime => Some T_DeactivationTime
  | N_DestinationInterface => Some T_DestinationInterface
  | N_DLBufferingDuration => Some T_DLBufferingDuration
  | N_DLBufferingSuggestedPacketCount => Some T_DLBufferingSuggestedPacketCount
  | N_DLDataPacketsSize => Some T_DLDataPacketsSize
  | N_DLFlowLevelMarking => Some T_DLFlowLevelMarking
  | N_DownlinkDataNotificationDelay => Some T_DownlinkDataNotificationDelay
  | N_DownlinkDataReport => Some T_DownlinkDataReport
  | N_DownlinkDataServiceInformation => Some T_DownlinkDataServiceInformation
  | N_DroppedDLTrafficThreshold => Some T_DroppedDLTrafficThreshold
  | N_DSTTPortNumber => Some T_DSTTPortNumber
  | N_DuplicatingParameters => Some T_DuplicatingParameters
  | N_DurationMeasurement => Some T_DurationMeasurement
  | N_EndTime => Some T_EndTime
  | N_ErrorIndicationReport => Some T_ErrorIndicationReport
  | N_EthernetContextInformation => Some T_EthernetContextInformation
  | N_EthernetFilterID => Some T_EthernetFilterID
  | N_EthernetFilterProperties => Some T_EthernetFilterProperties
  | N_EthernetInactivityTimer => Some T_EthernetInactivityTimer
  | N_EthernetPacketFilter => Some T_EthernetPacketFilter
  | N_EthernetPDUSessionInformation => Some T_EthernetPDUSessionInformation
  | N_EthernetTrafficInformation => Some T_EthernetTrafficInformation
  | N_Ethertype => Some T_Ethertype
  | N_EventQuota => Some T_EventQuota
  | N_EventThreshold => Some T_EventThreshold
  | N_EventTimeStamp => Some T_EventTimeStamp
  | N_FSEID => Some T_FSEID
  | N_FTEID => Some T_FTEID
  | N_FailedRuleID => Some T_FailedRuleID
  | N_FARID => Some T_FARID
  | N_FlowInformation => Some T_FlowInformation
  | N_ForwardingParameters => Some T_ForwardingParameters
  | N_ForwardingPolicy => Some T_ForwardingPolicy
  | N_FQCSID => Some T_FQCSID
  | N_FramedIPv6Route => Some T_FramedIPv6Route
  | N_FramedRoute => Some T_FramedRoute
  | N_FramedRouting => Some T_FramedRouting
  | N_GateStatus => Some T_GateStatus
  | N_GBR => Some T_GBR
  | N_GracefulReleasePeriod => Some T_GracefulReleasePeriod
  | N_GTPUPathInterfaceType => Some T_GTPUPathInterfaceType
  | N_GTPUPathQoSControlInformation => Some T_GTPUPathQoSControlInformation
  | N_GTPUPathQoSReport => Some T_GTPUPathQoSReport
  | N_HeaderEnrichment => Some T_HeaderEnrichment
  | N_InactivityDetectionTime => Some T_InactivityDetectionTime
  | N_IPMulticastAddress => Some T_IPMulticastAddress
  | N_IPMulticastAddressingInfo => Some T_IPMulticastAddressingInfo
  | N_IPVersion => Some T_IPVersion
  | N_JoinIPMulticastInformationWithinUsageReport => Some T_JoinIPMulticastInformationWithinUsageReport
  | N_LeaveIPMulticastInformationWithinUsageReport => Some T_LeaveIPMulticastInformationWithinUsageReport
  | N_LinkedURRID => Some T_LinkedURRID
  | N_LoadControlInformation => Some T_LoadControlInformation
  | N_MACAddressesDetected => Some T_MACAddressesDetected
  | N_MACAddressesRemoved => Some T_MACAddressesRemoved
  | N_MACAddress => Some T_MACAddress
  | N_MARID => Some T_MARID
  | N_MaximumPacketDelay => Some T_MaximumPacketDelay
  | N_MBR => Some T_MBR
  | N_MeasurementInformation => Some T_MeasurementInformation
  | N_MeasurementMethod => Some T_MeasurementMethod
  | N_MeasurementPeriod => Some T_MeasurementPeriod
  | N_Metric => Some T_Metric
  | N_MinimumPacketDelay => Some T_MinimumPacketDelay
  | N_MinimumWaitTime => Some T_MinimumWaitTime
  | N_MonitoringTime => Some T_MonitoringTime
  | N_MPTCPAddressInformation => Some T_MPTCPAddressInformation
  | N_MPTCPApplicableIndication => Some T_MPTCPApplicableIndication
  | N_MPTCPControlInformation => Some T_MPTCPControlInformation
  | N_MPTCPParameters => Some T_MPTCPParameters
  | N_MTEDTControlInformation => Some T_MTEDTControlInformation
  | N_Multiplier => Some T_Multiplier
  | N_NetworkInstance => Some T_NetworkInstance
  | N_NetworkInstanceFQDN => Some T_NetworkInstance
  | N_NFInstanceID => Some T_NFInstanceID
  | N_NodeID => Some T_NodeID
  | N_NodeIDHeuristic => Some T_NodeID
  | N_NodeReportType => Some T_NodeReportType
  | N_NonTGPPAccessForwardingActionInformation => Some T_NonTGPPAccessForwardingActionInformation
  | N_NumberOfReports => Some T_NumberOfReports
  | N_NumberOfUEIPAddresses => Some T_NumberOfUEIPAddresses
  | N_NWTTPortNumber => Some T_NWTTPortNumber
  | N_OCIFlags => Some T_OCIFlags
  | N_OffendingIE => Some T_OffendingIE
  | N_OuterHeaderCreation => Some T_OuterHeaderCreation
  | N_OuterHeaderRemoval => Some T_OuterHeaderRemoval
  | N_OverloadControlInformation => Some T_OverloadControlInformation
  | N_PacketDelayThresholds => Some T_PacketDelayThresholds
  | N_PacketRateStatusReport => Some T_PacketRateStatusReport
  | N_PacketRateStatusReportWithinSessionModificationResponse => Some T_PacketRateStatusReportWithinSessionModificationResponse
  | N_PacketRateStatus => Some T_PacketRateStatus
  | N_PacketRate => Some T_PacketRate
  | N_PacketReplicationAndDetectionCarryOnInformation => Some T_PacketReplicationAndDetectionCarryOnInformation
  | N_PagingPolicyIndicator => Some T_PagingPolicyIndicator
  | N_PDI => Some T_PDI
  | N_PDNType => Some T_PDNType
  | N_PDRID => Some T_PDRID
  | N_PFCPAssociationReleaseRequest => Some T_PFCPAssociationReleaseRequest
  | N_PFCPSessionRetentionInformation => Some T_PFCPSessionRetentionInformation
  | N_PFCPASReqFlags => Some T_PFCPASReqFlags
  | N_PFCPASRspFlags => Some T_PFCPASRspFlags
  | N_PFCPAUReqFlags => Some T_PFCPAUReqFlags
  | N_PFCPSEReqFlags => Some T_PFCPSEReqFlags
  | N_PFCPSMReqFlags => Some T_PFCPSMReqFlags
  | N_PFCPSRReqFlags => Some T_PFCPSRReqFlags
  | N_PFCPSRRspFlags => Some T_PFCPSRRspFlags
  | N_PFDContents => Some T_PFDContents
  | N_PFDContext => Some T_PFDContext
  | N_PMFAddressInformation => Some T_PMFAddressInformation
  | N_PMFControlInformation => Some T_PMFControlInformation
  | N_PMFParameters => Some T_PMFParameters
  | N_PortManagementInformationContainer => Some T_PortManagementInformationContainer
  | N_Precedence => Some T_Precedence
  | N_Priority => Some T_Priority
  | N_ProvideATSSSControlInformation => Some T_ProvideATSSSControlInformation
  | N_ProvideRDSConfigurationInformation => Some T_ProvideRDSConfigurationInformation
  | N_Proxying => Some T_Proxying
  | N_QERControlIndications => Some T_QERControlIndications
  | N_QERCorrelationID => Some T_QERCorrelationID
  | N_QERID => Some T_QERID
  | N_QFI => Some T_QFI
  | N_QoSInformationInGTPUPathQoSReport => Some T_QoSInformationInGTPUPathQoSReport
  | N_QoSMonitoringMeasurement => Some T_QoSMonitoringMeasurement
  | N_QoSMonitoringPerQoSFlowControlInformation => Some T_QoSMonitoringPerQoSFlowControlInformation
  | N_QoSMonitoringReport => Some T_QoSMonitoringReport
  | N_QoSReportTrigger => Some T_QoSReportTrigger
  | N_QueryPacketRateStatusWithinSessionModificationRequest => Some T_QueryPacketRateStatusWithinSessionModificationRequest
  | N_QueryURRReference => Some T_QueryURRReference
  | N_QueryURR => Some T_QueryURR
  | N_QuotaHoldingTime => Some T_QuotaHoldingTime
  | N_QuotaValidityTime => Some T_QuotaValidityTime
  | N_RDSConfigurationInformation => Some T_RDSConfigurationInformation
  | N_RecoveryTimeStamp => Some T_RecoveryTimeStamp
  | N_RedirectInformation => Some T_RedirectInformation
  | N_RedundantTransmissionForwardingParameters => Some T_RedundantTransmissionForwardingParameters
  | N_RedundantTransmissionParameters => Some T_RedundantTransmissionParameters
  | N_RedundantTransmissionParametersInPDI => Some T_RedundantTransmissionParameters
  | N_RedundantTransmissionParametersInFAR => Some T_RedundantTransmissionParameters
  | N_RemoteGTPUPeer => Some T_RemoteGTPUPeer
  | N_RemoveBAR => Some T_RemoveBAR
  | N_RemoveFAR => Some T_RemoveFAR
  | N_RemoveMAR => Some T_RemoveMAR
  | N_RemovePDR => Some T_RemovePDR
  | N_RemoveQER => Some T_RemoveQER
  | N_RemoveSRR => Some T_RemoveSRR
  | N_RemoveTrafficEndpoint => Some T_RemoveTrafficEndpoint
  | N_RemoveURR => Some T_RemoveURR
  | N_ReportType => Some T_ReportType
  | N_ReportingFrequency => Some T_ReportingFrequency
  | N_ReportingTriggers => Some T_ReportingTriggers
  | N_RequestedAccessAvailabilityInformation => Some T_RequestedAccessAvailabilityInformation
  | N_RequestedClockDriftInformation => Some T_RequestedClockDriftInformation
  | N_RequestedQoSMonitoring => Some T_RequestedQoSMonitoring
  | N_RQI => Some T_RQI
  | N_SNSSAI => Some T_SNSSAI
  | N_STAG => Some T_STAG
  | N_SDFFilter => Some T_SDFFilter
  | N_SequenceNumber => Some T_SequenceNumber
  | N_SessionReport => Some T_SessionReport
  | N_SMFSetID => Some T_SMFSetID
  | N_SourceInterface => Some T_SourceInterface
  | N_SourceIPAddress => Some T_SourceIPAddress
  | N_SRRID => Some T_SRRID
  | N_StartTime => Some T_StartTime
  | N_SteeringFunctionality => Some T_SteeringFunctionality
  | N_SteeringMode => Some T_SteeringMode
  | N_SubsequentEventQuota => Some T_SubsequentEventQuota
  | N_SubsequentEventThreshold => Some T_SubsequentEventThreshold
  | N_SubsequentTimeQuota => Some T_SubsequentTimeQuota
  | N_SubsequentTimeThreshold => Some T_SubsequentTimeThreshold
  | N_SubsequentVolumeQuota => Some T_SubsequentVolumeQuota
  | N_SubsequentVolumeThreshold => Some T_SubsequentVolumeThreshold
  | N_SuggestedBufferingPacketsCount => Some T_SuggestedBufferingPacketsCount
  | N_TGPPAccessForwardingActionInformation => Some T_TGPPAccessForwardingActionInformation
  | N_TGPPInterfaceType => Some T_TGPPInterfaceType
  | N_TimeOfFirstPacket => Some T_TimeOfFirstPacket
  | N_TimeOfLastPacket => Some T_TimeOfLastPacket
  | N_TimeOffsetMeasurement => Some T_TimeOffsetMeasurement
  | N_TimeOffsetThreshold => Some T_TimeOffsetThreshold
  | N_TimeQuotaMechanism => Some T_TimeQuotaMechanism
  | N_TimeQuota => Some T_TimeQuota
  | N_TimeThreshold => Some T_TimeThreshold
  | N_Timer => Some T_Timer
  | N_TraceInformation => Some T_TraceInformation
  | N_TrafficEndpointID => Some T_TrafficEndpointID
  | N_TransportDelayReporting => Some T_TransportDelayReporting
  | N_TransportLevelMarking => Some T_TransportLevelMarking
  | N_TSCManagementInformation => None
  | N_TSCManagementInformationWithinSessionModificationRequest => Some T_TSCManagementInformationWithinSessionModificationRequest
  | N_TSCManagementInformationWithinSessionModificationResponse => Some T_TSCManagementInformationWithinSessionModificationResponse
  | N_TSCManagementInformationWithinSessionReportRequest => Some T_TSCManagementInformationWithinSessionReportRequest
  | N_PortManagementInformationForTSC => None
  | N_PortManagementInformationForTSCWithinSessionModificationRequest => Some T_PortManagementInformationForTSCWithinSessionModificationRequest
  | N_PortManagementInformationForTSCWithinSessionModificationResponse => Some T_PortManagementInformationForTSCWithinSessionModificationResponse
  | N_PortManagementInformationForTSCWithinSessionReportRequest => Some T_PortManagementInformationForTSCWithinSessionReportRequest
  | N_TSNBridgeID => Some T_TSNBridgeID
  | N_TSNTimeDomainNumber => Some T_TSNTimeDomainNumber
  | N_UEIPAddressPoolIdentity => Some T_UEIPAddressPoolIdentity
  | N_UEIPAddressPoolInformation => Some T_UEIPAddressPoolInformation
  | N_UEIPAddressUsageInformation => Some T_UEIPAddressUsageInformation
  | N_UEIPAddress => Some T_UEIPAddress
  | N_UELinkSpecificIPAddress => Some T_UELinkSpecificIPAddress
  | N_UPFunctionFeatures => Some T_UPFunctionFeatures
  | N_UpdateTGPPAccessForwardingActionInformation => Some T_UpdateTGPPAccessForwardingActionInformation
  | N_UpdateBAR => None
  | N_UpdateBARWithinSessionModificationRequest => Some T_UpdateBARWithinSessionModificationRequest
  | N_UpdateBARWithinSessionReportResponse => Some T_UpdateBARWithinSessionReportResponse
  | N_UpdateDuplicatingParameters => Some T_UpdateDuplicatingParameters
  | N_UpdateFAR => Some T_UpdateFAR
  | N_UpdateForwardingParameters => Some T_UpdateForwardingParameters
  | N_UpdateMAR => Some T_UpdateMAR
  | N_UpdateNonTGPPAccessForwardingActionInformation => Some T_UpdateNonTGPPAccessForwardingActionInformation
  | N_UpdatePDR => Some T_UpdatePDR
  | N_UpdateQER => Some T_UpdateQER
  | N_UpdateSRR => Some T_UpdateSRR
  | N_UpdateTrafficEndpoint => Some T_UpdateTrafficEndpoint
  | N_UpdateURR => Some T_UpdateURR
  | N_UpdatedPDR => Some T_UpdatedPDR
  | N_URSEQN => Some T_URSEQN
  | N_URRID => Some T_URRID
  | N_UsageInformation => Some T_UsageInformation
  | N_UsageReportTrigger => Some T_UsageReportTrigger
  | N_UsageReport => None
  | N_UsageReportWithinSessionModificationResponse => Some T_UsageReportWithinSessionModificationResponse
  | N_UsageReportWithinSessionDeletionResponse => Some T_UsageReportWithinSessionDeletionResponse
  | N_UsageReportWithinSessionReportRequest => Some T_UsageReportWithinSessionReportRequest
  | N_UserID => Some T_UserID
  | N_UserPlaneInactivityTimer => Some T_UserPlaneInactivityTimer
  | N_UserPlaneIPResourceInformation => Some T_UserPlaneIPResourceInformation
  | N_UserPlanePathFailureReport => Some T_UserPlanePathFailureReport
  | N_UserPlanePathRecoveryReport => Some T_UserPlanePathRecoveryReport
  | N_ValidityTimer => Some T_ValidityTimer
  | N_VolumeMeasurement => Some T_VolumeMeasurement
  | N_VolumeQuota => Some T_VolumeQuota
  | N_VolumeThreshold => Some T_VolumeThreshold
  | N_Weight => Some T_Weight
  end.

(** the code of the constructor *)
Definition con_shape (c : con) : shape :=
  match c with
  | N_AccessAvailabilityControlInformation => SGroup1 (* ie/access-availability-control-information.go:8-10 *)
  | N_AccessAvailabilityInformation => SAccessAvailability (* ie/access-availability-information.go:20-22 *)
  | N_AccessAvailabilityReport => SGroup1 (* ie/access-availability-report.go:8-10 *)
  | N_ActivatePredefinedRules => SString (* ie/activate-predefined-rules.go:8-10 *)
  | N_ActivationTime => STime (* ie/activation-time.go:12-15 *)
  | N_AdditionalMonitoringTime => SGroup (* ie/additional-monitoring-time.go:8-10 *)
  | N_AdditionalUsageReportsInformation => SAuri (* ie/additional-usage-reports-information.go:13-18 *)
  | N_AggregatedURRID => SUint 4 (* ie/aggregated-urr-id.go:8-10 *)
  | N_AggregatedURRs => SGroup (* ie/aggregated-urrs.go:8-10 *)
  | N_AlternativeSMFIPAddress => SFields K_AlternativeSMFIPAddress (* ie/alternative-smf-ip-address.go:13-22 *)
  | N_APNDNN => SFQDN (* ie/apn-dnn.go:8-10 *)
  | N_ApplicationDetectionInformation => SGroup (* ie/application-detection-information.go:8-10 *)
  | N_ApplicationID => SString (* ie/application-id.go:8-10 *)
  | N_ApplicationIDsPFDs => SGroup (* ie/application-ids-pfds.go:8-10 *)
  | N_ApplicationInstanceID => SString (* ie/application-instance-id.go:8-10 *)
  | N_ApplyAction => SOctets (* ie/apply-action.go:10-12 *)
  | N_ATSSSControlParameters => SGroup (* ie/atsss-control-parameters.go:8-10 *)
  | N_ATSSSLLControlInformation => SMask 0x01 (* ie/atsss-ll-control-information.go:8-10 *)
  | N_ATSSSLLInformation => SMask 0x01 (* ie/atsss-ll-information.go:8-10 *)
  | N_ATSSSLLParameters => SGroup1 (* ie/atsss-ll-parameters.go:8-10 *)
  | N_AveragePacketDelay => SMillis (* ie/average-packet-delay.go:16-18 *)
  | N_AveragingWindow => SUint 4 (* ie/averaging-window.go:8-10 *)
  | N_BARID => SUint 1 (* ie/bar-id.go:8-10 *)
  | N_BridgeManagementInformationContainer => SString (* ie/bridge-management-information-container.go:8-10 *)
  | N_CTAG => SFields K_CTAG (* ie/c-tag.go:13-22 *)
  | N_Cause => SUint 1 (* ie/cause.go:29-31 *)
  | N_ClockDriftControlInformation => SGroup (* ie/clock-drift-control-information.go:8-10 *)
  | N_ClockDriftReport => SGroup (* ie/clock-drift-report.go:8-10 *)
  | N_CPFunctionFeatures => SOctets (* ie/cp-function-features.go:10-12 *)
  | N_CPPFCPEntityIPAddress => SFields K_CPPFCPEntityIPAddress (* ie/cp-pfcp-entity-ip-address.go:13-22 *)
  | N_CreateBAR => SGroup (* ie/create-bar.go:8-10 *)
  | N_CreateBridgeInfoForTSC => SMask 0x01 (* ie/create-bridge-info-for-tsc.go:8-10 *)
  | N_CreateFAR => SGroup (* ie/create-far.go:8-10 *)
  | N_CreateMAR => SGroup (* ie/create-mar.go:8-10 *)
  | N_CreatePDR => SGroup (* ie/create-pdr.go:8-10 *)
  | N_CreateQER => SGroup (* ie/create-qer.go:8-10 *)
  | N_CreateSRR => SGroup (* ie/create-srr.go:8-10 *)
  | N_CreateTrafficEndpoint => SGroup (* ie/create-traffic-endpoint.go:8-10 *)
  | N_CreateURR => SGroup (* ie/create-urr.go:8-11 *)
  | N_CreatedBridgeInfoForTSC => SGroup (* ie/created-bridge-info-for-tsc.go:8-10 *)
  | N_CreatedPDR => SGroup (* ie/created-pdr.go:8-10 *)
  | N_CreatedTrafficEndpoint => SGroup (* ie/created-traffic-endpoint.go:8-10 *)
  | N_CumulativeRateRatioMeasurement => SUint 4 (* ie/cumulative-rate-ratio-measurement.go:8-10 *)
  | N_CumulativeRateRatioThreshold => SUint 4 (* ie/cumulative-rate-ratio-threshold.go:8-10 *)
  | N_DataNetworkAccessIdentifier => SString (* ie/data-network-access-identifier.go:8-10 *)
  | N_DataStatus => SUint 1 (* ie/data-status.go:8-10 *)
  | N_DeactivatePredefinedRules => SString (* ie/deactivate-predefined-rules.go:8-10 *)
  | N_DeactivationTime => STime (* ie/deactivation-time.go:12-15 *)
  | N_DestinationInterface => SUint 1 (* ie/destination-interface.go:18-20 *)
  | N_DLBufferingDuration => STimer (* ie/dl-buffering-duration.go:14-52 *)
  | N_DLBufferingSuggestedPacketCount => SSuggestedCount (* ie/dl-buffering-suggested-packet-count.go:13-18 *)
  | N_DLDataPacketsSize => SUint 2 (* ie/dl-data-packets-size.go:8-10 *)
  | N_DLFlowLevelMarking => SFields K_DLFlowLevelMarking (* ie/dl-flow-level-marking.go:13-21 *)
  | N_DownlinkDataNotificationDelay => S50ms (* ie/downlink-data-notification-delay.go:13-17 *)
  | N_DownlinkDataReport => SGroup (* ie/downlink-data-report.go:8-10 *)
  | N_DownlinkDataServiceInformation => SDownlinkData (* ie/downlink-data-service-information.go:12-24 *)
  | N_DroppedDLTrafficThreshold => SDroppedDL (* ie/dropped-dl-traffic-threshold.go:14-39 *)
  | N_DSTTPortNumber => SUint 4 (* ie/ds-tt-port-number.go:8-10 *)
  | N_DuplicatingParameters => SGroup (* ie/duplicating-parameters.go:8-10 *)
  | N_DurationMeasurement => SSecs32 (* ie/duration-measurement.go:16-18 *)
  | N_EndTime => STime (* ie/end-time.go:12-15 *)
  | N_ErrorIndicationReport => SGroup1 (* ie/error-indication-report.go:8-10 *)
  | N_EthernetContextInformation => SGroup1 (* ie/ethernet-context-information.go:8-10 *)
  | N_EthernetFilterID => SUint 4 (* ie/ethernet-filter-id.go:8-10 *)
  | N_EthernetFilterProperties => SUint 1 (* ie/ethernet-filter-properties.go:8-10 *)
  | N_EthernetInactivityTimer => SSecs32 (* ie/ethernet-inactivity-timer.go:16-18 *)
  | N_EthernetPacketFilter => SGroup (* ie/ethernet-packet-filter.go:8-10 *)
  | N_EthernetPDUSessionInformation => SUint 1 (* ie/ethernet-pdu-session-information.go:8-10 *)
  | N_EthernetTrafficInformation => SGroup (* ie/ethernet-traffic-information.go:8-10 *)
  | N_Ethertype => SUint 2 (* ie/ethertype.go:8-10 *)
  | N_EventQuota => SUint 4 (* ie/event-quota.go:8-10 *)
  | N_EventThreshold => SUint 4 (* ie/event-threshold.go:8-10 *)
  | N_EventTimeStamp => STime (* ie/event-time-stamp.go:12-15 *)
  | N_FSEID => SFields K_FSEID (* ie/f-seid.go:14-23 *)
  | N_FTEID => SFields K_FTEID (* ie/f-teid.go:15-24 *)
  | N_FailedRuleID => SFailedRuleID (* ie/failed-rule-id.go:22-39 *)
  | N_FARID => SUint 4 (* ie/far-id.go:8-10 *)
  | N_FlowInformation => SFlowInformation (* ie/flow-information.go:21-31 *)
  | N_ForwardingParameters => SGroup (* ie/forwarding-parameters.go:8-10 *)
  | N_ForwardingPolicy => SForwardingPolicy (* ie/forwarding-policy.go:10-18 *)
  | N_FQCSID => SFQCSID (* ie/fq-csid.go:22-52 *)
  | N_FramedIPv6Route => SString (* ie/framed-ipv6-route.go:8-10 *)
  | N_FramedRoute => SString (* ie/framed-route.go:8-10 *)
  | N_FramedRouting => SUint 4 (* ie/framed-routing.go:18-20 *)
  | N_GateStatus => SOcts [2; 0]%N (* ie/gate-status.go:14-16 *)
  | N_GBR => SRates (* ie/gbr.go:14-19 *)
  | N_GracefulReleasePeriod => STimer (* ie/graceful-release-period.go:14-52 *)
  | N_GTPUPathInterfaceType => SInts [1; 0]%N (* ie/gtp-u-path-interface-type.go:8-10 *)
  | N_GTPUPathQoSControlInformation => SGroup (* ie/gtp-u-path-qos-control-information.go:8-10 *)
  | N_GTPUPathQoSReport => SGroup (* ie/gtp-u-path-qos-report.go:8-10 *)
  | N_HeaderEnrichment => SFields K_HeaderEnrichment (* ie/header-enrichment.go:17-25 *)
  | N_InactivityDetectionTime => SUint 4 (* ie/inactivity-detection-time.go:8-10 *)
  | N_IPMulticastAddress => SFields K_IPMulticastAddress (* ie/ip-multicast-address.go:13-22 *)
  | N_IPMulticastAddressingInfo => SGroup (* ie/ip-multicast-addressing-info.go:8-10 *)
  | N_IPVersion => SIPVersion (* ie/ip-version.go:8-17 *)
  | N_JoinIPMulticastInformationWithinUsageReport => SGroup (* ie/join-ip-multicast-information.go:8-10 *)
  | N_LeaveIPMulticastInformationWithinUsageReport => SGroup (* ie/leave-ip-multicast-information.go:8-10 *)
  | N_LinkedURRID => SUint 4 (* ie/linked-urr-id.go:8-10 *)
  | N_LoadControlInformation => SGroup (* ie/load-control-information.go:8-10 *)
  | N_MACAddressesDetected => SFields K_MACAddressesDetected (* ie/mac-address-detected.go:13-22 *)
  | N_MACAddressesRemoved => SFields K_MACAddressesRemoved (* ie/mac-address-removed.go:13-22 *)
  | N_MACAddress => SFields K_MACAddress (* ie/mac-address.go:13-22 *)
  | N_MARID => SUint 2 (* ie/mar-id.go:8-10 *)
  | N_MaximumPacketDelay => SMillis (* ie/maximum-packet-delay.go:16-18 *)
  | N_MBR => SRates (* ie/mbr.go:14-19 *)
  | N_MeasurementInformation => SUint 1 (* ie/measurement-information.go:8-10 *)
  | N_MeasurementMethod => SInts [2; 1; 0]%N (* ie/measurement-method.go:8-10 *)
  | N_MeasurementPeriod => SSecs32 (* ie/measurement-period.go:16-18 *)
  | N_Metric => SUint 1 (* ie/metric.go:8-10 *)
  | N_MinimumPacketDelay => SMillis (* ie/minimum-packet-delay.go:16-18 *)
  | N_MinimumWaitTime => SSecs32 (* ie/minimum-wait-time.go:16-18 *)
  | N_MonitoringTime => STime (* ie/monitoring-time.go:12-15 *)
  | N_MPTCPAddressInformation => SFields K_MPTCPAddressInformation (* ie/mptcp-address-information.go:19-28 *)
  | N_MPTCPApplicableIndication => SUint 1 (* ie/mptcp-applicable-indication.go:8-10 *)
  | N_MPTCPControlInformation => SMask 0x01 (* ie/mptcp-control-information.go:8-10 *)
  | N_MPTCPParameters => SGroup (* ie/mptcp-parameters.go:8-10 *)
  | N_MTEDTControlInformation => SMask 0x01 (* ie/mt-edt-control-information.go:8-10 *)
  | N_Multiplier => SMultiplier (* ie/multiplier.go:13-19 *)
  | N_NetworkInstance => SString (* ie/network-instance.go:10-12 *)
  | N_NetworkInstanceFQDN => SFQDN (* ie/network-instance.go:16-18 *)
  | N_NFInstanceID => SNFInstanceID (* ie/nf-instance-id.go:12-14 *)
  | N_NodeID => SNodeID (* ie/node-id.go:26-47 *)
  | N_NodeIDHeuristic => SNodeIDHeuristic (* ie/node-id.go:50-74 *)
  | N_NodeReportType => SUint 1 (* ie/node-report-type.go:8-10 *)
  | N_NonTGPPAccessForwardingActionInformation => SGroup (* ie/non-3gpp-access-forwarding-action-information.go:8-10 *)
  | N_NumberOfReports => SUint 2 (* ie/number-of-reports.go:8-10 *)
  | N_NumberOfUEIPAddresses => SFields K_NumberOfUEIPAddresses (* ie/number-of-ue-ip-addresses.go:13-22 *)
  | N_NWTTPortNumber => SUint 4 (* ie/nw-tt-port-number.go:8-10 *)
  | N_OCIFlags => SUint 1 (* ie/oci-flags.go:8-10 *)
  | N_OffendingIE => SUint 2 (* ie/offending-ie.go:8-10 *)
  | N_OuterHeaderCreation => SFields K_OuterHeaderCreation (* ie/outer-header-creation.go:14-22 *)
  | N_OuterHeaderRemoval => SOuterHeaderRemoval (* ie/outer-header-removal.go:10-12 *)
  | N_OverloadControlInformation => SGroup (* ie/overload-control-information.go:8-10 *)
  | N_PacketDelayThresholds => SFields K_PacketDelayThresholds (* ie/packet-delay-thresholds.go:13-22 *)
  | N_PacketRateStatusReport => SGroup (* ie/packet-rate-status-report.go:8-10 *)
  | N_PacketRateStatusReportWithinSessionModificationResponse => SGroup (* ie/packet-rate-status-report.go:13-15 *)
  | N_PacketRateStatus => SFields K_PacketRateStatus (* ie/packet-rate-status.go:14-23 *)
  | N_PacketRate => SFields K_PacketRate (* ie/packet-rate.go:22-30 *)
  | N_PacketReplicationAndDetectionCarryOnInformation => SUint 1 (* ie/packet-replication-and-detection-carry-on-information.go:8-10 *)
  | N_PagingPolicyIndicator => SUint 1 (* ie/paging-policy-indicator.go:10-12 *)
  | N_PDI => SGroup (* ie/pdi.go:8-10 *)
  | N_PDNType => SUint 1 (* ie/pdn-type.go:18-20 *)
  | N_PDRID => SUint 2 (* ie/pdr-id.go:8-10 *)
  | N_PFCPAssociationReleaseRequest => SInts [0; 1]%N (* ie/pfcp-association-release-request.go:8-10 *)
  | N_PFCPSessionRetentionInformation => SGroup1 (* ie/pfcp-session-retention-information.go:8-10 *)
  | N_PFCPASReqFlags => SUint 1 (* ie/pfcpasreq-flags.go:8-10 *)
  | N_PFCPASRspFlags => SUint 1 (* ie/pfcpasrsp-flags.go:8-10 *)
  | N_PFCPAUReqFlags => SUint 1 (* ie/pfcpaureq-flags.go:8-10 *)
  | N_PFCPSEReqFlags => SUint 1 (* ie/pfcpsereq-flags.go:8-10 *)
  | N_PFCPSMReqFlags => SUint 1 (* ie/pfcpsmreq-flags.go:8-10 *)
  | N_PFCPSRReqFlags => SUint 1 (* ie/pfcpsrreq-flags.go:8-10 *)
  | N_PFCPSRRspFlags => SUint 1 (* ie/pfcpsrrsp-flags.go:8-10 *)
  | N_PFDContents => SFields K_PFDContents (* ie/pfd-contents.go:13-21 *)
  | N_PFDContext => SGroup (* ie/pfd-context.go:8-10 *)
  | N_PMFAddressInformation => SFields K_PMFAddressInformation (* ie/pmf-address-information.go:14-23 *)
  | N_PMFControlInformation => SMask 0x01 (* ie/pmf-control-information.go:8-10 *)
  | N_PMFParameters => SGroup1 (* ie/pmf-parameters.go:8-10 *)
  | N_PortManagementInformationContainer => SString (* ie/port-management-information-container.go:8-10 *)
  | N_Precedence => SUint 4 (* ie/precedence.go:8-10 *)
  | N_Priority => SMask 0x0f (* ie/priority.go:17-19 *)
  | N_ProvideATSSSControlInformation => SGroup (* ie/provide-atsss-control-information.go:8-10 *)
  | N_ProvideRDSConfigurationInformation => SGroup (* ie/provide-rds-configuration-information.go:8-10 *)
  | N_Proxying => SOcts [1; 0]%N (* ie/proxying.go:8-10 *)
  | N_QERControlIndications => SInts [2; 1; 0]%N (* ie/qer-control-indications.go:8-10 *)
  | N_QERCorrelationID => SUint 4 (* ie/qer-correlation-id.go:8-10 *)
  | N_QERID => SUint 4 (* ie/qer-id.go:8-10 *)
  | N_QFI => SUint 1 (* ie/qfi.go:10-12 *)
  | N_QoSInformationInGTPUPathQoSReport => SGroup (* ie/qos-information-in-gtp-u-path-qos-report.go:8-10 *)
  | N_QoSMonitoringMeasurement => SFields K_QoSMonitoringMeasurement (* ie/qos-monitoring-measurement.go:13-22 *)
  | N_QoSMonitoringPerQoSFlowControlInformation => SGroup (* ie/qos-monitoring-per-qos-flow-control-information.go:8-10 *)
  | N_QoSMonitoringReport => SGroup (* ie/qos-monitoring-report.go:8-10 *)
  | N_QoSReportTrigger => SInts [2; 1; 0]%N (* ie/qos-report-trigger.go:8-10 *)
  | N_QueryPacketRateStatusWithinSessionModificationRequest => SGroup (* ie/query-packet-rate-status.go:8-10 *)
  | N_QueryURRReference => SUint 4 (* ie/query-urr-reference.go:8-10 *)
  | N_QueryURR => SGroup1 (* ie/query-urr.go:8-10 *)
  | N_QuotaHoldingTime => SSecs32 (* ie/quota-holding-time.go:16-18 *)
  | N_QuotaValidityTime => SSecs32 (* ie/quota-validity-time.go:14-16 *)
  | N_RDSConfigurationInformation => SMask 0x01 (* ie/rds-configuration-information.go:8-10 *)
  | N_RecoveryTimeStamp => STime (* ie/recovery-time-stamp.go:12-15 *)
  | N_RedirectInformation => SFields K_RedirectInformation (* ie/redirect-information.go:13-22 *)
  | N_RedundantTransmissionForwardingParameters => SGroup (* ie/redundant-transmission-forwarding-parameters.go:8-10 *)
  | N_RedundantTransmissionParameters => SGroup (* ie/redundant-transmission-parameters.go:8-10 *)
  | N_RedundantTransmissionParametersInPDI => SGroup2 (* ie/redundant-transmission-parameters.go:13-15 *)
  | N_RedundantTransmissionParametersInFAR => SGroup2 (* ie/redundant-transmission-parameters.go:18-20 *)
  | N_RemoteGTPUPeer => SFields K_RemoteGTPUPeer (* ie/remote-gtp-u-peer.go:14-22 *)
  | N_RemoveBAR => SGroup1 (* ie/remove-bar.go:8-10 *)
  | N_RemoveFAR => SGroup1 (* ie/remove-far.go:8-10 *)
  | N_RemoveMAR => SGroup1 (* ie/remove-mar.go:8-10 *)
  | N_RemovePDR => SGroup1 (* ie/remove-pdr.go:8-10 *)
  | N_RemoveQER => SGroup1 (* ie/remove-qer.go:8-10 *)
  | N_RemoveSRR => SGroup1 (* ie/remove-srr.go:8-10 *)
  | N_RemoveTrafficEndpoint => SGroup1 (* ie/remove-traffic-endpoint.go:8-10 *)
  | N_RemoveURR => SGroup1 (* ie/remove-urr.go:8-10 *)
  | N_ReportType => SInts [3; 2; 1; 0]%N (* ie/report-type.go:8-10 *)
  | N_ReportingFrequency => SInts [2; 1; 0]%N (* ie/reporting-frequency.go:8-10 *)
  | N_ReportingTriggers => SOctets (* ie/reporting-triggers.go:12-14 *)
  | N_RequestedAccessAvailabilityInformation => SMask 0x01 (* ie/requested-access-availability-information.go:8-10 *)
  | N_RequestedClockDriftInformation => SOcts [1; 0]%N (* ie/requested-clock-drift-information.go:8-10 *)
  | N_RequestedQoSMonitoring => SInts [2; 1; 0]%N (* ie/requested-qos-monitoring.go:8-10 *)
  | N_RQI => SUint 1 (* ie/rqi.go:8-10 *)
  | N_SNSSAI => SSNSSAI (* ie/s-nssai.go:14-19 *)
  | N_STAG => SFields K_STAG (* ie/s-tag.go:13-22 *)
  | N_SDFFilter => SFields K_SDFFilter (* ie/sdf-filter.go:13-21 *)
  | N_SequenceNumber => SUint 4 (* ie/sequence-number.go:8-10 *)
  | N_SessionReport => SGroup (* ie/session-report.go:8-10 *)
  | N_SMFSetID => SFQDN (* ie/smf-set-id.go:8-10 *)
  | N_SourceInterface => SUint 1 (* ie/source-interface.go:17-19 *)
  | N_SourceIPAddress => SFields K_SourceIPAddress (* ie/source-ip-address.go:13-22 *)
  | N_SRRID => SUint 1 (* ie/srr-id.go:8-10 *)
  | N_StartTime => STime (* ie/start-time.go:12-15 *)
  | N_SteeringFunctionality => SMask 0x0f (* ie/steering-functionality.go:14-16 *)
  | N_SteeringMode => SMask 0x0f (* ie/steering-mode.go:16-18 *)
  | N_SubsequentEventQuota => SUint 4 (* ie/subsequent-event-quota.go:8-10 *)
  | N_SubsequentEventThreshold => SUint 4 (* ie/subsequent-event-threshold.go:8-10 *)
  | N_SubsequentTimeQuota => SSecs32 (* ie/subsequent-time-quota.go:15-17 *)
  | N_SubsequentTimeThreshold => SSecs32 (* ie/subsequent-time-threshold.go:14-16 *)
  | N_SubsequentVolumeQuota => SFields K_SubsequentVolumeQuota (* ie/subsequent-volume-quota.go:13-22 *)
  | N_SubsequentVolumeThreshold => SFields K_SubsequentVolumeThreshold (* ie/subsequent-volume-threshold.go:13-22 *)
  | N_SuggestedBufferingPacketsCount => SUint 1 (* ie/suggested-buffering-packets-count.go:8-10 *)
  | N_TGPPAccessForwardingActionInformation => SGroup (* ie/tgpp-access-forwarding-action-information.go:8-10 *)
  | N_TGPPInterfaceType => SUint 1 (* ie/tgpp-interface-type.go:35-37 *)
  | N_TimeOfFirstPacket => STime (* ie/time-of-first-packet.go:12-15 *)
  | N_TimeOfLastPacket => STime (* ie/time-of-last-packet.go:12-15 *)
  | N_TimeOffsetMeasurement => SNanos (* ie/time-offset-measurement.go:14-16 *)
  | N_TimeOffsetThreshold => SNanos (* ie/time-offset-threshold.go:14-16 *)
  | N_TimeQuotaMechanism => STimeQuotaMechanism (* ie/time-quota-mechanism.go:19-25 *)
  | N_TimeQuota => SSecs32 (* ie/time-quota.go:16-18 *)
  | N_TimeThreshold => SSecs32 (* ie/time-threshold.go:14-16 *)
  | N_Timer => STimer (* ie/timer.go:14-52 *)
  | N_TraceInformation => SFields K_TraceInformation (* ie/trace-information.go:15-24 *)
  | N_TrafficEndpointID => SUint 1 (* ie/traffic-endpoint-id.go:8-10 *)
  | N_TransportDelayReporting => SGroup (* ie/transport-delay-reporting.go:8-10 *)
  | N_TransportLevelMarking => SUint 2 (* ie/transport-level-marking.go:8-10 *)
  | N_TSCManagementInformation => SGroupT (* ie/tsc-management-information.go:8-10 *)
  | N_TSCManagementInformationWithinSessionModificationRequest => SGroup (* ie/tsc-management-information.go:13-15 *)
  | N_TSCManagementInformationWithinSessionModificationResponse => SGroup (* ie/tsc-management-information.go:18-20 *)
  | N_TSCManagementInformationWithinSessionReportRequest => SGroup (* ie/tsc-management-information.go:23-25 *)
  | N_PortManagementInformationForTSC => SGroupT1 (* ie/tsc-management-information.go:41-43 *)
  | N_PortManagementInformationForTSCWithinSessionModificationRequest => SGroup1 (* ie/tsc-management-information.go:46-48 *)
  | N_PortManagementInformationForTSCWithinSessionModificationResponse => SGroup1 (* ie/tsc-management-information.go:51-53 *)
  | N_PortManagementInformationForTSCWithinSessionReportRequest => SGroup1 (* ie/tsc-management-information.go:56-58 *)
  | N_TSNBridgeID => STSNBridgeID (* ie/tsn-bridge-id.go:13-22 *)
  | N_TSNTimeDomainNumber => SUint 1 (* ie/tsn-time-domain-number.go:8-10 *)
  | N_UEIPAddressPoolIdentity => SPoolIdentity (* ie/ue-ip-address-pool-identity.go:13-21 *)
  | N_UEIPAddressPoolInformation => SGroup (* ie/ue-ip-address-pool-information.go:8-10 *)
  | N_UEIPAddressUsageInformation => SGroup (* ie/ue-ip-address-usage-information.go:8-10 *)
  | N_UEIPAddress => SFields K_UEIPAddress (* ie/ue-ip-address.go:13-21 *)
  | N_UELinkSpecificIPAddress => SFields K_UELinkSpecificIPAddress (* ie/ue-link-specific-ip-address.go:13-22 *)
  | N_UPFunctionFeatures => SUPFeatures (* ie/up-function-features.go:10-27 *)
  | N_UpdateTGPPAccessForwardingActionInformation => SGroup (* ie/update-3gpp-access-forwarding-action-information.go:8-10 *)
  | N_UpdateBAR => SGroupT (* ie/update-bar.go:8-10 *)
  | N_UpdateBARWithinSessionModificationRequest => SGroup (* ie/update-bar.go:13-15 *)
  | N_UpdateBARWithinSessionReportResponse => SGroup (* ie/update-bar.go:18-20 *)
  | N_UpdateDuplicatingParameters => SGroup (* ie/update-duplicating-parameters.go:8-10 *)
  | N_UpdateFAR => SGroup (* ie/update-far.go:8-10 *)
  | N_UpdateForwardingParameters => SGroup (* ie/update-forwarding-parameters.go:8-10 *)
  | N_UpdateMAR => SGroup (* ie/update-mar.go:8-10 *)
  | N_UpdateNonTGPPAccessForwardingActionInformation => SGroup (* ie/update-non-3gpp-access-forwarding-action-information.go:8-10 *)
  | N_UpdatePDR => SGroup (* ie/update-pdr.go:8-10 *)
  | N_UpdateQER => SGroup (* ie/update-qer.go:8-10 *)
  | N_UpdateSRR => SGroup (* ie/update-srr.go:8-10 *)
  | N_UpdateTrafficEndpoint => SGroup (* ie/update-traffic-endpoint.go:8-10 *)
  | N_UpdateURR => SGroup (* ie/update-urr.go:8-11 *)
  | N_UpdatedPDR => SGroup (* ie/updated-pdr.go:8-10 *)
  | N_URSEQN => SUint 4 (* ie/ur-seqn.go:8-10 *)
  | N_URRID => SUint 4 (* ie/urr-id.go:8-10 *)
  | N_UsageInformation => SInts [0; 1; 2; 3]%N (* ie/usage-information.go:8-10 *)
  | N_UsageReportTrigger => SOctets (* ie/usage-report-trigger.go:12-14 *)
  | N_UsageReport => SGroupT (* ie/usage-report.go:8-10 *)
  | N_UsageReportWithinSessionModificationResponse => SGroup (* ie/usage-report.go:13-15 *)
  | N_UsageReportWithinSessionDeletionResponse => SGroup (* ie/usage-report.go:18-20 *)
  | N_UsageReportWithinSessionReportRequest => SGroup (* ie/usage-report.go:23-25 *)
  | N_UserID => SFields K_UserID (* ie/user-id.go:14-23 *)
  | N_UserPlaneInactivityTimer => SSecs32 (* ie/user-plane-inactivity-timer.go:16-18 *)
  | N_UserPlaneIPResourceInformation => SFields K_UserPlaneIPResourceInformation (* ie/user-plane-ip-resource-information.go:13-21 *)
  | N_UserPlanePathFailureReport => SGroup1 (* ie/user-plane-path-failure-report.go:8-10 *)
  | N_UserPlanePathRecoveryReport => SGroup1 (* ie/user-plane-path-recovery-report.go:8-10 *)
  | N_ValidityTimer => SSecs16 (* ie/validity-timer.go:16-18 *)
  | N_VolumeMeasurement => SFields K_VolumeMeasurement (* ie/volume-measurement.go:13-22 *)
  | N_VolumeQuota => SFields K_VolumeQuota (* ie/volume-quota.go:13-22 *)
  | N_VolumeThreshold => SFields K_VolumeThreshold (* ie/volume-threshold.go:13-22 *)
  | N_Weight => SUint 1 (* ie/weight.go:8-10 *)
  end.

(** the accessor named after the constructor: the longest accessor name the constructor name begins with *)
Definition con_reader (c : con) : acc :=
  match c with
  | N_AccessAvailabilityControlInformation => A_AccessAvailabilityControlInformation
  | N_AccessAvailabilityInformation => A_AccessAvailabilityInformation
  | N_AccessAvailabilityReport => A_AccessAvailabilityReport
  | N_ActivatePredefinedRules => A_ActivatePredefinedRules
  | N_ActivationTime => A_ActivationTime
  | N_AdditionalMonitoringTime => A_AdditionalMonitoringTime
  | N_AdditionalUsageReportsInformation => A_AdditionalUsageReportsInformation
  | N_AggregatedURRID => A_AggregatedURRID
  | N_AggregatedURRs => A_AggregatedURRs
  | N_AlternativeSMFIPAddress => A_AlternativeSMFIPAddress
  | N_APNDNN => A_APNDNN
  | N_ApplicationDetectionInformation => A_ApplicationDetectionInformation
  | N_ApplicationID => A_ApplicationID
  | N_ApplicationIDsPFDs => A_ApplicationIDsPFDs
  | N_ApplicationInstanceID => A_ApplicationInstanceID
  | N_ApplyAction => A_ApplyAction
  | N_ATSSSControlParameters => A_ATSSSControlParameters
  | N_ATSSSLLControlInformation => A_ATSSSLLControlInformation
  | N_ATSSSLLInformation => A_ATSSSLLInformation
  | N_ATSSSLLParameters => A_ATSSSLLParameters
  | N_AveragePacketDelay => A_AveragePacketDelay
  | N_AveragingWindow => A_AveragingWindow
  | N_BARID => A_BARID
  | N_BridgeManagementInformationContainer => A_BridgeManagementInformationContainer
  | N_CTAG => A_CTAG
  | N_Cause => A_Cause
  | N_ClockDriftControlInformation => A_ClockDriftControlInformation
  | N_ClockDriftReport => A_ClockDriftReport
  | N_CPFunctionFeatures => A_CPFunctionFeatures
  | N_CPPFCPEntityIPAddress => A_CPPFCPEntityIPAddress
  | N_CreateBAR => A_CreateBAR
  | N_CreateBridgeInfoForTSC => A_CreateBridgeInfoForTSC
  | N_CreateFAR => A_CreateFAR
  | N_CreateMAR => A_CreateMAR
  | N_CreatePDR => A_CreatePDR
  | N_CreateQER => A_CreateQER
  | N_CreateSRR => A_CreateSRR
  | N_CreateTrafficEndpoint => A_CreateTrafficEndpoint
  | N_CreateURR => A_CreateURR
  | N_CreatedBridgeInfoForTSC => A_CreatedBridgeInfoForTSC
  | N_CreatedPDR => A_CreatedPDR
  | N_CreatedTrafficEndpoint => A_CreatedTrafficEndpoint
  | N_CumulativeRateRatioMeasurement => A_CumulativeRateRatioMeasurement
  | N_CumulativeRateRatioThreshold => A_CumulativeRateRatioThreshold
  | N_DataNetworkAccessIdentifier => A_DataNetworkAccessIdentifier
  | N_DataStatus => A_DataStatus
  | N_DeactivatePredefinedRules => A_DeactivatePredefinedRules
  | N_DeactivationTime => A_DeactivationTime
  | N_DestinationInterface => A_DestinationInterface
  | N_DLBufferingDuration => A_DLBufferingDuration
  | N_DLBufferingSuggestedPacketCount => A_DLBufferingSuggestedPacketCount
  | N_DLDataPacketsSize => A_DLDataPacketsSize
  | N_DLFlowLevelMarking => A_DLFlowLevelMarking
  | N_DownlinkDataNotificationDelay => A_DownlinkDataNotificationDelay
  | N_DownlinkDataReport => A_DownlinkDataReport
  | N_DownlinkDataServiceInformation => A_DownlinkDataServiceInformation
  | N_DroppedDLTrafficThreshold => A_DroppedDLTrafficThreshold
  | N_DSTTPortNumber => A_DSTTPortNumber
  | N_DuplicatingParameters => A_DuplicatingParameters
  | N_DurationMeasurement => A_DurationMeasurement
  | N_EndTime => A_EndTime
  | N_ErrorIndicationReport => A_ErrorIndicationReport
  | N_EthernetContextInformation => A_EthernetContextInformation
  | N_EthernetFilterID => A_EthernetFilterID
  | N_EthernetFilterProperties => A_EthernetFilterProperties
  | N_EthernetInactivityTimer => A_EthernetInactivityTimer
  | N_EthernetPacketFilter => A_EthernetPacketFilter
  | N_EthernetPDUSessionInformation => A_EthernetPDUSessionInformation
  | N_EthernetTrafficInformation => A_EthernetTrafficInformation
  | N_Ethertype => A_Ethertype
  | N_EventQuota => A_EventQuota
  | N_EventThreshold => A_EventThreshold
  | N_EventTimeStamp => A_EventTimeStamp
  | N_FSEID => A_FSEID
  | N_FTEID => A_FTEID
  | N_FailedRuleID => A_FailedRuleID
  | N_FARID => A_FARID
  | N_FlowInformation => A_FlowInformation
  | N_ForwardingParameters => A_ForwardingParameters
  | N_ForwardingPolicy => A_ForwardingPolicy
  | N_FQCSID => A_FQCSID
  | N_FramedIPv6Route => A_FramedIPv6Route
  | N_FramedRoute => A_FramedRoute
  | N_FramedRouting => A_FramedRouting
  | N_GateStatus => A_GateStatus
  | N_GBR => A_GBR
  | N_GracefulReleasePeriod => A_GracefulReleasePeriod
  | N_GTPUPathInterfaceType => A_GTPUPathInterfaceType
  | N_GTPUPathQoSControlInformation => A_GTPUPathQoSControlInformation
  | N_GTPUPathQoSReport => A_GTPUPathQoSReport
  | N_HeaderEnrichment => A_HeaderEnrichment
  | N_InactivityDetectionTime => A_InactivityDetectionTime
  | N_IPMulticastAddress => A_IPMulticastAddress
  | N_IPMulticastAddressingInfo => A_IPMulticastAddressingInfo
  | N_IPVersion => A_IPVersion
  | N_JoinIPMulticastInformationWithinUsageReport => A_JoinIPMulticastInformationWithinUsageReport
  | N_LeaveIPMulticastInformationWithinUsageReport => A_LeaveIPMulticastInformationWithinUsageReport
  | N_LinkedURRID => A_LinkedURRID
  | N_LoadControlInformation => A_LoadControlInformation
  | N_MACAddressesDetected => A_MACAddressesDetected
  | N_MACAddressesRemoved => A_MACAddressesRemoved
  | N_MACAddress => A_MACAddress
  | N_MARID => A_MARID
  | N_MaximumPacketDelay => A_MaximumPacketDelay
  | N_MBR => A_MBR
  | N_MeasurementInformation => A_MeasurementInformation
  | N_MeasurementMethod => A_MeasurementMethod
  | N_MeasurementPeriod => A_MeasurementPeriod
  | N_Metric => A_Metric
  | N_MinimumPacketDelay => A_MinimumPacketDelay
  | N_MinimumWaitTime => A_MinimumWaitTime
  | N_MonitoringTime => A_MonitoringTime
  | N_MPTCPAddressInformation => A_MPTCPAddressInformation
  | N_MPTCPApplicableIndication => A_MPTCPApplicableIndication
  | N_MPTCPControlInformation => A_MPTCPControlInformation
  | N_MPTCPParameters => A_MPTCPParameters
  | N_MTEDTControlInformation => A_MTEDTControlInformation
  | N_Multiplier => A_Multiplier
  | N_NetworkInstance => A_NetworkInstance
  | N_NetworkInstanceFQDN => A_NetworkInstanceFQDN
  | N_NFInstanceID => A_NFInstanceID
  | N_NodeID => A_NodeID
  | N_NodeIDHeuristic => A_NodeID
  | N_NodeReportType => A_NodeReportType
  | N_NonTGPPAccessForwardingActionInformation => A_NonTGPPAccessForwardingActionInformation
  | N_NumberOfReports => A_NumberOfReports
  | N_NumberOfUEIPAddresses => A_NumberOfUEIPAddresses
  | N_NWTTPortNumber => A_NWTTPortNumber
  | N_OCIFlags => A_OCIFlags
  | N_OffendingIE => A_OffendingIE
  | N_OuterHeaderCreation => A_OuterHeaderCreation
  | N_OuterHeaderRemoval => A_OuterHeaderRemoval
  | N_OverloadControlInformation => A_OverloadControlInformation
  | N_PacketDelayThresholds => A_PacketDelayThresholds
  | N_PacketRateStatusReport => A_PacketRateStatusReport
  | N_PacketRateStatusReportWithinSessionModificationResponse => A_PacketRateStatusReport
  | N_PacketRateStatus => A_PacketRateStatus
  | N_PacketRate => A_PacketRate
  | N_PacketReplicationAndDetectionCarryOnInformation => A_PacketReplicationAndDetectionCarryOnInformation
  | N_PagingPolicyIndicator => A_PagingPolicyIndicator
  | N_PDI => A_PDI
  | N_PDNType => A_PDNType
  | N_PDRID => A_PDRID
  | N_PFCPAssociationReleaseRequest => A_PFCPAssociationReleaseRequest
  | N_PFCPSessionRetentionInformation => A_PFCPSessionRetentionInformation
  | N_PFCPASReqFlags => A_PFCPASReqFlags
  | N_PFCPASRspFlags => A_PFCPASRspFlags
  | N_PFCPAUReqFlags => A_PFCPAUReqFlags
  | N_PFCPSEReqFlags => A_PFCPSEReqFlags
  | N_PFCPSMReqFlags => A_PFCPSMReqFlags
  | N_PFCPSRReqFlags => A_PFCPSRReqFlags
  | N_PFCPSRRspFlags => A_PFCPSRRspFlags
  | N_PFDContents => A_PFDContents
  | N_PFDContext => A_PFDContext
  | N_PMFAddressInformation => A_PMFAddressInformation
  | N_PMFControlInformation => A_PMFControlInformation
  | N_PMFParameters => A_PMFParameters
  | N_PortManagementInformationContainer => A_PortManagementInformationContainer
  | N_Precedence => A_Precedence
  | N_Priority => A_Priority
  | N_ProvideATSSSControlInformation => A_ProvideATSSSControlInformation
  | N_ProvideRDSConfigurationInformation => A_ProvideRDSConfigurationInformation
  | N_Proxying => A_Proxying
  | N_QERControlIndications => A_QERControlIndications
  | N_QERCorrelationID => A_QERCorrelationID
  | N_QERID => A_QERID
  | N_QFI => A_QFI
  | N_QoSInformationInGTPUPathQoSReport => A_QoSInformationInGTPUPathQoSReport
  | N_QoSMonitoringMeasurement => A_QoSMonitoringMeasurement
  | N_QoSMonitoringPerQoSFlowControlInformation => A_QoSMonitoringPerQoSFlowControlInformation
  | N_QoSMonitoringReport => A_QoSMonitoringReport
  | N_QoSReportTrigger => A_QoSReportTrigger
  | N_QueryPacketRateStatusWithinSessionModificationRequest => A_QueryPacketRateStatus
  | N_QueryURRReference => A_QueryURRReference
  | N_QueryURR => A_QueryURR
  | N_QuotaHoldingTime => A_QuotaHoldingTime
  | N_QuotaValidityTime => A_QuotaValidityTime
  | N_RDSConfigurationInformation => A_RDSConfigurationInformation
  | N_RecoveryTimeStamp => A_RecoveryTimeStamp
  | N_RedirectInformation => A_RedirectInformation
  | N_RedundantTransmissionForwardingParameters => A_RedundantTransmissionForwardingParameters
  | N_RedundantTransmissionParameters => A_RedundantTransmissionParameters
  | N_RedundantTransmissionParametersInPDI => A_RedundantTransmissionParameters
  | N_RedundantTransmissionParametersInFAR => A_RedundantTransmissionParameters
  | N_RemoteGTPUPeer => A_RemoteGTPUPeer
  | N_RemoveBAR => A_RemoveBAR
  | N_RemoveFAR => A_RemoveFAR
  | N_RemoveMAR => A_RemoveMAR
  | N_RemovePDR => A_RemovePDR
  | N_RemoveQER => A_RemoveQER
  | N_RemoveSRR => A_RemoveSRR
  | N_RemoveTrafficEndpoint => A_RemoveTrafficEndpoint
  | N_RemoveURR => A_RemoveURR
  | N_ReportType => A_ReportType
  | N_ReportingFrequency => A_ReportingFrequency
  | N_ReportingTriggers => A_ReportingTriggers
  | N_RequestedAccessAvailabilityInformation => A_RequestedAccessAvailabilityInformation
  | N_RequestedClockDriftInformation => A_RequestedClockDriftInformation
  | N_RequestedQoSMonitoring => A_RequestedQoSMonitoring
  | N_RQI => A_RQI
  | N_SNSSAI => A_SNSSAI
  | N_STAG => A_STAG
  | N_SDFFilter => A_SDFFilter
  | N_SequenceNumber => A_SequenceNumber
  | N_SessionReport => A_SessionReport
  | N_SMFSetID => A_SMFSetID
  | N_SourceInterface => A_SourceInterface
  | N_SourceIPAddress => A_SourceIPAddress
  | N_SRRID => A_SRRID
  | N_StartTime => A_StartTime
  | N_SteeringFunctionality => A_SteeringFunctionality
  | N_SteeringMode => A_SteeringMode
  | N_SubsequentEventQuota => A_SubsequentEventQuota
  | N_SubsequentEventThreshold => A_SubsequentEventThreshold
  | N_SubsequentTimeQuota => A_SubsequentTimeQuota
  | N_SubsequentTimeThreshold => A_SubsequentTimeThreshold
  | N_SubsequentVolumeQuota => A_SubsequentVolumeQuota
  | N_SubsequentVolumeThreshold => A_SubsequentVolumeThreshold
  | N_SuggestedBufferingPacketsCount => A_SuggestedBufferingPacketsCount
  | N_TGPPAccessForwardingActionInformation => A_TGPPAccessForwardingActionInformation
  | N_TGPPInterfaceType => A_TGPPInterfaceType
  | N_TimeOfFirstPacket => A_TimeOfFirstPacket
  | N_TimeOfLastPacket => A_TimeOfLastPacket
  | N_TimeOffsetMeasurement => A_TimeOffsetMeasurement
  | N_TimeOffsetThreshold => A_TimeOffsetThreshold
  | N_TimeQuotaMechanism => A_TimeQuotaMechanism
  | N_TimeQuota => A_TimeQuota
  | N_TimeThreshold => A_TimeThreshold
  | N_Timer => A_Timer
  | N_TraceInformation => A_TraceInformation
  | N_TrafficEndpointID => A_TrafficEndpointID
  | N_TransportDelayReporting => A_TransportDelayReporting
  | N_TransportLevelMarking => A_TransportLevelMarking
  | N_TSCManagementInformation => A_TSCManagementInformation
  | N_TSCManagementInformationWithinSessionModificationRequest => A_TSCManagementInformation
  | N_TSCManagementInformationWithinSessionModificationResponse => A_TSCManagementInformation
  | N_TSCManagementInformationWithinSessionReportRequest => A_TSCManagementInformation
  | N_PortManagementInformationForTSC => A_PortManagementInformationForTSC
  | N_PortManagementInformationForTSCWithinSessionModificationRequest => A_PortManagementInformationForTSC
  | N_PortManagementInformationForTSCWithinSessionModificationResponse => A_PortManagementInformationForTSC
  | N_PortManagementInformationForTSCWithinSessionReportRequest => A_PortManagementInformationForTSC
  | N_TSNBridgeID => A_TSNBridgeID
  | N_TSNTimeDomainNumber => A_TSNTimeDomainNumber
  | N_UEIPAddressPoolIdentity => A_UEIPAddressPoolIdentity
  | N_UEIPAddressPoolInformation => A_UEIPAddressPoolInformation
  | N_UEIPAddressUsageInformation => A_UEIPAddressUsageInformation
  | N_UEIPAddress => A_UEIPAddress
  | N_UELinkSpecificIPAddress => A_UELinkSpecificIPAddress
  | N_UPFunctionFeatures => A_UPFunctionFeatures
  | N_UpdateTGPPAccessForwardingActionInformation => A_UpdateTGPPAccessForwardingActionInformation
  | N_UpdateBAR => A_UpdateBAR
  | N_UpdateBARWithinSessionModificationRequest => A_UpdateBAR
  | N_UpdateBARWithinSessionReportResponse => A_UpdateBAR
  | N_UpdateDuplicatingParameters => A_UpdateDuplicatingParameters
  | N_UpdateFAR => A_UpdateFAR
  | N_UpdateForwardingParameters => A_UpdateForwardingParameters
  | N_UpdateMAR => A_UpdateMAR
  | N_UpdateNonTGPPAccessForwardingActionInformation => A_UpdateNonTGPPAccessForwardingActionInformation
  | N_UpdatePDR => A_UpdatePDR
  | N_UpdateQER => A_UpdateQER
  | N_UpdateSRR => A_UpdateSRR
  | N_UpdateTrafficEndpoint => A_UpdateTrafficEndpoint
  | N_UpdateURR => A_UpdateURR
  | N_UpdatedPDR => A_UpdatedPDR
  | N_URSEQN => A_URSEQN
  | N_URRID => A_URRID
  | N_UsageInformation => A_UsageInformation
  | N_UsageReportTrigger => A_UsageReportTrigger
  | N_UsageReport => A_UsageReport
  | N_UsageReportWithinSessionModificationResponse => A_UsageReport
  | N_UsageReportWithinSessionDeletionResponse => A_UsageReport
  | N_UsageReportWithinSessionReportRequest => A_UsageReport
  | N_UserID => A_UserID
  | N_UserPlaneInactivityTimer => A_UserPlaneInactivityTimer
  | N_UserPlaneIPResourceInformation => A_UserPlaneIPResourceInformation
  | N_UserPlanePathFailureReport => A_UserPlanePathFailureReport
  | N_UserPlanePathRecoveryReport => A_UserPlanePathRecoveryReport
  | N_ValidityTimer => A_ValidityTimer
  | N_VolumeMeasurement => A_VolumeMeasurement
  | N_VolumeQuota => A_VolumeQuota
  | N_VolumeThreshold => A_VolumeThreshold
  | N_Weight => A_Weight
  end.

(** the bool methods named after the parameters, for the constructors that pack one-bit parameters into an octet *)
Definition con_flags (c : con) : list flag :=
  match c with
  | N_ATSSSLLControlInformation => [B_HasLLI]
  | N_ATSSSLLInformation => [B_HasLLI]
  | N_CreateBridgeInfoForTSC => [B_HasBII]
  | N_GTPUPathInterfaceType => [B_HasN3; B_HasN9]
  | N_MeasurementMethod => [B_HasEVENT; B_HasVOLUM; B_HasDURAT]
  | N_MPTCPControlInformation => [B_HasTCI]
  | N_MTEDTControlInformation => [B_HasRDSI]
  | N_PFCPAssociationReleaseRequest => [B_HasSARR; B_HasURSS]
  | N_PMFControlInformation => [B_HasPMFI]
  | N_Proxying => [B_HasINS; B_HasARP]
  | N_QERControlIndications => [B_HasNORD; B_HasMODE; B_HasRCSR]
  | N_QoSReportTrigger => [B_HasIRE; B_HasTHR; B_HasPER]
  | N_RDSConfigurationInformation => [B_HasRDS]
  | N_ReportType => [B_HasUPIR; B_HasERIR; B_HasUSAR; B_HasDLDR]
  | N_ReportingFrequency => [B_HasSESRL; B_HasPERIO; B_HasEVETT]
  | N_RequestedAccessAvailabilityInformation => [B_HasRRCA]
  | N_RequestedClockDriftInformation => [B_HasRRCR; B_HasRRTO]
  | N_RequestedQoSMonitoring => [B_HasRP; B_HasUL; B_HasDL]
  | N_UsageInformation => [B_HasBEF; B_HasAFT; B_HasUAE; B_HasUBE]
  | _ => []
  end.

Definition all_cons : list con :=
  [N_AccessAvailabilityControlInformation;
   N_AccessAvailabilityInformation;
   N_AccessAvailabilityReport;
   N_ActivatePredefinedRules;
   N_ActivationTime;
   N_AdditionalMonitoringTime;
   N_AdditionalUsageReportsInformation;
   N_AggregatedURRID;
   N_AggregatedURRs;
   N_AlternativeSMFIPAddress;
   N_APNDNN;
   N_ApplicationDetectionInformation;
   N_ApplicationID;
   N_ApplicationIDsPFDs;
   N_ApplicationInstanceID;
   N_ApplyAction;
   N_ATSSSControlParameters;
   N_ATSSSLLControlInformation;
   N_ATSSSLLInformation;
   N_ATSSSLLParameters;
   N_AveragePacketDelay;
   N_AveragingWindow;
   N_BARID;
   N_BridgeManagementInformationContainer;
   N_CTAG;
   N_Cause;
   N_ClockDriftControlInformation;
   N_ClockDriftReport;
   N_CPFunctionFeatures;
   N_CPPFCPEntityIPAddress;
   N_CreateBAR;
   N_CreateBridgeInfoForTSC;
   N_CreateFAR;
   N_CreateMAR;
   N_CreatePDR;
   N_CreateQER;
   N_CreateSRR;
   N_CreateTrafficEndpoint;
   N_CreateURR;
   N_CreatedBridgeInfoForTSC;
   N_CreatedPDR;
   N_CreatedTrafficEndpoint;
   N_CumulativeRateRatioMeasurement;
   N_CumulativeRateRatioThreshold;
   N_DataNetworkAccessIdentifier;
   N_DataStatus;
   N_DeactivatePredefinedRules;
   N_DeactivationTime;
   N_DestinationInterface;
   N_DLBufferingDuration;
   N_DLBufferingSuggestedPacketCount;
   N_DLDataPacketsSize;
   N_DLFlowLevelMarking;
   N_DownlinkDataNotificationDelay;
   N_DownlinkDataReport;
   N_DownlinkDataServiceInformation;
   N_DroppedDLTrafficThreshold;
   N_DSTTPortNumber;
   N_DuplicatingParameters;
   N_DurationMeasurement;
   N_EndTime;
   N_ErrorIndicationReport;
   N_EthernetContextInformation;
   N_EthernetFilterID;
   N_EthernetFilterProperties;
   N_EthernetInactivityTimer;
   N_EthernetPacketFilter;
   N_EthernetPDUSessionInformation;
   N_EthernetTrafficInformation;
   N_Ethertype;
   N_EventQuota;
   N_EventThreshold;
   N_EventTimeStamp;
   N_FSEID;
   N_FTEID;
   N_FailedRuleID;
   N_FARID;
   N_FlowInformation;
   N_ForwardingParameters;
   N_ForwardingPolicy;
   N_FQCSID;
   N_FramedIPv6Route;
   N_FramedRoute;
   N_FramedRouting;
   N_GateStatus;
   N_GBR;
   N_GracefulReleasePeriod;
   N_GTPUPathInterfaceType;
   N_GTPUPathQoSControlInformation;
   N_GTPUPathQoSReport;
   N_HeaderEnrichment;
   N_InactivityDetectionTime;
   N_IPMulticastAddress;
   N_IPMulticastAddressingInfo;
   N_IPVersion;
   N_JoinIPMulticastInformationWithinUsageReport;
   N_LeaveIPMulticastInformationWithinUsageReport;
   N_LinkedURRID;
   N_LoadControlInformation;
   N_MACAddressesDetected;
   N_MACAddressesRemoved;
   N_MACAddress;
   N_MARID;
   N_MaximumPacketDelay;
   N_MBR;
   N_MeasurementInformation;
   N_MeasurementMethod;
   N_MeasurementPeriod;
   N_Metric;
   N_MinimumPacketDelay;
   N_MinimumWaitTime;
   N_MonitoringTime;
   N_MPTCPAddressInformation;
   N_MPTCPApplicableIndication;
   N_MPTCPControlInformation;
   N_MPTCPParameters;
   N_MTEDTControlInformation;
   N_Multiplier;
   N_NetworkInstance;
   N_NetworkInstanceFQDN;
   N_NFInstanceID;
   N_NodeID;
   N_NodeIDHeuristic;
   N_NodeReportType;
   N_NonTGPPAccessForwardingActionInformation;
   N_NumberOfReports;
   N_NumberOfUEIPAddresses;
   N_NWTTPortNumber;
   N_OCIFlags;
   N_OffendingIE;
   N_OuterHeaderCreation;
   N_OuterHeaderRemoval;
   N_OverloadControlInformation;
   N_PacketDelayThresholds;
   N_PacketRateStatusReport;
   N_PacketRateStatusReportWithinSessionModificationResponse;
   N_PacketRateStatus;
   N_PacketRate;
   N_PacketReplicationAndDetectionCarryOnInformation;
   N_PagingPolicyIndicator;
   N_PDI;
   N_PDNType;
   N_PDRID;
   N_PFCPAssociationReleaseRequest;
   N_PFCPSessionRetentionInformation;
   N_PFCPASReqFlags;
   N_PFCPASRspFlags;
   N_PFCPAUReqFlags;
   N_PFCPSEReqFlags;
   N_PFCPSMReqFlags;
   N_PFCPSRReqFlags;
   N_PFCPSRRspFlags;
   N_PFDContents;
   N_PFDContext;
   N_PMFAddressInformation;
   N_PMFControlInformation;
   N_PMFParameters;
   N_PortManagementInformationContainer;
   N_Precedence;
   N_Priority;
   N_ProvideATSSSControlInformation;
   N_ProvideRDSConfigurationInformation;
   N_Proxying;
   N_QERControlIndications;
   N_QERCorrelationID;
   N_QERID;
   N_QFI;
   N_QoSInformationInGTPUPathQoSReport;
   N_QoSMonitoringMeasurement;
   N_QoSMonitoringPerQoSFlowControlInformation;
   N_QoSMonitoringReport;
   N_QoSReportTrigger;
   N_QueryPacketRateStatusWithinSessionModificationRequest;
   N_QueryURRReference;
   N_QueryURR;
   N_QuotaHoldingTime;
   N_QuotaValidityTime;
   N_RDSConfigurationInformation;
   N_RecoveryTimeStamp;
   N_RedirectInformation;
   N_RedundantTransmissionForwardingParameters;
   N_RedundantTransmissionParameters;
   N_RedundantTransmissionParametersInPDI;
   N_RedundantTransmissionParametersInFAR;
   N_RemoteGTPUPeer;
   N_RemoveBAR;
   N_RemoveFAR;
   N_RemoveMAR;
   N_RemovePDR;
   N_RemoveQER;
   N_RemoveSRR;
   N_RemoveTrafficEndpoint;
   N_RemoveURR;
   N_ReportType;
   N_ReportingFrequency;
   N_ReportingTriggers;
   N_RequestedAccessAvailabilityInformation;
   N_RequestedClockDriftInformation;
   N_RequestedQoSMonitoring;
   N_RQI;
   N_SNSSAI;
   N_STAG;
   N_SDFFilter;
   N_SequenceNumber;
   N_SessionReport;
   N_SMFSetID;
   N_SourceInterface;
   N_SourceIPAddress;
   N_SRRID;
   N_StartTime;
   N_SteeringFunctionality;
   N_SteeringMode;
   N_SubsequentEventQuota;
   N_SubsequentEventThreshold;
   N_SubsequentTimeQuota;
   N_SubsequentTimeThreshold;
   N_SubsequentVolumeQuota;
   N_SubsequentVolumeThreshold;
   N_SuggestedBufferingPacketsCount;
   N_TGPPAccessForwardingActionInformation;
   N_TGPPInterfaceType;
   N_TimeOfFirstPacket;
   N_TimeOfLastPacket;
   N_TimeOffsetMeasurement;
   N_TimeOffsetThreshold;
   N_TimeQuotaMechanism;
   N_TimeQuota;
   N_TimeThreshold;
   N_Timer;
   N_TraceInformation;
   N_TrafficEndpointID;
   N_TransportDelayReporting;
   N_TransportLevelMarking;
   N_TSCManagementInformation;
   N_TSCManagementInformationWithinSessionModificationRequest;
   N_TSCManagementInformationWithinSessionModificationResponse;
   N_TSCManagementInformationWithinSessionReportRequest;
   N_PortManagementInformationForTSC;
   N_PortManagementInformationForTSCWithinSessionModificationRequest;
   N_PortManagementInformationForTSCWithinSessionModificationResponse;
   N_PortManagementInformationForTSCWithinSessionReportRequest;
   N_TSNBridgeID;
   N_TSNTimeDomainNumber;
   N_UEIPAddressPoolIdentity;
   N_UEIPAddressPoolInformation;
   N_UEIPAddressUsageInformation;
   N_UEIPAddress;
   N_UELinkSpecificIPAddress;
   N_UPFunctionFeatures;
   N_UpdateTGPPAccessForwardingActionInformation;
   N_UpdateBAR;
   N_UpdateBARWithinSessionModificationRequest;
   N_UpdateBARWithinSessionReportResponse;
   N_UpdateDuplicatingParameters;
   N_UpdateFAR;
   N_UpdateForwardingParameters;
   N_UpdateMAR;
   N_UpdateNonTGPPAccessForwardingActionInformation;
   N_UpdatePDR;
   N_UpdateQER;
   N_UpdateSRR;
   N_UpdateTrafficEndpoint;
   N_UpdateURR;
   N_UpdatedPDR;
   N_URSEQN;
   N_URRID;
   N_UsageInformation;
   N_UsageReportTrigger;
   N_UsageReport;
   N_UsageReportWithinSessionModificationResponse;
   N_UsageReportWithinSessionDeletionResponse;
   N_UsageReportWithinSessionReportRequest;
   N_UserID;
   N_UserPlaneInactivityTimer;
   N_UserPlaneIPResourceInformation;
   N_UserPlanePathFailureReport;
   N_UserPlanePathRecoveryReport;
   N_ValidityTimer;
   N_VolumeMeasurement;
   N_VolumeQuota;
   N_VolumeThreshold;
   N_Weight].
