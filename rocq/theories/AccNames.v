(** The method name of each accessor of AccTable.v (the method func (i *IE) Name()). *)
From Coq Require Import String.
From Verif Require Import AccTable.
Local Open Scope string_scope.
Definition acc_name (a : acc) : string :=
  match a with
  | A_AccessAvailabilityControlInformation => "AccessAvailabilityControlInformation"
  | A_AccessAvailabilityInformation => "AccessAvailabilityInformation"
  | A_AvailabilityStatus => "AvailabilityStatus"
  | A_AccessType => "AccessType"
  | A_AccessAvailabilityReport => "AccessAvailabilityReport"
  | A_ActivatePredefinedRules => "ActivatePredefinedRules"
  | A_ActivationTime => "ActivationTime"
  | A_AdditionalMonitoringTime => "AdditionalMonitoringTime"
  | A_AdditionalUsageReportsInformation => "AdditionalUsageReportsInformation"
  | A_AggregatedURRID => "AggregatedURRID"
  | A_AggregatedURRs => "AggregatedURRs"
  | A_AlternativeSMFIPAddress => "AlternativeSMFIPAddress"
  | A_APNDNN => "APNDNN"
  | A_ApplicationDetectionInformation => "ApplicationDetectionInformation"
  | A_ApplicationID => "ApplicationID"
  | A_ApplicationIDsPFDs => "ApplicationIDsPFDs"
  | A_ApplicationInstanceID => "ApplicationInstanceID"
  | A_ApplyAction => "ApplyAction"
  | A_ATSSSControlParameters => "ATSSSControlParameters"
  | A_ATSSSLLControlInformation => "ATSSSLLControlInformation"
  | A_ATSSSLLInformation => "ATSSSLLInformation"
  | A_ATSSSLLParameters => "ATSSSLLParameters"
  | A_AveragePacketDelay => "AveragePacketDelay"
  | A_AveragingWindow => "AveragingWindow"
  | A_BARID => "BARID"
  | A_BridgeManagementInformationContainer => "BridgeManagementInformationContainer"
  | A_CTAG => "CTAG"
  | A_Cause => "Cause"
  | A_ClockDriftControlInformation => "ClockDriftControlInformation"
  | A_ClockDriftReport => "ClockDriftReport"
  | A_CPFunctionFeatures => "CPFunctionFeatures"
  | A_CPPFCPEntityIPAddress => "CPPFCPEntityIPAddress"
  | A_CreateBAR => "CreateBAR"
  | A_CreateBridgeInfoForTSC => "CreateBridgeInfoForTSC"
  | A_CreateFAR => "CreateFAR"
  | A_CreateMAR => "CreateMAR"
  | A_CreatePDR => "CreatePDR"
  | A_CreateQER => "CreateQER"
  | A_CreateSRR => "CreateSRR"
  | A_CreateTrafficEndpoint => "CreateTrafficEndpoint"
  | A_CreateURR => "CreateURR"
  | A_CreatedBridgeInfoForTSC => "CreatedBridgeInfoForTSC"
  | A_CreatedPDR => "CreatedPDR"
  | A_CreatedTrafficEndpoint => "CreatedTrafficEndpoint"
  | A_LocalFTEID => "LocalFTEID"
  | A_CumulativeRateRatioMeasurement => "CumulativeRateRatioMeasurement"
  | A_CumulativeRateRatioThreshold => "CumulativeRateRatioThreshold"
  | A_DataNetworkAccessIdentifier => "DataNetworkAccessIdentifier"
  | A_DataStatus => "DataStatus"
  | A_DeactivatePredefinedRules => "DeactivatePredefinedRules"
  | A_DeactivationTime => "DeactivationTime"
  | A_DestinationInterface => "DestinationInterface"
  | A_DLBufferingDuration => "DLBufferingDuration"
  | A_DLBufferingSuggestedPacketCount => "DLBufferingSuggestedPacketCount"
  | A_DLDataPacketsSize => "DLDataPacketsSize"
  | A_DLFlowLevelMarking => "DLFlowLevelMarking"
  | A_DownlinkDataNotificationDelay => "DownlinkDataNotificationDelay"
  | A_DownlinkDataReport => "DownlinkDataReport"
  | A_DownlinkDataServiceInformation => "DownlinkDataServiceInformation"
  | A_PPI => "PPI"
  | A_DroppedDLTrafficThreshold => "DroppedDLTrafficThreshold"
  | A_DSTTPortNumber => "DSTTPortNumber"
  | A_DuplicatingParameters => "DuplicatingParameters"
  | A_DurationMeasurement => "DurationMeasurement"
  | A_EndTime => "EndTime"
  | A_ErrorIndicationReport => "ErrorIndicationReport"
  | A_EthernetContextInformation => "EthernetContextInformation"
  | A_EthernetFilterID => "EthernetFilterID"
  | A_EthernetFilterProperties => "EthernetFilterProperties"
  | A_EthernetInactivityTimer => "EthernetInactivityTimer"
  | A_EthernetPacketFilter => "EthernetPacketFilter"
  | A_EthernetPDUSessionInformation => "EthernetPDUSessionInformation"
  | A_EthernetTrafficInformation => "EthernetTrafficInformation"
  | A_Ethertype => "Ethertype"
  | A_EventQuota => "EventQuota"
  | A_EventThreshold => "EventThreshold"
  | A_EventTimeStamp => "EventTimeStamp"
  | A_FSEID => "FSEID"
  | A_FTEID => "FTEID"
  | A_RuleIDType => "RuleIDType"
  | A_FailedRuleID => "FailedRuleID"
  | A_FARID => "FARID"
  | A_FlowInformation => "FlowInformation"
  | A_FlowDirection => "FlowDirection"
  | A_FlowDescription => "FlowDescription"
  | A_ForwardingParameters => "ForwardingParameters"
  | A_ForwardingPolicy => "ForwardingPolicy"
  | A_ForwardingPolicyIdentifier => "ForwardingPolicyIdentifier"
  | A_FQCSID => "FQCSID"
  | A_NodeIDType => "NodeIDType"
  | A_NodeAddress => "NodeAddress"
  | A_CSIDs => "CSIDs"
  | A_FramedIPv6Route => "FramedIPv6Route"
  | A_FramedRoute => "FramedRoute"
  | A_FramedRouting => "FramedRouting"
  | A_GateStatus => "GateStatus"
  | A_GateStatusUL => "GateStatusUL"
  | A_GateStatusDL => "GateStatusDL"
  | A_GateStatusULDL => "GateStatusULDL"
  | A_GBR => "GBR"
  | A_GBRUL => "GBRUL"
  | A_GBRDL => "GBRDL"
  | A_GracefulReleasePeriod => "GracefulReleasePeriod"
  | A_GTPUPathInterfaceType => "GTPUPathInterfaceType"
  | A_GTPUPathQoSControlInformation => "GTPUPathQoSControlInformation"
  | A_GTPUPathQoSReport => "GTPUPathQoSReport"
  | A_HeaderEnrichment => "HeaderEnrichment"
  | A_InactivityDetectionTime => "InactivityDetectionTime"
  | A_IPMulticastAddress => "IPMulticastAddress"
  | A_IPMulticastAddressingInfo => "IPMulticastAddressingInfo"
  | A_IPVersion => "IPVersion"
  | A_JoinIPMulticastInformationWithinUsageReport => "JoinIPMulticastInformationWithinUsageReport"
  | A_LeaveIPMulticastInformationWithinUsageReport => "LeaveIPMulticastInformationWithinUsageReport"
  | A_LinkedURRID => "LinkedURRID"
  | A_LoadControlInformation => "LoadControlInformation"
  | A_MACAddressesDetected => "MACAddressesDetected"
  | A_MACAddressesRemoved => "MACAddressesRemoved"
  | A_MACAddress => "MACAddress"
  | A_MARID => "MARID"
  | A_MaximumPacketDelay => "MaximumPacketDelay"
  | A_MBR => "MBR"
  | A_MBRUL => "MBRUL"
  | A_MBRDL => "MBRDL"
  | A_MeasurementInformation => "MeasurementInformation"
  | A_MeasurementMethod => "MeasurementMethod"
  | A_MeasurementPeriod => "MeasurementPeriod"
  | A_Metric => "Metric"
  | A_MinimumPacketDelay => "MinimumPacketDelay"
  | A_MinimumWaitTime => "MinimumWaitTime"
  | A_MonitoringTime => "MonitoringTime"
  | A_MPTCPAddressInformation => "MPTCPAddressInformation"
  | A_MPTCPApplicableIndication => "MPTCPApplicableIndication"
  | A_MPTCPControlInformation => "MPTCPControlInformation"
  | A_MPTCPParameters => "MPTCPParameters"
  | A_MTEDTControlInformation => "MTEDTControlInformation"
  | A_Multiplier => "Multiplier"
  | A_ValueDigits => "ValueDigits"
  | A_Exponent => "Exponent"
  | A_NetworkInstance => "NetworkInstance"
  | A_NetworkInstanceFQDN => "NetworkInstanceFQDN"
  | A_NetworkInstanceHeuristic => "NetworkInstanceHeuristic"
  | A_NFInstanceID => "NFInstanceID"
  | A_NodeID => "NodeID"
  | A_NodeReportType => "NodeReportType"
  | A_NonTGPPAccessForwardingActionInformation => "NonTGPPAccessForwardingActionInformation"
  | A_NumberOfReports => "NumberOfReports"
  | A_NumberOfUEIPAddresses => "NumberOfUEIPAddresses"
  | A_NWTTPortNumber => "NWTTPortNumber"
  | A_OCIFlags => "OCIFlags"
  | A_OffendingIE => "OffendingIE"
  | A_OuterHeaderCreation => "OuterHeaderCreation"
  | A_OuterHeaderRemoval => "OuterHeaderRemoval"
  | A_OuterHeaderRemovalDescription => "OuterHeaderRemovalDescription"
  | A_GTPUExtensionHeaderDeletion => "GTPUExtensionHeaderDeletion"
  | A_OverloadControlInformation => "OverloadControlInformation"
  | A_PacketDelayThresholds => "PacketDelayThresholds"
  | A_PacketRateStatusReport => "PacketRateStatusReport"
  | A_PacketRateStatus => "PacketRateStatus"
  | A_PacketRate => "PacketRate"
  | A_PacketReplicationAndDetectionCarryOnInformation => "PacketReplicationAndDetectionCarryOnInformation"
  | A_PagingPolicyIndicator => "PagingPolicyIndicator"
  | A_PDI => "PDI"
  | A_PDNType => "PDNType"
  | A_PDRID => "PDRID"
  | A_PFCPAssociationReleaseRequest => "PFCPAssociationReleaseRequest"
  | A_PFCPSessionRetentionInformation => "PFCPSessionRetentionInformation"
  | A_PFCPASReqFlags => "PFCPASReqFlags"
  | A_PFCPASRspFlags => "PFCPASRspFlags"
  | A_PFCPAUReqFlags => "PFCPAUReqFlags"
  | A_PFCPSEReqFlags => "PFCPSEReqFlags"
  | A_PFCPSMReqFlags => "PFCPSMReqFlags"
  | A_PFCPSRReqFlags => "PFCPSRReqFlags"
  | A_PFCPSRRspFlags => "PFCPSRRspFlags"
  | A_PFDContents => "PFDContents"
  | A_PFDContext => "PFDContext"
  | A_PMFAddressInformation => "PMFAddressInformation"
  | A_PMFControlInformation => "PMFControlInformation"
  | A_PMFParameters => "PMFParameters"
  | A_PortManagementInformationContainer => "PortManagementInformationContainer"
  | A_Precedence => "Precedence"
  | A_Priority => "Priority"
  | A_ProvideATSSSControlInformation => "ProvideATSSSControlInformation"
  | A_ProvideRDSConfigurationInformation => "ProvideRDSConfigurationInformation"
  | A_Proxying => "Proxying"
  | A_QERControlIndications => "QERControlIndications"
  | A_QERCorrelationID => "QERCorrelationID"
  | A_QERID => "QERID"
  | A_QFI => "QFI"
  | A_QoSInformationInGTPUPathQoSReport => "QoSInformationInGTPUPathQoSReport"
  | A_QoSMonitoringMeasurement => "QoSMonitoringMeasurement"
  | A_QoSMonitoringPerQoSFlowControlInformation => "QoSMonitoringPerQoSFlowControlInformation"
  | A_QoSMonitoringReport => "QoSMonitoringReport"
  | A_QoSReportTrigger => "QoSReportTrigger"
  | A_QueryPacketRateStatus => "QueryPacketRateStatus"
  | A_QueryURRReference => "QueryURRReference"
  | A_QueryURR => "QueryURR"
  | A_QuotaHoldingTime => "QuotaHoldingTime"
  | A_QuotaValidityTime => "QuotaValidityTime"
  | A_RDSConfigurationInformation => "RDSConfigurationInformation"
  | A_RecoveryTimeStamp => "RecoveryTimeStamp"
  | A_RedirectInformation => "RedirectInformation"
  | A_RedundantTransmissionForwardingParameters => "RedundantTransmissionForwardingParameters"
  | A_RedundantTransmissionParameters => "RedundantTransmissionParameters"
  | A_RemoteGTPUPeer => "RemoteGTPUPeer"
  | A_RemoveBAR => "RemoveBAR"
  | A_RemoveFAR => "RemoveFAR"
  | A_RemoveMAR => "RemoveMAR"
  | A_RemovePDR => "RemovePDR"
  | A_RemoveQER => "RemoveQER"
  | A_RemoveSRR => "RemoveSRR"
  | A_RemoveTrafficEndpoint => "RemoveTrafficEndpoint"
  | A_RemoveURR => "RemoveURR"
  | A_ReportType => "ReportType"
  | A_ReportingFrequency => "ReportingFrequency"
  | A_ReportingTriggers => "ReportingTriggers"
  | A_RequestedAccessAvailabilityInformation => "RequestedAccessAvailabilityInformation"
  | A_RequestedClockDriftInformation => "RequestedClockDriftInformation"
  | A_RequestedQoSMonitoring => "RequestedQoSMonitoring"
  | A_RQI => "RQI"
  | A_SNSSAI => "SNSSAI"
  | A_SST => "SST"
  | A_SD => "SD"
  | A_STAG => "STAG"
  | A_SDFFilter => "SDFFilter"
  | A_SequenceNumber => "SequenceNumber"
  | A_SessionReport => "SessionReport"
  | A_SMFSetID => "SMFSetID"
  | A_SourceInterface => "SourceInterface"
  | A_SourceIPAddress => "SourceIPAddress"
  | A_SRRID => "SRRID"
  | A_StartTime => "StartTime"
  | A_SteeringFunctionality => "SteeringFunctionality"
  | A_SteeringMode => "SteeringMode"
  | A_SubsequentEventQuota => "SubsequentEventQuota"
  | A_SubsequentEventThreshold => "SubsequentEventThreshold"
  | A_SubsequentTimeQuota => "SubsequentTimeQuota"
  | A_SubsequentTimeThreshold => "SubsequentTimeThreshold"
  | A_SubsequentVolumeQuota => "SubsequentVolumeQuota"
  | A_SubsequentVolumeThreshold => "SubsequentVolumeThreshold"
  | A_SuggestedBufferingPacketsCount => "SuggestedBufferingPacketsCount"
  | A_TGPPAccessForwardingActionInformation => "TGPPAccessForwardingActionInformation"
  | A_TGPPInterfaceType => "TGPPInterfaceType"
  | A_TimeOfFirstPacket => "TimeOfFirstPacket"
  | A_TimeOfLastPacket => "TimeOfLastPacket"
  | A_TimeOffsetMeasurement => "TimeOffsetMeasurement"
  | A_TimeOffsetThreshold => "TimeOffsetThreshold"
  | A_TimeQuotaMechanism => "TimeQuotaMechanism"
  | A_TimeQuota => "TimeQuota"
  | A_TimeThreshold => "TimeThreshold"
  | A_Timer => "Timer"
  | A_TraceInformation => "TraceInformation"
  | A_TrafficEndpointID => "TrafficEndpointID"
  | A_TransportDelayReporting => "TransportDelayReporting"
  | A_TransportLevelMarking => "TransportLevelMarking"
  | A_TSCManagementInformation => "TSCManagementInformation"
  | A_PortManagementInformationForTSC => "PortManagementInformationForTSC"
  | A_TSNBridgeID => "TSNBridgeID"
  | A_TSNTimeDomainNumber => "TSNTimeDomainNumber"
  | A_UEIPAddressPoolIdentity => "UEIPAddressPoolIdentity"
  | A_UEIPAddressPoolIdentityString => "UEIPAddressPoolIdentityString"
  | A_UEIPAddressPoolInformation => "UEIPAddressPoolInformation"
  | A_UEIPAddressUsageInformation => "UEIPAddressUsageInformation"
  | A_UEIPAddress => "UEIPAddress"
  | A_UELinkSpecificIPAddress => "UELinkSpecificIPAddress"
  | A_UPFunctionFeatures => "UPFunctionFeatures"
  | A_UpdateTGPPAccessForwardingActionInformation => "UpdateTGPPAccessForwardingActionInformation"
  | A_UpdateBAR => "UpdateBAR"
  | A_UpdateDuplicatingParameters => "UpdateDuplicatingParameters"
  | A_UpdateFAR => "UpdateFAR"
  | A_UpdateForwardingParameters => "UpdateForwardingParameters"
  | A_UpdateMAR => "UpdateMAR"
  | A_UpdateNonTGPPAccessForwardingActionInformation => "UpdateNonTGPPAccessForwardingActionInformation"
  | A_UpdatePDR => "UpdatePDR"
  | A_UpdateQER => "UpdateQER"
  | A_UpdateSRR => "UpdateSRR"
  | A_UpdateTrafficEndpoint => "UpdateTrafficEndpoint"
  | A_UpdateURR => "UpdateURR"
  | A_UpdatedPDR => "UpdatedPDR"
  | A_URSEQN => "URSEQN"
  | A_URRID => "URRID"
  | A_UsageInformation => "UsageInformation"
  | A_UsageReportTrigger => "UsageReportTrigger"
  | A_UsageReport => "UsageReport"
  | A_UserID => "UserID"
  | A_UserPlaneInactivityTimer => "UserPlaneInactivityTimer"
  | A_UserPlaneIPResourceInformation => "UserPlaneIPResourceInformation"
  | A_UserPlanePathFailureReport => "UserPlanePathFailureReport"
  | A_UserPlanePathRecoveryReport => "UserPlanePathRecoveryReport"
  | A_ValidityTimer => "ValidityTimer"
  | A_VolumeMeasurement => "VolumeMeasurement"
  | A_VolumeQuota => "VolumeQuota"
  | A_VolumeThreshold => "VolumeThreshold"
  | A_Weight => "Weight"
  end.
