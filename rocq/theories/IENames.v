(** Names of the IE type constants, ie/ie.go:19-296.  Generated from the source text. *)
From Coq Require Import String NArith List.
Import ListNotations.
Local Open Scope string_scope.
Local Open Scope N_scope.
Definition ie_type_names : list (N * string) :=
  [(1, "CreatePDR");
   (2, "PDI");
   (3, "CreateFAR");
   (4, "ForwardingParameters");
   (5, "DuplicatingParameters");
   (6, "CreateURR");
   (7, "CreateQER");
   (8, "CreatedPDR");
   (9, "UpdatePDR");
   (10, "UpdateFAR");
   (11, "UpdateForwardingParameters");
   (12, "UpdateBARWithinSessionReportResponse");
   (13, "UpdateURR");
   (14, "UpdateQER");
   (15, "RemovePDR");
   (16, "RemoveFAR");
   (17, "RemoveURR");
   (18, "RemoveQER");
   (19, "Cause");
   (20, "SourceInterface");
   (21, "FTEID");
   (22, "NetworkInstance");
   (23, "SDFFilter");
   (24, "ApplicationID");
   (25, "GateStatus");
   (26, "MBR");
   (27, "GBR");
   (28, "QERCorrelationID");
   (29, "Precedence");
   (30, "TransportLevelMarking");
   (31, "VolumeThreshold");
   (32, "TimeThreshold");
   (33, "MonitoringTime");
   (34, "SubsequentVolumeThreshold");
   (35, "SubsequentTimeThreshold");
   (36, "InactivityDetectionTime");
   (37, "ReportingTriggers");
   (38, "RedirectInformation");
   (39, "ReportType");
   (40, "OffendingIE");
   (41, "ForwardingPolicy");
   (42, "DestinationInterface");
   (43, "UPFunctionFeatures");
   (44, "ApplyAction");
   (45, "DownlinkDataServiceInformation");
   (46, "DownlinkDataNotificationDelay");
   (47, "DLBufferingDuration");
   (48, "DLBufferingSuggestedPacketCount");
   (49, "PFCPSMReqFlags");
   (50, "PFCPSRRspFlags");
   (51, "LoadControlInformation");
   (52, "SequenceNumber");
   (53, "Metric");
   (54, "OverloadControlInformation");
   (55, "Timer");
   (56, "PDRID");
   (57, "FSEID");
   (58, "ApplicationIDsPFDs");
   (59, "PFDContext");
   (60, "NodeID");
   (61, "PFDContents");
   (62, "MeasurementMethod");
   (63, "UsageReportTrigger");
   (64, "MeasurementPeriod");
   (65, "FQCSID");
   (66, "VolumeMeasurement");
   (67, "DurationMeasurement");
   (68, "ApplicationDetectionInformation");
   (69, "TimeOfFirstPacket");
   (70, "TimeOfLastPacket");
   (71, "QuotaHoldingTime");
   (72, "DroppedDLTrafficThreshold");
   (73, "VolumeQuota");
   (74, "TimeQuota");
   (75, "StartTime");
   (76, "EndTime");
   (77, "QueryURR");
   (78, "UsageReportWithinSessionModificationResponse");
   (79, "UsageReportWithinSessionDeletionResponse");
   (80, "UsageReportWithinSessionReportRequest");
   (81, "URRID");
   (82, "LinkedURRID");
   (83, "DownlinkDataReport");
   (84, "OuterHeaderCreation");
   (85, "CreateBAR");
   (86, "UpdateBARWithinSessionModificationRequest");
   (87, "RemoveBAR");
   (88, "BARID");
   (89, "CPFunctionFeatures");
   (90, "UsageInformation");
   (91, "ApplicationInstanceID");
   (92, "FlowInformation");
   (93, "UEIPAddress");
   (94, "PacketRate");
   (95, "OuterHeaderRemoval");
   (96, "RecoveryTimeStamp");
   (97, "DLFlowLevelMarking");
   (98, "HeaderEnrichment");
   (99, "ErrorIndicationReport");
   (100, "MeasurementInformation");
   (101, "NodeReportType");
   (102, "UserPlanePathFailureReport");
   (103, "RemoteGTPUPeer");
   (104, "URSEQN");
   (105, "UpdateDuplicatingParameters");
   (106, "ActivatePredefinedRules");
   (107, "DeactivatePredefinedRules");
   (108, "FARID");
   (109, "QERID");
   (110, "OCIFlags");
   (111, "PFCPAssociationReleaseRequest");
   (112, "GracefulReleasePeriod");
   (113, "PDNType");
   (114, "FailedRuleID");
   (115, "TimeQuotaMechanism");
   (116, "UserPlaneIPResourceInformation");
   (117, "UserPlaneInactivityTimer");
   (118, "AggregatedURRs");
   (119, "Multiplier");
   (120, "AggregatedURRID");
   (121, "SubsequentVolumeQuota");
   (122, "SubsequentTimeQuota");
   (123, "RQI");
   (124, "QFI");
   (125, "QueryURRReference");
   (126, "AdditionalUsageReportsInformation");
   (127, "CreateTrafficEndpoint");
   (128, "CreatedTrafficEndpoint");
   (129, "UpdateTrafficEndpoint");
   (130, "RemoveTrafficEndpoint");
   (131, "TrafficEndpointID");
   (132, "EthernetPacketFilter");
   (133, "MACAddress");
   (134, "CTAG");
   (135, "STAG");
   (136, "Ethertype");
   (137, "Proxying");
   (138, "EthernetFilterID");
   (139, "EthernetFilterProperties");
   (140, "SuggestedBufferingPacketsCount");
   (141, "UserID");
   (142, "EthernetPDUSessionInformation");
   (143, "EthernetTrafficInformation");
   (144, "MACAddressesDetected");
   (145, "MACAddressesRemoved");
   (146, "EthernetInactivityTimer");
   (147, "AdditionalMonitoringTime");
   (148, "EventQuota");
   (149, "EventThreshold");
   (150, "SubsequentEventQuota");
   (151, "SubsequentEventThreshold");
   (152, "TraceInformation");
   (153, "FramedRoute");
   (154, "FramedRouting");
   (155, "FramedIPv6Route");
   (156, "EventTimeStamp");
   (157, "AveragingWindow");
   (158, "PagingPolicyIndicator");
   (159, "APNDNN");
   (160, "TGPPInterfaceType");
   (161, "PFCPSRReqFlags");
   (162, "PFCPAUReqFlags");
   (163, "ActivationTime");
   (164, "DeactivationTime");
   (165, "CreateMAR");
   (166, "TGPPAccessForwardingActionInformation");
   (167, "NonTGPPAccessForwardingActionInformation");
   (168, "RemoveMAR");
   (169, "UpdateMAR");
   (170, "MARID");
   (171, "SteeringFunctionality");
   (172, "SteeringMode");
   (173, "Weight");
   (174, "Priority");
   (175, "UpdateTGPPAccessForwardingActionInformation");
   (176, "UpdateNonTGPPAccessForwardingActionInformation");
   (177, "UEIPAddressPoolIdentity");
   (178, "AlternativeSMFIPAddress");
   (179, "PacketReplicationAndDetectionCarryOnInformation");
   (180, "SMFSetID");
   (181, "QuotaValidityTime");
   (182, "NumberOfReports");
   (183, "PFCPSessionRetentionInformation");
   (184, "PFCPASRspFlags");
   (185, "CPPFCPEntityIPAddress");
   (186, "PFCPSEReqFlags");
   (187, "UserPlanePathRecoveryReport");
   (188, "IPMulticastAddressingInfo");
   (189, "JoinIPMulticastInformationWithinUsageReport");
   (190, "LeaveIPMulticastInformationWithinUsageReport");
   (191, "IPMulticastAddress");
   (192, "SourceIPAddress");
   (193, "PacketRateStatus");
   (194, "CreateBridgeInfoForTSC");
   (195, "CreatedBridgeInfoForTSC");
   (196, "DSTTPortNumber");
   (197, "NWTTPortNumber");
   (198, "TSNBridgeID");
   (199, "TSCManagementInformationWithinSessionModificationRequest");
   (200, "TSCManagementInformationWithinSessionModificationResponse");
   (201, "TSCManagementInformationWithinSessionReportRequest");
   (199, "PortManagementInformationForTSCWithinSessionModificationRequest");
   (200, "PortManagementInformationForTSCWithinSessionModificationResponse");
   (201, "PortManagementInformationForTSCWithinSessionReportRequest");
   (202, "PortManagementInformationContainer");
   (203, "ClockDriftControlInformation");
   (204, "RequestedClockDriftInformation");
   (205, "ClockDriftReport");
   (206, "TSNTimeDomainNumber");
   (207, "TimeOffsetThreshold");
   (208, "CumulativeRateRatioThreshold");
   (209, "TimeOffsetMeasurement");
   (210, "CumulativeRateRatioMeasurement");
   (211, "RemoveSRR");
   (212, "CreateSRR");
   (213, "UpdateSRR");
   (214, "SessionReport");
   (215, "SRRID");
   (216, "AccessAvailabilityControlInformation");
   (217, "RequestedAccessAvailabilityInformation");
   (218, "AccessAvailabilityReport");
   (219, "AccessAvailabilityInformation");
   (220, "ProvideATSSSControlInformation");
   (221, "ATSSSControlParameters");
   (222, "MPTCPControlInformation");
   (223, "ATSSSLLControlInformation");
   (224, "PMFControlInformation");
   (225, "MPTCPParameters");
   (226, "ATSSSLLParameters");
   (227, "PMFParameters");
   (228, "MPTCPAddressInformation");
   (229, "UELinkSpecificIPAddress");
   (230, "PMFAddressInformation");
   (231, "ATSSSLLInformation");
   (232, "DataNetworkAccessIdentifier");
   (233, "UEIPAddressPoolInformation");
   (234, "AveragePacketDelay");
   (235, "MinimumPacketDelay");
   (236, "MaximumPacketDelay");
   (237, "QoSReportTrigger");
   (238, "GTPUPathQoSControlInformation");
   (239, "GTPUPathQoSReport");
   (240, "QoSInformationInGTPUPathQoSReport");
   (241, "GTPUPathInterfaceType");
   (242, "QoSMonitoringPerQoSFlowControlInformation");
   (243, "RequestedQoSMonitoring");
   (244, "ReportingFrequency");
   (245, "PacketDelayThresholds");
   (246, "MinimumWaitTime");
   (247, "QoSMonitoringReport");
   (248, "QoSMonitoringMeasurement");
   (249, "MTEDTControlInformation");
   (250, "DLDataPacketsSize");
   (251, "QERControlIndications");
   (252, "PacketRateStatusReport");
   (253, "NFInstanceID");
   (254, "EthernetContextInformation");
   (255, "RedundantTransmissionParameters");
   (256, "UpdatedPDR");
   (257, "SNSSAI");
   (258, "IPVersion");
   (259, "PFCPASReqFlags");
   (260, "DataStatus");
   (261, "ProvideRDSConfigurationInformation");
   (262, "RDSConfigurationInformation");
   (263, "QueryPacketRateStatusWithinSessionModificationRequest");
   (264, "PacketRateStatusReportWithinSessionModificationResponse");
   (265, "MPTCPApplicableIndication");
   (266, "BridgeManagementInformationContainer");
   (267, "UEIPAddressUsageInformation");
   (268, "NumberOfUEIPAddresses");
   (269, "ValidityTimer");
   (270, "RedundantTransmissionForwardingParameters");
   (271, "TransportDelayReporting")].
