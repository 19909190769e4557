(** The names printed for IE types: ie/ietype_string.go.  The two tables are generated from the source text; the long string
    constant is cut in pieces joined by ++. *)
From Coq Require Import String Ascii DecimalString DecimalN.
From Verif Require Import Base.
Local Open Scope string_scope.
Local Open Scope N_scope.

(** ie/ietype_string.go:287 _IEType_name *)
Definition ietype_name : string :=
  "CreatePDRPDICreateFARForwardingParametersDuplicatingParametersCreateURRCreateQERCreatedPDRUpdatePDRUpdateFARUp"
  ++ "dateForwardingParametersUpdateBARWithinSessionReportResponseUpdateURRUpdateQERRemovePDRRemoveFARRemoveURRRemov"
  ++ "eQERCauseSourceInterfaceFTEIDNetworkInstanceSDFFilterApplicationIDGateStatusMBRGBRQERCorrelationIDPrecedenceTr"
  ++ "ansportLevelMarkingVolumeThresholdTimeThresholdMonitoringTimeSubsequentVolumeThresholdSubsequentTimeThresholdI"
  ++ "nactivityDetectionTimeReportingTriggersRedirectInformationReportTypeOffendingIEForwardingPolicyDestinationInte"
  ++ "rfaceUPFunctionFeaturesApplyActionDownlinkDataServiceInformationDownlinkDataNotificationDelayDLBufferingDurati"
  ++ "onDLBufferingSuggestedPacketCountPFCPSMReqFlagsPFCPSRRspFlagsLoadControlInformationSequenceNumberMetricOverloa"
  ++ "dControlInformationTimerPDRIDFSEIDApplicationIDsPFDsPFDContextNodeIDPFDContentsMeasurementMethodUsageReportTri"
  ++ "ggerMeasurementPeriodFQCSIDVolumeMeasurementDurationMeasurementApplicationDetectionInformationTimeOfFirstPacke"
  ++ "tTimeOfLastPacketQuotaHoldingTimeDroppedDLTrafficThresholdVolumeQuotaTimeQuotaStartTimeEndTimeQueryURRUsageRep"
  ++ "ortWithinSessionModificationResponseUsageReportWithinSessionDeletionResponseUsageReportWithinSessionReportRequ"
  ++ "estURRIDLinkedURRIDDownlinkDataReportOuterHeaderCreationCreateBARUpdateBARWithinSessionModificationRequestRemo"
  ++ "veBARBARIDCPFunctionFeaturesUsageInformationApplicationInstanceIDFlowInformationUEIPAddressPacketRateOuterHead"
  ++ "erRemovalRecoveryTimeStampDLFlowLevelMarkingHeaderEnrichmentErrorIndicationReportMeasurementInformationNodeRep"
  ++ "ortTypeUserPlanePathFailureReportRemoteGTPUPeerURSEQNUpdateDuplicatingParametersActivatePredefinedRulesDeactiv"
  ++ "atePredefinedRulesFARIDQERIDOCIFlagsPFCPAssociationReleaseRequestGracefulReleasePeriodPDNTypeFailedRuleIDTimeQ"
  ++ "uotaMechanismUserPlaneIPResourceInformationUserPlaneInactivityTimerAggregatedURRsMultiplierAggregatedURRIDSubs"
  ++ "equentVolumeQuotaSubsequentTimeQuotaRQIQFIQueryURRReferenceAdditionalUsageReportsInformationCreateTrafficEndpo"
  ++ "intCreatedTrafficEndpointUpdateTrafficEndpointRemoveTrafficEndpointTrafficEndpointIDEthernetPacketFilterMACAdd"
  ++ "ressCTAGSTAGEthertypeProxyingEthernetFilterIDEthernetFilterPropertiesSuggestedBufferingPacketsCountUserIDEther"
  ++ "netPDUSessionInformationEthernetTrafficInformationMACAddressesDetectedMACAddressesRemovedEthernetInactivityTim"
  ++ "erAdditionalMonitoringTimeEventQuotaEventThresholdSubsequentEventQuotaSubsequentEventThresholdTraceInformation"
  ++ "FramedRouteFramedRoutingFramedIPv6RouteEventTimeStampAveragingWindowPagingPolicyIndicatorAPNDNNTGPPInterfaceTy"
  ++ "pePFCPSRReqFlagsPFCPAUReqFlagsActivationTimeDeactivationTimeCreateMARTGPPAccessForwardingActionInformationNonT"
  ++ "GPPAccessForwardingActionInformationRemoveMARUpdateMARMARIDSteeringFunctionalitySteeringModeWeightPriorityUpda"
  ++ "teTGPPAccessForwardingActionInformationUpdateNonTGPPAccessForwardingActionInformationUEIPAddressPoolIdentityAl"
  ++ "ternativeSMFIPAddressPacketReplicationAndDetectionCarryOnInformationSMFSetIDQuotaValidityTimeNumberOfReportsPF"
  ++ "CPSessionRetentionInformationPFCPASRspFlagsCPPFCPEntityIPAddressPFCPSEReqFlagsUserPlanePathRecoveryReportIPMul"
  ++ "ticastAddressingInfoJoinIPMulticastInformationWithinUsageReportLeaveIPMulticastInformationWithinUsageReportIPM"
  ++ "ulticastAddressSourceIPAddressPacketRateStatusCreateBridgeInfoForTSCCreatedBridgeInfoForTSCDSTTPortNumberNWTTP"
  ++ "ortNumberTSNBridgeIDTSCManagementInformationWithinSessionModificationRequestTSCManagementInformationWithinSess"
  ++ "ionModificationResponseTSCManagementInformationWithinSessionReportRequestPortManagementInformationContainerClo"
  ++ "ckDriftControlInformationRequestedClockDriftInformationClockDriftReportTSNTimeDomainNumberTimeOffsetThresholdC"
  ++ "umulativeRateRatioThresholdTimeOffsetMeasurementCumulativeRateRatioMeasurementRemoveSRRCreateSRRUpdateSRRSessi"
  ++ "onReportSRRIDAccessAvailabilityControlInformationRequestedAccessAvailabilityInformationAccessAvailabilityRepor"
  ++ "tAccessAvailabilityInformationProvideATSSSControlInformationATSSSControlParametersMPTCPControlInformationATSSS"
  ++ "LLControlInformationPMFControlInformationMPTCPParametersATSSSLLParametersPMFParametersMPTCPAddressInformationU"
  ++ "ELinkSpecificIPAddressPMFAddressInformationATSSSLLInformationDataNetworkAccessIdentifierUEIPAddressPoolInforma"
  ++ "tionAveragePacketDelayMinimumPacketDelayMaximumPacketDelayQoSReportTriggerGTPUPathQoSControlInformationGTPUPat"
  ++ "hQoSReportQoSInformationInGTPUPathQoSReportGTPUPathInterfaceTypeQoSMonitoringPerQoSFlowControlInformationReque"
  ++ "stedQoSMonitoringReportingFrequencyPacketDelayThresholdsMinimumWaitTimeQoSMonitoringReportQoSMonitoringMeasure"
  ++ "mentMTEDTControlInformationDLDataPacketsSizeQERControlIndicationsPacketRateStatusReportNFInstanceIDEthernetCon"
  ++ "textInformationRedundantTransmissionParametersUpdatedPDRSNSSAIIPVersionPFCPASReqFlagsDataStatusProvideRDSConfi"
  ++ "gurationInformationRDSConfigurationInformationQueryPacketRateStatusWithinSessionModificationRequestPacketRateS"
  ++ "tatusReportWithinSessionModificationResponseMPTCPApplicableIndicationBridgeManagementInformationContainerUEIPA"
  ++ "ddressUsageInformationNumberOfUEIPAddressesValidityTimerRedundantTransmissionForwardingParametersTransportDela"
  ++ "yReporting".
(** ie/ietype_string.go:289 _IEType_index *)
Definition ietype_index : list N :=
  [0; 9; 12; 21; 41; 62; 71; 80; 90; 99; 108; 134; 170; 179; 188; 197; 206; 215; 224; 229; 244; 249; 264; 273;
   286; 296; 299; 302; 318; 328; 349; 364; 377; 391; 416; 439; 462; 479; 498; 508; 519; 535; 555; 573; 584; 614; 643; 662;
   693; 707; 721; 743; 757; 763; 789; 794; 799; 804; 822; 832; 838; 849; 866; 884; 901; 907; 924; 943; 974; 991; 1007; 1023;
   1048; 1059; 1068; 1077; 1084; 1092; 1136; 1176; 1213; 1218; 1229; 1247; 1266; 1275; 1316; 1325; 1330; 1348; 1364; 1385; 1400; 1411; 1421; 1439;
   1456; 1474; 1490; 1511; 1533; 1547; 1573; 1587; 1593; 1620; 1643; 1668; 1673; 1678; 1686; 1715; 1736; 1743; 1755; 1773; 1803; 1827; 1841; 1851;
   1866; 1887; 1906; 1909; 1912; 1929; 1962; 1983; 2005; 2026; 2047; 2064; 2084; 2094; 2098; 2102; 2111; 2119; 2135; 2159; 2189; 2195; 2224; 2250;
   2270; 2289; 2312; 2336; 2346; 2360; 2380; 2404; 2420; 2431; 2444; 2459; 2473; 2488; 2509; 2515; 2532; 2546; 2560; 2574; 2590; 2599; 2636; 2676;
   2685; 2694; 2699; 2720; 2732; 2738; 2746; 2789; 2835; 2858; 2881; 2928; 2936; 2953; 2968; 2999; 3013; 3034; 3048; 3075; 3100; 3143; 3187; 3205;
   3220; 3236; 3258; 3281; 3295; 3309; 3320; 3376; 3433; 3483; 3517; 3545; 3575; 3591; 3610; 3629; 3657; 3678; 3708; 3717; 3726; 3735; 3748; 3753;
   3789; 3827; 3851; 3880; 3910; 3932; 3955; 3980; 4001; 4016; 4033; 4046; 4069; 4092; 4113; 4131; 4158; 4184; 4202; 4220; 4238; 4254; 4283; 4300;
   4333; 4354; 4395; 4417; 4435; 4456; 4471; 4490; 4514; 4537; 4554; 4575; 4597; 4609; 4635; 4666; 4676; 4682; 4691; 4705; 4715; 4749; 4776; 4829;
   4884; 4909; 4945; 4972; 4993; 5006; 5047; 5070].

(** strconv.FormatInt(int64(n), 10) for a non-negative number *)
Definition format_int (n : N) : string := NilEmpty.string_of_uint (N.to_uint n).
(** s[lo:hi] of a string: panics unless lo <= hi <= len(s) *)
Definition slice_string (s : string) (lo hi : nat) : res string :=
  if (lo <=? hi)%nat && (hi <=? String.length s)%nat then Ok (substring lo (hi - lo) s) else Fault.
(** ie/ietype_string.go:291-297 IEType.String *)
Definition ietype_string (i : N) : res string :=
  let idx := (Z.of_N i - 1)%Z in
  if (i <? 1) || (Z.of_nat (length ietype_index) - 1 <=? idx)%Z then Ok ("IEType(" ++ format_int i ++ ")")
  else
    lo <- index ietype_index (Z.to_nat idx) ;;
    hi <- index ietype_index (Z.to_nat (idx + 1)) ;;
    slice_string ietype_name (N.to_nat lo) (N.to_nat hi).
