(** Tables of the 24 message types, transcribed from message/*.go (one record per file): the struct
    fields, the constructor, the UnmarshalBinary switch, and the field orders of MarshalTo, MarshalLen
    and SetLength.  Each column is transcribed from its own function, so that agreement between them is
    something to prove (MessageProofs.v), not something built in.
    Field numbers index the struct fields other than Header and IEs.
    Generated by tools/gentab.py from the sources. *)
From Coq Require Import String.
From Verif Require Import Base IETypes Message.
Local Open Scope string_scope.
Local Open Scope N_scope.
Local Open Scope list_scope.

(** message/heartbeat-request.go: New 20-34, Marshal/MarshalTo 37-79, UnmarshalBinary 91-118, MarshalLen 121-139, SetLength 142-156 *)
Definition K_HeartbeatRequest : kind := mkKind "HeartbeatRequest" 1
  (* fields *) [("RecoveryTimeStamp", false);
     ("SourceIPAddress", false)]
  (* New *) HNode (CFields [0; 1]%nat)
  (* UnmarshalBinary *) IAppend
    [(T_RecoveryTimeStamp, ASet 0);
     (T_SourceIPAddress, ASet 1)]
  (* MarshalTo *) [0; 1]%nat
  (* MarshalLen *) [0; 1]%nat
  (* SetLength *) (Some [0; 1]%nat)
  (* MessageTypeName, IsRequest *) (Some "Heartbeat Request") true.

(** message/heartbeat-response.go: New 19-32, Marshal/MarshalTo 35-71, UnmarshalBinary 83-108, MarshalLen 111-126, SetLength 129-140 *)
Definition K_HeartbeatResponse : kind := mkKind "HeartbeatResponse" 2
  (* fields *) [("RecoveryTimeStamp", false)]
  (* New *) HNode (CFields [0]%nat)
  (* UnmarshalBinary *) IAppend
    [(T_RecoveryTimeStamp, ASet 0)]
  (* MarshalTo *) [0]%nat
  (* MarshalLen *) [0]%nat
  (* SetLength *) (Some [0]%nat)
  (* MessageTypeName, IsRequest *) (Some "Heartbeat Response") false.

(** message/pfd-management-request.go: New 19-39, Marshal/MarshalTo 42-78, UnmarshalBinary 90-115, MarshalLen 118-133, SetLength 136-138 *)
Definition K_PFDManagementRequest : kind := mkKind "PFDManagementRequest" 3
  (* fields *) [("ApplicationIDsPFDs", true)]
  (* New *) HNode (CSwitch
    [(T_ApplicationIDsPFDs, AApp 0)])
  (* UnmarshalBinary *) IAppend
    [(T_ApplicationIDsPFDs, AApp 0)]
  (* MarshalTo *) [0]%nat
  (* MarshalLen *) [0]%nat
  (* SetLength *) None
  (* MessageTypeName, IsRequest *) (Some "PFD Management Request") true.

(** message/pfd-management-response.go: New 22-36, Marshal/MarshalTo 39-81, UnmarshalBinary 93-120, MarshalLen 123-141, SetLength 144-158 *)
Definition K_PFDManagementResponse : kind := mkKind "PFDManagementResponse" 4
  (* fields *) [("Cause", false);
     ("OffendingIE", false)]
  (* New *) HNode (CFields [0; 1]%nat)
  (* UnmarshalBinary *) IAppend
    [(T_Cause, ASet 0);
     (T_OffendingIE, ASet 1)]
  (* MarshalTo *) [0; 1]%nat
  (* MarshalLen *) [0; 1]%nat
  (* SetLength *) (Some [0; 1]%nat)
  (* MessageTypeName, IsRequest *) (Some "PFD Management Response") false.

(** message/association-setup-request.go: New 31-75, Marshal/MarshalTo 78-186, UnmarshalBinary 198-247, MarshalLen 250-301, SetLength 304-306 *)
Definition K_AssociationSetupRequest : kind := mkKind "AssociationSetupRequest" 5
  (* fields *) [("NodeID", false);
     ("RecoveryTimeStamp", false);
     ("UPFunctionFeatures", false);
     ("CPFunctionFeatures", false);
     ("UserPlaneIPResourceInformation", true);
     ("AlternativeSMFIPAddress", true);
     ("SMFSetID", false);
     ("PFCPSessionRetentionInformation", false);
     ("UEIPAddressPoolInformation", true);
     ("GTPUPathQoSControlInformation", true);
     ("ClockDriftControlInformation", true);
     ("UPFInstanceID", false);
     ("PFCPASReqFlags", false)]
  (* New *) HNode (CSwitch
    [(T_NodeID, ASet 0);
     (T_RecoveryTimeStamp, ASet 1);
     (T_UPFunctionFeatures, ASet 2);
     (T_CPFunctionFeatures, ASet 3);
     (T_UserPlaneIPResourceInformation, AApp 4);
     (T_AlternativeSMFIPAddress, AApp 5);
     (T_SMFSetID, ASet 6);
     (T_PFCPSessionRetentionInformation, ASet 7);
     (T_UEIPAddressPoolInformation, AApp 8);
     (T_GTPUPathQoSControlInformation, AApp 9);
     (T_ClockDriftControlInformation, AApp 10);
     (T_NFInstanceID, ASet 11);
     (T_PFCPASReqFlags, ASet 12)])
  (* UnmarshalBinary *) IAppend
    [(T_NodeID, ASet 0);
     (T_RecoveryTimeStamp, ASet 1);
     (T_UPFunctionFeatures, ASet 2);
     (T_CPFunctionFeatures, ASet 3);
     (T_UserPlaneIPResourceInformation, AApp 4);
     (T_AlternativeSMFIPAddress, AApp 5);
     (T_SMFSetID, ASet 6);
     (T_PFCPSessionRetentionInformation, ASet 7);
     (T_UEIPAddressPoolInformation, AApp 8);
     (T_GTPUPathQoSControlInformation, AApp 9);
     (T_ClockDriftControlInformation, AApp 10);
     (T_NFInstanceID, ASet 11);
     (T_PFCPASReqFlags, ASet 12)]
  (* MarshalTo *) [0; 1; 2; 3; 4; 5; 6; 7; 8; 9; 10; 11; 12]%nat
  (* MarshalLen *) [0; 1; 2; 3; 4; 5; 6; 7; 8; 9; 10; 11; 12]%nat
  (* SetLength *) None
  (* MessageTypeName, IsRequest *) (Some "Association Setup Request") true.

(** message/association-setup-response.go: New 30-72, Marshal/MarshalTo 75-177, UnmarshalBinary 189-236, MarshalLen 239-287, SetLength 290-292 *)
Definition K_AssociationSetupResponse : kind := mkKind "AssociationSetupResponse" 6
  (* fields *) [("NodeID", false);
     ("Cause", false);
     ("RecoveryTimeStamp", false);
     ("UPFunctionFeatures", false);
     ("CPFunctionFeatures", false);
     ("UserPlaneIPResourceInformation", true);
     ("AlternativeSMFIPAddress", true);
     ("PFCPASRspFlags", false);
     ("UEIPAddressPoolInformation", true);
     ("GTPUPathQoSControlInformation", true);
     ("ClockDriftControlInformation", true);
     ("UPFInstanceID", false)]
  (* New *) HNode (CSwitch
    [(T_NodeID, ASet 0);
     (T_Cause, ASet 1);
     (T_RecoveryTimeStamp, ASet 2);
     (T_UPFunctionFeatures, ASet 3);
     (T_CPFunctionFeatures, ASet 4);
     (T_UserPlaneIPResourceInformation, AApp 5);
     (T_AlternativeSMFIPAddress, AApp 6);
     (T_PFCPASRspFlags, ASet 7);
     (T_UEIPAddressPoolInformation, AApp 8);
     (T_GTPUPathQoSControlInformation, AApp 9);
     (T_ClockDriftControlInformation, AApp 10);
     (T_NFInstanceID, ASet 11)])
  (* UnmarshalBinary *) IAppend
    [(T_NodeID, ASet 0);
     (T_Cause, ASet 1);
     (T_RecoveryTimeStamp, ASet 2);
     (T_UPFunctionFeatures, ASet 3);
     (T_CPFunctionFeatures, ASet 4);
     (T_UserPlaneIPResourceInformation, AApp 5);
     (T_AlternativeSMFIPAddress, AApp 6);
     (T_PFCPASRspFlags, ASet 7);
     (T_UEIPAddressPoolInformation, AApp 8);
     (T_GTPUPathQoSControlInformation, AApp 9);
     (T_ClockDriftControlInformation, AApp 10);
     (T_NFInstanceID, ASet 11)]
  (* MarshalTo *) [0; 1; 2; 3; 4; 5; 6; 7; 8; 9; 10; 11]%nat
  (* MarshalLen *) [0; 1; 2; 3; 4; 5; 6; 7; 8; 9; 10; 11]%nat
  (* SetLength *) None
  (* MessageTypeName, IsRequest *) (Some "Association Setup Response") false.

(** message/association-update-request.go: New 29-69, Marshal/MarshalTo 72-168, UnmarshalBinary 180-225, MarshalLen 228-273, SetLength 276-278 *)
Definition K_AssociationUpdateRequest : kind := mkKind "AssociationUpdateRequest" 7
  (* fields *) [("NodeID", false);
     ("UPFunctionFeatures", false);
     ("CPFunctionFeatures", false);
     ("PFCPAssociationReleaseRequest", false);
     ("GracefulReleasePeriod", false);
     ("PFCPAUReqFlags", false);
     ("AlternativeSMFIPAddress", true);
     ("ClockDriftControlInformation", true);
     ("UEIPAddressPoolInformation", true);
     ("GTPUPathQoSControlInformation", true);
     ("UEIPAddressUsageInformation", true)]
  (* New *) HNode (CSwitch
    [(T_NodeID, ASet 0);
     (T_UPFunctionFeatures, ASet 1);
     (T_CPFunctionFeatures, ASet 2);
     (T_PFCPAssociationReleaseRequest, ASet 3);
     (T_GracefulReleasePeriod, ASet 4);
     (T_PFCPAUReqFlags, ASet 5);
     (T_AlternativeSMFIPAddress, AApp 6);
     (T_ClockDriftControlInformation, AApp 7);
     (T_UEIPAddressPoolInformation, AApp 8);
     (T_GTPUPathQoSControlInformation, AApp 9);
     (T_UEIPAddressUsageInformation, AApp 10)])
  (* UnmarshalBinary *) IAppend
    [(T_NodeID, ASet 0);
     (T_UPFunctionFeatures, ASet 1);
     (T_CPFunctionFeatures, ASet 2);
     (T_PFCPAssociationReleaseRequest, ASet 3);
     (T_GracefulReleasePeriod, ASet 4);
     (T_PFCPAUReqFlags, ASet 5);
     (T_AlternativeSMFIPAddress, AApp 6);
     (T_ClockDriftControlInformation, AApp 7);
     (T_UEIPAddressPoolInformation, AApp 8);
     (T_GTPUPathQoSControlInformation, AApp 9);
     (T_UEIPAddressUsageInformation, AApp 10)]
  (* MarshalTo *) [0; 1; 2; 3; 4; 5; 6; 7; 8; 9; 10]%nat
  (* MarshalLen *) [0; 1; 2; 3; 4; 5; 6; 7; 8; 9; 10]%nat
  (* SetLength *) None
  (* MessageTypeName, IsRequest *) (Some "Association Update Request") true.

(** message/association-update-response.go: New 22-48, Marshal/MarshalTo 51-105, UnmarshalBinary 117-148, MarshalLen 151-175, SetLength 178-180 *)
Definition K_AssociationUpdateResponse : kind := mkKind "AssociationUpdateResponse" 8
  (* fields *) [("NodeID", false);
     ("Cause", false);
     ("UPFunctionFeatures", false);
     ("CPFunctionFeatures", false)]
  (* New *) HNode (CSwitch
    [(T_NodeID, ASet 0);
     (T_Cause, ASet 1);
     (T_UPFunctionFeatures, ASet 2);
     (T_CPFunctionFeatures, ASet 3)])
  (* UnmarshalBinary *) IAppend
    [(T_NodeID, ASet 0);
     (T_Cause, ASet 1);
     (T_UPFunctionFeatures, ASet 2);
     (T_CPFunctionFeatures, ASet 3)]
  (* MarshalTo *) [0; 1; 2; 3]%nat
  (* MarshalLen *) [0; 1; 2; 3]%nat
  (* SetLength *) None
  (* MessageTypeName, IsRequest *) (Some "Association Update Request") false.

(** message/association-release-request.go: New 19-32, Marshal/MarshalTo 35-71, UnmarshalBinary 83-108, MarshalLen 111-126, SetLength 129-131 *)
Definition K_AssociationReleaseRequest : kind := mkKind "AssociationReleaseRequest" 9
  (* fields *) [("NodeID", false)]
  (* New *) HNode (CFields [0]%nat)
  (* UnmarshalBinary *) IAppend
    [(T_NodeID, ASet 0)]
  (* MarshalTo *) [0]%nat
  (* MarshalLen *) [0]%nat
  (* SetLength *) None
  (* MessageTypeName, IsRequest *) (Some "Association Release Request") true.

(** message/association-release-response.go: New 20-34, Marshal/MarshalTo 37-79, UnmarshalBinary 91-118, MarshalLen 121-139, SetLength 142-144 *)
Definition K_AssociationReleaseResponse : kind := mkKind "AssociationReleaseResponse" 10
  (* fields *) [("NodeID", false);
     ("Cause", false)]
  (* New *) HNode (CFields [0; 1]%nat)
  (* UnmarshalBinary *) IAppend
    [(T_NodeID, ASet 0);
     (T_Cause, ASet 1)]
  (* MarshalTo *) [0; 1]%nat
  (* MarshalLen *) [0; 1]%nat
  (* SetLength *) None
  (* MessageTypeName, IsRequest *) (Some "Association Release Response") false.

(** message/version-not-supported-response.go: New 18-30, Marshal/MarshalTo 33-62, UnmarshalBinary 74-92, MarshalLen 95-106, SetLength 109-111 *)
Definition K_VersionNotSupportedResponse : kind := mkKind "VersionNotSupportedResponse" 11
  (* fields *) []
  (* New *) HNode (CFields []%nat)
  (* UnmarshalBinary *) IAppend
    []
  (* MarshalTo *) []%nat
  (* MarshalLen *) []%nat
  (* SetLength *) None
  (* MessageTypeName, IsRequest *) (Some "Version Not Supported Response") false.

(** message/node-report-request.go: New 24-54, Marshal/MarshalTo 57-123, UnmarshalBinary 135-170, MarshalLen 173-203, SetLength 206-208 *)
Definition K_NodeReportRequest : kind := mkKind "NodeReportRequest" 12
  (* fields *) [("NodeID", false);
     ("NodeReportType", false);
     ("UserPlanePathFailureReport", false);
     ("UserPlanePathRecoveryReport", false);
     ("ClockDriftReport", true);
     ("GTPUPathQoSReport", true)]
  (* New *) HNode (CSwitch
    [(T_NodeID, ASet 0);
     (T_NodeReportType, ASet 1);
     (T_UserPlanePathFailureReport, ASet 2);
     (T_UserPlanePathRecoveryReport, ASet 3);
     (T_ClockDriftReport, AApp 4);
     (T_GTPUPathQoSReport, AApp 5)])
  (* UnmarshalBinary *) IAppend
    [(T_NodeID, ASet 0);
     (T_NodeReportType, ASet 1);
     (T_UserPlanePathFailureReport, ASet 2);
     (T_UserPlanePathRecoveryReport, ASet 3);
     (T_ClockDriftReport, AApp 4);
     (T_GTPUPathQoSReport, AApp 5)]
  (* MarshalTo *) [0; 1; 2; 3; 4; 5]%nat
  (* MarshalLen *) [0; 1; 2; 3; 4; 5]%nat
  (* SetLength *) None
  (* MessageTypeName, IsRequest *) (Some "Node Report Request") true.

(** message/node-report-response.go: New 21-36, Marshal/MarshalTo 39-87, UnmarshalBinary 99-128, MarshalLen 131-152, SetLength 155-157 *)
Definition K_NodeReportResponse : kind := mkKind "NodeReportResponse" 13
  (* fields *) [("NodeID", false);
     ("Cause", false);
     ("OffendingIE", false)]
  (* New *) HNode (CFields [0; 1; 2]%nat)
  (* UnmarshalBinary *) IAppend
    [(T_NodeID, ASet 0);
     (T_Cause, ASet 1);
     (T_OffendingIE, ASet 2)]
  (* MarshalTo *) [0; 1; 2]%nat
  (* MarshalLen *) [0; 1; 2]%nat
  (* SetLength *) None
  (* MessageTypeName, IsRequest *) (Some "Node Report Response") false.

(** message/session-set-deletion-request.go: New 20-34, Marshal/MarshalTo 37-79, UnmarshalBinary 91-118, MarshalLen 121-139, SetLength 142-144 *)
Definition K_SessionSetDeletionRequest : kind := mkKind "SessionSetDeletionRequest" 14
  (* fields *) [("NodeID", false);
     ("FQCSID", false)]
  (* New *) HNode (CFields [0; 1]%nat)
  (* UnmarshalBinary *) IAppend
    [(T_NodeID, ASet 0);
     (T_FQCSID, ASet 1)]
  (* MarshalTo *) [0; 1]%nat
  (* MarshalLen *) [0; 1]%nat
  (* SetLength *) None
  (* MessageTypeName, IsRequest *) (Some "Session Set Deletion Request") true.

(** message/session-set-deletion-response.go: New 21-36, Marshal/MarshalTo 39-87, UnmarshalBinary 99-128, MarshalLen 131-152, SetLength 155-157 *)
Definition K_SessionSetDeletionResponse : kind := mkKind "SessionSetDeletionResponse" 15
  (* fields *) [("NodeID", false);
     ("Cause", false);
     ("OffendingIE", false)]
  (* New *) HNode (CFields [0; 1; 2]%nat)
  (* UnmarshalBinary *) IAppend
    [(T_NodeID, ASet 0);
     (T_Cause, ASet 1);
     (T_OffendingIE, ASet 2)]
  (* MarshalTo *) [0; 1; 2]%nat
  (* MarshalLen *) [0; 1; 2]%nat
  (* SetLength *) None
  (* MessageTypeName, IsRequest *) (Some "Node Report Response") false.

(** message/session-establishment-request.go: New 42-104, Marshal/MarshalTo 107-269, UnmarshalBinary 281-348, MarshalLen 351-429, SetLength 432-434 *)
Definition K_SessionEstablishmentRequest : kind := mkKind "SessionEstablishmentRequest" 50
  (* fields *) [("NodeID", false);
     ("CPFSEID", false);
     ("CreatePDR", true);
     ("CreateFAR", true);
     ("CreateURR", true);
     ("CreateQER", true);
     ("CreateBAR", false);
     ("CreateTrafficEndpoint", true);
     ("PDNType", false);
     ("FQCSID", false);
     ("UserPlaneInactivityTimer", false);
     ("UserID", false);
     ("TraceInformation", false);
     ("APNDNN", false);
     ("CreateMAR", true);
     ("PFCPSEReqFlags", false);
     ("CreateBridgeInfoForTSC", false);
     ("CreateSRR", true);
     ("ProvideATSSSControlInformation", false);
     ("RecoveryTimeStamp", false);
     ("SNSSAI", false);
     ("ProvideRDSConfigurationInformation", false)]
  (* New *) HSession (CSwitch
    [(T_NodeID, ASet 0);
     (T_FSEID, ASet 1);
     (T_CreatePDR, AApp 2);
     (T_CreateFAR, AApp 3);
     (T_CreateURR, AApp 4);
     (T_CreateQER, AApp 5);
     (T_CreateBAR, ASet 6);
     (T_CreateTrafficEndpoint, AApp 7);
     (T_PDNType, ASet 8);
     (T_FQCSID, ASet 9);
     (T_UserPlaneInactivityTimer, ASet 10);
     (T_UserID, ASet 11);
     (T_TraceInformation, ASet 12);
     (T_APNDNN, ASet 13);
     (T_CreateMAR, AApp 14);
     (T_PFCPSEReqFlags, ASet 15);
     (T_CreateBridgeInfoForTSC, ASet 16);
     (T_CreateSRR, AApp 17);
     (T_ProvideATSSSControlInformation, ASet 18);
     (T_RecoveryTimeStamp, ASet 19);
     (T_SNSSAI, ASet 20);
     (T_ProvideRDSConfigurationInformation, ASet 21)])
  (* UnmarshalBinary *) IAppend
    [(T_NodeID, ASet 0);
     (T_FSEID, ASet 1);
     (T_CreatePDR, AApp 2);
     (T_CreateFAR, AApp 3);
     (T_CreateURR, AApp 4);
     (T_CreateQER, AApp 5);
     (T_CreateBAR, ASet 6);
     (T_CreateTrafficEndpoint, AApp 7);
     (T_PDNType, ASet 8);
     (T_FQCSID, ASet 9);
     (T_UserPlaneInactivityTimer, ASet 10);
     (T_UserID, ASet 11);
     (T_TraceInformation, ASet 12);
     (T_APNDNN, ASet 13);
     (T_CreateMAR, AApp 14);
     (T_PFCPSEReqFlags, ASet 15);
     (T_CreateBridgeInfoForTSC, ASet 16);
     (T_CreateSRR, AApp 17);
     (T_ProvideATSSSControlInformation, ASet 18);
     (T_RecoveryTimeStamp, ASet 19);
     (T_SNSSAI, ASet 20);
     (T_ProvideRDSConfigurationInformation, ASet 21)]
  (* MarshalTo *) [0; 1; 2; 3; 4; 5; 6; 7; 8; 9; 10; 11; 12; 13; 14; 15; 16; 17; 18; 19; 20; 21]%nat
  (* MarshalLen *) [0; 1; 2; 3; 4; 5; 6; 7; 8; 9; 10; 11; 12; 13; 14; 15; 16; 17; 18; 19; 20; 21]%nat
  (* SetLength *) None
  (* MessageTypeName, IsRequest *) (Some "Session Establishment Request") true.

(** message/session-establishment-response.go: New 32-74, Marshal/MarshalTo 77-179, UnmarshalBinary 191-238, MarshalLen 241-289, SetLength 292-294 *)
Definition K_SessionEstablishmentResponse : kind := mkKind "SessionEstablishmentResponse" 51
  (* fields *) [("NodeID", false);
     ("Cause", false);
     ("OffendingIE", false);
     ("UPFSEID", false);
     ("CreatedPDR", true);
     ("LoadControlInformation", false);
     ("OverloadControlInformation", false);
     ("FQCSID", false);
     ("FailedRuleID", false);
     ("CreatedTrafficEndpoint", true);
     ("CreatedBridgeInfoForTSC", false);
     ("ATSSSControlParameters", false)]
  (* New *) HSession (CSwitch
    [(T_NodeID, ASet 0);
     (T_Cause, ASet 1);
     (T_OffendingIE, ASet 2);
     (T_FSEID, ASet 3);
     (T_CreatedPDR, AApp 4);
     (T_LoadControlInformation, ASet 5);
     (T_OverloadControlInformation, ASet 6);
     (T_FQCSID, ASet 7);
     (T_FailedRuleID, ASet 8);
     (T_CreatedTrafficEndpoint, AApp 9);
     (T_CreatedBridgeInfoForTSC, ASet 10);
     (T_ATSSSControlParameters, ASet 11)])
  (* UnmarshalBinary *) IAppend
    [(T_NodeID, ASet 0);
     (T_Cause, ASet 1);
     (T_OffendingIE, ASet 2);
     (T_FSEID, ASet 3);
     (T_CreatedPDR, AApp 4);
     (T_LoadControlInformation, ASet 5);
     (T_OverloadControlInformation, ASet 6);
     (T_FQCSID, ASet 7);
     (T_FailedRuleID, ASet 8);
     (T_CreatedTrafficEndpoint, AApp 9);
     (T_CreatedBridgeInfoForTSC, ASet 10);
     (T_ATSSSControlParameters, ASet 11)]
  (* MarshalTo *) [0; 1; 2; 3; 4; 5; 6; 7; 8; 9; 10; 11]%nat
  (* MarshalLen *) [0; 1; 2; 3; 4; 5; 6; 7; 8; 9; 10; 11]%nat
  (* SetLength *) None
  (* MessageTypeName, IsRequest *) (Some "Session Establishment Response") false.

(** message/session-modification-request.go: New 56-150, Marshal/MarshalTo 153-411, UnmarshalBinary 423-522, MarshalLen 525-651, SetLength 654-656 *)
Definition K_SessionModificationRequest : kind := mkKind "SessionModificationRequest" 52
  (* fields *) [("CPFSEID", false);
     ("RemovePDR", true);
     ("RemoveFAR", true);
     ("RemoveURR", true);
     ("RemoveQER", true);
     ("RemoveBAR", false);
     ("RemoveTrafficEndpoint", true);
     ("CreatePDR", true);
     ("CreateFAR", true);
     ("CreateURR", true);
     ("CreateQER", true);
     ("CreateBAR", false);
     ("CreateTrafficEndpoint", true);
     ("UpdatePDR", true);
     ("UpdateFAR", true);
     ("UpdateURR", true);
     ("UpdateQER", true);
     ("UpdateBAR", false);
     ("UpdateTrafficEndpoint", true);
     ("PFCPSMReqFlags", false);
     ("QueryURR", true);
     ("FQCSID", false);
     ("UserPlaneInactivityTimer", false);
     ("QueryURRReference", false);
     ("TraceInformation", false);
     ("RemoveMAR", true);
     ("UpdateMAR", true);
     ("CreateMAR", true);
     ("NodeID", false);
     ("TSCManagementInformation", false);
     ("RemoveSRR", true);
     ("CreateSRR", true);
     ("UpdateSRR", true);
     ("ProvideATSSSControlInformation", false);
     ("EthernetContextInformation", false);
     ("AccessAvailabilityInformation", true);
     ("QueryPacketRateStatus", true);
     ("SNSSAI", false)]
  (* New *) HSession (CSwitch
    [(T_FSEID, ASet 0);
     (T_RemovePDR, AApp 1);
     (T_RemoveFAR, AApp 2);
     (T_RemoveURR, AApp 3);
     (T_RemoveQER, AApp 4);
     (T_RemoveBAR, ASet 5);
     (T_RemoveTrafficEndpoint, AApp 6);
     (T_CreatePDR, AApp 7);
     (T_CreateFAR, AApp 8);
     (T_CreateURR, AApp 9);
     (T_CreateQER, AApp 10);
     (T_CreateBAR, ASet 11);
     (T_CreateTrafficEndpoint, AApp 12);
     (T_UpdatePDR, AApp 13);
     (T_UpdateFAR, AApp 14);
     (T_UpdateURR, AApp 15);
     (T_UpdateQER, AApp 16);
     (T_UpdateBARWithinSessionModificationRequest, ASet 17);
     (T_UpdateTrafficEndpoint, AApp 18);
     (T_PFCPSMReqFlags, ASet 19);
     (T_QueryURR, AApp 20);
     (T_FQCSID, ASet 21);
     (T_UserPlaneInactivityTimer, ASet 22);
     (T_QueryURRReference, ASet 23);
     (T_TraceInformation, ASet 24);
     (T_RemoveMAR, AApp 25);
     (T_UpdateMAR, AApp 26);
     (T_CreateMAR, AApp 27);
     (T_NodeID, ASet 28);
     (T_TSCManagementInformationWithinSessionModificationRequest, ASet 29);
     (T_RemoveSRR, AApp 30);
     (T_CreateSRR, AApp 31);
     (T_UpdateSRR, AApp 32);
     (T_ProvideATSSSControlInformation, ASet 33);
     (T_EthernetContextInformation, ASet 34);
     (T_AccessAvailabilityInformation, AApp 35);
     (T_QueryPacketRateStatusWithinSessionModificationRequest, AApp 36);
     (T_SNSSAI, ASet 37)])
  (* UnmarshalBinary *) IAppend
    [(T_FSEID, ASet 0);
     (T_RemovePDR, AApp 1);
     (T_RemoveFAR, AApp 2);
     (T_RemoveURR, AApp 3);
     (T_RemoveQER, AApp 4);
     (T_RemoveBAR, ASet 5);
     (T_RemoveTrafficEndpoint, AApp 6);
     (T_CreatePDR, AApp 7);
     (T_CreateFAR, AApp 8);
     (T_CreateURR, AApp 9);
     (T_CreateQER, AApp 10);
     (T_CreateBAR, ASet 11);
     (T_CreateTrafficEndpoint, AApp 12);
     (T_UpdatePDR, AApp 13);
     (T_UpdateFAR, AApp 14);
     (T_UpdateURR, AApp 15);
     (T_UpdateQER, AApp 16);
     (T_UpdateBARWithinSessionModificationRequest, ASet 17);
     (T_UpdateTrafficEndpoint, AApp 18);
     (T_PFCPSMReqFlags, ASet 19);
     (T_QueryURR, AApp 20);
     (T_FQCSID, ASet 21);
     (T_UserPlaneInactivityTimer, ASet 22);
     (T_QueryURRReference, ASet 23);
     (T_TraceInformation, ASet 24);
     (T_RemoveMAR, AApp 25);
     (T_UpdateMAR, AApp 26);
     (T_CreateMAR, AApp 27);
     (T_NodeID, ASet 28);
     (T_TSCManagementInformationWithinSessionModificationRequest, ASet 29);
     (T_RemoveSRR, AApp 30);
     (T_CreateSRR, AApp 31);
     (T_UpdateSRR, AApp 32);
     (T_ProvideATSSSControlInformation, ASet 33);
     (T_EthernetContextInformation, ASet 34);
     (T_AccessAvailabilityInformation, AApp 35);
     (T_QueryPacketRateStatusWithinSessionModificationRequest, AApp 36);
     (T_SNSSAI, ASet 37)]
  (* MarshalTo *) [0; 1; 2; 3; 4; 5; 6; 7; 8; 9; 10; 11; 12; 13; 14; 15; 16; 17; 18; 19; 20; 21; 22; 23; 24; 25; 26; 27; 28; 29; 30; 31; 32; 33; 34; 35; 36; 37]%nat
  (* MarshalLen *) [0; 1; 2; 3; 4; 5; 6; 7; 8; 9; 10; 11; 12; 13; 14; 15; 16; 17; 18; 19; 20; 21; 22; 23; 24; 25; 26; 27; 28; 29; 30; 31; 32; 33; 34; 35; 36; 37]%nat
  (* SetLength *) None
  (* MessageTypeName, IsRequest *) (Some "Session Modification Request") true.

(** message/session-modification-response.go: New 35-79, Marshal/MarshalTo 82-190, UnmarshalBinary 202-251, MarshalLen 254-305, SetLength 308-310 *)
Definition K_SessionModificationResponse : kind := mkKind "SessionModificationResponse" 53
  (* fields *) [("Cause", false);
     ("OffendingIE", false);
     ("CreatedPDR", true);
     ("LoadControlInformation", false);
     ("OverloadControlInformation", false);
     ("UsageReport", true);
     ("FailedRuleID", false);
     ("AdditionalUsageReportsInformation", false);
     ("CreatedUpdatedTrafficEndpoint", true);
     ("CreatedBridgeInfoForTSC", false);
     ("ATSSSControlParameters", false);
     ("UpdatedPDR", true);
     ("PacketRateStatusReport", true)]
  (* New *) HSession (CSwitch
    [(T_Cause, ASet 0);
     (T_OffendingIE, ASet 1);
     (T_CreatedPDR, AApp 2);
     (T_LoadControlInformation, ASet 3);
     (T_OverloadControlInformation, ASet 4);
     (T_UsageReportWithinSessionModificationResponse, AApp 5);
     (T_FailedRuleID, ASet 6);
     (T_AdditionalUsageReportsInformation, ASet 7);
     (T_CreatedTrafficEndpoint, AApp 8);
     (T_CreatedBridgeInfoForTSC, ASet 9);
     (T_ATSSSControlParameters, ASet 10);
     (T_UpdatedPDR, AApp 11);
     (T_PacketRateStatusReport, AApp 12)])
  (* UnmarshalBinary *) IAppend
    [(T_Cause, ASet 0);
     (T_OffendingIE, ASet 1);
     (T_CreatedPDR, AApp 2);
     (T_LoadControlInformation, ASet 3);
     (T_OverloadControlInformation, ASet 4);
     (T_UsageReportWithinSessionModificationResponse, AApp 5);
     (T_FailedRuleID, ASet 6);
     (T_AdditionalUsageReportsInformation, ASet 7);
     (T_CreatedTrafficEndpoint, AApp 8);
     (T_CreatedBridgeInfoForTSC, ASet 9);
     (T_ATSSSControlParameters, ASet 10);
     (T_UpdatedPDR, AApp 11);
     (T_PacketRateStatusReport, AApp 12)]
  (* MarshalTo *) [0; 1; 2; 3; 4; 5; 6; 7; 8; 9; 10; 11; 12]%nat
  (* MarshalLen *) [0; 1; 2; 3; 4; 5; 6; 7; 8; 9; 10; 11; 12]%nat
  (* SetLength *) None
  (* MessageTypeName, IsRequest *) (Some "Session Modification Response") false.

(** message/session-deletion-request.go: New 18-30, Marshal/MarshalTo 33-62, UnmarshalBinary 74-92, MarshalLen 95-106, SetLength 109-111 *)
Definition K_SessionDeletionRequest : kind := mkKind "SessionDeletionRequest" 54
  (* fields *) []
  (* New *) HSession (CFields []%nat)
  (* UnmarshalBinary *) IAppend
    []
  (* MarshalTo *) []%nat
  (* MarshalLen *) []%nat
  (* SetLength *) None
  (* MessageTypeName, IsRequest *) (Some "Session Deletion Request") true.

(** message/session-deletion-response.go: New 26-56, Marshal/MarshalTo 59-126, UnmarshalBinary 138-173, MarshalLen 176-206, SetLength 209-211 *)
Definition K_SessionDeletionResponse : kind := mkKind "SessionDeletionResponse" 55
  (* fields *) [("Cause", false);
     ("OffendingIE", false);
     ("LoadControlInformation", false);
     ("OverloadControlInformation", false);
     ("UsageReport", true);
     ("AdditionalUsageReportsInformation", false)]
  (* New *) HSession (CSwitch
    [(T_Cause, ASet 0);
     (T_OffendingIE, ASet 1);
     (T_LoadControlInformation, ASet 2);
     (T_OverloadControlInformation, ASet 3);
     (T_UsageReportWithinSessionDeletionResponse, AApp 4);
     (T_AdditionalUsageReportsInformation, ASet 5)])
  (* UnmarshalBinary *) IAppend
    [(T_Cause, ASet 0);
     (T_OffendingIE, ASet 1);
     (T_LoadControlInformation, ASet 2);
     (T_OverloadControlInformation, ASet 3);
     (T_UsageReportWithinSessionDeletionResponse, AApp 4);
     (T_AdditionalUsageReportsInformation, ASet 5)]
  (* MarshalTo *) [0; 1; 2; 3; 4; 5]%nat
  (* MarshalLen *) [0; 1; 2; 3; 4; 5]%nat
  (* SetLength *) None
  (* MessageTypeName, IsRequest *) (Some "Session Deletion Response") false.

(** message/session-report-request.go: New 32-74, Marshal/MarshalTo 77-179, UnmarshalBinary 191-238, MarshalLen 241-289, SetLength 292-294 *)
Definition K_SessionReportRequest : kind := mkKind "SessionReportRequest" 56
  (* fields *) [("ReportType", false);
     ("DownlinkDataReport", false);
     ("UsageReport", true);
     ("ErrorIndicationReport", false);
     ("LoadControlInformation", false);
     ("OverloadControlInformation", false);
     ("AdditionalUsageReportsInformation", false);
     ("PFCPSRReqFlags", false);
     ("OldCPFSEID", false);
     ("PacketRateStatusReport", false);
     ("PortManagementInformationForTSC", false);
     ("SessionReport", true)]
  (* New *) HSession (CSwitch
    [(T_ReportType, ASet 0);
     (T_DownlinkDataReport, ASet 1);
     (T_UsageReportWithinSessionReportRequest, AApp 2);
     (T_ErrorIndicationReport, ASet 3);
     (T_LoadControlInformation, ASet 4);
     (T_OverloadControlInformation, ASet 5);
     (T_AdditionalUsageReportsInformation, ASet 6);
     (T_PFCPSRReqFlags, ASet 7);
     (T_FSEID, ASet 8);
     (T_PacketRateStatusReport, ASet 9);
     (T_PortManagementInformationForTSCWithinSessionReportRequest, ASet 10);
     (T_SessionReport, AApp 11)])
  (* UnmarshalBinary *) IAppend
    [(T_ReportType, ASet 0);
     (T_DownlinkDataReport, ASet 1);
     (T_UsageReportWithinSessionReportRequest, AApp 2);
     (T_ErrorIndicationReport, ASet 3);
     (T_LoadControlInformation, ASet 4);
     (T_OverloadControlInformation, ASet 5);
     (T_AdditionalUsageReportsInformation, ASet 6);
     (T_PFCPSRReqFlags, ASet 7);
     (T_FSEID, ASet 8);
     (T_PacketRateStatusReport, ASet 9);
     (T_PortManagementInformationForTSCWithinSessionReportRequest, ASet 10);
     (T_SessionReport, AApp 11)]
  (* MarshalTo *) [0; 1; 2; 3; 4; 5; 6; 7; 8; 9; 10; 11]%nat
  (* MarshalLen *) [0; 1; 2; 3; 4; 5; 6; 7; 8; 9; 10; 11]%nat
  (* SetLength *) None
  (* MessageTypeName, IsRequest *) (Some "Session Report Request") true.

(** message/session-report-response.go: New 25-57, Marshal/MarshalTo 60-132, UnmarshalBinary 144-181, MarshalLen 184-217, SetLength 220-222 *)
Definition K_SessionReportResponse : kind := mkKind "SessionReportResponse" 57
  (* fields *) [("Cause", false);
     ("OffendingIE", false);
     ("UpdateBAR", false);
     ("PFCPSRRspFlags", false);
     ("CPFSEID", false);
     ("N4UFTEID", false);
     ("AlternativeSMFIPAddress", false)]
  (* New *) HSession (CSwitch
    [(T_Cause, ASet 0);
     (T_OffendingIE, ASet 1);
     (T_UpdateBARWithinSessionReportResponse, ASet 2);
     (T_PFCPSRRspFlags, ASet 3);
     (T_FSEID, ASet 4);
     (T_FTEID, ASet 5);
     (T_AlternativeSMFIPAddress, ASet 6)])
  (* UnmarshalBinary *) IAppend
    [(T_Cause, ASet 0);
     (T_OffendingIE, ASet 1);
     (T_UpdateBARWithinSessionReportResponse, ASet 2);
     (T_PFCPSRRspFlags, ASet 3);
     (T_FSEID, ASet 4);
     (T_FTEID, ASet 5);
     (T_AlternativeSMFIPAddress, ASet 6)]
  (* MarshalTo *) [0; 1; 2; 3; 4; 5; 6]%nat
  (* MarshalLen *) [0; 1; 2; 3; 4; 5; 6]%nat
  (* SetLength *) None
  (* MessageTypeName, IsRequest *) (Some "Session Report Response") false.

(** message/generic.go: New 20-32, Marshal/MarshalTo 50-79, UnmarshalBinary 91-106, MarshalLen 109-120, SetLength 123-129 *)
Definition K_Generic : kind := mkKind "Generic" 0
  (* fields *) []
  (* New *) HGeneric (CFields []%nat)
  (* UnmarshalBinary *) IReplace
    []
  (* MarshalTo *) []%nat
  (* MarshalLen *) []%nat
  (* SetLength *) (Some []%nat)
  (* MessageTypeName, IsRequest *) None false.

(** The switch of message.Parse, message/message.go:66-116. *)
Definition dispatch : list (N * kind) :=
  [(1, K_HeartbeatRequest);
   (2, K_HeartbeatResponse);
   (3, K_PFDManagementRequest);
   (4, K_PFDManagementResponse);
   (5, K_AssociationSetupRequest);
   (6, K_AssociationSetupResponse);
   (7, K_AssociationUpdateRequest);
   (8, K_AssociationUpdateResponse);
   (9, K_AssociationReleaseRequest);
   (10, K_AssociationReleaseResponse);
   (11, K_VersionNotSupportedResponse);
   (12, K_NodeReportRequest);
   (13, K_NodeReportResponse);
   (14, K_SessionSetDeletionRequest);
   (15, K_SessionSetDeletionResponse);
   (50, K_SessionEstablishmentRequest);
   (51, K_SessionEstablishmentResponse);
   (52, K_SessionModificationRequest);
   (53, K_SessionModificationResponse);
   (54, K_SessionDeletionRequest);
   (55, K_SessionDeletionResponse);
   (56, K_SessionReportRequest);
   (57, K_SessionReportResponse)].
Definition kinds : list kind := map snd dispatch ++ [K_Generic].
