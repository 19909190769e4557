(** Generated by tools/genflag.py from the text of /repo/ie/*.go.
    The bool methods of *IE, except IsVendorSpecific and IsGrouped (IE.v), and the HasX and SetXFlag methods of the XxxFields structs. *)
From Verif Require Import Base IETypes IE Access AccTable Flags.

Inductive flag :=
| B_HasAURI
| B_HasDROP
| B_HasFORW
| B_HasBUFF
| B_HasNOCP
| B_HasDUPL
| B_HasIPMA
| B_HasIPMD
| B_HasDFRT
| B_HasEDRT
| B_HasBDPN
| B_HasDDPN
| B_HasFSSM
| B_HasMBSU
| B_HasLLI
| B_HasLOAD
| B_HasOVRL
| B_HasARDR
| B_HasUIAUR
| B_HasPSUCC
| B_HasRPGUR
| B_HasBII
| B_HasTTC
| B_HasSCI
| B_HasPPI
| B_HasQFI
| B_HasDLBY
| B_HasDLPA
| B_HasBIDE
| B_HasETHI
| B_HasN3
| B_HasN9
| B_HasISTM
| B_HasRADI
| B_HasINAM
| B_HasMBQE
| B_HasEVENT
| B_HasVOLUM
| B_HasDURAT
| B_HasMAI
| B_HasTCI
| B_HasRDSI
| B_HasUPFR
| B_HasTEID
| B_HasPortNumber
| B_HasIPv4
| B_HasIPv6
| B_HasCTag
| B_HasSTag
| B_IsN19
| B_IsN6
| B_IsLLSSMCTEID
| B_HasDLPR
| B_HasULPR
| B_HasPRIUEAI
| B_HasPRINT19I
| B_HasPRIN6I
| B_HasDCARONI
| B_HasURSS
| B_HasSARR
| B_HasUUPSI
| B_HasPSREI
| B_HasPARPS
| B_HasRESTI
| B_HasDROBU
| B_HasSNDEM
| B_HasQAURR
| B_HasPSDBU
| B_HasPMFI
| B_HasINS
| B_HasARP
| B_HasNORD
| B_HasMODE
| B_HasRCSR
| B_HasIRE
| B_HasTHR
| B_HasPER
| B_HasRDS
| B_HasNI
| B_HasDI
| B_HasUPIR
| B_HasERIR
| B_HasUSAR
| B_HasDLDR
| B_HasSESRL
| B_HasEVETT
| B_HasLIUSA
| B_HasDROTH
| B_HasSTOPT
| B_HasSTART
| B_HasQUHTI
| B_HasTIMTH
| B_HasVOLTH
| B_HasPERIO
| B_HasQUVTI
| B_HasIPMJL
| B_HasEVEQU
| B_HasEVETH
| B_HasMACAR
| B_HasENVCL
| B_HasTIMQU
| B_HasVOLQU
| B_HasUPINT
| B_HasREEMR
| B_HasRRCA
| B_HasRRCR
| B_HasRRTO
| B_HasRP
| B_HasUL
| B_HasDL
| B_HasRQI
| B_HasMAC
| B_HasCHV4
| B_HasCHV6
| B_HasIP6PL
| B_HasIPv6D
| B_HasSD
| B_HasBUCP
| B_HasDDND
| B_HasDLBD
| B_HasTRST
| B_HasFTUP
| B_HasPFDM
| B_HasHEEU
| B_HasTREU
| B_HasEMPU
| B_HasPDIU
| B_HasUDBC
| B_HasQUOAC
| B_HasTRACE
| B_HasFRRT
| B_HasPFDE
| B_HasEPFAR
| B_HasDPDRA
| B_HasADPDP
| B_HasUEIP
| B_HasSSET
| B_HasMNOP
| B_HasMTE
| B_HasBUNDL
| B_HasGCOM
| B_HasMPAS
| B_HasRTTL
| B_HasVTIME
| B_IsAllocatedByCPFunction
| B_IsAllocatedByUPFunction
| B_HasUBE
| B_HasUAE
| B_HasAFT
| B_HasBEF
| B_HasIMMER
| B_HasMONIT
| B_HasTERMR
| B_HasEMRRE
| B_HasTEBUR
| B_HasASSONI
| B_HasASSOSI.

Definition all_flags : list flag := [
  B_HasAURI;
  B_HasDROP;
  B_HasFORW;
  B_HasBUFF;
  B_HasNOCP;
  B_HasDUPL;
  B_HasIPMA;
  B_HasIPMD;
  B_HasDFRT;
  B_HasEDRT;
  B_HasBDPN;
  B_HasDDPN;
  B_HasFSSM;
  B_HasMBSU;
  B_HasLLI;
  B_HasLOAD;
  B_HasOVRL;
  B_HasARDR;
  B_HasUIAUR;
  B_HasPSUCC;
  B_HasRPGUR;
  B_HasBII;
  B_HasTTC;
  B_HasSCI;
  B_HasPPI;
  B_HasQFI;
  B_HasDLBY;
  B_HasDLPA;
  B_HasBIDE;
  B_HasETHI;
  B_HasN3;
  B_HasN9;
  B_HasISTM;
  B_HasRADI;
  B_HasINAM;
  B_HasMBQE;
  B_HasEVENT;
  B_HasVOLUM;
  B_HasDURAT;
  B_HasMAI;
  B_HasTCI;
  B_HasRDSI;
  B_HasUPFR;
  B_HasTEID;
  B_HasPortNumber;
  B_HasIPv4;
  B_HasIPv6;
  B_HasCTag;
  B_HasSTag;
  B_IsN19;
  B_IsN6;
  B_IsLLSSMCTEID;
  B_HasDLPR;
  B_HasULPR;
  B_HasPRIUEAI;
  B_HasPRINT19I;
  B_HasPRIN6I;
  B_HasDCARONI;
  B_HasURSS;
  B_HasSARR;
  B_HasUUPSI;
  B_HasPSREI;
  B_HasPARPS;
  B_HasRESTI;
  B_HasDROBU;
  B_HasSNDEM;
  B_HasQAURR;
  B_HasPSDBU;
  B_HasPMFI;
  B_HasINS;
  B_HasARP;
  B_HasNORD;
  B_HasMODE;
  B_HasRCSR;
  B_HasIRE;
  B_HasTHR;
  B_HasPER;
  B_HasRDS;
  B_HasNI;
  B_HasDI;
  B_HasUPIR;
  B_HasERIR;
  B_HasUSAR;
  B_HasDLDR;
  B_HasSESRL;
  B_HasEVETT;
  B_HasLIUSA;
  B_HasDROTH;
  B_HasSTOPT;
  B_HasSTART;
  B_HasQUHTI;
  B_HasTIMTH;
  B_HasVOLTH;
  B_HasPERIO;
  B_HasQUVTI;
  B_HasIPMJL;
  B_HasEVEQU;
  B_HasEVETH;
  B_HasMACAR;
  B_HasENVCL;
  B_HasTIMQU;
  B_HasVOLQU;
  B_HasUPINT;
  B_HasREEMR;
  B_HasRRCA;
  B_HasRRCR;
  B_HasRRTO;
  B_HasRP;
  B_HasUL;
  B_HasDL;
  B_HasRQI;
  B_HasMAC;
  B_HasCHV4;
  B_HasCHV6;
  B_HasIP6PL;
  B_HasIPv6D;
  B_HasSD;
  B_HasBUCP;
  B_HasDDND;
  B_HasDLBD;
  B_HasTRST;
  B_HasFTUP;
  B_HasPFDM;
  B_HasHEEU;
  B_HasTREU;
  B_HasEMPU;
  B_HasPDIU;
  B_HasUDBC;
  B_HasQUOAC;
  B_HasTRACE;
  B_HasFRRT;
  B_HasPFDE;
  B_HasEPFAR;
  B_HasDPDRA;
  B_HasADPDP;
  B_HasUEIP;
  B_HasSSET;
  B_HasMNOP;
  B_HasMTE;
  B_HasBUNDL;
  B_HasGCOM;
  B_HasMPAS;
  B_HasRTTL;
  B_HasVTIME;
  B_IsAllocatedByCPFunction;
  B_IsAllocatedByUPFunction;
  B_HasUBE;
  B_HasUAE;
  B_HasAFT;
  B_HasBEF;
  B_HasIMMER;
  B_HasMONIT;
  B_HasTERMR;
  B_HasEMRRE;
  B_HasTEBUR;
  B_HasASSONI;
  B_HasASSOSI].

Definition flag_id (f : flag) : N :=
  match f with
  | B_HasAURI => 0%N
  | B_HasDROP => 1%N
  | B_HasFORW => 2%N
  | B_HasBUFF => 3%N
  | B_HasNOCP => 4%N
  | B_HasDUPL => 5%N
  | B_HasIPMA => 6%N
  | B_HasIPMD => 7%N
  | B_HasDFRT => 8%N
  | B_HasEDRT => 9%N
  | B_HasBDPN => 10%N
  | B_HasDDPN => 11%N
  | B_HasFSSM => 12%N
  | B_HasMBSU => 13%N
  | B_HasLLI => 14%N
  | B_HasLOAD => 15%N
  | B_HasOVRL => 16%N
  | B_HasARDR => 17%N
  | B_HasUIAUR => 18%N
  | B_HasPSUCC => 19%N
  | B_HasRPGUR => 20%N
  | B_HasBII => 21%N
  | B_HasTTC => 22%N
  | B_HasSCI => 23%N
  | B_HasPPI => 24%N
  | B_HasQFI => 25%N
  | B_HasDLBY => 26%N
  | B_HasDLPA => 27%N
  | B_HasBIDE => 28%N
  | B_HasETHI => 29%N
  | B_HasN3 => 30%N
  | B_HasN9 => 31%N
  | B_HasISTM => 32%N
  | B_HasRADI => 33%N
  | B_HasINAM => 34%N
  | B_HasMBQE => 35%N
  | B_HasEVENT => 36%N
  | B_HasVOLUM => 37%N
  | B_HasDURAT => 38%N
  | B_HasMAI => 39%N
  | B_HasTCI => 40%N
  | B_HasRDSI => 41%N
  | B_HasUPFR => 42%N
  | B_HasTEID => 43%N
  | B_HasPortNumber => 44%N
  | B_HasIPv4 => 45%N
  | B_HasIPv6 => 46%N
  | B_HasCTag => 47%N
  | B_HasSTag => 48%N
  | B_IsN19 => 49%N
  | B_IsN6 => 50%N
  | B_IsLLSSMCTEID => 51%N
  | B_HasDLPR => 52%N
  | B_HasULPR => 53%N
  | B_HasPRIUEAI => 54%N
  | B_HasPRINT19I => 55%N
  | B_HasPRIN6I => 56%N
  | B_HasDCARONI => 57%N
  | B_HasURSS => 58%N
  | B_HasSARR => 59%N
  | B_HasUUPSI => 60%N
  | B_HasPSREI => 61%N
  | B_HasPARPS => 62%N
  | B_HasRESTI => 63%N
  | B_HasDROBU => 64%N
  | B_HasSNDEM => 65%N
  | B_HasQAURR => 66%N
  | B_HasPSDBU => 67%N
  | B_HasPMFI => 68%N
  | B_HasINS => 69%N
  | B_HasARP => 70%N
  | B_HasNORD => 71%N
  | B_HasMODE => 72%N
  | B_HasRCSR => 73%N
  | B_HasIRE => 74%N
  | B_HasTHR => 75%N
  | B_HasPER => 76%N
  | B_HasRDS => 77%N
  | B_HasNI => 78%N
  | B_HasDI => 79%N
  | B_HasUPIR => 80%N
  | B_HasERIR => 81%N
  | B_HasUSAR => 82%N
  | B_HasDLDR => 83%N
  | B_HasSESRL => 84%N
  | B_HasEVETT => 85%N
  | B_HasLIUSA => 86%N
  | B_HasDROTH => 87%N
  | B_HasSTOPT => 88%N
  | B_HasSTART => 89%N
  | B_HasQUHTI => 90%N
  | B_HasTIMTH => 91%N
  | B_HasVOLTH => 92%N
  | B_HasPERIO => 93%N
  | B_HasQUVTI => 94%N
  | B_HasIPMJL => 95%N
  | B_HasEVEQU => 96%N
  | B_HasEVETH => 97%N
  | B_HasMACAR => 98%N
  | B_HasENVCL => 99%N
  | B_HasTIMQU => 100%N
  | B_HasVOLQU => 101%N
  | B_HasUPINT => 102%N
  | B_HasREEMR => 103%N
  | B_HasRRCA => 104%N
  | B_HasRRCR => 105%N
  | B_HasRRTO => 106%N
  | B_HasRP => 107%N
  | B_HasUL => 108%N
  | B_HasDL => 109%N
  | B_HasRQI => 110%N
  | B_HasMAC => 111%N
  | B_HasCHV4 => 112%N
  | B_HasCHV6 => 113%N
  | B_HasIP6PL => 114%N
  | B_HasIPv6D => 115%N
  | B_HasSD => 116%N
  | B_HasBUCP => 117%N
  | B_HasDDND => 118%N
  | B_HasDLBD => 119%N
  | B_HasTRST => 120%N
  | B_HasFTUP => 121%N
  | B_HasPFDM => 122%N
  | B_HasHEEU => 123%N
  | B_HasTREU => 124%N
  | B_HasEMPU => 125%N
  | B_HasPDIU => 126%N
  | B_HasUDBC => 127%N
  | B_HasQUOAC => 128%N
  | B_HasTRACE => 129%N
  | B_HasFRRT => 130%N
  | B_HasPFDE => 131%N
  | B_HasEPFAR => 132%N
  | B_HasDPDRA => 133%N
  | B_HasADPDP => 134%N
  | B_HasUEIP => 135%N
  | B_HasSSET => 136%N
  | B_HasMNOP => 137%N
  | B_HasMTE => 138%N
  | B_HasBUNDL => 139%N
  | B_HasGCOM => 140%N
  | B_HasMPAS => 141%N
  | B_HasRTTL => 142%N
  | B_HasVTIME => 143%N
  | B_IsAllocatedByCPFunction => 144%N
  | B_IsAllocatedByUPFunction => 145%N
  | B_HasUBE => 146%N
  | B_HasUAE => 147%N
  | B_HasAFT => 148%N
  | B_HasBEF => 149%N
  | B_HasIMMER => 150%N
  | B_HasMONIT => 151%N
  | B_HasTERMR => 152%N
  | B_HasEMRRE => 153%N
  | B_HasTEBUR => 154%N
  | B_HasASSONI => 155%N
  | B_HasASSOSI => 156%N
  end.

Definition flag_def (f : flag) : fdef :=
  match f with
  | B_HasAURI => (* ie/additional-usage-reports-information.go:34-43 *)
      mkfdef [GType T_AdditionalUsageReportsInformation]
        [] (BPay 2 0 8)
  | B_HasDROP => (* ie/apply-action.go:93-110 *)
      mkfdef []
        [([T_CreateFAR; T_UpdateFAR; T_ApplyAction], BOct A_ApplyAction 0 0 1);
         ([T_DownlinkDataReport; T_DataStatus], BVal A_DataStatus 1)] (BFalse)
  | B_HasFORW => (* ie/apply-action.go:113-119 *)
      mkfdef []
        [] (BOct A_ApplyAction 0 0 2)
  | B_HasBUFF => (* ie/apply-action.go:122-139 *)
      mkfdef []
        [([T_CreateFAR; T_UpdateFAR; T_ApplyAction], BOct A_ApplyAction 0 0 3);
         ([T_DownlinkDataReport; T_DataStatus], BVal A_DataStatus 2)] (BFalse)
  | B_HasNOCP => (* ie/apply-action.go:142-148 *)
      mkfdef []
        [] (BOct A_ApplyAction 0 0 4)
  | B_HasDUPL => (* ie/apply-action.go:151-157 *)
      mkfdef []
        [] (BOct A_ApplyAction 0 0 5)
  | B_HasIPMA => (* ie/apply-action.go:161-167 *)
      mkfdef []
        [] (BOct A_ApplyAction 0 0 6)
  | B_HasIPMD => (* ie/apply-action.go:171-177 *)
      mkfdef []
        [] (BOct A_ApplyAction 0 0 7)
  | B_HasDFRT => (* ie/apply-action.go:181-187 *)
      mkfdef []
        [] (BOct A_ApplyAction 0 0 8)
  | B_HasEDRT => (* ie/apply-action.go:191-200 *)
      mkfdef []
        [] (BOct A_ApplyAction 2 1 1)
  | B_HasBDPN => (* ie/apply-action.go:204-213 *)
      mkfdef []
        [] (BOct A_ApplyAction 2 1 2)
  | B_HasDDPN => (* ie/apply-action.go:217-226 *)
      mkfdef []
        [] (BOct A_ApplyAction 2 1 3)
  | B_HasFSSM => (* ie/apply-action.go:230-239 *)
      mkfdef []
        [] (BOct A_ApplyAction 2 1 4)
  | B_HasMBSU => (* ie/apply-action.go:243-252 *)
      mkfdef []
        [] (BOct A_ApplyAction 2 1 5)
  | B_HasLLI => (* ie/atsss-ll-control-information.go:34-45 *)
      mkfdef []
        [([T_ATSSSLLControlInformation; T_ATSSSLLInformation], BPay 1 0 1)] (BFalse)
  | B_HasLOAD => (* ie/cp-function-features.go:26-35 *)
      mkfdef [GType T_CPFunctionFeatures]
        [] (BPay 1 0 1)
  | B_HasOVRL => (* ie/cp-function-features.go:38-47 *)
      mkfdef [GType T_CPFunctionFeatures]
        [] (BPay 1 0 2)
  | B_HasARDR => (* ie/cp-function-features.go:50-59 *)
      mkfdef [GType T_CPFunctionFeatures]
        [] (BPay 1 0 7)
  | B_HasUIAUR => (* ie/cp-function-features.go:62-71 *)
      mkfdef [GType T_CPFunctionFeatures]
        [] (BPay 1 0 8)
  | B_HasPSUCC => (* ie/cp-function-features.go:74-83 *)
      mkfdef [GType T_CPFunctionFeatures]
        [] (BPay 2 1 1)
  | B_HasRPGUR => (* ie/cp-function-features.go:86-95 *)
      mkfdef [GType T_CPFunctionFeatures]
        [] (BPay 2 1 2)
  | B_HasBII => (* ie/create-bridge-info-for-tsc.go:23-30 *)
      mkfdef []
        [] (BVal A_CreateBridgeInfoForTSC 1)
  | B_HasTTC => (* ie/dl-flow-level-marking.go:61-70 *)
      mkfdef [GType T_DLFlowLevelMarking]
        [] (BPay 1 0 2)
  | B_HasSCI => (* ie/dl-flow-level-marking.go:73-82 *)
      mkfdef [GType T_DLFlowLevelMarking]
        [] (BPay 1 0 1)
  | B_HasPPI => (* ie/downlink-data-service-information.go:48-57 *)
      mkfdef [GType T_DownlinkDataServiceInformation]
        [] (BPay 1 0 1)
  | B_HasQFI => (* ie/downlink-data-service-information.go:60-69 *)
      mkfdef [GType T_DownlinkDataServiceInformation]
        [] (BPay 1 0 2)
  | B_HasDLBY => (* ie/dropped-dl-traffic-threshold.go:76-83 *)
      mkfdef []
        [] (BVal A_DroppedDLTrafficThreshold 2)
  | B_HasDLPA => (* ie/dropped-dl-traffic-threshold.go:86-93 *)
      mkfdef []
        [] (BVal A_DroppedDLTrafficThreshold 1)
  | B_HasBIDE => (* ie/ethernet-filter-properties.go:45-52 *)
      mkfdef []
        [] (BVal A_EthernetFilterProperties 1)
  | B_HasETHI => (* ie/ethernet-pdu-session-information.go:56-63 *)
      mkfdef []
        [] (BVal A_EthernetPDUSessionInformation 1)
  | B_HasN3 => (* ie/gtp-u-path-interface-type.go:46-53 *)
      mkfdef []
        [] (BVal A_GTPUPathInterfaceType 2)
  | B_HasN9 => (* ie/gtp-u-path-interface-type.go:56-63 *)
      mkfdef []
        [] (BVal A_GTPUPathInterfaceType 1)
  | B_HasISTM => (* ie/measurement-information.go:45-54 *)
      mkfdef [GType T_MeasurementInformation]
        [] (BPay 1 0 4)
  | B_HasRADI => (* ie/measurement-information.go:57-66 *)
      mkfdef [GType T_MeasurementInformation]
        [] (BPay 1 0 3)
  | B_HasINAM => (* ie/measurement-information.go:69-78 *)
      mkfdef [GType T_MeasurementInformation]
        [] (BPay 1 0 2)
  | B_HasMBQE => (* ie/measurement-information.go:81-90 *)
      mkfdef [GType T_MeasurementInformation]
        [] (BPay 1 0 1)
  | B_HasEVENT => (* ie/measurement-method.go:56-63 *)
      mkfdef []
        [] (BVal A_MeasurementMethod 3)
  | B_HasVOLUM => (* ie/measurement-method.go:66-73 *)
      mkfdef []
        [] (BVal A_MeasurementMethod 2)
  | B_HasDURAT => (* ie/measurement-method.go:76-83 *)
      mkfdef []
        [] (BVal A_MeasurementMethod 1)
  | B_HasMAI => (* ie/mptcp-applicable-indication.go:34-45 *)
      mkfdef []
        [([T_MPTCPApplicableIndication], BPay 1 0 1)] (BFalse)
  | B_HasTCI => (* ie/mptcp-control-information.go:34-41 *)
      mkfdef []
        [] (BVal A_MPTCPControlInformation 1)
  | B_HasRDSI => (* ie/mt-edt-control-information.go:34-41 *)
      mkfdef []
        [] (BVal A_MTEDTControlInformation 1)
  | B_HasUPFR => (* ie/node-report-type.go:22-31 *)
      mkfdef [GType T_NodeReportType]
        [] (BPay 1 0 1)
  | B_HasTEID => (* ie/outer-header-creation.go:94-107 *)
      mkfdef [GType T_OuterHeaderCreation]
        [] (BLen 1 (BOhc A_OuterHeaderCreation OH_TEID))
  | B_HasPortNumber => (* ie/outer-header-creation.go:110-123 *)
      mkfdef [GType T_OuterHeaderCreation]
        [] (BLen 1 (BOhc A_OuterHeaderCreation OH_Port))
  | B_HasIPv4 => (* ie/outer-header-creation.go:126-171 *)
      mkfdef []
        [([T_OuterHeaderCreation], BLen 1 (BOhc A_OuterHeaderCreation OH_IPv4));
         ([T_UEIPAddress], BPayAndNot 1 0 2 5);
         ([T_UserPlaneIPResourceInformation], BPay 1 0 1);
         ([T_FSEID], BFld A_FSEID 2);
         ([T_FTEID], BFld A_FTEID 1);
         ([T_IPVersion], BVal A_IPVersion 2)] (BFalse)
  | B_HasIPv6 => (* ie/outer-header-creation.go:174-219 *)
      mkfdef []
        [([T_OuterHeaderCreation], BLen 1 (BOhc A_OuterHeaderCreation OH_IPv6));
         ([T_UEIPAddress], BPayAndNot 1 0 1 5);
         ([T_UserPlaneIPResourceInformation], BPay 1 0 2);
         ([T_FSEID], BFld A_FSEID 1);
         ([T_FTEID], BFld A_FTEID 2);
         ([T_IPVersion], BVal A_IPVersion 1)] (BFalse)
  | B_HasCTag => (* ie/outer-header-creation.go:222-235 *)
      mkfdef [GType T_OuterHeaderCreation]
        [] (BLen 1 (BOhc A_OuterHeaderCreation OH_CTag))
  | B_HasSTag => (* ie/outer-header-creation.go:238-251 *)
      mkfdef [GType T_OuterHeaderCreation]
        [] (BLen 1 (BOhc A_OuterHeaderCreation OH_STag))
  | B_IsN19 => (* ie/outer-header-creation.go:254-267 *)
      mkfdef [GType T_OuterHeaderCreation]
        [] (BLen 2 (BOhc A_OuterHeaderCreation OH_N19))
  | B_IsN6 => (* ie/outer-header-creation.go:270-283 *)
      mkfdef [GType T_OuterHeaderCreation]
        [] (BLen 2 (BOhc A_OuterHeaderCreation OH_N6))
  | B_IsLLSSMCTEID => (* ie/outer-header-creation.go:286-299 *)
      mkfdef [GType T_OuterHeaderCreation]
        [] (BLen 2 (BOhc A_OuterHeaderCreation OH_LLSSM))
  | B_HasDLPR => (* ie/packet-rate.go:70-79 *)
      mkfdef [GType T_PacketRate]
        [] (BPay 1 0 2)
  | B_HasULPR => (* ie/packet-rate.go:82-91 *)
      mkfdef [GType T_PacketRate]
        [] (BPay 1 0 1)
  | B_HasPRIUEAI => (* ie/packet-replication-and-detection-carry-on-information.go:34-41 *)
      mkfdef []
        [] (BVal A_PacketReplicationAndDetectionCarryOnInformation 1)
  | B_HasPRINT19I => (* ie/packet-replication-and-detection-carry-on-information.go:44-51 *)
      mkfdef []
        [] (BVal A_PacketReplicationAndDetectionCarryOnInformation 2)
  | B_HasPRIN6I => (* ie/packet-replication-and-detection-carry-on-information.go:54-61 *)
      mkfdef []
        [] (BVal A_PacketReplicationAndDetectionCarryOnInformation 3)
  | B_HasDCARONI => (* ie/packet-replication-and-detection-carry-on-information.go:64-71 *)
      mkfdef []
        [] (BVal A_PacketReplicationAndDetectionCarryOnInformation 4)
  | B_HasURSS => (* ie/pfcp-association-release-request.go:22-29 *)
      mkfdef []
        [] (BVal A_PFCPAssociationReleaseRequest 2)
  | B_HasSARR => (* ie/pfcp-association-release-request.go:32-39 *)
      mkfdef []
        [] (BVal A_PFCPAssociationReleaseRequest 1)
  | B_HasUUPSI => (* ie/pfcpasreq-flags.go:22-29 *)
      mkfdef []
        [] (BVal A_PFCPASReqFlags 1)
  | B_HasPSREI => (* ie/pfcpasrsp-flags.go:22-29 *)
      mkfdef []
        [] (BVal A_PFCPASRspFlags 1)
  | B_HasPARPS => (* ie/pfcpaureq-flags.go:22-29 *)
      mkfdef []
        [] (BVal A_PFCPAUReqFlags 1)
  | B_HasRESTI => (* ie/pfcpsereq-flags.go:22-29 *)
      mkfdef []
        [] (BVal A_PFCPSEReqFlags 1)
  | B_HasDROBU => (* ie/pfcpsmreq-flags.go:45-68 *)
      mkfdef [GLen 1]
        [([T_PFCPSMReqFlags], BVal A_PFCPSMReqFlags 1);
         ([T_PFCPSRRspFlags], BVal A_PFCPSRRspFlags 1)] (BFalse)
  | B_HasSNDEM => (* ie/pfcpsmreq-flags.go:71-87 *)
      mkfdef [GLen 1]
        [([T_PFCPSMReqFlags], BVal A_PFCPSMReqFlags 2)] (BFalse)
  | B_HasQAURR => (* ie/pfcpsmreq-flags.go:90-106 *)
      mkfdef [GLen 1]
        [([T_PFCPSMReqFlags], BVal A_PFCPSMReqFlags 3)] (BFalse)
  | B_HasPSDBU => (* ie/pfcpsrreq-flags.go:22-29 *)
      mkfdef []
        [] (BVal A_PFCPSRReqFlags 1)
  | B_HasPMFI => (* ie/pmf-control-information.go:34-41 *)
      mkfdef []
        [] (BVal A_PMFControlInformation 1)
  | B_HasINS => (* ie/proxying.go:45-52 *)
      mkfdef []
        [] (BVal A_Proxying 2)
  | B_HasARP => (* ie/proxying.go:55-62 *)
      mkfdef []
        [] (BVal A_Proxying 1)
  | B_HasNORD => (* ie/qer-control-indications.go:46-53 *)
      mkfdef []
        [] (BVal A_QERControlIndications 3)
  | B_HasMODE => (* ie/qer-control-indications.go:56-63 *)
      mkfdef []
        [] (BVal A_QERControlIndications 2)
  | B_HasRCSR => (* ie/qer-control-indications.go:66-73 *)
      mkfdef []
        [] (BVal A_QERControlIndications 1)
  | B_HasIRE => (* ie/qos-report-trigger.go:46-53 *)
      mkfdef []
        [] (BVal A_QoSReportTrigger 3)
  | B_HasTHR => (* ie/qos-report-trigger.go:56-63 *)
      mkfdef []
        [] (BVal A_QoSReportTrigger 2)
  | B_HasPER => (* ie/qos-report-trigger.go:66-73 *)
      mkfdef []
        [] (BVal A_QoSReportTrigger 1)
  | B_HasRDS => (* ie/rds-configuration-information.go:34-45 *)
      mkfdef []
        [([T_RDSConfigurationInformation], BPay 1 0 1)] (BFalse)
  | B_HasNI => (* ie/remote-gtp-u-peer.go:84-93 *)
      mkfdef [GType T_RemoteGTPUPeer]
        [] (BPay 1 0 4)
  | B_HasDI => (* ie/remote-gtp-u-peer.go:96-105 *)
      mkfdef [GType T_RemoteGTPUPeer]
        [] (BPay 1 0 3)
  | B_HasUPIR => (* ie/report-type.go:22-29 *)
      mkfdef []
        [] (BVal A_ReportType 4)
  | B_HasERIR => (* ie/report-type.go:32-39 *)
      mkfdef []
        [] (BVal A_ReportType 3)
  | B_HasUSAR => (* ie/report-type.go:42-49 *)
      mkfdef []
        [] (BVal A_ReportType 2)
  | B_HasDLDR => (* ie/report-type.go:52-59 *)
      mkfdef []
        [] (BVal A_ReportType 1)
  | B_HasSESRL => (* ie/reporting-frequency.go:35-42 *)
      mkfdef []
        [] (BVal A_ReportingFrequency 3)
  | B_HasEVETT => (* ie/reporting-frequency.go:45-52 *)
      mkfdef []
        [] (BVal A_ReportingFrequency 1)
  | B_HasLIUSA => (* ie/reporting-triggers.go:53-73 *)
      mkfdef []
        [([T_CreateURR; T_UpdateURR; T_ReportingTriggers], BOct A_ReportingTriggers 0 0 8);
         ([T_UsageReportWithinSessionModificationResponse; T_UsageReportWithinSessionDeletionResponse; T_UsageReportWithinSessionReportRequest; T_UsageReportTrigger], BOct A_UsageReportTrigger 0 1 3)] (BFalse)
  | B_HasDROTH => (* ie/reporting-triggers.go:76-96 *)
      mkfdef []
        [([T_CreateURR; T_UpdateURR; T_ReportingTriggers], BOct A_ReportingTriggers 0 0 7);
         ([T_UsageReportWithinSessionModificationResponse; T_UsageReportWithinSessionDeletionResponse; T_UsageReportWithinSessionReportRequest; T_UsageReportTrigger], BOct A_UsageReportTrigger 0 0 7)] (BFalse)
  | B_HasSTOPT => (* ie/reporting-triggers.go:99-119 *)
      mkfdef []
        [([T_CreateURR; T_UpdateURR; T_ReportingTriggers], BOct A_ReportingTriggers 0 0 6);
         ([T_UsageReportWithinSessionModificationResponse; T_UsageReportWithinSessionDeletionResponse; T_UsageReportWithinSessionReportRequest; T_UsageReportTrigger], BOct A_UsageReportTrigger 0 0 6)] (BFalse)
  | B_HasSTART => (* ie/reporting-triggers.go:122-142 *)
      mkfdef []
        [([T_CreateURR; T_UpdateURR; T_ReportingTriggers], BOct A_ReportingTriggers 0 0 5);
         ([T_UsageReportWithinSessionModificationResponse; T_UsageReportWithinSessionDeletionResponse; T_UsageReportWithinSessionReportRequest; T_UsageReportTrigger], BOct A_UsageReportTrigger 0 0 5)] (BFalse)
  | B_HasQUHTI => (* ie/reporting-triggers.go:145-165 *)
      mkfdef []
        [([T_CreateURR; T_UpdateURR; T_ReportingTriggers], BOct A_ReportingTriggers 0 0 4);
         ([T_UsageReportWithinSessionModificationResponse; T_UsageReportWithinSessionDeletionResponse; T_UsageReportWithinSessionReportRequest; T_UsageReportTrigger], BOct A_UsageReportTrigger 0 0 4)] (BFalse)
  | B_HasTIMTH => (* ie/reporting-triggers.go:168-188 *)
      mkfdef []
        [([T_CreateURR; T_UpdateURR; T_ReportingTriggers], BOct A_ReportingTriggers 0 0 3);
         ([T_UsageReportWithinSessionModificationResponse; T_UsageReportWithinSessionDeletionResponse; T_UsageReportWithinSessionReportRequest; T_UsageReportTrigger], BOct A_UsageReportTrigger 0 0 3)] (BFalse)
  | B_HasVOLTH => (* ie/reporting-triggers.go:191-211 *)
      mkfdef []
        [([T_CreateURR; T_UpdateURR; T_ReportingTriggers], BOct A_ReportingTriggers 0 0 2);
         ([T_UsageReportWithinSessionModificationResponse; T_UsageReportWithinSessionDeletionResponse; T_UsageReportWithinSessionReportRequest; T_UsageReportTrigger], BOct A_UsageReportTrigger 0 0 2)] (BFalse)
  | B_HasPERIO => (* ie/reporting-triggers.go:214-241 *)
      mkfdef []
        [([T_CreateURR; T_UpdateURR; T_ReportingTriggers], BOct A_ReportingTriggers 0 0 1);
         ([T_UsageReportWithinSessionModificationResponse; T_UsageReportWithinSessionDeletionResponse; T_UsageReportWithinSessionReportRequest; T_UsageReportTrigger], BOct A_UsageReportTrigger 0 0 1);
         ([T_QoSMonitoringPerQoSFlowControlInformation; T_ReportingFrequency], BVal A_ReportingFrequency 2)] (BFalse)
  | B_HasQUVTI => (* ie/reporting-triggers.go:244-269 *)
      mkfdef []
        [([T_CreateURR; T_UpdateURR; T_ReportingTriggers], BOct A_ReportingTriggers 0 1 8);
         ([T_UsageReportWithinSessionModificationResponse; T_UsageReportWithinSessionDeletionResponse; T_UsageReportWithinSessionReportRequest; T_UsageReportTrigger], BOct A_UsageReportTrigger 3 2 4)] (BFalse)
  | B_HasIPMJL => (* ie/reporting-triggers.go:272-297 *)
      mkfdef []
        [([T_CreateURR; T_UpdateURR; T_ReportingTriggers], BOct A_ReportingTriggers 0 1 7);
         ([T_UsageReportWithinSessionModificationResponse; T_UsageReportWithinSessionDeletionResponse; T_UsageReportWithinSessionReportRequest; T_UsageReportTrigger], BOct A_UsageReportTrigger 3 2 3)] (BFalse)
  | B_HasEVEQU => (* ie/reporting-triggers.go:300-325 *)
      mkfdef []
        [([T_CreateURR; T_UpdateURR; T_ReportingTriggers], BOct A_ReportingTriggers 0 1 6);
         ([T_UsageReportWithinSessionModificationResponse; T_UsageReportWithinSessionDeletionResponse; T_UsageReportWithinSessionReportRequest; T_UsageReportTrigger], BOct A_UsageReportTrigger 3 2 1)] (BFalse)
  | B_HasEVETH => (* ie/reporting-triggers.go:328-348 *)
      mkfdef []
        [([T_CreateURR; T_UpdateURR; T_ReportingTriggers], BOct A_ReportingTriggers 0 1 5);
         ([T_UsageReportWithinSessionModificationResponse; T_UsageReportWithinSessionDeletionResponse; T_UsageReportWithinSessionReportRequest; T_UsageReportTrigger], BOct A_UsageReportTrigger 0 1 8)] (BFalse)
  | B_HasMACAR => (* ie/reporting-triggers.go:351-371 *)
      mkfdef []
        [([T_CreateURR; T_UpdateURR; T_ReportingTriggers], BOct A_ReportingTriggers 0 1 4);
         ([T_UsageReportWithinSessionModificationResponse; T_UsageReportWithinSessionDeletionResponse; T_UsageReportWithinSessionReportRequest; T_UsageReportTrigger], BOct A_UsageReportTrigger 0 1 7)] (BFalse)
  | B_HasENVCL => (* ie/reporting-triggers.go:374-394 *)
      mkfdef []
        [([T_CreateURR; T_UpdateURR; T_ReportingTriggers], BOct A_ReportingTriggers 0 1 3);
         ([T_UsageReportWithinSessionModificationResponse; T_UsageReportWithinSessionDeletionResponse; T_UsageReportWithinSessionReportRequest; T_UsageReportTrigger], BOct A_UsageReportTrigger 0 1 6)] (BFalse)
  | B_HasTIMQU => (* ie/reporting-triggers.go:397-417 *)
      mkfdef []
        [([T_CreateURR; T_UpdateURR; T_ReportingTriggers], BOct A_ReportingTriggers 0 1 2);
         ([T_UsageReportWithinSessionModificationResponse; T_UsageReportWithinSessionDeletionResponse; T_UsageReportWithinSessionReportRequest; T_UsageReportTrigger], BOct A_UsageReportTrigger 0 1 2)] (BFalse)
  | B_HasVOLQU => (* ie/reporting-triggers.go:420-440 *)
      mkfdef []
        [([T_CreateURR; T_UpdateURR; T_ReportingTriggers], BOct A_ReportingTriggers 0 1 1);
         ([T_UsageReportWithinSessionModificationResponse; T_UsageReportWithinSessionDeletionResponse; T_UsageReportWithinSessionReportRequest; T_UsageReportTrigger], BOct A_UsageReportTrigger 0 1 1)] (BFalse)
  | B_HasUPINT => (* ie/reporting-triggers.go:443-473 *)
      mkfdef []
        [([T_CreateURR; T_UpdateURR; T_ReportingTriggers], BOct A_ReportingTriggers 3 2 2);
         ([T_UsageReportWithinSessionModificationResponse; T_UsageReportWithinSessionDeletionResponse; T_UsageReportWithinSessionReportRequest; T_UsageReportTrigger], BOct A_UsageReportTrigger 3 2 6)] (BFalse)
  | B_HasREEMR => (* ie/reporting-triggers.go:476-492 *)
      mkfdef []
        [([T_CreateURR; T_UpdateURR; T_ReportingTriggers], BOct A_ReportingTriggers 3 2 1)] (BFalse)
  | B_HasRRCA => (* ie/requested-access-availability-information.go:35-42 *)
      mkfdef []
        [] (BVal A_RequestedAccessAvailabilityInformation 1)
  | B_HasRRCR => (* ie/requested-clock-drift-information.go:35-60 *)
      mkfdef [GLen 1]
        [([T_RequestedClockDriftInformation], BPay 0 0 2)] (BFalse)
  | B_HasRRTO => (* ie/requested-clock-drift-information.go:63-88 *)
      mkfdef [GLen 1]
        [([T_RequestedClockDriftInformation], BPay 0 0 1)] (BFalse)
  | B_HasRP => (* ie/requested-qos-monitoring.go:35-42 *)
      mkfdef []
        [] (BVal A_RequestedQoSMonitoring 3)
  | B_HasUL => (* ie/requested-qos-monitoring.go:45-52 *)
      mkfdef []
        [] (BVal A_RequestedQoSMonitoring 2)
  | B_HasDL => (* ie/requested-qos-monitoring.go:55-62 *)
      mkfdef []
        [] (BVal A_RequestedQoSMonitoring 1)
  | B_HasRQI => (* ie/rqi.go:45-52 *)
      mkfdef []
        [] (BVal A_RQI 1)
  | B_HasMAC => (* ie/tsn-bridge-id.go:25-32 *)
      mkfdef []
        [([T_TSNBridgeID], BPay 0 0 1)] (BFalse)
  | B_HasCHV4 => (* ie/ue-ip-address.go:118-127 *)
      mkfdef [GType T_UEIPAddress]
        [] (BPay 1 0 5)
  | B_HasCHV6 => (* ie/ue-ip-address.go:131-140 *)
      mkfdef [GType T_UEIPAddress]
        [] (BPay 1 0 6)
  | B_HasIP6PL => (* ie/ue-ip-address.go:144-153 *)
      mkfdef [GType T_UEIPAddress]
        [] (BPay 1 0 7)
  | B_HasIPv6D => (* ie/ue-ip-address.go:156-165 *)
      mkfdef [GType T_UEIPAddress]
        [] (BPay 1 0 4)
  | B_HasSD => (* ie/ue-ip-address.go:168-177 *)
      mkfdef [GType T_UEIPAddress]
        [] (BPay 1 0 3)
  | B_HasBUCP => (* ie/up-function-features.go:39-48 *)
      mkfdef [GType T_UPFunctionFeatures]
        [] (BPay 1 0 1)
  | B_HasDDND => (* ie/up-function-features.go:51-60 *)
      mkfdef [GType T_UPFunctionFeatures]
        [] (BPay 1 0 2)
  | B_HasDLBD => (* ie/up-function-features.go:63-72 *)
      mkfdef [GType T_UPFunctionFeatures]
        [] (BPay 1 0 3)
  | B_HasTRST => (* ie/up-function-features.go:75-84 *)
      mkfdef [GType T_UPFunctionFeatures]
        [] (BPay 1 0 4)
  | B_HasFTUP => (* ie/up-function-features.go:87-96 *)
      mkfdef [GType T_UPFunctionFeatures]
        [] (BPay 1 0 5)
  | B_HasPFDM => (* ie/up-function-features.go:99-108 *)
      mkfdef [GType T_UPFunctionFeatures]
        [] (BPay 1 0 6)
  | B_HasHEEU => (* ie/up-function-features.go:111-120 *)
      mkfdef [GType T_UPFunctionFeatures]
        [] (BPay 1 0 7)
  | B_HasTREU => (* ie/up-function-features.go:123-132 *)
      mkfdef [GType T_UPFunctionFeatures]
        [] (BPay 1 0 8)
  | B_HasEMPU => (* ie/up-function-features.go:135-144 *)
      mkfdef [GType T_UPFunctionFeatures]
        [] (BPay 2 1 1)
  | B_HasPDIU => (* ie/up-function-features.go:147-156 *)
      mkfdef [GType T_UPFunctionFeatures]
        [] (BPay 2 1 2)
  | B_HasUDBC => (* ie/up-function-features.go:159-168 *)
      mkfdef [GType T_UPFunctionFeatures]
        [] (BPay 2 1 3)
  | B_HasQUOAC => (* ie/up-function-features.go:171-180 *)
      mkfdef [GType T_UPFunctionFeatures]
        [] (BPay 2 1 4)
  | B_HasTRACE => (* ie/up-function-features.go:183-192 *)
      mkfdef [GType T_UPFunctionFeatures]
        [] (BPay 2 1 5)
  | B_HasFRRT => (* ie/up-function-features.go:195-204 *)
      mkfdef [GType T_UPFunctionFeatures]
        [] (BPay 2 1 6)
  | B_HasPFDE => (* ie/up-function-features.go:207-216 *)
      mkfdef [GType T_UPFunctionFeatures]
        [] (BPay 2 1 7)
  | B_HasEPFAR => (* ie/up-function-features.go:219-236 *)
      mkfdef []
        [([T_UPFunctionFeatures], BPay 2 1 8);
         ([T_CPFunctionFeatures], BPay 1 0 3)] (BFalse)
  | B_HasDPDRA => (* ie/up-function-features.go:239-248 *)
      mkfdef [GType T_UPFunctionFeatures]
        [] (BPay 3 2 1)
  | B_HasADPDP => (* ie/up-function-features.go:251-260 *)
      mkfdef [GType T_UPFunctionFeatures]
        [] (BPay 3 2 2)
  | B_HasUEIP => (* ie/up-function-features.go:263-272 *)
      mkfdef [GType T_UPFunctionFeatures]
        [] (BPay 3 2 3)
  | B_HasSSET => (* ie/up-function-features.go:275-292 *)
      mkfdef []
        [([T_UPFunctionFeatures], BPay 3 2 4);
         ([T_CPFunctionFeatures], BPay 1 0 4)] (BFalse)
  | B_HasMNOP => (* ie/up-function-features.go:295-312 *)
      mkfdef []
        [([T_UPFunctionFeatures], BPay 3 2 5);
         ([T_MeasurementInformation], BPay 1 0 5)] (BFalse)
  | B_HasMTE => (* ie/up-function-features.go:315-324 *)
      mkfdef [GType T_UPFunctionFeatures]
        [] (BPay 3 2 6)
  | B_HasBUNDL => (* ie/up-function-features.go:327-344 *)
      mkfdef []
        [([T_UPFunctionFeatures], BPay 3 2 7);
         ([T_CPFunctionFeatures], BPay 1 0 5)] (BFalse)
  | B_HasGCOM => (* ie/up-function-features.go:347-356 *)
      mkfdef [GType T_UPFunctionFeatures]
        [] (BPay 3 2 8)
  | B_HasMPAS => (* ie/up-function-features.go:359-376 *)
      mkfdef []
        [([T_UPFunctionFeatures], BPay 4 3 1);
         ([T_CPFunctionFeatures], BPay 1 0 6)] (BFalse)
  | B_HasRTTL => (* ie/up-function-features.go:379-388 *)
      mkfdef [GType T_UPFunctionFeatures]
        [] (BPay 4 3 2)
  | B_HasVTIME => (* ie/up-function-features.go:391-400 *)
      mkfdef [GType T_UPFunctionFeatures]
        [] (BPay 4 3 3)
  | B_IsAllocatedByCPFunction => (* ie/urr-id.go:170-179 *)
      mkfdef [GType T_URRID]
        [] (BTop 1 true)
  | B_IsAllocatedByUPFunction => (* ie/urr-id.go:182-191 *)
      mkfdef [GType T_URRID]
        [] (BTop 1 false)
  | B_HasUBE => (* ie/usage-information.go:36-43 *)
      mkfdef []
        [] (BVal A_UsageInformation 4)
  | B_HasUAE => (* ie/usage-information.go:46-53 *)
      mkfdef []
        [] (BVal A_UsageInformation 3)
  | B_HasAFT => (* ie/usage-information.go:56-63 *)
      mkfdef []
        [] (BVal A_UsageInformation 2)
  | B_HasBEF => (* ie/usage-information.go:66-73 *)
      mkfdef []
        [] (BVal A_UsageInformation 1)
  | B_HasIMMER => (* ie/usage-report-trigger.go:44-58 *)
      mkfdef []
        [([T_UsageReportWithinSessionModificationResponse; T_UsageReportWithinSessionDeletionResponse; T_UsageReportWithinSessionReportRequest; T_UsageReportTrigger], BOct A_UsageReportTrigger 0 0 8)] (BFalse)
  | B_HasMONIT => (* ie/usage-report-trigger.go:61-75 *)
      mkfdef []
        [([T_UsageReportWithinSessionModificationResponse; T_UsageReportWithinSessionDeletionResponse; T_UsageReportWithinSessionReportRequest; T_UsageReportTrigger], BOct A_UsageReportTrigger 0 1 5)] (BFalse)
  | B_HasTERMR => (* ie/usage-report-trigger.go:78-92 *)
      mkfdef []
        [([T_UsageReportWithinSessionModificationResponse; T_UsageReportWithinSessionDeletionResponse; T_UsageReportWithinSessionReportRequest; T_UsageReportTrigger], BOct A_UsageReportTrigger 0 1 4)] (BFalse)
  | B_HasEMRRE => (* ie/usage-report-trigger.go:95-114 *)
      mkfdef []
        [([T_UsageReportWithinSessionModificationResponse; T_UsageReportWithinSessionDeletionResponse; T_UsageReportWithinSessionReportRequest; T_UsageReportTrigger], BOct A_UsageReportTrigger 3 2 5)] (BFalse)
  | B_HasTEBUR => (* ie/usage-report-trigger.go:117-136 *)
      mkfdef []
        [([T_UsageReportWithinSessionModificationResponse; T_UsageReportWithinSessionDeletionResponse; T_UsageReportWithinSessionReportRequest; T_UsageReportTrigger], BOct A_UsageReportTrigger 3 2 2)] (BFalse)
  | B_HasASSONI => (* ie/user-plane-ip-resource-information.go:47-56 *)
      mkfdef [GType T_UserPlaneIPResourceInformation]
        [] (BPay 1 0 6)
  | B_HasASSOSI => (* ie/user-plane-ip-resource-information.go:59-68 *)
      mkfdef [GType T_UserPlaneIPResourceInformation]
        [] (BPay 1 0 7)
  end.

(** flags of the structs: which struct, the bit HasX tests, the mask SetXFlag ors in *)
Inductive sflag :=
| S_AlternativeSMFIPAddress_IPv4
| S_AlternativeSMFIPAddress_IPv6
| S_CTAG_VID
| S_CTAG_DEI
| S_CTAG_PCP
| S_CPPFCPEntityIPAddress_IPv4
| S_CPPFCPEntityIPAddress_IPv6
| S_FSEID_IPv4
| S_FSEID_IPv6
| S_FTEID_ChID
| S_FTEID_Ch
| S_FTEID_IPv6
| S_FTEID_IPv4
| S_IPMulticastAddress_Any
| S_IPMulticastAddress_Range
| S_IPMulticastAddress_IPv4
| S_IPMulticastAddress_IPv6
| S_MACAddress_UDES
| S_MACAddress_USOU
| S_MACAddress_DEST
| S_MACAddress_SOUR
| S_MPTCPAddressInformation_IPv6
| S_MPTCPAddressInformation_IPv4
| S_NumberOfUEIPAddresses_IPv6
| S_NumberOfUEIPAddresses_IPv4
| S_PacketDelayThresholds_RP
| S_PacketDelayThresholds_UL
| S_PacketDelayThresholds_DL
| S_PacketRateStatus_APR
| S_PacketRateStatus_DL
| S_PacketRateStatus_UL
| S_PFDContents_ADNP
| S_PFDContents_AURL
| S_PFDContents_AFD
| S_PFDContents_DNP
| S_PFDContents_CP
| S_PFDContents_DN
| S_PFDContents_URL
| S_PFDContents_FD
| S_PMFAddressInformation_MAC
| S_PMFAddressInformation_IPv6
| S_PMFAddressInformation_IPv4
| S_QoSMonitoringMeasurement_PLMF
| S_QoSMonitoringMeasurement_RP
| S_QoSMonitoringMeasurement_UL
| S_QoSMonitoringMeasurement_DL
| S_STAG_VID
| S_STAG_DEI
| S_STAG_PCP
| S_SDFFilter_BID
| S_SDFFilter_FL
| S_SDFFilter_SPI
| S_SDFFilter_TTC
| S_SDFFilter_FD
| S_SourceIPAddress_MPL
| S_SourceIPAddress_IPv4
| S_SourceIPAddress_IPv6
| S_SubsequentVolumeQuota_DLVOL
| S_SubsequentVolumeQuota_ULVOL
| S_SubsequentVolumeQuota_TOVOL
| S_SubsequentVolumeThreshold_DLVOL
| S_SubsequentVolumeThreshold_ULVOL
| S_SubsequentVolumeThreshold_TOVOL
| S_UELinkSpecificIPAddress_NV6
| S_UELinkSpecificIPAddress_NV4
| S_UELinkSpecificIPAddress_IPv6
| S_UELinkSpecificIPAddress_IPv4
| S_VolumeMeasurement_DLNOP
| S_VolumeMeasurement_ULNOP
| S_VolumeMeasurement_TONOP
| S_VolumeMeasurement_DLVOL
| S_VolumeMeasurement_ULVOL
| S_VolumeMeasurement_TOVOL
| S_VolumeQuota_DLVOL
| S_VolumeQuota_ULVOL
| S_VolumeQuota_TOVOL
| S_VolumeThreshold_DLVOL
| S_VolumeThreshold_ULVOL
| S_VolumeThreshold_TOVOL.

Definition all_sflags : list sflag := [
  S_AlternativeSMFIPAddress_IPv4;
  S_AlternativeSMFIPAddress_IPv6;
  S_CTAG_VID;
  S_CTAG_DEI;
  S_CTAG_PCP;
  S_CPPFCPEntityIPAddress_IPv4;
  S_CPPFCPEntityIPAddress_IPv6;
  S_FSEID_IPv4;
  S_FSEID_IPv6;
  S_FTEID_ChID;
  S_FTEID_Ch;
  S_FTEID_IPv6;
  S_FTEID_IPv4;
  S_IPMulticastAddress_Any;
  S_IPMulticastAddress_Range;
  S_IPMulticastAddress_IPv4;
  S_IPMulticastAddress_IPv6;
  S_MACAddress_UDES;
  S_MACAddress_USOU;
  S_MACAddress_DEST;
  S_MACAddress_SOUR;
  S_MPTCPAddressInformation_IPv6;
  S_MPTCPAddressInformation_IPv4;
  S_NumberOfUEIPAddresses_IPv6;
  S_NumberOfUEIPAddresses_IPv4;
  S_PacketDelayThresholds_RP;
  S_PacketDelayThresholds_UL;
  S_PacketDelayThresholds_DL;
  S_PacketRateStatus_APR;
  S_PacketRateStatus_DL;
  S_PacketRateStatus_UL;
  S_PFDContents_ADNP;
  S_PFDContents_AURL;
  S_PFDContents_AFD;
  S_PFDContents_DNP;
  S_PFDContents_CP;
  S_PFDContents_DN;
  S_PFDContents_URL;
  S_PFDContents_FD;
  S_PMFAddressInformation_MAC;
  S_PMFAddressInformation_IPv6;
  S_PMFAddressInformation_IPv4;
  S_QoSMonitoringMeasurement_PLMF;
  S_QoSMonitoringMeasurement_RP;
  S_QoSMonitoringMeasurement_UL;
  S_QoSMonitoringMeasurement_DL;
  S_STAG_VID;
  S_STAG_DEI;
  S_STAG_PCP;
  S_SDFFilter_BID;
  S_SDFFilter_FL;
  S_SDFFilter_SPI;
  S_SDFFilter_TTC;
  S_SDFFilter_FD;
  S_SourceIPAddress_MPL;
  S_SourceIPAddress_IPv4;
  S_SourceIPAddress_IPv6;
  S_SubsequentVolumeQuota_DLVOL;
  S_SubsequentVolumeQuota_ULVOL;
  S_SubsequentVolumeQuota_TOVOL;
  S_SubsequentVolumeThreshold_DLVOL;
  S_SubsequentVolumeThreshold_ULVOL;
  S_SubsequentVolumeThreshold_TOVOL;
  S_UELinkSpecificIPAddress_NV6;
  S_UELinkSpecificIPAddress_NV4;
  S_UELinkSpecificIPAddress_IPv6;
  S_UELinkSpecificIPAddress_IPv4;
  S_VolumeMeasurement_DLNOP;
  S_VolumeMeasurement_ULNOP;
  S_VolumeMeasurement_TONOP;
  S_VolumeMeasurement_DLVOL;
  S_VolumeMeasurement_ULVOL;
  S_VolumeMeasurement_TOVOL;
  S_VolumeQuota_DLVOL;
  S_VolumeQuota_ULVOL;
  S_VolumeQuota_TOVOL;
  S_VolumeThreshold_DLVOL;
  S_VolumeThreshold_ULVOL;
  S_VolumeThreshold_TOVOL].

Definition sflag_def (s : sflag) : fkind * N * N :=
  match s with
  | S_AlternativeSMFIPAddress_IPv4 => (K_AlternativeSMFIPAddress, 2, 2)%N (* ie/alternative-smf-ip-address.go:64-66, ie/alternative-smf-ip-address.go:69-71 *)
  | S_AlternativeSMFIPAddress_IPv6 => (K_AlternativeSMFIPAddress, 1, 1)%N (* ie/alternative-smf-ip-address.go:74-76, ie/alternative-smf-ip-address.go:79-81 *)
  | S_CTAG_VID => (K_CTAG, 3, 4)%N (* ie/c-tag.go:103-105, ie/c-tag.go:108-110 *)
  | S_CTAG_DEI => (K_CTAG, 2, 2)%N (* ie/c-tag.go:113-115, ie/c-tag.go:118-120 *)
  | S_CTAG_PCP => (K_CTAG, 1, 1)%N (* ie/c-tag.go:123-125, ie/c-tag.go:128-130 *)
  | S_CPPFCPEntityIPAddress_IPv4 => (K_CPPFCPEntityIPAddress, 2, 2)%N (* ie/cp-pfcp-entity-ip-address.go:76-78, ie/cp-pfcp-entity-ip-address.go:81-83 *)
  | S_CPPFCPEntityIPAddress_IPv6 => (K_CPPFCPEntityIPAddress, 1, 1)%N (* ie/cp-pfcp-entity-ip-address.go:86-88, ie/cp-pfcp-entity-ip-address.go:91-93 *)
  | S_FSEID_IPv4 => (K_FSEID, 2, 2)%N (* ie/f-seid.go:67-69, ie/f-seid.go:72-74 *)
  | S_FSEID_IPv6 => (K_FSEID, 1, 1)%N (* ie/f-seid.go:77-79, ie/f-seid.go:82-84 *)
  | S_FTEID_ChID => (K_FTEID, 4, 8)%N (* ie/f-teid.go:142-144, ie/f-teid.go:147-149 *)
  | S_FTEID_Ch => (K_FTEID, 3, 4)%N (* ie/f-teid.go:152-154, ie/f-teid.go:157-159 *)
  | S_FTEID_IPv6 => (K_FTEID, 2, 2)%N (* ie/f-teid.go:162-164, ie/f-teid.go:167-169 *)
  | S_FTEID_IPv4 => (K_FTEID, 1, 1)%N (* ie/f-teid.go:172-174, ie/f-teid.go:177-179 *)
  | S_IPMulticastAddress_Any => (K_IPMulticastAddress, 4, 8)%N (* ie/ip-multicast-address.go:134-136, ie/ip-multicast-address.go:139-141 *)
  | S_IPMulticastAddress_Range => (K_IPMulticastAddress, 3, 4)%N (* ie/ip-multicast-address.go:144-146, ie/ip-multicast-address.go:149-151 *)
  | S_IPMulticastAddress_IPv4 => (K_IPMulticastAddress, 2, 2)%N (* ie/ip-multicast-address.go:154-156, ie/ip-multicast-address.go:159-161 *)
  | S_IPMulticastAddress_IPv6 => (K_IPMulticastAddress, 1, 1)%N (* ie/ip-multicast-address.go:164-166, ie/ip-multicast-address.go:169-171 *)
  | S_MACAddress_UDES => (K_MACAddress, 4, 8)%N (* ie/mac-address.go:98-100, ie/mac-address.go:103-105 *)
  | S_MACAddress_USOU => (K_MACAddress, 3, 4)%N (* ie/mac-address.go:108-110, ie/mac-address.go:113-115 *)
  | S_MACAddress_DEST => (K_MACAddress, 2, 2)%N (* ie/mac-address.go:118-120, ie/mac-address.go:123-125 *)
  | S_MACAddress_SOUR => (K_MACAddress, 1, 1)%N (* ie/mac-address.go:128-130, ie/mac-address.go:133-135 *)
  | S_MPTCPAddressInformation_IPv6 => (K_MPTCPAddressInformation, 2, 2)%N (* ie/mptcp-address-information.go:97-99, ie/mptcp-address-information.go:102-104 *)
  | S_MPTCPAddressInformation_IPv4 => (K_MPTCPAddressInformation, 1, 1)%N (* ie/mptcp-address-information.go:107-109, ie/mptcp-address-information.go:112-114 *)
  | S_NumberOfUEIPAddresses_IPv6 => (K_NumberOfUEIPAddresses, 2, 2)%N (* ie/number-of-ue-ip-addresses.go:67-69, ie/number-of-ue-ip-addresses.go:72-74 *)
  | S_NumberOfUEIPAddresses_IPv4 => (K_NumberOfUEIPAddresses, 1, 1)%N (* ie/number-of-ue-ip-addresses.go:77-79, ie/number-of-ue-ip-addresses.go:82-84 *)
  | S_PacketDelayThresholds_RP => (K_PacketDelayThresholds, 3, 4)%N (* ie/packet-delay-thresholds.go:69-71, ie/packet-delay-thresholds.go:74-76 *)
  | S_PacketDelayThresholds_UL => (K_PacketDelayThresholds, 2, 2)%N (* ie/packet-delay-thresholds.go:79-81, ie/packet-delay-thresholds.go:84-86 *)
  | S_PacketDelayThresholds_DL => (K_PacketDelayThresholds, 1, 1)%N (* ie/packet-delay-thresholds.go:89-91, ie/packet-delay-thresholds.go:94-96 *)
  | S_PacketRateStatus_APR => (K_PacketRateStatus, 3, 4)%N (* ie/packet-rate-status.go:108-110, ie/packet-rate-status.go:113-115 *)
  | S_PacketRateStatus_DL => (K_PacketRateStatus, 2, 2)%N (* ie/packet-rate-status.go:118-120, ie/packet-rate-status.go:123-125 *)
  | S_PacketRateStatus_UL => (K_PacketRateStatus, 1, 1)%N (* ie/packet-rate-status.go:128-130, ie/packet-rate-status.go:133-135 *)
  | S_PFDContents_ADNP => (K_PFDContents, 8, 128)%N (* ie/pfd-contents.go:152-154, ie/pfd-contents.go:157-159 *)
  | S_PFDContents_AURL => (K_PFDContents, 7, 64)%N (* ie/pfd-contents.go:162-164, ie/pfd-contents.go:167-169 *)
  | S_PFDContents_AFD => (K_PFDContents, 6, 32)%N (* ie/pfd-contents.go:172-174, ie/pfd-contents.go:177-179 *)
  | S_PFDContents_DNP => (K_PFDContents, 5, 16)%N (* ie/pfd-contents.go:182-184, ie/pfd-contents.go:187-189 *)
  | S_PFDContents_CP => (K_PFDContents, 4, 8)%N (* ie/pfd-contents.go:192-194, ie/pfd-contents.go:197-199 *)
  | S_PFDContents_DN => (K_PFDContents, 3, 4)%N (* ie/pfd-contents.go:202-204, ie/pfd-contents.go:207-209 *)
  | S_PFDContents_URL => (K_PFDContents, 2, 2)%N (* ie/pfd-contents.go:212-214, ie/pfd-contents.go:217-219 *)
  | S_PFDContents_FD => (K_PFDContents, 1, 1)%N (* ie/pfd-contents.go:222-224, ie/pfd-contents.go:227-229 *)
  | S_PMFAddressInformation_MAC => (K_PMFAddressInformation, 3, 4)%N (* ie/pmf-address-information.go:96-98, ie/pmf-address-information.go:101-103 *)
  | S_PMFAddressInformation_IPv6 => (K_PMFAddressInformation, 2, 2)%N (* ie/pmf-address-information.go:106-108, ie/pmf-address-information.go:111-113 *)
  | S_PMFAddressInformation_IPv4 => (K_PMFAddressInformation, 1, 1)%N (* ie/pmf-address-information.go:116-118, ie/pmf-address-information.go:121-123 *)
  | S_QoSMonitoringMeasurement_PLMF => (K_QoSMonitoringMeasurement, 4, 8)%N (* ie/qos-monitoring-measurement.go:69-71, ie/qos-monitoring-measurement.go:74-76 *)
  | S_QoSMonitoringMeasurement_RP => (K_QoSMonitoringMeasurement, 3, 4)%N (* ie/qos-monitoring-measurement.go:79-81, ie/qos-monitoring-measurement.go:84-86 *)
  | S_QoSMonitoringMeasurement_UL => (K_QoSMonitoringMeasurement, 2, 2)%N (* ie/qos-monitoring-measurement.go:89-91, ie/qos-monitoring-measurement.go:94-96 *)
  | S_QoSMonitoringMeasurement_DL => (K_QoSMonitoringMeasurement, 1, 1)%N (* ie/qos-monitoring-measurement.go:99-101, ie/qos-monitoring-measurement.go:104-106 *)
  | S_STAG_VID => (K_STAG, 3, 4)%N (* ie/s-tag.go:103-105, ie/s-tag.go:108-110 *)
  | S_STAG_DEI => (K_STAG, 2, 2)%N (* ie/s-tag.go:113-115, ie/s-tag.go:118-120 *)
  | S_STAG_PCP => (K_STAG, 1, 1)%N (* ie/s-tag.go:123-125, ie/s-tag.go:128-130 *)
  | S_SDFFilter_BID => (K_SDFFilter, 5, 16)%N (* ie/sdf-filter.go:117-119, ie/sdf-filter.go:122-124 *)
  | S_SDFFilter_FL => (K_SDFFilter, 4, 8)%N (* ie/sdf-filter.go:127-129, ie/sdf-filter.go:132-134 *)
  | S_SDFFilter_SPI => (K_SDFFilter, 3, 4)%N (* ie/sdf-filter.go:137-139, ie/sdf-filter.go:142-144 *)
  | S_SDFFilter_TTC => (K_SDFFilter, 2, 2)%N (* ie/sdf-filter.go:147-149, ie/sdf-filter.go:152-154 *)
  | S_SDFFilter_FD => (K_SDFFilter, 1, 1)%N (* ie/sdf-filter.go:157-159, ie/sdf-filter.go:162-164 *)
  | S_SourceIPAddress_MPL => (K_SourceIPAddress, 3, 4)%N (* ie/source-ip-address.go:113-115, ie/source-ip-address.go:118-120 *)
  | S_SourceIPAddress_IPv4 => (K_SourceIPAddress, 2, 2)%N (* ie/source-ip-address.go:123-125, ie/source-ip-address.go:128-130 *)
  | S_SourceIPAddress_IPv6 => (K_SourceIPAddress, 1, 1)%N (* ie/source-ip-address.go:133-135, ie/source-ip-address.go:138-140 *)
  | S_SubsequentVolumeQuota_DLVOL => (K_SubsequentVolumeQuota, 3, 4)%N (* ie/subsequent-volume-quota.go:100-102, ie/subsequent-volume-quota.go:105-107 *)
  | S_SubsequentVolumeQuota_ULVOL => (K_SubsequentVolumeQuota, 2, 2)%N (* ie/subsequent-volume-quota.go:110-112, ie/subsequent-volume-quota.go:115-117 *)
  | S_SubsequentVolumeQuota_TOVOL => (K_SubsequentVolumeQuota, 1, 1)%N (* ie/subsequent-volume-quota.go:120-122, ie/subsequent-volume-quota.go:125-127 *)
  | S_SubsequentVolumeThreshold_DLVOL => (K_SubsequentVolumeThreshold, 3, 4)%N (* ie/subsequent-volume-threshold.go:100-102, ie/subsequent-volume-threshold.go:105-107 *)
  | S_SubsequentVolumeThreshold_ULVOL => (K_SubsequentVolumeThreshold, 2, 2)%N (* ie/subsequent-volume-threshold.go:110-112, ie/subsequent-volume-threshold.go:115-117 *)
  | S_SubsequentVolumeThreshold_TOVOL => (K_SubsequentVolumeThreshold, 1, 1)%N (* ie/subsequent-volume-threshold.go:120-122, ie/subsequent-volume-threshold.go:125-127 *)
  | S_UELinkSpecificIPAddress_NV6 => (K_UELinkSpecificIPAddress, 4, 8)%N (* ie/ue-link-specific-ip-address.go:96-98, ie/ue-link-specific-ip-address.go:101-103 *)
  | S_UELinkSpecificIPAddress_NV4 => (K_UELinkSpecificIPAddress, 3, 4)%N (* ie/ue-link-specific-ip-address.go:106-108, ie/ue-link-specific-ip-address.go:111-113 *)
  | S_UELinkSpecificIPAddress_IPv6 => (K_UELinkSpecificIPAddress, 2, 2)%N (* ie/ue-link-specific-ip-address.go:116-118, ie/ue-link-specific-ip-address.go:121-123 *)
  | S_UELinkSpecificIPAddress_IPv4 => (K_UELinkSpecificIPAddress, 1, 1)%N (* ie/ue-link-specific-ip-address.go:126-128, ie/ue-link-specific-ip-address.go:131-133 *)
  | S_VolumeMeasurement_DLNOP => (K_VolumeMeasurement, 6, 32)%N (* ie/volume-measurement.go:95-97, ie/volume-measurement.go:100-102 *)
  | S_VolumeMeasurement_ULNOP => (K_VolumeMeasurement, 5, 16)%N (* ie/volume-measurement.go:105-107, ie/volume-measurement.go:110-112 *)
  | S_VolumeMeasurement_TONOP => (K_VolumeMeasurement, 4, 8)%N (* ie/volume-measurement.go:115-117, ie/volume-measurement.go:120-122 *)
  | S_VolumeMeasurement_DLVOL => (K_VolumeMeasurement, 3, 4)%N (* ie/volume-measurement.go:125-127, ie/volume-measurement.go:130-132 *)
  | S_VolumeMeasurement_ULVOL => (K_VolumeMeasurement, 2, 2)%N (* ie/volume-measurement.go:135-137, ie/volume-measurement.go:140-142 *)
  | S_VolumeMeasurement_TOVOL => (K_VolumeMeasurement, 1, 1)%N (* ie/volume-measurement.go:145-147, ie/volume-measurement.go:150-152 *)
  | S_VolumeQuota_DLVOL => (K_VolumeQuota, 3, 4)%N (* ie/volume-quota.go:89-91, ie/volume-quota.go:94-96 *)
  | S_VolumeQuota_ULVOL => (K_VolumeQuota, 2, 2)%N (* ie/volume-quota.go:99-101, ie/volume-quota.go:104-106 *)
  | S_VolumeQuota_TOVOL => (K_VolumeQuota, 1, 1)%N (* ie/volume-quota.go:109-111, ie/volume-quota.go:114-116 *)
  | S_VolumeThreshold_DLVOL => (K_VolumeThreshold, 3, 4)%N (* ie/volume-threshold.go:89-91, ie/volume-threshold.go:94-96 *)
  | S_VolumeThreshold_ULVOL => (K_VolumeThreshold, 2, 2)%N (* ie/volume-threshold.go:99-101, ie/volume-threshold.go:104-106 *)
  | S_VolumeThreshold_TOVOL => (K_VolumeThreshold, 1, 1)%N (* ie/volume-threshold.go:109-111, ie/volume-threshold.go:114-116 *)
  end.
