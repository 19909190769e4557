(** Generated by tools/gengo.py from /repo/ie/*.go: the bodies of UnmarshalBinary, MarshalTo and MarshalLen of the XxxFields types.
    The members of each struct are listed with their Go names; a variable that hides another gets a number. *)
From Coq Require Import String.
From Verif Require Import Base Access Go.
Open Scope string_scope.

(** ie/alternative-smf-ip-address.go:93-118 *)
Definition go_un_AlternativeSMFIPAddress : stmt :=
(SSeq (SLet "l" (ELen EBuf))
(SSeq (SIf (CLt (EVar "l") (EInt 2))
SEof)
(SSeq (SSet "Flags" (EIdx EBuf (EInt 0)))
(SSeq (SLet "offset" (EInt 1))
(SSeq (SIf (CHas 2 (EFld "Flags"))
(SSeq (SIf (CLt (EVar "l") (EAdd (EVar "offset") (EInt 4)))
SEof)
(SSeq (SSet "IPv4Address" (EBytes (ESlice EBuf (EVar "offset") (EAdd (EVar "offset") (EInt 4)))))
(SLet "offset" (EAdd (EVar "offset") (EInt 4))))))
(SSeq (SIf (CHas 1 (EFld "Flags"))
(SSeq (SIf (CLt (EVar "l") (EAdd (EVar "offset") (EInt 16)))
SEof)
(SSet "IPv6Address" (EBytes (ESlice EBuf (EVar "offset") (EAdd (EVar "offset") (EInt 16)))))))
(SRet ENil))))))).

(** ie/alternative-smf-ip-address.go:130-154 *)
Definition go_to_AlternativeSMFIPAddress : stmt :=
(SSeq (SLet "l" (ELen EBuf))
(SSeq (SIf (CLt (EVar "l") (EInt 1))
SEof)
(SSeq (SPutB (EInt 0) (EFld "Flags"))
(SSeq (SLet "offset" (EInt 1))
(SSeq (SIf (CNotNil (EFld "IPv4Address"))
(SSeq (SIf (CLt (EVar "l") (EAdd (EVar "offset") (EInt 4)))
SEof)
(SSeq (SCopyB (EVar "offset") (EAdd (EVar "offset") (EInt 4)) (ETo4 (EFld "IPv4Address")))
(SLet "offset" (EAdd (EVar "offset") (EInt 4))))))
(SSeq (SIf (CNotNil (EFld "IPv6Address"))
(SSeq (SIf (CLt (EVar "l") (EAdd (EVar "offset") (EInt 16)))
SEof)
(SCopyB (EVar "offset") (EAdd (EVar "offset") (EInt 16)) (ETo16 (EFld "IPv6Address")))))
(SRet ENil))))))).

(** ie/alternative-smf-ip-address.go:157-167 *)
Definition go_len_AlternativeSMFIPAddress : stmt :=
(SSeq (SLet "l" (EInt 1))
(SSeq (SIf (CNotNil (EFld "IPv4Address"))
(SLet "l" (EAdd (EVar "l") (EInt 4))))
(SSeq (SIf (CNotNil (EFld "IPv6Address"))
(SLet "l" (EAdd (EVar "l") (EInt 16))))
(SRet (EVar "l"))))).

(** ie/cp-pfcp-entity-ip-address.go:105-130 *)
Definition go_un_CPPFCPEntityIPAddress : stmt :=
(SSeq (SLet "l" (ELen EBuf))
(SSeq (SIf (CLt (EVar "l") (EInt 2))
SEof)
(SSeq (SSet "Flags" (EIdx EBuf (EInt 0)))
(SSeq (SLet "offset" (EInt 1))
(SSeq (SIf (CHas 2 (EFld "Flags"))
(SSeq (SIf (CLt (EVar "l") (EAdd (EVar "offset") (EInt 4)))
SEof)
(SSeq (SSet "IPv4Address" (EBytes (ESlice EBuf (EVar "offset") (EAdd (EVar "offset") (EInt 4)))))
(SLet "offset" (EAdd (EVar "offset") (EInt 4))))))
(SSeq (SIf (CHas 1 (EFld "Flags"))
(SSeq (SIf (CLt (EVar "l") (EAdd (EVar "offset") (EInt 16)))
SEof)
(SSet "IPv6Address" (EBytes (ESlice EBuf (EVar "offset") (EAdd (EVar "offset") (EInt 16)))))))
(SRet ENil))))))).

(** ie/cp-pfcp-entity-ip-address.go:142-166 *)
Definition go_to_CPPFCPEntityIPAddress : stmt :=
(SSeq (SLet "l" (ELen EBuf))
(SSeq (SIf (CLt (EVar "l") (EInt 1))
SEof)
(SSeq (SPutB (EInt 0) (EFld "Flags"))
(SSeq (SLet "offset" (EInt 1))
(SSeq (SIf (CNotNil (EFld "IPv4Address"))
(SSeq (SIf (CLt (EVar "l") (EAdd (EVar "offset") (EInt 4)))
SEof)
(SSeq (SCopyB (EVar "offset") (EAdd (EVar "offset") (EInt 4)) (ETo4 (EFld "IPv4Address")))
(SLet "offset" (EAdd (EVar "offset") (EInt 4))))))
(SSeq (SIf (CNotNil (EFld "IPv6Address"))
(SSeq (SIf (CLt (EVar "l") (EAdd (EVar "offset") (EInt 16)))
SEof)
(SCopyB (EVar "offset") (EAdd (EVar "offset") (EInt 16)) (ETo16 (EFld "IPv6Address")))))
(SRet ENil))))))).

(** ie/cp-pfcp-entity-ip-address.go:169-179 *)
Definition go_len_CPPFCPEntityIPAddress : stmt :=
(SSeq (SLet "l" (EInt 1))
(SSeq (SIf (CNotNil (EFld "IPv4Address"))
(SLet "l" (EAdd (EVar "l") (EInt 4))))
(SSeq (SIf (CNotNil (EFld "IPv6Address"))
(SLet "l" (EAdd (EVar "l") (EInt 16))))
(SRet (EVar "l"))))).

(** ie/c-tag.go:142-164 *)
Definition go_un_CTAG : stmt :=
(SSeq (SLet "l" (ELen EBuf))
(SSeq (SIf (CLt (EVar "l") (EInt 3))
SEof)
(SSeq (SSet "Flags" (EIdx EBuf (EInt 0)))
(SSeq (SLet "offset" (EInt 1))
(SSeq (SIf (CHas 1 (EFld "Flags"))
(SSet "PCP" (EAnd (EIdx EBuf (EVar "offset")) (ENum 7))))
(SSeq (SIf (CHas 2 (EFld "Flags"))
(SSet "DEIFlag" (EAnd (EShr (EIdx EBuf (EVar "offset")) 3) (ENum 1))))
(SSeq (SIf (CHas 3 (EFld "Flags"))
(SSet "CVID" (EAnd (EBE 2 (ESlice EBuf (EVar "offset") (EAdd (EVar "offset") (EInt 2)))) (ENum 61695))))
(SRet ENil)))))))).

(** ie/c-tag.go:176-187 *)
Definition go_to_CTAG : stmt :=
(SSeq (SLet "l" (ELen EBuf))
(SSeq (SIf (CLt (EVar "l") (EInt 1))
SEof)
(SSeq (SPutB (EInt 0) (EFld "Flags"))
(SSeq (SLet "offset" (EInt 1))
(SSeq (SPut 2 (EVar "offset") (EAdd (EVar "offset") (EInt 2)) (EOr (EOr (EAnd (EShl 16 (EFld "CVID") 4) (ENum 61440)) (EAnd (EFld "CVID") (ENum 255))) (EShl 16 (EU 16 (EOr (EShl 8 (EFld "DEIFlag") 3) (EFld "PCP"))) 8)))
(SRet ENil)))))).

(** ie/c-tag.go:190-192 *)
Definition go_len_CTAG : stmt :=
(SRet (EInt 3)).

(** ie/dl-flow-level-marking.go:116-141 *)
Definition go_un_DLFlowLevelMarking : stmt :=
(SSeq (SLet "l" (ELen EBuf))
(SSeq (SIf (CLt (EVar "l") (EInt 1))
SEof)
(SSeq (SSet "Flags" (EIdx EBuf (EInt 0)))
(SSeq (SLet "offset" (EInt 1))
(SSeq (SIf (CHas 1 (EFld "Flags"))
(SSeq (SIf (CLt (EVar "l") (EAdd (EVar "offset") (EInt 2)))
SEof)
(SSeq (SSet "ToSTrafficClass" (EBE 2 (ESlice EBuf (EVar "offset") (EAdd (EVar "offset") (EInt 2)))))
(SLet "offset" (EAdd (EVar "offset") (EInt 2))))))
(SSeq (SIf (CHas 2 (EFld "Flags"))
(SSeq (SIf (CLt (EVar "l") (EAdd (EVar "offset") (EInt 2)))
SEof)
(SSet "ServiceClassIdentifier" (EBE 2 (ESlice EBuf (EVar "offset") (EAdd (EVar "offset") (EInt 2)))))))
(SRet ENil))))))).

(** ie/dl-flow-level-marking.go:153-172 *)
Definition go_to_DLFlowLevelMarking : stmt :=
(SSeq (SLet "l" (ELen EBuf))
(SSeq (SIf (CLt (EVar "l") (EInt 2))
SEof)
(SSeq (SPutB (EInt 0) (EFld "Flags"))
(SSeq (SLet "offset" (EInt 1))
(SSeq (SIf (CHas 1 (EFld "Flags"))
(SSeq (SPut 2 (EVar "offset") (EAdd (EVar "offset") (EInt 2)) (EFld "ToSTrafficClass"))
(SLet "offset" (EAdd (EVar "offset") (EInt 2)))))
(SSeq (SIf (CHas 2 (EFld "Flags"))
(SPut 2 (EVar "offset") (EAdd (EVar "offset") (EInt 2)) (EFld "ServiceClassIdentifier")))
(SRet ENil))))))).

(** ie/dl-flow-level-marking.go:175-185 *)
Definition go_len_DLFlowLevelMarking : stmt :=
(SSeq (SLet "l" (EInt 1))
(SSeq (SIf (CHas 1 (EFld "Flags"))
(SLet "l" (EAdd (EVar "l") (EInt 2))))
(SSeq (SIf (CHas 2 (EFld "Flags"))
(SLet "l" (EAdd (EVar "l") (EInt 2))))
(SRet (EVar "l"))))).

(** ie/f-seid.go:96-124 *)
Definition go_un_FSEID : stmt :=
(SSeq (SLet "l" (ELen EBuf))
(SSeq (SIf (CLt (EVar "l") (EInt 9))
SEof)
(SSeq (SSet "Flags" (EIdx EBuf (EInt 0)))
(SSeq (SLet "offset" (EInt 1))
(SSeq (SSet "SEID" (EBE 8 (ESlice EBuf (EVar "offset") (EAdd (EVar "offset") (EInt 8)))))
(SSeq (SLet "offset" (EAdd (EVar "offset") (EInt 8)))
(SSeq (SIf (CHas 2 (EFld "Flags"))
(SSeq (SIf (CLt (EVar "l") (EAdd (EVar "offset") (EInt 4)))
SEof)
(SSeq (SSet "IPv4Address" (EBytes (ESlice EBuf (EVar "offset") (EAdd (EVar "offset") (EInt 4)))))
(SLet "offset" (EAdd (EVar "offset") (EInt 4))))))
(SSeq (SIf (CHas 1 (EFld "Flags"))
(SSeq (SIf (CLt (EVar "l") (EAdd (EVar "offset") (EInt 16)))
SEof)
(SSet "IPv6Address" (EBytes (ESlice EBuf (EVar "offset") (EAdd (EVar "offset") (EInt 16)))))))
(SRet ENil))))))))).

(** ie/f-seid.go:136-164 *)
Definition go_to_FSEID : stmt :=
(SSeq (SLet "l" (ELen EBuf))
(SSeq (SIf (CLt (EVar "l") (EInt 9))
SEof)
(SSeq (SPutB (EInt 0) (EFld "Flags"))
(SSeq (SLet "offset" (EInt 1))
(SSeq (SPut 8 (EVar "offset") (EAdd (EVar "offset") (EInt 8)) (EFld "SEID"))
(SSeq (SLet "offset" (EAdd (EVar "offset") (EInt 8)))
(SSeq (SIf (CAnd (CHas 2 (EFld "Flags")) (CNotNil (EFld "IPv4Address")))
(SSeq (SIf (CLt (EVar "l") (EAdd (EVar "offset") (EInt 4)))
SEof)
(SSeq (SCopyB (EVar "offset") (EAdd (EVar "offset") (EInt 4)) (ETo4 (EFld "IPv4Address")))
(SLet "offset" (EAdd (EVar "offset") (EInt 4))))))
(SSeq (SIf (CAnd (CHas 1 (EFld "Flags")) (CNotNil (EFld "IPv6Address")))
(SSeq (SIf (CLt (EVar "l") (EAdd (EVar "offset") (EInt 16)))
SEof)
(SCopyB (EVar "offset") (EAdd (EVar "offset") (EInt 16)) (ETo16 (EFld "IPv6Address")))))
(SRet ENil))))))))).

(** ie/f-seid.go:167-179 *)
Definition go_len_FSEID : stmt :=
(SSeq (SLet "l" (EInt 9))
(SSeq (SIf (CNotNil (EFld "IPv4Address"))
(SLet "l" (EAdd (EVar "l") (EInt 4))))
(SSeq (SIf (CNotNil (EFld "IPv6Address"))
(SLet "l" (EAdd (EVar "l") (EInt 16))))
(SRet (EVar "l"))))).

(** ie/f-teid.go:191-231 *)
Definition go_un_FTEID : stmt :=
(SSeq (SLet "l" (ELen EBuf))
(SSeq (SIf (CLt (EVar "l") (EInt 1))
SEof)
(SSeq (SSet "Flags" (EIdx EBuf (EInt 0)))
(SSeq (SLet "offset" (EInt 1))
(SSeq (SIf (CHas 3 (EFld "Flags"))
(SSeq (SIf (CHas 4 (EFld "Flags"))
(SSeq (SIf (CLt (EVar "l") (EAdd (EVar "offset") (EInt 1)))
SEof)
(SSet "ChooseID" (EIdx EBuf (EVar "offset")))))
(SRet ENil)))
(SSeq (SIf (CLt (EVar "l") (EAdd (EVar "offset") (EInt 4)))
SEof)
(SSeq (SSet "TEID" (EBE 4 (ESlice EBuf (EVar "offset") (EAdd (EVar "offset") (EInt 4)))))
(SSeq (SLet "offset" (EAdd (EVar "offset") (EInt 4)))
(SSeq (SIf (CHas 1 (EFld "Flags"))
(SSeq (SIf (CLt (EVar "l") (EAdd (EVar "offset") (EInt 4)))
SEof)
(SSeq (SSet "IPv4Address" (EBytes (ESlice EBuf (EVar "offset") (EAdd (EVar "offset") (EInt 4)))))
(SLet "offset" (EAdd (EVar "offset") (EInt 4))))))
(SSeq (SIf (CHas 2 (EFld "Flags"))
(SSeq (SIf (CLt (EVar "l") (EAdd (EVar "offset") (EInt 16)))
SEof)
(SSet "IPv6Address" (EBytes (ESlice EBuf (EVar "offset") (EAdd (EVar "offset") (EInt 16)))))))
(SRet ENil))))))))))).

(** ie/f-teid.go:243-283 *)
Definition go_to_FTEID : stmt :=
(SSeq (SLet "l" (ELen EBuf))
(SSeq (SIf (CLt (EVar "l") (EInt 1))
SEof)
(SSeq (SPutB (EInt 0) (EFld "Flags"))
(SSeq (SLet "offset" (EInt 1))
(SSeq (SIf (CHas 3 (EFld "Flags"))
(SSeq (SIf (CHas 4 (EFld "Flags"))
(SSeq (SIf (CLt (EVar "l") (EAdd (EVar "offset") (EInt 1)))
SEof)
(SPutB (EVar "offset") (EFld "ChooseID"))))
(SRet ENil)))
(SSeq (SIf (CLt (EVar "l") (EAdd (EVar "offset") (EInt 4)))
SEof)
(SSeq (SPut 4 (EVar "offset") (EAdd (EVar "offset") (EInt 4)) (EFld "TEID"))
(SSeq (SLet "offset" (EAdd (EVar "offset") (EInt 4)))
(SSeq (SIf (CAnd (CHas 1 (EFld "Flags")) (CNotNil (EFld "IPv4Address")))
(SSeq (SIf (CLt (EVar "l") (EAdd (EVar "offset") (EInt 4)))
SEof)
(SSeq (SCopyB (EVar "offset") (EAdd (EVar "offset") (EInt 4)) (ETo4 (EFld "IPv4Address")))
(SLet "offset" (EAdd (EVar "offset") (EInt 4))))))
(SSeq (SIf (CAnd (CHas 2 (EFld "Flags")) (CNotNil (EFld "IPv6Address")))
(SSeq (SIf (CLt (EVar "l") (EAdd (EVar "offset") (EInt 16)))
SEof)
(SCopyB (EVar "offset") (EAdd (EVar "offset") (EInt 16)) (ETo16 (EFld "IPv6Address")))))
(SRet ENil))))))))))).

(** ie/f-teid.go:286-303 *)
Definition go_len_FTEID : stmt :=
(SSeq (SLet "l" (EInt 1))
(SSeq (SIf (CHas 3 (EFld "Flags"))
(SSeq (SIf (CHas 4 (EFld "Flags"))
(SLet "l" (EAdd (EVar "l") (EInt 1))))
(SRet (EVar "l"))))
(SSeq (SLet "l" (EAdd (EVar "l") (EInt 4)))
(SSeq (SIf (CHas 1 (EFld "Flags"))
(SLet "l" (EAdd (EVar "l") (EInt 4))))
(SSeq (SIf (CHas 2 (EFld "Flags"))
(SLet "l" (EAdd (EVar "l") (EInt 16))))
(SRet (EVar "l"))))))).

(** ie/header-enrichment.go:94-122 *)
Definition go_un_HeaderEnrichment : stmt :=
(SSeq (SLet "l" (ELen EBuf))
(SSeq (SIf (CLt (EVar "l") (EInt 2))
SEof)
(SSeq (SSet "HeaderType" (EIdx EBuf (EInt 0)))
(SSeq (SSet "NameLength" (EIdx EBuf (EInt 1)))
(SSeq (SLet "offset" (EInt 2))
(SSeq (SIf (CLt (EVar "l") (EAdd (EVar "offset") (EToInt (EFld "NameLength"))))
SEof)
(SSeq (SSet "HeaderFieldName" (EStr (ESlice EBuf (EVar "offset") (EAdd (EVar "offset") (EToInt (EFld "NameLength"))))))
(SSeq (SLet "offset" (EAdd (EVar "offset") (EToInt (EFld "NameLength"))))
(SSeq (SIf (CLt (EVar "l") (EAdd (EVar "offset") (EInt 1)))
SEof)
(SSeq (SSet "ValueLength" (EIdx EBuf (EVar "offset")))
(SSeq (SLet "offset" (EAdd (EVar "offset") (EInt 1)))
(SSeq (SIf (CLt (EVar "l") (EAdd (EVar "offset") (EToInt (EFld "ValueLength"))))
SEof)
(SSeq (SSet "HeaderFieldValue" (EStr (ESlice EBuf (EVar "offset") (EAdd (EVar "offset") (EToInt (EFld "ValueLength"))))))
(SRet ENil)))))))))))))).

(** ie/header-enrichment.go:134-153 *)
Definition go_to_HeaderEnrichment : stmt :=
(SSeq (SLet "l" (ELen EBuf))
(SSeq (SIf (CLt (EVar "l") (EInt 2))
SEof)
(SSeq (SPutB (EInt 0) (EFld "HeaderType"))
(SSeq (SPutB (EInt 1) (EFld "NameLength"))
(SSeq (SLet "offset" (EInt 2))
(SSeq (SCopyB (EVar "offset") (EAdd (EVar "offset") (EToInt (EFld "NameLength"))) (EFld "HeaderFieldName"))
(SSeq (SLet "offset" (EAdd (EVar "offset") (EToInt (EFld "NameLength"))))
(SSeq (SPutB (EVar "offset") (EFld "ValueLength"))
(SSeq (SLet "offset" (EAdd (EVar "offset") (EInt 1)))
(SSeq (SCopyB (EVar "offset") (EAdd (EVar "offset") (EToInt (EFld "ValueLength"))) (EFld "HeaderFieldValue"))
(SRet ENil))))))))))).

(** ie/header-enrichment.go:156-162 *)
Definition go_len_HeaderEnrichment : stmt :=
(SSeq (SLet "l" (EInt 3))
(SSeq (SLet "l" (EAdd (EVar "l") (ELen (EBytes (EFld "HeaderFieldName")))))
(SSeq (SLet "l" (EAdd (EVar "l") (ELen (EBytes (EFld "HeaderFieldValue")))))
(SRet (EVar "l"))))).

(** ie/ip-multicast-address.go:183-231 *)
Definition go_un_IPMulticastAddress : stmt :=
(SSeq (SLet "l" (ELen EBuf))
(SSeq (SIf (CLt (EVar "l") (EInt 2))
SEof)
(SSeq (SSet "Flags" (EIdx EBuf (EInt 0)))
(SSeq (SLet "offset" (EInt 1))
(SSeq (SIf (CHas 4 (EFld "Flags"))
(SRet ENil))
(SSeq (SIf (CHas 2 (EFld "Flags"))
(SSeq (SIf (CLt (EVar "l") (EAdd (EVar "offset") (EInt 4)))
SEof)
(SSeq (SSet "StartIPv4Address" (EBytes (ESlice EBuf (EVar "offset") (EAdd (EVar "offset") (EInt 4)))))
(SLet "offset" (EAdd (EVar "offset") (EInt 4))))))
(SSeq (SIf (CHas 1 (EFld "Flags"))
(SSeq (SIf (CLt (EVar "l") (EAdd (EVar "offset") (EInt 16)))
SEof)
(SSeq (SSet "StartIPv6Address" (EBytes (ESlice EBuf (EVar "offset") (EAdd (EVar "offset") (EInt 16)))))
(SLet "offset" (EAdd (EVar "offset") (EInt 16))))))
(SSeq (SIf (CHas 3 (EFld "Flags"))
(SSeq (SIf (CHas 2 (EFld "Flags"))
(SSeq (SIf (CLt (EVar "l") (EAdd (EVar "offset") (EInt 4)))
SEof)
(SSeq (SSet "EndIPv4Address" (EBytes (ESlice EBuf (EVar "offset") (EAdd (EVar "offset") (EInt 4)))))
(SLet "offset" (EAdd (EVar "offset") (EInt 4))))))
(SIf (CHas 1 (EFld "Flags"))
(SSeq (SIf (CLt (EVar "l") (EAdd (EVar "offset") (EInt 16)))
SEof)
(SSet "EndIPv6Address" (EBytes (ESlice EBuf (EVar "offset") (EAdd (EVar "offset") (EInt 16)))))))))
(SRet ENil))))))))).

(** ie/ip-multicast-address.go:243-290 *)
Definition go_to_IPMulticastAddress : stmt :=
(SSeq (SLet "l" (ELen EBuf))
(SSeq (SIf (CLt (EVar "l") (EInt 1))
SEof)
(SSeq (SPutB (EInt 0) (EFld "Flags"))
(SSeq (SLet "offset" (EInt 1))
(SSeq (SIf (CHas 4 (EFld "Flags"))
(SRet ENil))
(SSeq (SIf (CHas 2 (EFld "Flags"))
(SSeq (SIf (CLt (EVar "l") (EAdd (EVar "offset") (EInt 4)))
SEof)
(SSeq (SCopyB (EVar "offset") (EAdd (EVar "offset") (EInt 4)) (ETo4 (EFld "StartIPv4Address")))
(SLet "offset" (EAdd (EVar "offset") (EInt 4))))))
(SSeq (SIf (CHas 1 (EFld "Flags"))
(SSeq (SIf (CLt (EVar "l") (EAdd (EVar "offset") (EInt 16)))
SEof)
(SSeq (SCopyB (EVar "offset") (EAdd (EVar "offset") (EInt 16)) (ETo16 (EFld "StartIPv6Address")))
(SLet "offset" (EAdd (EVar "offset") (EInt 16))))))
(SSeq (SIf (CHas 3 (EFld "Flags"))
(SSeq (SIf (CHas 2 (EFld "Flags"))
(SSeq (SIf (CLt (EVar "l") (EAdd (EVar "offset") (EInt 4)))
SEof)
(SSeq (SCopyB (EVar "offset") (EAdd (EVar "offset") (EInt 4)) (ETo4 (EFld "EndIPv4Address")))
(SLet "offset" (EAdd (EVar "offset") (EInt 4))))))
(SIf (CHas 1 (EFld "Flags"))
(SSeq (SIf (CLt (EVar "l") (EAdd (EVar "offset") (EInt 16)))
SEof)
(SCopyB (EVar "offset") (EAdd (EVar "offset") (EInt 16)) (ETo16 (EFld "EndIPv6Address")))))))
(SRet ENil))))))))).

(** ie/ip-multicast-address.go:293-309 *)
Definition go_len_IPMulticastAddress : stmt :=
(SSeq (SLet "l" (EInt 1))
(SSeq (SIf (CNotNil (EFld "StartIPv4Address"))
(SLet "l" (EAdd (EVar "l") (EInt 4))))
(SSeq (SIf (CNotNil (EFld "StartIPv6Address"))
(SLet "l" (EAdd (EVar "l") (EInt 16))))
(SSeq (SIf (CNotNil (EFld "EndIPv4Address"))
(SLet "l" (EAdd (EVar "l") (EInt 4))))
(SSeq (SIf (CNotNil (EFld "EndIPv6Address"))
(SLet "l" (EAdd (EVar "l") (EInt 16))))
(SRet (EVar "l"))))))).

(** ie/mac-address.go:147-192 *)
Definition go_un_MACAddress : stmt :=
(SSeq (SLet "l" (ELen EBuf))
(SSeq (SIf (CLt (EVar "l") (EInt 2))
SEof)
(SSeq (SSet "Flags" (EIdx EBuf (EInt 0)))
(SSeq (SLet "offset" (EInt 1))
(SSeq (SIf (CHas 1 (EFld "Flags"))
(SSeq (SIf (CLt (EVar "l") (EAdd (EVar "offset") (EInt 6)))
SEof)
(SSeq (SSet "SourceMACAddress" (EMake 6))
(SSeq (SCopyF "SourceMACAddress" (ESlice EBuf (EVar "offset") (EAdd (EVar "offset") (EInt 6))))
(SLet "offset" (EAdd (EVar "offset") (EInt 6)))))))
(SSeq (SIf (CHas 2 (EFld "Flags"))
(SSeq (SIf (CLt (EVar "l") (EAdd (EVar "offset") (EInt 6)))
SEof)
(SSeq (SSet "DestinationMACAddress" (EMake 6))
(SSeq (SCopyF "DestinationMACAddress" (ESlice EBuf (EVar "offset") (EAdd (EVar "offset") (EInt 6))))
(SLet "offset" (EAdd (EVar "offset") (EInt 6)))))))
(SSeq (SIf (CHas 3 (EFld "Flags"))
(SSeq (SIf (CLt (EVar "l") (EAdd (EVar "offset") (EInt 6)))
SEof)
(SSeq (SSet "UpperSourceMACAddress" (EMake 6))
(SSeq (SCopyF "UpperSourceMACAddress" (ESlice EBuf (EVar "offset") (EAdd (EVar "offset") (EInt 6))))
(SLet "offset" (EAdd (EVar "offset") (EInt 6)))))))
(SSeq (SIf (CHas 4 (EFld "Flags"))
(SSeq (SIf (CLt (EVar "l") (EAdd (EVar "offset") (EInt 6)))
SEof)
(SSeq (SSet "UpperDestinationMACAddress" (EMake 6))
(SCopyF "UpperDestinationMACAddress" (ESlice EBuf (EVar "offset") (EAdd (EVar "offset") (EInt 6)))))))
(SRet ENil))))))))).

(** ie/mac-address.go:204-245 *)
Definition go_to_MACAddress : stmt :=
(SSeq (SLet "l" (ELen EBuf))
(SSeq (SIf (CLt (EVar "l") (EInt 1))
SEof)
(SSeq (SPutB (EInt 0) (EFld "Flags"))
(SSeq (SLet "offset" (EInt 1))
(SSeq (SIf (CHas 1 (EFld "Flags"))
(SSeq (SIf (CLt (EVar "l") (EAdd (EVar "offset") (EInt 6)))
SEof)
(SSeq (SCopyB (EVar "offset") (EAdd (EVar "offset") (EInt 6)) (ESlice (EFld "SourceMACAddress") (EInt 0) (EInt 6)))
(SLet "offset" (EAdd (EVar "offset") (EInt 6))))))
(SSeq (SIf (CHas 2 (EFld "Flags"))
(SSeq (SIf (CLt (EVar "l") (EAdd (EVar "offset") (EInt 6)))
SEof)
(SSeq (SCopyB (EVar "offset") (EAdd (EVar "offset") (EInt 6)) (ESlice (EFld "DestinationMACAddress") (EInt 0) (EInt 6)))
(SLet "offset" (EAdd (EVar "offset") (EInt 6))))))
(SSeq (SIf (CHas 3 (EFld "Flags"))
(SSeq (SIf (CLt (EVar "l") (EAdd (EVar "offset") (EInt 6)))
SEof)
(SSeq (SCopyB (EVar "offset") (EAdd (EVar "offset") (EInt 6)) (ESlice (EFld "UpperSourceMACAddress") (EInt 0) (EInt 6)))
(SLet "offset" (EAdd (EVar "offset") (EInt 6))))))
(SSeq (SIf (CHas 4 (EFld "Flags"))
(SSeq (SIf (CLt (EVar "l") (EAdd (EVar "offset") (EInt 6)))
SEof)
(SCopyB (EVar "offset") (EAdd (EVar "offset") (EInt 6)) (ESlice (EFld "UpperDestinationMACAddress") (EInt 0) (EInt 6)))))
(SRet ENil))))))))).

(** ie/mac-address.go:248-263 *)
Definition go_len_MACAddress : stmt :=
(SSeq (SLet "l" (EInt 1))
(SSeq (SIf (CNotNil (EFld "SourceMACAddress"))
(SLet "l" (EAdd (EVar "l") (EInt 6))))
(SSeq (SIf (CNotNil (EFld "DestinationMACAddress"))
(SLet "l" (EAdd (EVar "l") (EInt 6))))
(SSeq (SIf (CNotNil (EFld "UpperSourceMACAddress"))
(SLet "l" (EAdd (EVar "l") (EInt 6))))
(SSeq (SIf (CNotNil (EFld "UpperDestinationMACAddress"))
(SLet "l" (EAdd (EVar "l") (EInt 6))))
(SRet (EVar "l"))))))).

(** ie/mac-address-detected.go:107-145 *)
Definition go_un_MACAddressesDetected : stmt :=
(SSeq (SLet "l" (ELen EBuf))
(SSeq (SIf (CLt (EVar "l") (EInt 1))
SEof)
(SSeq (SSet "NumberOfMACAddresses" (EIdx EBuf (EInt 0)))
(SSeq (SLet "offset" (EInt 1))
(SSeq (SBlock (SSeq (SLet "i" (EInt 0))
(SLoop
(SSeq (SIf (CNot (CLe (EVar "i") (EToInt (EFld "NumberOfMACAddresses")))) SBreak)
(SSeq (SSeq (SIf (CLt (EVar "l") (EAdd (EVar "offset") (EInt 6)))
SEof)
(SSeq (SSet "MACAddresses" (EApp (EFld "MACAddresses") (ESlice EBuf (EVar "offset") (EAdd (EVar "offset") (EInt 6)))))
(SLet "offset" (EAdd (EVar "offset") (EInt 6)))))
(SLet "i" (EAdd (EVar "i") (EInt 1))))))))
(SSeq (SIf (CLt (EVar "l") (EVar "offset"))
SEof)
(SSeq (SSet "CTAGLength" (EIdx EBuf (EVar "offset")))
(SSeq (SIf (CLt (EVar "l") (EAdd (EVar "offset") (EToInt (EFld "CTAGLength"))))
SEof)
(SSeq (SCopyF "CTAG" (ESlice EBuf (EVar "offset") (EAdd (EVar "offset") (EToInt (EFld "CTAGLength")))))
(SSeq (SIf (CLt (EVar "l") (EVar "offset"))
SEof)
(SSeq (SSet "STAGLength" (EIdx EBuf (EVar "offset")))
(SSeq (SIf (CLt (EVar "l") (EAdd (EVar "offset") (EToInt (EFld "STAGLength"))))
SEof)
(SSeq (SCopyF "STAG" (ESlice EBuf (EVar "offset") (EAdd (EVar "offset") (EToInt (EFld "STAGLength")))))
(SRet ENil)))))))))))))).

(** ie/mac-address-detected.go:157-181 *)
Definition go_to_MACAddressesDetected : stmt :=
(SSeq (SLet "l" (ELen EBuf))
(SSeq (SIf (CLt (EVar "l") (EInt 1))
SEof)
(SSeq (SPutB (EInt 0) (EFld "NumberOfMACAddresses"))
(SSeq (SLet "offset" (EInt 1))
(SSeq (SBlock (SRange "mac" "MACAddresses"
(SSeq (SCopyB (EVar "offset") (EAdd (EVar "offset") (EInt 6)) (EVar "mac"))
(SLet "offset" (EAdd (EVar "offset") (EInt 6))))))
(SSeq (SPutB (EVar "offset") (EFld "CTAGLength"))
(SSeq (SLet "offset" (EAdd (EVar "offset") (EInt 1)))
(SSeq (SCopyB (EVar "offset") (EAdd (EVar "offset") (EToInt (EFld "CTAGLength"))) (EFld "CTAG"))
(SSeq (SLet "offset" (EAdd (EVar "offset") (EToInt (EFld "CTAGLength"))))
(SSeq (SPutB (EVar "offset") (EFld "STAGLength"))
(SSeq (SLet "offset" (EAdd (EVar "offset") (EInt 1)))
(SSeq (SCopyB (EVar "offset") (EAdd (EVar "offset") (EToInt (EFld "STAGLength"))) (EFld "STAG"))
(SRet ENil))))))))))))).

(** ie/mac-address-detected.go:184-191 *)
Definition go_len_MACAddressesDetected : stmt :=
(SSeq (SLet "l" (EInt 3))
(SSeq (SLet "l" (EAdd (EVar "l") (EMul (EToInt (EFld "NumberOfMACAddresses")) (EInt 6))))
(SSeq (SLet "l" (EAdd (EVar "l") (EToInt (EFld "CTAGLength"))))
(SSeq (SLet "l" (EAdd (EVar "l") (EToInt (EFld "STAGLength"))))
(SRet (EVar "l")))))).

(** ie/mac-address-removed.go:96-134 *)
Definition go_un_MACAddressesRemoved : stmt :=
(SSeq (SLet "l" (ELen EBuf))
(SSeq (SIf (CLt (EVar "l") (EInt 1))
SEof)
(SSeq (SSet "NumberOfMACAddresses" (EIdx EBuf (EInt 0)))
(SSeq (SLet "offset" (EInt 1))
(SSeq (SBlock (SSeq (SLet "i" (EInt 0))
(SLoop
(SSeq (SIf (CNot (CLe (EVar "i") (EToInt (EFld "NumberOfMACAddresses")))) SBreak)
(SSeq (SSeq (SIf (CLt (EVar "l") (EAdd (EVar "offset") (EInt 6)))
SEof)
(SSeq (SSet "MACAddresses" (EApp (EFld "MACAddresses") (ESlice EBuf (EVar "offset") (EAdd (EVar "offset") (EInt 6)))))
(SLet "offset" (EAdd (EVar "offset") (EInt 6)))))
(SLet "i" (EAdd (EVar "i") (EInt 1))))))))
(SSeq (SIf (CLt (EVar "l") (EVar "offset"))
SEof)
(SSeq (SSet "CTAGLength" (EIdx EBuf (EVar "offset")))
(SSeq (SIf (CLt (EVar "l") (EAdd (EVar "offset") (EToInt (EFld "CTAGLength"))))
SEof)
(SSeq (SCopyF "CTAG" (ESlice EBuf (EVar "offset") (EAdd (EVar "offset") (EToInt (EFld "CTAGLength")))))
(SSeq (SIf (CLt (EVar "l") (EVar "offset"))
SEof)
(SSeq (SSet "STAGLength" (EIdx EBuf (EVar "offset")))
(SSeq (SIf (CLt (EVar "l") (EAdd (EVar "offset") (EToInt (EFld "STAGLength"))))
SEof)
(SSeq (SCopyF "STAG" (ESlice EBuf (EVar "offset") (EAdd (EVar "offset") (EToInt (EFld "STAGLength")))))
(SRet ENil)))))))))))))).

(** ie/mac-address-removed.go:146-170 *)
Definition go_to_MACAddressesRemoved : stmt :=
(SSeq (SLet "l" (ELen EBuf))
(SSeq (SIf (CLt (EVar "l") (EInt 1))
SEof)
(SSeq (SPutB (EInt 0) (EFld "NumberOfMACAddresses"))
(SSeq (SLet "offset" (EInt 1))
(SSeq (SBlock (SRange "mac" "MACAddresses"
(SSeq (SCopyB (EVar "offset") (EAdd (EVar "offset") (EInt 6)) (EVar "mac"))
(SLet "offset" (EAdd (EVar "offset") (EInt 6))))))
(SSeq (SPutB (EVar "offset") (EFld "CTAGLength"))
(SSeq (SLet "offset" (EAdd (EVar "offset") (EInt 1)))
(SSeq (SCopyB (EVar "offset") (EAdd (EVar "offset") (EToInt (EFld "CTAGLength"))) (EFld "CTAG"))
(SSeq (SLet "offset" (EAdd (EVar "offset") (EToInt (EFld "CTAGLength"))))
(SSeq (SPutB (EVar "offset") (EFld "STAGLength"))
(SSeq (SLet "offset" (EAdd (EVar "offset") (EInt 1)))
(SSeq (SCopyB (EVar "offset") (EAdd (EVar "offset") (EToInt (EFld "STAGLength"))) (EFld "STAG"))
(SRet ENil))))))))))))).

(** ie/mac-address-removed.go:173-180 *)
Definition go_len_MACAddressesRemoved : stmt :=
(SSeq (SLet "l" (EInt 3))
(SSeq (SLet "l" (EAdd (EVar "l") (EMul (EToInt (EFld "NumberOfMACAddresses")) (EInt 6))))
(SSeq (SLet "l" (EAdd (EVar "l") (EToInt (EFld "CTAGLength"))))
(SSeq (SLet "l" (EAdd (EVar "l") (EToInt (EFld "STAGLength"))))
(SRet (EVar "l")))))).

(** ie/mptcp-address-information.go:126-153 *)
Definition go_un_MPTCPAddressInformation : stmt :=
(SSeq (SLet "l" (ELen EBuf))
(SSeq (SIf (CLt (EVar "l") (EInt 4))
SEof)
(SSeq (SSet "Flags" (EIdx EBuf (EInt 0)))
(SSeq (SSet "MPTCPProxyType" (EIdx EBuf (EInt 1)))
(SSeq (SSet "MPTCPProxyPort" (EBE 2 (ESlice EBuf (EInt 2) (EInt 4))))
(SSeq (SLet "offset" (EInt 4))
(SSeq (SIf (CHas 1 (EFld "Flags"))
(SSeq (SIf (CLt (EVar "l") (EAdd (EVar "offset") (EInt 4)))
SEof)
(SSeq (SSet "MPTCPIPv4Address" (EBytes (ESlice EBuf (EVar "offset") (EAdd (EVar "offset") (EInt 4)))))
(SLet "offset" (EAdd (EVar "offset") (EInt 4))))))
(SSeq (SIf (CHas 2 (EFld "Flags"))
(SSeq (SIf (CLt (EVar "l") (EAdd (EVar "offset") (EInt 16)))
SEof)
(SSet "MPTCPIPv6Address" (EBytes (ESlice EBuf (EVar "offset") (EAdd (EVar "offset") (EInt 16)))))))
(SRet ENil))))))))).

(** ie/mptcp-address-information.go:165-192 *)
Definition go_to_MPTCPAddressInformation : stmt :=
(SSeq (SLet "l" (ELen EBuf))
(SSeq (SIf (CLt (EVar "l") (EInt 4))
SEof)
(SSeq (SPutB (EInt 0) (EFld "Flags"))
(SSeq (SPutB (EInt 1) (EFld "MPTCPProxyType"))
(SSeq (SPut 2 (EInt 2) (EInt 4) (EFld "MPTCPProxyPort"))
(SSeq (SLet "offset" (EInt 4))
(SSeq (SIf (CHas 1 (EFld "Flags"))
(SSeq (SIf (CLt (EVar "l") (EAdd (EVar "offset") (EInt 4)))
SEof)
(SSeq (SCopyB (EVar "offset") (EAdd (EVar "offset") (EInt 4)) (ETo4 (EFld "MPTCPIPv4Address")))
(SLet "offset" (EAdd (EVar "offset") (EInt 4))))))
(SSeq (SIf (CHas 2 (EFld "Flags"))
(SSeq (SIf (CLt (EVar "l") (EAdd (EVar "offset") (EInt 16)))
SEof)
(SCopyB (EVar "offset") (EAdd (EVar "offset") (EInt 16)) (ETo16 (EFld "MPTCPIPv6Address")))))
(SRet ENil))))))))).

(** ie/mptcp-address-information.go:195-205 *)
Definition go_len_MPTCPAddressInformation : stmt :=
(SSeq (SLet "l" (EAdd (EAdd (EInt 1) (EInt 1)) (EInt 2)))
(SSeq (SIf (CHas 1 (EFld "Flags"))
(SLet "l" (EAdd (EVar "l") (EInt 4))))
(SSeq (SIf (CHas 2 (EFld "Flags"))
(SLet "l" (EAdd (EVar "l") (EInt 16))))
(SRet (EVar "l"))))).

(** ie/number-of-ue-ip-addresses.go:96-121 *)
Definition go_un_NumberOfUEIPAddresses : stmt :=
(SSeq (SLet "l" (ELen EBuf))
(SSeq (SIf (CLt (EVar "l") (EInt 1))
SEof)
(SSeq (SSet "Flags" (EIdx EBuf (EInt 0)))
(SSeq (SLet "offset" (EInt 1))
(SSeq (SIf (CHas 1 (EFld "Flags"))
(SSeq (SIf (CLt (EVar "l") (EAdd (EVar "offset") (EInt 4)))
SEof)
(SSeq (SSet "NumberOfUEIPv4Addresses" (EBE 4 (ESlice EBuf (EVar "offset") (EAdd (EVar "offset") (EInt 4)))))
(SLet "offset" (EAdd (EVar "offset") (EInt 4))))))
(SSeq (SIf (CHas 2 (EFld "Flags"))
(SSeq (SIf (CLt (EVar "l") (EAdd (EVar "offset") (EInt 4)))
SEof)
(SSet "NumberOfUEIPv6Addresses" (EBE 4 (ESlice EBuf (EVar "offset") (EAdd (EVar "offset") (EInt 4)))))))
(SRet ENil))))))).

(** ie/number-of-ue-ip-addresses.go:133-158 *)
Definition go_to_NumberOfUEIPAddresses : stmt :=
(SSeq (SLet "l" (ELen EBuf))
(SSeq (SIf (CLt (EVar "l") (EInt 1))
SEof)
(SSeq (SPutB (EInt 0) (EFld "Flags"))
(SSeq (SLet "offset" (EInt 1))
(SSeq (SIf (CHas 1 (EFld "Flags"))
(SSeq (SIf (CLt (EVar "l") (EAdd (EVar "offset") (EInt 4)))
SEof)
(SSeq (SPut 4 (EVar "offset") (EAdd (EVar "offset") (EInt 4)) (EFld "NumberOfUEIPv4Addresses"))
(SLet "offset" (EAdd (EVar "offset") (EInt 4))))))
(SSeq (SIf (CHas 2 (EFld "Flags"))
(SSeq (SIf (CLt (EVar "l") (EAdd (EVar "offset") (EInt 4)))
SEof)
(SPut 4 (EVar "offset") (EAdd (EVar "offset") (EInt 4)) (EFld "NumberOfUEIPv6Addresses"))))
(SRet ENil))))))).

(** ie/number-of-ue-ip-addresses.go:161-173 *)
Definition go_len_NumberOfUEIPAddresses : stmt :=
(SSeq (SLet "l" (EInt 1))
(SSeq (SIf (CHas 1 (EFld "Flags"))
(SLet "l" (EAdd (EVar "l") (EInt 4))))
(SSeq (SIf (CHas 2 (EFld "Flags"))
(SLet "l" (EAdd (EVar "l") (EInt 4))))
(SRet (EVar "l"))))).

(** ie/outer-header-creation.go:355-413 *)
Definition go_un_OuterHeaderCreation : stmt :=
(SSeq (SLet "l" (ELen EBuf))
(SSeq (SIf (CLt (EVar "l") (EInt 2))
SEof)
(SSeq (SSet "OuterHeaderCreationDescription" (EBE 2 (ESlice EBuf (EInt 0) (EInt 2))))
(SSeq (SLet "offset" (EInt 2))
(SSeq (SLet "oct5" (EIdx EBuf (EInt 0)))
(SSeq (SIf (COr (CHas 1 (EVar "oct5")) (CHas 2 (EVar "oct5")))
(SSeq (SIf (CLt (EVar "l") (EAdd (EVar "offset") (EInt 4)))
SEof)
(SSeq (SSet "TEID" (EBE 4 (ESlice EBuf (EVar "offset") (EAdd (EVar "offset") (EInt 4)))))
(SLet "offset" (EAdd (EVar "offset") (EInt 4))))))
(SSeq (SIf (COr (COr (CHas 1 (EVar "oct5")) (CHas 3 (EVar "oct5"))) (CHas 5 (EVar "oct5")))
(SSeq (SIf (CLt (EVar "l") (EAdd (EVar "offset") (EInt 4)))
SEof)
(SSeq (SSet "IPv4Address" (ETo4 (EBytes (ESlice EBuf (EVar "offset") (EAdd (EVar "offset") (EInt 4))))))
(SLet "offset" (EAdd (EVar "offset") (EInt 4))))))
(SSeq (SIf (COr (COr (CHas 2 (EVar "oct5")) (CHas 4 (EVar "oct5"))) (CHas 6 (EVar "oct5")))
(SSeq (SIf (CLt (EVar "l") (EAdd (EVar "offset") (EInt 16)))
SEof)
(SSeq (SSet "IPv6Address" (ETo16 (EBytes (ESlice EBuf (EVar "offset") (EAdd (EVar "offset") (EInt 16))))))
(SLet "offset" (EAdd (EVar "offset") (EInt 16))))))
(SSeq (SIf (COr (CHas 3 (EVar "oct5")) (CHas 4 (EVar "oct5")))
(SSeq (SIf (CLt (EVar "l") (EAdd (EVar "offset") (EInt 2)))
SEof)
(SSeq (SSet "PortNumber" (EBE 2 (ESlice EBuf (EVar "offset") (EAdd (EVar "offset") (EInt 2)))))
(SLet "offset" (EAdd (EVar "offset") (EInt 2))))))
(SSeq (SIf (CHas 7 (EU 8 (EAnd (EFld "OuterHeaderCreationDescription") (ENum 255))))
(SSeq (SIf (CLt (EVar "l") (EAdd (EVar "offset") (EInt 3)))
SEof)
(SSeq (SSet "CTag" (EBE 4 (ESlice EBuf (EVar "offset") (EAdd (EVar "offset") (EInt 3)))))
(SLet "offset" (EAdd (EVar "offset") (EInt 3))))))
(SSeq (SIf (CHas 8 (EU 8 (EAnd (EFld "OuterHeaderCreationDescription") (ENum 255))))
(SSeq (SIf (CLt (EVar "l") (EAdd (EVar "offset") (EInt 3)))
SEof)
(SSet "STag" (EBE 4 (ESlice EBuf (EVar "offset") (EAdd (EVar "offset") (EInt 3)))))))
(SRet ENil)))))))))))).

(** ie/outer-header-creation.go:425-469 *)
Definition go_to_OuterHeaderCreation : stmt :=
(SSeq (SLet "l" (ELen EBuf))
(SSeq (SIf (CLt (EVar "l") (EInt 2))
SEof)
(SSeq (SPut 2 (EInt 0) (EInt 2) (EFld "OuterHeaderCreationDescription"))
(SSeq (SLet "offset" (EInt 2))
(SSeq (SLet "oct5" (EU 8 (EShr (EAnd (EFld "OuterHeaderCreationDescription") (ENum 65280)) 8)))
(SSeq (SIf (COr (CHas 1 (EVar "oct5")) (CHas 2 (EVar "oct5")))
(SSeq (SPut 4 (EVar "offset") (EAdd (EVar "offset") (EInt 4)) (EFld "TEID"))
(SLet "offset" (EAdd (EVar "offset") (EInt 4)))))
(SSeq (SIf (COr (COr (CHas 1 (EVar "oct5")) (CHas 3 (EVar "oct5"))) (CHas 5 (EVar "oct5")))
(SSeq (SCopyB (EVar "offset") (EAdd (EVar "offset") (EInt 4)) (EFld "IPv4Address"))
(SLet "offset" (EAdd (EVar "offset") (EInt 4)))))
(SSeq (SIf (COr (COr (CHas 2 (EVar "oct5")) (CHas 4 (EVar "oct5"))) (CHas 6 (EVar "oct5")))
(SSeq (SCopyB (EVar "offset") (EAdd (EVar "offset") (EInt 16)) (EFld "IPv6Address"))
(SLet "offset" (EAdd (EVar "offset") (EInt 16)))))
(SSeq (SIf (COr (CHas 3 (EVar "oct5")) (CHas 4 (EVar "oct5")))
(SPut 2 (EVar "offset") (EAdd (EVar "offset") (EInt 2)) (EFld "PortNumber")))
(SSeq (SIf (CHas 7 (EVar "oct5"))
(SBlock (SSeq (SLet "p" (EMake 4))
(SSeq (SPutV 4 "p" (EFld "CTag"))
(SSeq (SCopyB (EVar "offset") (EAdd (EVar "offset") (EInt 3)) (ESlice (EVar "p") (EInt 1) (EInt 4)))
(SLet "offset" (EAdd (EVar "offset") (EInt 3))))))))
(SSeq (SIf (CHas 8 (EVar "oct5"))
(SBlock (SSeq (SLet "p" (EMake 4))
(SSeq (SPutV 4 "p" (EFld "STag"))
(SCopyB (EVar "offset") (EAdd (EVar "offset") (EInt 3)) (ESlice (EVar "p") (EInt 1) (EInt 4)))))))
(SRet ENil)))))))))))).

(** ie/outer-header-creation.go:472-495 *)
Definition go_len_OuterHeaderCreation : stmt :=
(SSeq (SLet "l" (EInt 2))
(SSeq (SIf (COr (CHas 1 (EU 8 (EShr (EAnd (EFld "OuterHeaderCreationDescription") (ENum 65280)) 8))) (CHas 2 (EU 8 (EShr (EAnd (EFld "OuterHeaderCreationDescription") (ENum 65280)) 8))))
(SLet "l" (EAdd (EVar "l") (EInt 4))))
(SSeq (SIf (COr (COr (CHas 1 (EU 8 (EShr (EAnd (EFld "OuterHeaderCreationDescription") (ENum 65280)) 8))) (CHas 3 (EU 8 (EShr (EAnd (EFld "OuterHeaderCreationDescription") (ENum 65280)) 8)))) (CHas 5 (EU 8 (EShr (EAnd (EFld "OuterHeaderCreationDescription") (ENum 65280)) 8))))
(SLet "l" (EAdd (EVar "l") (EInt 4))))
(SSeq (SIf (COr (COr (CHas 2 (EU 8 (EShr (EAnd (EFld "OuterHeaderCreationDescription") (ENum 65280)) 8))) (CHas 4 (EU 8 (EShr (EAnd (EFld "OuterHeaderCreationDescription") (ENum 65280)) 8)))) (CHas 6 (EU 8 (EShr (EAnd (EFld "OuterHeaderCreationDescription") (ENum 65280)) 8))))
(SLet "l" (EAdd (EVar "l") (EInt 16))))
(SSeq (SIf (COr (CHas 3 (EU 8 (EShr (EAnd (EFld "OuterHeaderCreationDescription") (ENum 65280)) 8))) (CHas 4 (EU 8 (EShr (EAnd (EFld "OuterHeaderCreationDescription") (ENum 65280)) 8))))
(SLet "l" (EAdd (EVar "l") (EInt 2))))
(SSeq (SIf (CHas 7 (EU 8 (EShr (EAnd (EFld "OuterHeaderCreationDescription") (ENum 65280)) 8)))
(SLet "l" (EAdd (EVar "l") (EInt 3))))
(SSeq (SIf (CHas 8 (EU 8 (EShr (EAnd (EFld "OuterHeaderCreationDescription") (ENum 65280)) 8)))
(SLet "l" (EAdd (EVar "l") (EInt 3))))
(SRet (EVar "l"))))))))).

(** ie/pfd-contents.go:241-371 *)
Definition go_un_PFDContents : stmt :=
(SSeq (SLet "l" (ELen EBuf))
(SSeq (SIf (CLt (EVar "l") (EInt 2))
SEof)
(SSeq (SSet "Flags" (EIdx EBuf (EInt 0)))
(SSeq (SLet "offset" (EInt 2))
(SSeq (SIf (CHas 1 (EFld "Flags"))
(SSeq (SIf (CLt (ELen (EFrom EBuf (EVar "offset"))) (EAdd (EAdd (EVar "offset") (EInt 2)) (EToInt (EFld "FDLength"))))
SEof)
(SSeq (SSet "FDLength" (EBE 2 (ESlice EBuf (EVar "offset") (EAdd (EVar "offset") (EInt 2)))))
(SSeq (SSet "FlowDescription" (EStr (ESlice EBuf (EAdd (EVar "offset") (EInt 2)) (EAdd (EAdd (EVar "offset") (EInt 2)) (EToInt (EFld "FDLength"))))))
(SLet "offset" (EAdd (EVar "offset") (EAdd (EInt 2) (EToInt (EFld "FDLength")))))))))
(SSeq (SIf (CHas 2 (EFld "Flags"))
(SSeq (SIf (CLt (ELen (EFrom EBuf (EVar "offset"))) (EAdd (EAdd (EVar "offset") (EInt 2)) (EToInt (EFld "URLLength"))))
SEof)
(SSeq (SSet "URLLength" (EBE 2 (ESlice EBuf (EVar "offset") (EAdd (EVar "offset") (EInt 2)))))
(SSeq (SSet "URL" (EStr (ESlice EBuf (EAdd (EVar "offset") (EInt 2)) (EAdd (EAdd (EVar "offset") (EInt 2)) (EToInt (EFld "URLLength"))))))
(SLet "offset" (EAdd (EVar "offset") (EAdd (EInt 2) (EToInt (EFld "URLLength")))))))))
(SSeq (SIf (CHas 3 (EFld "Flags"))
(SSeq (SIf (CLt (ELen (EFrom EBuf (EVar "offset"))) (EAdd (EAdd (EVar "offset") (EInt 2)) (EToInt (EFld "DNLength"))))
SEof)
(SSeq (SSet "DNLength" (EBE 2 (ESlice EBuf (EVar "offset") (EAdd (EVar "offset") (EInt 2)))))
(SSeq (SSet "DomainName" (EStr (ESlice EBuf (EAdd (EVar "offset") (EInt 2)) (EAdd (EAdd (EVar "offset") (EInt 2)) (EToInt (EFld "DNLength"))))))
(SLet "offset" (EAdd (EVar "offset") (EAdd (EInt 2) (EToInt (EFld "DNLength")))))))))
(SSeq (SIf (CHas 4 (EFld "Flags"))
(SSeq (SIf (CLt (ELen (EFrom EBuf (EVar "offset"))) (EAdd (EAdd (EVar "offset") (EInt 2)) (EToInt (EFld "CPLength"))))
SEof)
(SSeq (SSet "CPLength" (EBE 2 (ESlice EBuf (EVar "offset") (EAdd (EVar "offset") (EInt 2)))))
(SSeq (SSet "CustomPFDContent" (EStr (ESlice EBuf (EAdd (EVar "offset") (EInt 2)) (EAdd (EAdd (EVar "offset") (EInt 2)) (EToInt (EFld "CPLength"))))))
(SLet "offset" (EAdd (EVar "offset") (EAdd (EInt 2) (EToInt (EFld "CPLength")))))))))
(SSeq (SIf (CHas 5 (EFld "Flags"))
(SSeq (SIf (CLt (ELen (EFrom EBuf (EVar "offset"))) (EAdd (EAdd (EVar "offset") (EInt 2)) (EToInt (EFld "DNPLength"))))
SEof)
(SSeq (SSet "DNPLength" (EBE 2 (ESlice EBuf (EVar "offset") (EAdd (EVar "offset") (EInt 2)))))
(SSeq (SSet "DomainNameProtocol" (EStr (ESlice EBuf (EAdd (EVar "offset") (EInt 2)) (EAdd (EAdd (EVar "offset") (EInt 2)) (EToInt (EFld "DNPLength"))))))
(SLet "offset" (EAdd (EVar "offset") (EAdd (EInt 2) (EToInt (EFld "DNPLength")))))))))
(SSeq (SIf (CHas 6 (EFld "Flags"))
(SBlock (SSeq (SIf (CLt (ELen (EFrom EBuf (EVar "offset"))) (EAdd (EInt 2) (EToInt (EFld "AFDLength"))))
SEof)
(SSeq (SSet "AFDLength" (EBE 2 (ESlice EBuf (EVar "offset") (EAdd (EVar "offset") (EInt 2)))))
(SSeq (SLet "p" (ESlice EBuf (EAdd (EVar "offset") (EInt 2)) (EAdd (EAdd (EVar "offset") (EInt 2)) (EToInt (EFld "AFDLength")))))
(SSeq (SLet "s" (EInt 0))
(SSeq (SLoop
(SBlock (SSeq (SLet "e" (EAdd (EVar "s") (EInt 2)))
(SSeq (SIf (CLe (ELen (EVar "p")) (EVar "e"))
SBreak)
(SSeq (SLet "l2" (EToInt (EBE 2 (ESlice (EVar "p") (EVar "s") (EVar "e")))))
(SSeq (SIf (CLt (ELen (EVar "p")) (EAdd (EVar "e") (EVar "l2")))
SBreak)
(SSeq (SSet "AdditionalFlowDescription" (EApp (EFld "AdditionalFlowDescription") (EStr (ESlice (EVar "p") (EVar "e") (EAdd (EVar "e") (EVar "l2"))))))
(SLet "s" (EAdd (EVar "s") (EAdd (EInt 2) (EVar "l2")))))))))))
(SLet "offset" (EAdd (EVar "offset") (EAdd (EInt 2) (EToInt (EFld "AFDLength"))))))))))))
(SSeq (SIf (CHas 7 (EFld "Flags"))
(SBlock (SSeq (SIf (CLt (ELen (EFrom EBuf (EVar "offset"))) (EAdd (EInt 2) (EToInt (EFld "AURLLength"))))
SEof)
(SSeq (SSet "AURLLength" (EBE 2 (ESlice EBuf (EVar "offset") (EAdd (EVar "offset") (EInt 2)))))
(SSeq (SLet "offset" (EAdd (EVar "offset") (EInt 2)))
(SSeq (SLet "p" (ESlice EBuf (EVar "offset") (EAdd (EVar "offset") (EToInt (EFld "AURLLength")))))
(SSeq (SLet "s" (EInt 0))
(SSeq (SLoop
(SBlock (SSeq (SLet "e" (EAdd (EVar "s") (EInt 2)))
(SSeq (SIf (CLe (ELen (EVar "p")) (EVar "e"))
SBreak)
(SSeq (SLet "l2" (EToInt (EBE 2 (ESlice (EVar "p") (EVar "s") (EVar "e")))))
(SSeq (SIf (CLt (ELen (EVar "p")) (EAdd (EVar "e") (EVar "l2")))
SBreak)
(SSeq (SSet "AdditionalURL" (EApp (EFld "AdditionalURL") (EStr (ESlice (EVar "p") (EVar "e") (EAdd (EVar "e") (EVar "l2"))))))
(SLet "s" (EAdd (EVar "s") (EAdd (EInt 2) (EVar "l2")))))))))))
(SLet "offset" (EAdd (EVar "offset") (EToInt (EFld "AURLLength"))))))))))))
(SSeq (SIf (CHas 8 (EFld "Flags"))
(SBlock (SSeq (SIf (CLt (ELen (EFrom EBuf (EVar "offset"))) (EAdd (EInt 2) (EToInt (EFld "ADNPLength"))))
SEof)
(SSeq (SSet "ADNPLength" (EBE 2 (ESlice EBuf (EVar "offset") (EAdd (EVar "offset") (EInt 2)))))
(SSeq (SLet "offset" (EAdd (EVar "offset") (EInt 2)))
(SSeq (SLet "p" (ESlice EBuf (EVar "offset") (EAdd (EVar "offset") (EToInt (EFld "ADNPLength")))))
(SSeq (SLet "s" (EInt 0))
(SLoop
(SBlock (SSeq (SLet "e" (EAdd (EVar "s") (EInt 2)))
(SSeq (SIf (CLe (ELen (EVar "p")) (EVar "e"))
SBreak)
(SSeq (SLet "l2" (EToInt (EBE 2 (ESlice (EVar "p") (EVar "s") (EVar "e")))))
(SSeq (SIf (CLt (ELen (EVar "p")) (EAdd (EVar "e") (EVar "l2")))
SBreak)
(SSeq (SSet "AdditionalDomainNameAndProtocol" (EApp (EFld "AdditionalDomainNameAndProtocol") (EStr (ESlice (EVar "p") (EVar "e") (EAdd (EVar "e") (EVar "l2"))))))
(SLet "s" (EAdd (EVar "s") (EAdd (EInt 2) (EVar "l2"))))))))))))))))))
(SRet ENil))))))))))))).

(** ie/pfd-contents.go:383-456 *)
Definition go_to_PFDContents : stmt :=
(SSeq (SLet "l" (ELen EBuf))
(SSeq (SIf (CLt (EVar "l") (EInt 1))
SEof)
(SSeq (SPutB (EInt 0) (EFld "Flags"))
(SSeq (SLet "offset" (EInt 2))
(SSeq (SIf (CHas 1 (EFld "Flags"))
(SSeq (SPut 2 (EVar "offset") (EAdd (EVar "offset") (EInt 2)) (EFld "FDLength"))
(SSeq (SCopyB (EAdd (EVar "offset") (EInt 2)) (EAdd (EAdd (EVar "offset") (EInt 2)) (EToInt (EFld "FDLength"))) (EFld "FlowDescription"))
(SLet "offset" (EAdd (EVar "offset") (EAdd (EInt 2) (EToInt (EFld "FDLength"))))))))
(SSeq (SIf (CHas 2 (EFld "Flags"))
(SSeq (SPut 2 (EVar "offset") (EAdd (EVar "offset") (EInt 2)) (EFld "URLLength"))
(SSeq (SCopyB (EAdd (EVar "offset") (EInt 2)) (EAdd (EAdd (EVar "offset") (EInt 2)) (EToInt (EFld "URLLength"))) (EFld "URL"))
(SLet "offset" (EAdd (EVar "offset") (EAdd (EInt 2) (EToInt (EFld "URLLength"))))))))
(SSeq (SIf (CHas 3 (EFld "Flags"))
(SSeq (SPut 2 (EVar "offset") (EAdd (EVar "offset") (EInt 2)) (EFld "DNLength"))
(SSeq (SCopyB (EAdd (EVar "offset") (EInt 2)) (EAdd (EAdd (EVar "offset") (EInt 2)) (EToInt (EFld "DNLength"))) (EFld "DomainName"))
(SLet "offset" (EAdd (EVar "offset") (EAdd (EInt 2) (EToInt (EFld "DNLength"))))))))
(SSeq (SIf (CHas 4 (EFld "Flags"))
(SSeq (SPut 2 (EVar "offset") (EAdd (EVar "offset") (EInt 2)) (EFld "CPLength"))
(SSeq (SCopyB (EAdd (EVar "offset") (EInt 2)) (EAdd (EAdd (EVar "offset") (EInt 2)) (EToInt (EFld "CPLength"))) (EFld "CustomPFDContent"))
(SLet "offset" (EAdd (EVar "offset") (EAdd (EInt 2) (EToInt (EFld "CPLength"))))))))
(SSeq (SIf (CHas 5 (EFld "Flags"))
(SSeq (SPut 2 (EVar "offset") (EAdd (EVar "offset") (EInt 2)) (EFld "DNPLength"))
(SSeq (SCopyB (EAdd (EVar "offset") (EInt 2)) (EAdd (EAdd (EVar "offset") (EInt 2)) (EToInt (EFld "DNPLength"))) (EFld "DomainNameProtocol"))
(SLet "offset" (EAdd (EVar "offset") (EAdd (EInt 2) (EToInt (EFld "DNPLength"))))))))
(SSeq (SIf (CHas 6 (EFld "Flags"))
(SSeq (SPut 2 (EVar "offset") (EAdd (EVar "offset") (EInt 2)) (EFld "AFDLength"))
(SSeq (SLet "offset" (EAdd (EVar "offset") (EInt 2)))
(SBlock (SRange "a" "AdditionalFlowDescription"
(SBlock (SSeq (SLet "l2" (ELen (EBytes (EVar "a"))))
(SSeq (SPut 2 (EVar "offset") (EAdd (EVar "offset") (EInt 2)) (EU 16 (EVar "l2")))
(SSeq (SCopyB (EAdd (EVar "offset") (EInt 2)) (EAdd (EAdd (EVar "offset") (EInt 2)) (EVar "l2")) (EVar "a"))
(SLet "offset" (EAdd (EVar "offset") (EAdd (EInt 2) (EVar "l2")))))))))))))
(SSeq (SIf (CHas 7 (EFld "Flags"))
(SSeq (SPut 2 (EVar "offset") (EAdd (EVar "offset") (EInt 2)) (EFld "AURLLength"))
(SSeq (SLet "offset" (EAdd (EVar "offset") (EInt 2)))
(SBlock (SRange "a" "AdditionalURL"
(SBlock (SSeq (SLet "l2" (ELen (EBytes (EVar "a"))))
(SSeq (SPut 2 (EVar "offset") (EAdd (EVar "offset") (EInt 2)) (EU 16 (EVar "l2")))
(SSeq (SCopyB (EAdd (EVar "offset") (EInt 2)) (EAdd (EAdd (EVar "offset") (EInt 2)) (EVar "l2")) (EVar "a"))
(SLet "offset" (EAdd (EVar "offset") (EAdd (EInt 2) (EVar "l2")))))))))))))
(SSeq (SIf (CHas 8 (EFld "Flags"))
(SSeq (SPut 2 (EVar "offset") (EAdd (EVar "offset") (EInt 2)) (EFld "ADNPLength"))
(SSeq (SLet "offset" (EAdd (EVar "offset") (EInt 2)))
(SBlock (SRange "a" "AdditionalDomainNameAndProtocol"
(SBlock (SSeq (SLet "l2" (ELen (EBytes (EVar "a"))))
(SSeq (SPut 2 (EVar "offset") (EAdd (EVar "offset") (EInt 2)) (EU 16 (EVar "l2")))
(SSeq (SCopyB (EAdd (EVar "offset") (EInt 2)) (EAdd (EAdd (EVar "offset") (EInt 2)) (EVar "l2")) (EVar "a"))
(SLet "offset" (EAdd (EVar "offset") (EAdd (EInt 2) (EVar "l2")))))))))))))
(SRet ENil))))))))))))).

(** ie/pfd-contents.go:459-495 *)
Definition go_len_PFDContents : stmt :=
(SSeq (SLet "l" (EInt 2))
(SSeq (SIf (CHas 1 (EFld "Flags"))
(SLet "l" (EAdd (EVar "l") (EAdd (EInt 2) (EToInt (EFld "FDLength"))))))
(SSeq (SIf (CHas 2 (EFld "Flags"))
(SLet "l" (EAdd (EVar "l") (EAdd (EInt 2) (EToInt (EFld "URLLength"))))))
(SSeq (SIf (CHas 3 (EFld "Flags"))
(SLet "l" (EAdd (EVar "l") (EAdd (EInt 2) (EToInt (EFld "DNLength"))))))
(SSeq (SIf (CHas 4 (EFld "Flags"))
(SLet "l" (EAdd (EVar "l") (EAdd (EInt 2) (EToInt (EFld "CPLength"))))))
(SSeq (SIf (CHas 5 (EFld "Flags"))
(SLet "l" (EAdd (EVar "l") (EAdd (EInt 2) (EToInt (EFld "DNPLength"))))))
(SSeq (SIf (CHas 6 (EFld "Flags"))
(SLet "l" (EAdd (EVar "l") (EAdd (EInt 2) (EToInt (EFld "AFDLength"))))))
(SSeq (SIf (CHas 7 (EFld "Flags"))
(SLet "l" (EAdd (EVar "l") (EAdd (EInt 2) (EToInt (EFld "AURLLength"))))))
(SSeq (SIf (CHas 8 (EFld "Flags"))
(SLet "l" (EAdd (EVar "l") (EAdd (EInt 2) (EToInt (EFld "ADNPLength"))))))
(SRet (EVar "l"))))))))))).

(** ie/pmf-address-information.go:135-184 *)
Definition go_un_PMFAddressInformation : stmt :=
(SSeq (SLet "l" (ELen EBuf))
(SSeq (SIf (CLt (EVar "l") (EInt 1))
SEof)
(SSeq (SSet "Flags" (EIdx EBuf (EInt 0)))
(SSeq (SLet "offset" (EInt 1))
(SSeq (SIf (CHas 1 (EFld "Flags"))
(SSeq (SIf (CLt (EVar "l") (EAdd (EVar "offset") (EInt 4)))
SEof)
(SSeq (SSet "PMFIPv4Address" (EBytes (ESlice EBuf (EVar "offset") (EAdd (EVar "offset") (EInt 4)))))
(SLet "offset" (EAdd (EVar "offset") (EInt 4))))))
(SSeq (SIf (CHas 2 (EFld "Flags"))
(SSeq (SIf (CLt (EVar "l") (EAdd (EVar "offset") (EInt 16)))
SEof)
(SSeq (SSet "PMFIPv6Address" (EBytes (ESlice EBuf (EVar "offset") (EAdd (EVar "offset") (EInt 16)))))
(SLet "offset" (EAdd (EVar "offset") (EInt 16))))))
(SSeq (SIf (CLt (EVar "l") (EAdd (EVar "offset") (EInt 2)))
SEof)
(SSeq (SSet "PMFPortFor3GPPAccess" (EBE 2 (ESlice EBuf (EVar "offset") (EAdd (EVar "offset") (EInt 2)))))
(SSeq (SLet "offset" (EAdd (EVar "offset") (EInt 2)))
(SSeq (SIf (CLt (EVar "l") (EAdd (EVar "offset") (EInt 2)))
SEof)
(SSeq (SSet "PMFPortForNon3GPPAccess" (EBE 2 (ESlice EBuf (EVar "offset") (EAdd (EVar "offset") (EInt 2)))))
(SSeq (SLet "offset" (EAdd (EVar "offset") (EInt 2)))
(SSeq (SIf (CLt (EVar "l") (EAdd (EVar "offset") (EInt 6)))
SEof)
(SSeq (SCopyF "PMFMACAddressFor3GPPAccess" (ESlice EBuf (EVar "offset") (EAdd (EVar "offset") (EInt 6))))
(SSeq (SLet "offset" (EAdd (EVar "offset") (EInt 6)))
(SSeq (SIf (CLt (EVar "l") (EAdd (EVar "offset") (EInt 6)))
SEof)
(SSeq (SCopyF "PMFMACAddressForNon3GPPAccess" (ESlice EBuf (EVar "offset") (EAdd (EVar "offset") (EInt 6))))
(SRet ENil)))))))))))))))))).

(** ie/pmf-address-information.go:196-245 *)
Definition go_to_PMFAddressInformation : stmt :=
(SSeq (SLet "l" (ELen EBuf))
(SSeq (SIf (CLt (EVar "l") (EInt 1))
SEof)
(SSeq (SPutB (EInt 0) (EFld "Flags"))
(SSeq (SLet "offset" (EInt 1))
(SSeq (SIf (CHas 1 (EFld "Flags"))
(SSeq (SIf (CLt (EVar "l") (EAdd (EVar "offset") (EInt 4)))
SEof)
(SSeq (SCopyB (EVar "offset") (EAdd (EVar "offset") (EInt 4)) (ETo4 (EFld "PMFIPv4Address")))
(SLet "offset" (EAdd (EVar "offset") (EInt 4))))))
(SSeq (SIf (CHas 2 (EFld "Flags"))
(SSeq (SIf (CLt (EVar "l") (EAdd (EVar "offset") (EInt 16)))
SEof)
(SSeq (SCopyB (EVar "offset") (EAdd (EVar "offset") (EInt 16)) (ETo16 (EFld "PMFIPv6Address")))
(SLet "offset" (EAdd (EVar "offset") (EInt 16))))))
(SSeq (SIf (CLt (EVar "l") (EAdd (EVar "offset") (EInt 2)))
SEof)
(SSeq (SPut 2 (EVar "offset") (EAdd (EVar "offset") (EInt 2)) (EFld "PMFPortFor3GPPAccess"))
(SSeq (SLet "offset" (EAdd (EVar "offset") (EInt 2)))
(SSeq (SIf (CLt (EVar "l") (EAdd (EVar "offset") (EInt 2)))
SEof)
(SSeq (SPut 2 (EVar "offset") (EAdd (EVar "offset") (EInt 2)) (EFld "PMFPortForNon3GPPAccess"))
(SSeq (SLet "offset" (EAdd (EVar "offset") (EInt 2)))
(SSeq (SIf (CLt (EVar "l") (EAdd (EVar "offset") (EInt 6)))
SEof)
(SSeq (SCopyB (EVar "offset") (EAdd (EVar "offset") (EInt 6)) (EFld "PMFMACAddressFor3GPPAccess"))
(SSeq (SLet "offset" (EAdd (EVar "offset") (EInt 6)))
(SSeq (SIf (CLt (EVar "l") (EAdd (EVar "offset") (EInt 6)))
SEof)
(SSeq (SCopyB (EVar "offset") (EAdd (EVar "offset") (EInt 6)) (EFld "PMFMACAddressForNon3GPPAccess"))
(SRet ENil)))))))))))))))))).

(** ie/pmf-address-information.go:248-257 *)
Definition go_len_PMFAddressInformation : stmt :=
(SSeq (SLet "l" (EAdd (EAdd (EAdd (EAdd (EInt 1) (EInt 2)) (EInt 2)) (EInt 6)) (EInt 6)))
(SSeq (SIf (CHas 1 (EFld "Flags"))
(SLet "l" (EAdd (EVar "l") (EInt 4))))
(SSeq (SIf (CHas 2 (EFld "Flags"))
(SLet "l" (EAdd (EVar "l") (EInt 16))))
(SRet (EVar "l"))))).

(** ie/packet-delay-thresholds.go:108-141 *)
Definition go_un_PacketDelayThresholds : stmt :=
(SSeq (SLet "l" (ELen EBuf))
(SSeq (SIf (CLt (EVar "l") (EInt 1))
SEof)
(SSeq (SSet "Flags" (EIdx EBuf (EInt 0)))
(SSeq (SLet "offset" (EInt 1))
(SSeq (SIf (CHas 1 (EFld "Flags"))
(SSeq (SIf (CLt (EVar "l") (EAdd (EVar "offset") (EInt 4)))
SEof)
(SSeq (SSet "DownlinkPacketDelayThresholds" (EBE 4 (ESlice EBuf (EVar "offset") (EAdd (EVar "offset") (EInt 4)))))
(SLet "offset" (EAdd (EVar "offset") (EInt 4))))))
(SSeq (SIf (CHas 2 (EFld "Flags"))
(SSeq (SIf (CLt (EVar "l") (EAdd (EVar "offset") (EInt 4)))
SEof)
(SSeq (SSet "UplinkPacketDelayThresholds" (EBE 4 (ESlice EBuf (EVar "offset") (EAdd (EVar "offset") (EInt 4)))))
(SLet "offset" (EAdd (EVar "offset") (EInt 4))))))
(SSeq (SIf (CHas 3 (EFld "Flags"))
(SSeq (SIf (CLt (EVar "l") (EAdd (EVar "offset") (EInt 4)))
SEof)
(SSet "RoundTripPacketDelayThresholds" (EBE 4 (ESlice EBuf (EVar "offset") (EAdd (EVar "offset") (EInt 4)))))))
(SRet ENil)))))))).

(** ie/packet-delay-thresholds.go:153-186 *)
Definition go_to_PacketDelayThresholds : stmt :=
(SSeq (SLet "l" (ELen EBuf))
(SSeq (SIf (CLt (EVar "l") (EInt 1))
SEof)
(SSeq (SPutB (EInt 0) (EFld "Flags"))
(SSeq (SLet "offset" (EInt 1))
(SSeq (SIf (CHas 1 (EFld "Flags"))
(SSeq (SIf (CLt (EVar "l") (EAdd (EVar "offset") (EInt 4)))
SEof)
(SSeq (SPut 4 (EVar "offset") (EAdd (EVar "offset") (EInt 4)) (EFld "DownlinkPacketDelayThresholds"))
(SLet "offset" (EAdd (EVar "offset") (EInt 4))))))
(SSeq (SIf (CHas 2 (EFld "Flags"))
(SSeq (SIf (CLt (EVar "l") (EAdd (EVar "offset") (EInt 4)))
SEof)
(SSeq (SPut 4 (EVar "offset") (EAdd (EVar "offset") (EInt 4)) (EFld "UplinkPacketDelayThresholds"))
(SLet "offset" (EAdd (EVar "offset") (EInt 4))))))
(SSeq (SIf (CHas 3 (EFld "Flags"))
(SSeq (SIf (CLt (EVar "l") (EAdd (EVar "offset") (EInt 4)))
SEof)
(SPut 4 (EVar "offset") (EAdd (EVar "offset") (EInt 4)) (EFld "RoundTripPacketDelayThresholds"))))
(SRet ENil)))))))).

(** ie/packet-delay-thresholds.go:189-201 *)
Definition go_len_PacketDelayThresholds : stmt :=
(SSeq (SLet "l" (EInt 1))
(SSeq (SIf (CHas 1 (EFld "Flags"))
(SLet "l" (EAdd (EVar "l") (EInt 4))))
(SSeq (SIf (CHas 2 (EFld "Flags"))
(SLet "l" (EAdd (EVar "l") (EInt 4))))
(SSeq (SIf (CHas 3 (EFld "Flags"))
(SLet "l" (EAdd (EVar "l") (EInt 4))))
(SRet (EVar "l")))))).

(** ie/packet-rate.go:129-156 *)
Definition go_un_PacketRate : stmt :=
(SSeq (SLet "l" (ELen EBuf))
(SSeq (SIf (CLt (EVar "l") (EInt 2))
SEof)
(SSeq (SSet "Flags" (EIdx EBuf (EInt 0)))
(SSeq (SLet "offset" (EInt 1))
(SSeq (SIf (CHas 1 (EFld "Flags"))
(SSeq (SIf (CLt (EVar "l") (EAdd (EVar "offset") (EInt 3)))
SEof)
(SSeq (SSet "UplinkTimeUnit" (EIdx EBuf (EVar "offset")))
(SSeq (SSet "UplinkPacketRate" (EBE 2 (ESlice EBuf (EAdd (EVar "offset") (EInt 1)) (EAdd (EVar "offset") (EInt 3)))))
(SLet "offset" (EAdd (EVar "offset") (EInt 3)))))))
(SSeq (SIf (CHas 2 (EFld "Flags"))
(SSeq (SIf (CLt (EVar "l") (EAdd (EVar "offset") (EInt 3)))
SEof)
(SSeq (SSet "DownlinkTimeUnit" (EIdx EBuf (EVar "offset")))
(SSet "DownlinkPacketRate" (EBE 2 (ESlice EBuf (EAdd (EVar "offset") (EInt 1)) (EAdd (EVar "offset") (EInt 3))))))))
(SRet ENil))))))).

(** ie/packet-rate.go:168-189 *)
Definition go_to_PacketRate : stmt :=
(SSeq (SLet "l" (ELen EBuf))
(SSeq (SIf (CLt (EVar "l") (EInt 2))
SEof)
(SSeq (SPutB (EInt 0) (EFld "Flags"))
(SSeq (SLet "offset" (EInt 1))
(SSeq (SIf (CHas 1 (EFld "Flags"))
(SSeq (SPutB (EVar "offset") (EFld "UplinkTimeUnit"))
(SSeq (SPut 2 (EAdd (EVar "offset") (EInt 1)) (EAdd (EVar "offset") (EInt 3)) (EFld "UplinkPacketRate"))
(SLet "offset" (EAdd (EVar "offset") (EInt 3))))))
(SSeq (SIf (CHas 2 (EFld "Flags"))
(SSeq (SPutB (EVar "offset") (EFld "DownlinkTimeUnit"))
(SPut 2 (EAdd (EVar "offset") (EInt 1)) (EAdd (EVar "offset") (EInt 3)) (EFld "DownlinkPacketRate"))))
(SRet ENil))))))).

(** ie/packet-rate.go:192-202 *)
Definition go_len_PacketRate : stmt :=
(SSeq (SLet "l" (EInt 1))
(SSeq (SIf (CHas 1 (EFld "Flags"))
(SLet "l" (EAdd (EVar "l") (EInt 3))))
(SSeq (SIf (CHas 2 (EFld "Flags"))
(SLet "l" (EAdd (EVar "l") (EInt 3))))
(SRet (EVar "l"))))).

(** ie/packet-rate-status.go:147-194 *)
Definition go_un_PacketRateStatus : stmt :=
(SSeq (SLet "l" (ELen EBuf))
(SSeq (SIf (CLt (EVar "l") (EInt 2))
SEof)
(SSeq (SSet "Flags" (EIdx EBuf (EInt 0)))
(SSeq (SLet "offset" (EInt 1))
(SSeq (SIf (CHas 1 (EFld "Flags"))
(SSeq (SIf (CLt (EVar "l") (EAdd (EVar "offset") (EInt 2)))
SEof)
(SSeq (SSet "NumberOfRemainingUplinkPacketsAllowed" (EBE 2 (ESlice EBuf (EVar "offset") (EAdd (EVar "offset") (EInt 2)))))
(SSeq (SLet "offset" (EAdd (EVar "offset") (EInt 2)))
(SIf (CHas 3 (EFld "Flags"))
(SSeq (SIf (CLt (EVar "l") (EAdd (EVar "offset") (EInt 2)))
SEof)
(SSeq (SSet "NumberOfRemainingAdditionalUplinkPacketsAllowed" (EBE 2 (ESlice EBuf (EVar "offset") (EAdd (EVar "offset") (EInt 2)))))
(SLet "offset" (EAdd (EVar "offset") (EInt 2))))))))))
(SSeq (SIf (CHas 2 (EFld "Flags"))
(SSeq (SIf (CLt (EVar "l") (EAdd (EVar "offset") (EInt 2)))
SEof)
(SSeq (SSet "NumberOfRemainingDownlinkPacketsAllowed" (EBE 2 (ESlice EBuf (EVar "offset") (EAdd (EVar "offset") (EInt 2)))))
(SSeq (SLet "offset" (EAdd (EVar "offset") (EInt 2)))
(SIf (CHas 3 (EFld "Flags"))
(SSeq (SIf (CLt (EVar "l") (EAdd (EVar "offset") (EInt 2)))
SEof)
(SSeq (SSet "NumberOfRemainingAdditionalDownlinkPacketsAllowed" (EBE 2 (ESlice EBuf (EVar "offset") (EAdd (EVar "offset") (EInt 2)))))
(SLet "offset" (EAdd (EVar "offset") (EInt 2))))))))))
(SSeq (SIf (CLt (EVar "l") (EAdd (EVar "offset") (EInt 8)))
SEof)
(SSeq (SSet "RateControlStatusValidityTime" (ENtp (EBE 8 (ESlice EBuf (EVar "offset") (EAdd (EVar "offset") (EInt 8))))))
(SRet ENil))))))))).

(** ie/packet-rate-status.go:206-253 *)
Definition go_to_PacketRateStatus : stmt :=
(SSeq (SLet "l" (ELen EBuf))
(SSeq (SIf (CLt (EVar "l") (EInt 1))
SEof)
(SSeq (SPutB (EInt 0) (EFld "Flags"))
(SSeq (SLet "offset" (EInt 1))
(SSeq (SIf (CHas 1 (EFld "Flags"))
(SSeq (SIf (CLt (EVar "l") (EAdd (EVar "offset") (EInt 2)))
SEof)
(SSeq (SPut 2 (EVar "offset") (EAdd (EVar "offset") (EInt 2)) (EFld "NumberOfRemainingUplinkPacketsAllowed"))
(SSeq (SLet "offset" (EAdd (EVar "offset") (EInt 2)))
(SIf (CHas 3 (EFld "Flags"))
(SSeq (SIf (CLt (EVar "l") (EAdd (EVar "offset") (EInt 2)))
SEof)
(SSeq (SPut 2 (EVar "offset") (EAdd (EVar "offset") (EInt 2)) (EFld "NumberOfRemainingAdditionalUplinkPacketsAllowed"))
(SLet "offset" (EAdd (EVar "offset") (EInt 2))))))))))
(SSeq (SIf (CHas 2 (EFld "Flags"))
(SSeq (SIf (CLt (EVar "l") (EAdd (EVar "offset") (EInt 2)))
SEof)
(SSeq (SPut 2 (EVar "offset") (EAdd (EVar "offset") (EInt 2)) (EFld "NumberOfRemainingDownlinkPacketsAllowed"))
(SSeq (SLet "offset" (EAdd (EVar "offset") (EInt 2)))
(SIf (CHas 3 (EFld "Flags"))
(SSeq (SIf (CLt (EVar "l") (EAdd (EVar "offset") (EInt 2)))
SEof)
(SSeq (SPut 2 (EVar "offset") (EAdd (EVar "offset") (EInt 2)) (EFld "NumberOfRemainingAdditionalDownlinkPacketsAllowed"))
(SLet "offset" (EAdd (EVar "offset") (EInt 2))))))))))
(SSeq (SIf (CLt (EVar "l") (EAdd (EVar "offset") (EInt 8)))
SEof)
(SSeq (SPut 8 (EVar "offset") (EAdd (EVar "offset") (EInt 8)) (ESince (EFld "RateControlStatusValidityTime")))
(SRet ENil))))))))).

(** ie/packet-rate-status.go:256-272 *)
Definition go_len_PacketRateStatus : stmt :=
(SSeq (SLet "l" (EAdd (EInt 1) (EInt 8)))
(SSeq (SIf (CHas 1 (EFld "Flags"))
(SSeq (SLet "l" (EAdd (EVar "l") (EInt 2)))
(SIf (CHas 3 (EFld "Flags"))
(SLet "l" (EAdd (EVar "l") (EInt 2))))))
(SSeq (SIf (CHas 2 (EFld "Flags"))
(SSeq (SLet "l" (EAdd (EVar "l") (EInt 2)))
(SIf (CHas 3 (EFld "Flags"))
(SLet "l" (EAdd (EVar "l") (EInt 2))))))
(SRet (EVar "l"))))).

(** ie/qos-monitoring-measurement.go:118-151 *)
Definition go_un_QoSMonitoringMeasurement : stmt :=
(SSeq (SLet "l" (ELen EBuf))
(SSeq (SIf (CLt (EVar "l") (EInt 1))
SEof)
(SSeq (SSet "Flags" (EIdx EBuf (EInt 0)))
(SSeq (SLet "offset" (EInt 1))
(SSeq (SIf (CHas 1 (EFld "Flags"))
(SSeq (SIf (CLt (EVar "l") (EAdd (EVar "offset") (EInt 4)))
SEof)
(SSeq (SSet "DownlinkPacketDelay" (EBE 4 (ESlice EBuf (EVar "offset") (EAdd (EVar "offset") (EInt 4)))))
(SLet "offset" (EAdd (EVar "offset") (EInt 4))))))
(SSeq (SIf (CHas 2 (EFld "Flags"))
(SSeq (SIf (CLt (EVar "l") (EAdd (EVar "offset") (EInt 4)))
SEof)
(SSeq (SSet "UplinkPacketDelay" (EBE 4 (ESlice EBuf (EVar "offset") (EAdd (EVar "offset") (EInt 4)))))
(SLet "offset" (EAdd (EVar "offset") (EInt 4))))))
(SSeq (SIf (CHas 3 (EFld "Flags"))
(SSeq (SIf (CLt (EVar "l") (EAdd (EVar "offset") (EInt 4)))
SEof)
(SSet "RoundTripPacketDelay" (EBE 4 (ESlice EBuf (EVar "offset") (EAdd (EVar "offset") (EInt 4)))))))
(SRet ENil)))))))).

(** ie/qos-monitoring-measurement.go:163-196 *)
Definition go_to_QoSMonitoringMeasurement : stmt :=
(SSeq (SLet "l" (ELen EBuf))
(SSeq (SIf (CLt (EVar "l") (EInt 1))
SEof)
(SSeq (SPutB (EInt 0) (EFld "Flags"))
(SSeq (SLet "offset" (EInt 1))
(SSeq (SIf (CHas 1 (EFld "Flags"))
(SSeq (SIf (CLt (EVar "l") (EAdd (EVar "offset") (EInt 4)))
SEof)
(SSeq (SPut 4 (EVar "offset") (EAdd (EVar "offset") (EInt 4)) (EFld "DownlinkPacketDelay"))
(SLet "offset" (EAdd (EVar "offset") (EInt 4))))))
(SSeq (SIf (CHas 2 (EFld "Flags"))
(SSeq (SIf (CLt (EVar "l") (EAdd (EVar "offset") (EInt 4)))
SEof)
(SSeq (SPut 4 (EVar "offset") (EAdd (EVar "offset") (EInt 4)) (EFld "UplinkPacketDelay"))
(SLet "offset" (EAdd (EVar "offset") (EInt 4))))))
(SSeq (SIf (CHas 3 (EFld "Flags"))
(SSeq (SIf (CLt (EVar "l") (EAdd (EVar "offset") (EInt 4)))
SEof)
(SPut 4 (EVar "offset") (EAdd (EVar "offset") (EInt 4)) (EFld "RoundTripPacketDelay"))))
(SRet ENil)))))))).

(** ie/qos-monitoring-measurement.go:199-211 *)
Definition go_len_QoSMonitoringMeasurement : stmt :=
(SSeq (SLet "l" (EInt 1))
(SSeq (SIf (CHas 1 (EFld "Flags"))
(SLet "l" (EAdd (EVar "l") (EInt 4))))
(SSeq (SIf (CHas 2 (EFld "Flags"))
(SLet "l" (EAdd (EVar "l") (EInt 4))))
(SSeq (SIf (CHas 3 (EFld "Flags"))
(SLet "l" (EAdd (EVar "l") (EInt 4))))
(SRet (EVar "l")))))).

(** ie/redirect-information.go:111-139 *)
Definition go_un_RedirectInformation : stmt :=
(SSeq (SLet "l" (ELen EBuf))
(SSeq (SIf (CLt (EVar "l") (EInt 3))
SEof)
(SSeq (SSet "RedirectAddressType" (EIdx EBuf (EInt 0)))
(SSeq (SLet "offset" (EInt 1))
(SSeq (SSet "ServerAddrLength" (EBE 2 (ESlice EBuf (EVar "offset") (EAdd (EVar "offset") (EInt 2)))))
(SSeq (SLet "offset" (EAdd (EVar "offset") (EInt 2)))
(SSeq (SIf (CLt (EVar "l") (EAdd (EVar "offset") (EToInt (EFld "ServerAddrLength"))))
SEof)
(SSeq (SSet "RedirectServerAddress" (EStr (ESlice EBuf (EVar "offset") (EAdd (EVar "offset") (EToInt (EFld "ServerAddrLength"))))))
(SSeq (SSet "OtherServerAddrLength" (EBE 2 (ESlice EBuf (EInt 1) (EInt 3))))
(SSeq (SIf (CNe (EFld "OtherServerAddrLength") (ENum 0))
(SSeq (SLet "offset" (EAdd (EVar "offset") (EInt 2)))
(SSeq (SIf (CLt (EVar "l") (EAdd (EVar "offset") (EToInt (EFld "OtherServerAddrLength"))))
SEof)
(SSet "OtherRedirectServerAddress" (EStr (ESlice EBuf (EVar "offset") (EAdd (EVar "offset") (EToInt (EFld "OtherServerAddrLength")))))))))
(SRet ENil))))))))))).

(** ie/redirect-information.go:151-184 *)
Definition go_to_RedirectInformation : stmt :=
(SSeq (SLet "l" (ELen EBuf))
(SSeq (SIf (CLt (EVar "l") (EInt 1))
SEof)
(SSeq (SPutB (EInt 0) (EFld "RedirectAddressType"))
(SSeq (SLet "offset" (EInt 1))
(SSeq (SIf (CLt (EVar "l") (EAdd (EVar "offset") (EToInt (EFld "ServerAddrLength"))))
SEof)
(SSeq (SPut 2 (EInt 1) (EInt 3) (EFld "ServerAddrLength"))
(SSeq (SLet "offset" (EAdd (EVar "offset") (EInt 2)))
(SSeq (SCopyB (EVar "offset") (EAdd (EVar "offset") (EToInt (EFld "ServerAddrLength"))) (EFld "RedirectServerAddress"))
(SSeq (SLet "offset" (EAdd (EVar "offset") (EToInt (EFld "ServerAddrLength"))))
(SSeq (SIf (CEmpty (EFld "OtherRedirectServerAddress"))
(SSeq (SPut 2 (EVar "offset") (EAdd (EVar "offset") (EInt 2)) (EFld "OtherServerAddrLength"))
(SRet ENil)))
(SSeq (SIf (CLt (EVar "l") (EAdd (EVar "offset") (EToInt (EFld "OtherServerAddrLength"))))
SEof)
(SSeq (SPut 2 (EVar "offset") (EAdd (EVar "offset") (EInt 2)) (EFld "OtherServerAddrLength"))
(SSeq (SLet "offset" (EAdd (EVar "offset") (EInt 2)))
(SSeq (SCopyB (EVar "offset") (EAdd (EVar "offset") (EToInt (EFld "OtherServerAddrLength"))) (EFld "OtherRedirectServerAddress"))
(SRet ENil))))))))))))))).

(** ie/redirect-information.go:187-189 *)
Definition go_len_RedirectInformation : stmt :=
(SRet (EAdd (EAdd (EAdd (EInt 3) (EToInt (EFld "ServerAddrLength"))) (EInt 2)) (EToInt (EFld "OtherServerAddrLength")))).

(** ie/remote-gtp-u-peer.go:153-206 *)
Definition go_un_RemoteGTPUPeer : stmt :=
(SSeq (SLet "l" (ELen EBuf))
(SSeq (SIf (CLt (EVar "l") (EInt 2))
SEof)
(SSeq (SSet "Flags" (EIdx EBuf (EInt 0)))
(SSeq (SLet "offset" (EInt 1))
(SSeq (SIf (CHas 2 (EFld "Flags"))
(SSeq (SIf (CLt (EVar "l") (EAdd (EVar "offset") (EInt 4)))
SEof)
(SSeq (SSet "IPv4Address" (ETo4 (EBytes (ESlice EBuf (EVar "offset") (EAdd (EVar "offset") (EInt 4))))))
(SLet "offset" (EAdd (EVar "offset") (EInt 4))))))
(SSeq (SIf (CHas 1 (EFld "Flags"))
(SSeq (SIf (CLt (EVar "l") (EAdd (EVar "offset") (EInt 16)))
SEof)
(SSeq (SSet "IPv6Address" (ETo16 (EBytes (ESlice EBuf (EVar "offset") (EAdd (EVar "offset") (EInt 16))))))
(SLet "offset" (EAdd (EVar "offset") (EInt 16))))))
(SSeq (SIf (CHas 3 (EFld "Flags"))
(SSeq (SIf (CLt (EVar "l") (EAdd (EVar "offset") (EInt 2)))
SEof)
(SSeq (SSet "DILength" (EBE 2 (ESlice EBuf (EVar "offset") (EAdd (EVar "offset") (EInt 2)))))
(SSeq (SLet "offset" (EAdd (EVar "offset") (EInt 2)))
(SSeq (SIf (CLt (EVar "l") (EAdd (EVar "offset") (EToInt (EFld "DILength"))))
SEof)
(SSeq (SSet "DestinationInterface" (EIdx EBuf (EVar "offset")))
(SLet "offset" (EAdd (EVar "offset") (EToInt (EFld "DILength"))))))))))
(SSeq (SIf (CHas 4 (EFld "Flags"))
(SSeq (SIf (CLt (EVar "l") (EAdd (EVar "offset") (EInt 2)))
SEof)
(SSeq (SSet "NILength" (EBE 2 (ESlice EBuf (EVar "offset") (EAdd (EVar "offset") (EInt 2)))))
(SSeq (SLet "offset" (EAdd (EVar "offset") (EInt 2)))
(SSeq (SIf (CLt (EVar "l") (EAdd (EVar "offset") (EToInt (EFld "NILength"))))
SEof)
(SSet "NetworkInstance" (EStr (ESlice EBuf (EVar "offset") (EAdd (EVar "offset") (EToInt (EFld "NILength")))))))))))
(SRet ENil))))))))).

(** ie/remote-gtp-u-peer.go:218-251 *)
Definition go_to_RemoteGTPUPeer : stmt :=
(SSeq (SLet "l" (ELen EBuf))
(SSeq (SIf (CLt (EVar "l") (EInt 2))
SEof)
(SSeq (SPutB (EInt 0) (EFld "Flags"))
(SSeq (SLet "offset" (EInt 1))
(SSeq (SIf (CHas 2 (EFld "Flags"))
(SSeq (SCopyB (EVar "offset") (EAdd (EVar "offset") (EInt 4)) (EFld "IPv4Address"))
(SLet "offset" (EAdd (EVar "offset") (EInt 4)))))
(SSeq (SIf (CHas 1 (EFld "Flags"))
(SSeq (SCopyB (EVar "offset") (EAdd (EVar "offset") (EInt 16)) (EFld "IPv6Address"))
(SLet "offset" (EAdd (EVar "offset") (EInt 16)))))
(SSeq (SIf (CHas 3 (EFld "Flags"))
(SSeq (SPut 2 (EVar "offset") (EAdd (EVar "offset") (EInt 2)) (EFld "DILength"))
(SSeq (SLet "offset" (EAdd (EVar "offset") (EInt 2)))
(SSeq (SPutB (EVar "offset") (EFld "DestinationInterface"))
(SLet "offset" (EAdd (EVar "offset") (EToInt (EFld "DILength"))))))))
(SSeq (SIf (CHas 4 (EFld "Flags"))
(SSeq (SPut 2 (EVar "offset") (EAdd (EVar "offset") (EInt 2)) (EFld "NILength"))
(SSeq (SLet "offset" (EAdd (EVar "offset") (EInt 2)))
(SCopyB (EVar "offset") (EAdd (EVar "offset") (EToInt (EFld "NILength"))) (EFld "NetworkInstance")))))
(SRet ENil))))))))).

(** ie/remote-gtp-u-peer.go:254-270 *)
Definition go_len_RemoteGTPUPeer : stmt :=
(SSeq (SLet "l" (EInt 1))
(SSeq (SIf (CAnd (CHas 2 (EFld "Flags")) (CNot (CHas 5 (EFld "Flags"))))
(SLet "l" (EAdd (EVar "l") (EInt 4))))
(SSeq (SIf (CAnd (CHas 1 (EFld "Flags")) (CNot (CHas 5 (EFld "Flags"))))
(SLet "l" (EAdd (EVar "l") (EInt 16))))
(SSeq (SIf (CHas 3 (EFld "Flags"))
(SLet "l" (EAdd (EVar "l") (EAdd (EInt 2) (EToInt (EFld "DILength"))))))
(SSeq (SIf (CHas 4 (EFld "Flags"))
(SLet "l" (EAdd (EVar "l") (EAdd (EInt 2) (EToInt (EFld "NILength"))))))
(SRet (EVar "l"))))))).

(** ie/sdf-filter.go:176-226 *)
Definition go_un_SDFFilter : stmt :=
(SSeq (SLet "l" (ELen EBuf))
(SSeq (SIf (CLt (EVar "l") (EInt 3))
SEof)
(SSeq (SSet "Flags" (EIdx EBuf (EInt 0)))
(SSeq (SLet "offset" (EInt 2))
(SSeq (SIf (CHas 1 (EFld "Flags"))
(SSeq (SIf (CLt (ELen (EFrom EBuf (EVar "offset"))) (EInt 3))
SEof)
(SSeq (SSet "FDLength" (EBE 2 (ESlice EBuf (EVar "offset") (EAdd (EVar "offset") (EInt 2)))))
(SSeq (SSet "FlowDescription" (EStr (ESlice EBuf (EAdd (EVar "offset") (EInt 2)) (EAdd (EAdd (EVar "offset") (EInt 2)) (EToInt (EFld "FDLength"))))))
(SLet "offset" (EAdd (EVar "offset") (EAdd (EInt 2) (EToInt (EFld "FDLength")))))))))
(SSeq (SIf (CHas 2 (EFld "Flags"))
(SSeq (SIf (CLt (ELen (EFrom EBuf (EVar "offset"))) (EInt 2))
SEof)
(SSeq (SSet "ToSTrafficClass" (EStr (ESlice EBuf (EVar "offset") (EAdd (EVar "offset") (EInt 2)))))
(SLet "offset" (EAdd (EVar "offset") (EInt 2))))))
(SSeq (SIf (CHas 3 (EFld "Flags"))
(SSeq (SIf (CLt (ELen (EFrom EBuf (EVar "offset"))) (EInt 4))
SEof)
(SSeq (SSet "SecurityParameterIndex" (EStr (ESlice EBuf (EVar "offset") (EAdd (EVar "offset") (EInt 4)))))
(SLet "offset" (EAdd (EVar "offset") (EInt 4))))))
(SSeq (SIf (CHas 4 (EFld "Flags"))
(SSeq (SIf (CLt (ELen (EFrom EBuf (EVar "offset"))) (EInt 3))
SEof)
(SSeq (SSet "FlowLabel" (EStr (ESlice EBuf (EVar "offset") (EAdd (EVar "offset") (EInt 3)))))
(SLet "offset" (EAdd (EVar "offset") (EInt 3))))))
(SSeq (SIf (CHas 5 (EFld "Flags"))
(SSeq (SIf (CLt (ELen (EFrom EBuf (EVar "offset"))) (EInt 4))
SEof)
(SSet "SDFFilterID" (EBE 4 (ESlice EBuf (EVar "offset") (EAdd (EVar "offset") (EInt 4)))))))
(SRet ENil)))))))))).

(** ie/sdf-filter.go:238-273 *)
Definition go_to_SDFFilter : stmt :=
(SSeq (SLet "l" (ELen EBuf))
(SSeq (SIf (CLt (EVar "l") (EInt 1))
SEof)
(SSeq (SPutB (EInt 0) (EFld "Flags"))
(SSeq (SLet "offset" (EInt 2))
(SSeq (SIf (CHas 1 (EFld "Flags"))
(SSeq (SPut 2 (EVar "offset") (EAdd (EVar "offset") (EInt 2)) (EFld "FDLength"))
(SSeq (SCopyB (EAdd (EVar "offset") (EInt 2)) (EAdd (EAdd (EVar "offset") (EInt 2)) (EToInt (EFld "FDLength"))) (EFld "FlowDescription"))
(SLet "offset" (EAdd (EVar "offset") (EAdd (EInt 2) (EToInt (EFld "FDLength"))))))))
(SSeq (SIf (CHas 2 (EFld "Flags"))
(SSeq (SCopyB (EVar "offset") (EAdd (EVar "offset") (EInt 2)) (EFld "ToSTrafficClass"))
(SLet "offset" (EAdd (EVar "offset") (EInt 2)))))
(SSeq (SIf (CHas 3 (EFld "Flags"))
(SSeq (SCopyB (EVar "offset") (EAdd (EVar "offset") (EInt 4)) (EFld "SecurityParameterIndex"))
(SLet "offset" (EAdd (EVar "offset") (EInt 4)))))
(SSeq (SIf (CHas 4 (EFld "Flags"))
(SSeq (SCopyB (EVar "offset") (EAdd (EVar "offset") (EInt 3)) (EFld "FlowLabel"))
(SLet "offset" (EAdd (EVar "offset") (EInt 3)))))
(SSeq (SIf (CHas 5 (EFld "Flags"))
(SPut 4 (EVar "offset") (EAdd (EVar "offset") (EInt 4)) (EFld "SDFFilterID")))
(SRet ENil)))))))))).

(** ie/sdf-filter.go:276-300 *)
Definition go_len_SDFFilter : stmt :=
(SSeq (SLet "l" (EInt 2))
(SSeq (SIf (CHas 1 (EFld "Flags"))
(SLet "l" (EAdd (EVar "l") (EAdd (EInt 2) (EToInt (EFld "FDLength"))))))
(SSeq (SIf (CHas 2 (EFld "Flags"))
(SLet "l" (EAdd (EVar "l") (EInt 2))))
(SSeq (SIf (CHas 3 (EFld "Flags"))
(SLet "l" (EAdd (EVar "l") (EInt 4))))
(SSeq (SIf (CHas 4 (EFld "Flags"))
(SLet "l" (EAdd (EVar "l") (EInt 3))))
(SSeq (SIf (CHas 5 (EFld "Flags"))
(SLet "l" (EAdd (EVar "l") (EInt 4))))
(SRet (EVar "l")))))))).

(** ie/s-tag.go:142-164 *)
Definition go_un_STAG : stmt :=
(SSeq (SLet "l" (ELen EBuf))
(SSeq (SIf (CLt (EVar "l") (EInt 3))
SEof)
(SSeq (SSet "Flags" (EIdx EBuf (EInt 0)))
(SSeq (SLet "offset" (EInt 1))
(SSeq (SIf (CHas 1 (EFld "Flags"))
(SSet "PCP" (EAnd (EIdx EBuf (EVar "offset")) (ENum 7))))
(SSeq (SIf (CHas 2 (EFld "Flags"))
(SSet "DEIFlag" (EAnd (EShr (EIdx EBuf (EVar "offset")) 3) (ENum 1))))
(SSeq (SIf (CHas 3 (EFld "Flags"))
(SSet "CVID" (EAnd (EBE 2 (ESlice EBuf (EVar "offset") (EAdd (EVar "offset") (EInt 2)))) (ENum 61695))))
(SRet ENil)))))))).

(** ie/s-tag.go:176-187 *)
Definition go_to_STAG : stmt :=
(SSeq (SLet "l" (ELen EBuf))
(SSeq (SIf (CLt (EVar "l") (EInt 1))
SEof)
(SSeq (SPutB (EInt 0) (EFld "Flags"))
(SSeq (SLet "offset" (EInt 1))
(SSeq (SPut 2 (EVar "offset") (EAdd (EVar "offset") (EInt 2)) (EOr (EOr (EAnd (EShl 16 (EFld "CVID") 4) (ENum 61440)) (EAnd (EFld "CVID") (ENum 255))) (EShl 16 (EU 16 (EOr (EShl 8 (EFld "DEIFlag") 3) (EFld "PCP"))) 8)))
(SRet ENil)))))).

(** ie/s-tag.go:190-192 *)
Definition go_len_STAG : stmt :=
(SRet (EInt 3)).

(** ie/source-ip-address.go:152-185 *)
Definition go_un_SourceIPAddress : stmt :=
(SSeq (SLet "l" (ELen EBuf))
(SSeq (SIf (CLt (EVar "l") (EInt 2))
SEof)
(SSeq (SSet "Flags" (EIdx EBuf (EInt 0)))
(SSeq (SLet "offset" (EInt 1))
(SSeq (SIf (CHas 2 (EFld "Flags"))
(SSeq (SIf (CLt (EVar "l") (EAdd (EVar "offset") (EInt 4)))
SEof)
(SSeq (SSet "IPv4Address" (EBytes (ESlice EBuf (EVar "offset") (EAdd (EVar "offset") (EInt 4)))))
(SLet "offset" (EAdd (EVar "offset") (EInt 4))))))
(SSeq (SIf (CHas 1 (EFld "Flags"))
(SSeq (SIf (CLt (EVar "l") (EAdd (EVar "offset") (EInt 16)))
SEof)
(SSeq (SSet "IPv6Address" (EBytes (ESlice EBuf (EVar "offset") (EAdd (EVar "offset") (EInt 16)))))
(SLet "offset" (EAdd (EVar "offset") (EInt 16))))))
(SSeq (SIf (CHas 3 (EFld "Flags"))
(SSeq (SIf (CLt (EVar "l") (EVar "offset"))
SEof)
(SSet "MaskPrefixLength" (EIdx EBuf (EVar "offset")))))
(SRet ENil)))))))).

(** ie/source-ip-address.go:197-230 *)
Definition go_to_SourceIPAddress : stmt :=
(SSeq (SLet "l" (ELen EBuf))
(SSeq (SIf (CLt (EVar "l") (EInt 1))
SEof)
(SSeq (SPutB (EInt 0) (EFld "Flags"))
(SSeq (SLet "offset" (EInt 1))
(SSeq (SIf (CHas 2 (EFld "Flags"))
(SSeq (SIf (CLt (EVar "l") (EAdd (EVar "offset") (EInt 4)))
SEof)
(SSeq (SCopyB (EVar "offset") (EAdd (EVar "offset") (EInt 4)) (ETo4 (EFld "IPv4Address")))
(SLet "offset" (EAdd (EVar "offset") (EInt 4))))))
(SSeq (SIf (CHas 1 (EFld "Flags"))
(SSeq (SIf (CLt (EVar "l") (EAdd (EVar "offset") (EInt 16)))
SEof)
(SSeq (SCopyB (EVar "offset") (EAdd (EVar "offset") (EInt 16)) (ETo16 (EFld "IPv6Address")))
(SLet "offset" (EAdd (EVar "offset") (EInt 16))))))
(SSeq (SIf (CHas 3 (EFld "Flags"))
(SSeq (SIf (CLt (EVar "l") (EVar "offset"))
SEof)
(SPutB (EVar "offset") (EFld "MaskPrefixLength"))))
(SRet ENil)))))))).

(** ie/source-ip-address.go:233-246 *)
Definition go_len_SourceIPAddress : stmt :=
(SSeq (SLet "l" (EInt 1))
(SSeq (SIf (CHas 2 (EFld "Flags"))
(SLet "l" (EAdd (EVar "l") (EInt 4))))
(SSeq (SIf (CHas 1 (EFld "Flags"))
(SLet "l" (EAdd (EVar "l") (EInt 16))))
(SSeq (SIf (CHas 3 (EFld "Flags"))
(SLet "l" (EAdd (EVar "l") (EInt 1))))
(SRet (EVar "l")))))).

(** ie/subsequent-volume-quota.go:139-172 *)
Definition go_un_SubsequentVolumeQuota : stmt :=
(SSeq (SLet "l" (ELen EBuf))
(SSeq (SIf (CLt (EVar "l") (EInt 2))
SEof)
(SSeq (SSet "Flags" (EIdx EBuf (EInt 0)))
(SSeq (SLet "offset" (EInt 1))
(SSeq (SIf (CHas 1 (EFld "Flags"))
(SSeq (SIf (CLt (EVar "l") (EAdd (EVar "offset") (EInt 8)))
SEof)
(SSeq (SSet "TotalVolume" (EBE 8 (ESlice EBuf (EVar "offset") (EAdd (EVar "offset") (EInt 8)))))
(SLet "offset" (EAdd (EVar "offset") (EInt 8))))))
(SSeq (SIf (CHas 2 (EFld "Flags"))
(SSeq (SIf (CLt (EVar "l") (EAdd (EVar "offset") (EInt 8)))
SEof)
(SSeq (SSet "UplinkVolume" (EBE 8 (ESlice EBuf (EVar "offset") (EAdd (EVar "offset") (EInt 8)))))
(SLet "offset" (EAdd (EVar "offset") (EInt 8))))))
(SSeq (SIf (CHas 3 (EFld "Flags"))
(SSeq (SIf (CLt (EVar "l") (EAdd (EVar "offset") (EInt 8)))
SEof)
(SSet "DownlinkVolume" (EBE 8 (ESlice EBuf (EVar "offset") (EAdd (EVar "offset") (EInt 8)))))))
(SRet ENil)))))))).

(** ie/subsequent-volume-quota.go:184-217 *)
Definition go_to_SubsequentVolumeQuota : stmt :=
(SSeq (SLet "l" (ELen EBuf))
(SSeq (SIf (CLt (EVar "l") (EInt 1))
SEof)
(SSeq (SPutB (EInt 0) (EFld "Flags"))
(SSeq (SLet "offset" (EInt 1))
(SSeq (SIf (CHas 1 (EFld "Flags"))
(SSeq (SIf (CLt (EVar "l") (EAdd (EVar "offset") (EInt 8)))
SEof)
(SSeq (SPut 8 (EVar "offset") (EAdd (EVar "offset") (EInt 8)) (EFld "TotalVolume"))
(SLet "offset" (EAdd (EVar "offset") (EInt 8))))))
(SSeq (SIf (CHas 2 (EFld "Flags"))
(SSeq (SIf (CLt (EVar "l") (EAdd (EVar "offset") (EInt 8)))
SEof)
(SSeq (SPut 8 (EVar "offset") (EAdd (EVar "offset") (EInt 8)) (EFld "UplinkVolume"))
(SLet "offset" (EAdd (EVar "offset") (EInt 8))))))
(SSeq (SIf (CHas 3 (EFld "Flags"))
(SSeq (SIf (CLt (EVar "l") (EAdd (EVar "offset") (EInt 8)))
SEof)
(SPut 8 (EVar "offset") (EAdd (EVar "offset") (EInt 8)) (EFld "DownlinkVolume"))))
(SRet ENil)))))))).

(** ie/subsequent-volume-quota.go:220-233 *)
Definition go_len_SubsequentVolumeQuota : stmt :=
(SSeq (SLet "l" (EInt 1))
(SSeq (SIf (CHas 1 (EFld "Flags"))
(SLet "l" (EAdd (EVar "l") (EInt 8))))
(SSeq (SIf (CHas 2 (EFld "Flags"))
(SLet "l" (EAdd (EVar "l") (EInt 8))))
(SSeq (SIf (CHas 3 (EFld "Flags"))
(SLet "l" (EAdd (EVar "l") (EInt 8))))
(SRet (EVar "l")))))).

(** ie/subsequent-volume-threshold.go:139-172 *)
Definition go_un_SubsequentVolumeThreshold : stmt :=
(SSeq (SLet "l" (ELen EBuf))
(SSeq (SIf (CLt (EVar "l") (EInt 2))
SEof)
(SSeq (SSet "Flags" (EIdx EBuf (EInt 0)))
(SSeq (SLet "offset" (EInt 1))
(SSeq (SIf (CHas 1 (EFld "Flags"))
(SSeq (SIf (CLt (EVar "l") (EAdd (EVar "offset") (EInt 8)))
SEof)
(SSeq (SSet "TotalVolume" (EBE 8 (ESlice EBuf (EVar "offset") (EAdd (EVar "offset") (EInt 8)))))
(SLet "offset" (EAdd (EVar "offset") (EInt 8))))))
(SSeq (SIf (CHas 2 (EFld "Flags"))
(SSeq (SIf (CLt (EVar "l") (EAdd (EVar "offset") (EInt 8)))
SEof)
(SSeq (SSet "UplinkVolume" (EBE 8 (ESlice EBuf (EVar "offset") (EAdd (EVar "offset") (EInt 8)))))
(SLet "offset" (EAdd (EVar "offset") (EInt 8))))))
(SSeq (SIf (CHas 3 (EFld "Flags"))
(SSeq (SIf (CLt (EVar "l") (EAdd (EVar "offset") (EInt 8)))
SEof)
(SSet "DownlinkVolume" (EBE 8 (ESlice EBuf (EVar "offset") (EAdd (EVar "offset") (EInt 8)))))))
(SRet ENil)))))))).

(** ie/subsequent-volume-threshold.go:184-217 *)
Definition go_to_SubsequentVolumeThreshold : stmt :=
(SSeq (SLet "l" (ELen EBuf))
(SSeq (SIf (CLt (EVar "l") (EInt 1))
SEof)
(SSeq (SPutB (EInt 0) (EFld "Flags"))
(SSeq (SLet "offset" (EInt 1))
(SSeq (SIf (CHas 1 (EFld "Flags"))
(SSeq (SIf (CLt (EVar "l") (EAdd (EVar "offset") (EInt 8)))
SEof)
(SSeq (SPut 8 (EVar "offset") (EAdd (EVar "offset") (EInt 8)) (EFld "TotalVolume"))
(SLet "offset" (EAdd (EVar "offset") (EInt 8))))))
(SSeq (SIf (CHas 2 (EFld "Flags"))
(SSeq (SIf (CLt (EVar "l") (EAdd (EVar "offset") (EInt 8)))
SEof)
(SSeq (SPut 8 (EVar "offset") (EAdd (EVar "offset") (EInt 8)) (EFld "UplinkVolume"))
(SLet "offset" (EAdd (EVar "offset") (EInt 8))))))
(SSeq (SIf (CHas 3 (EFld "Flags"))
(SSeq (SIf (CLt (EVar "l") (EAdd (EVar "offset") (EInt 8)))
SEof)
(SPut 8 (EVar "offset") (EAdd (EVar "offset") (EInt 8)) (EFld "DownlinkVolume"))))
(SRet ENil)))))))).

(** ie/subsequent-volume-threshold.go:220-233 *)
Definition go_len_SubsequentVolumeThreshold : stmt :=
(SSeq (SLet "l" (EInt 1))
(SSeq (SIf (CHas 1 (EFld "Flags"))
(SLet "l" (EAdd (EVar "l") (EInt 8))))
(SSeq (SIf (CHas 2 (EFld "Flags"))
(SLet "l" (EAdd (EVar "l") (EInt 8))))
(SSeq (SIf (CHas 3 (EFld "Flags"))
(SLet "l" (EAdd (EVar "l") (EInt 8))))
(SRet (EVar "l")))))).

(** ie/trace-information.go:88-144 *)
Definition go_un_TraceInformation : stmt :=
(SSeq (SLet "l" (ELen EBuf))
(SSeq (SIf (CLt (EVar "l") (EInt 6))
SEof)
(SSeq (SPlmn "MCC" "MNC" (ESlice EBuf (EInt 0) (EInt 3)))
(SSeq (SSet "TraceID" (EStr (ESlice EBuf (EInt 3) (EInt 6))))
(SSeq (SLet "offset" (EInt 6))
(SSeq (SIf (CLt (EVar "l") (EVar "offset"))
SEof)
(SSeq (SSet "TriggeringEventsLength" (EIdx EBuf (EVar "offset")))
(SSeq (SLet "offset" (EAdd (EVar "offset") (EInt 1)))
(SSeq (SIf (CLt (EVar "l") (EAdd (EVar "offset") (EToInt (EFld "TriggeringEventsLength"))))
SEof)
(SSeq (SCopyF "TriggeringEvents" (ESlice EBuf (EVar "offset") (EAdd (EVar "offset") (EToInt (EFld "TriggeringEventsLength")))))
(SSeq (SLet "offset" (EAdd (EVar "offset") (EToInt (EFld "TriggeringEventsLength"))))
(SSeq (SIf (CLt (EVar "l") (EVar "offset"))
SEof)
(SSeq (SSet "SessionTraceDepth" (EIdx EBuf (EVar "offset")))
(SSeq (SLet "offset" (EAdd (EVar "offset") (EInt 1)))
(SSeq (SIf (CLt (EVar "l") (EVar "offset"))
SEof)
(SSeq (SSet "ListOfInterfacesLength" (EIdx EBuf (EVar "offset")))
(SSeq (SLet "offset" (EAdd (EVar "offset") (EInt 1)))
(SSeq (SIf (CLt (EVar "l") (EAdd (EVar "offset") (EToInt (EFld "ListOfInterfacesLength"))))
SEof)
(SSeq (SCopyF "ListOfInterfaces" (ESlice EBuf (EVar "offset") (EAdd (EVar "offset") (EToInt (EFld "ListOfInterfacesLength")))))
(SSeq (SLet "offset" (EAdd (EVar "offset") (EToInt (EFld "ListOfInterfacesLength"))))
(SSeq (SIf (CLt (EVar "l") (EVar "offset"))
SEof)
(SSeq (SSet "IPAddressOfTraceCollectionEntityLength" (EIdx EBuf (EVar "offset")))
(SSeq (SLet "offset" (EAdd (EVar "offset") (EInt 1)))
(SSeq (SIf (CLt (EVar "l") (EAdd (EVar "offset") (EToInt (EFld "IPAddressOfTraceCollectionEntityLength"))))
SEof)
(SSeq (SCopyF "IPAddressOfTraceCollectionEntity" (ESlice EBuf (EVar "offset") (EAdd (EVar "offset") (EToInt (EFld "IPAddressOfTraceCollectionEntityLength")))))
(SRet ENil)))))))))))))))))))))))))).

(** ie/trace-information.go:156-212 *)
Definition go_to_TraceInformation : stmt :=
(SSeq (SLet "l" (ELen EBuf))
(SSeq (SIf (CLt (EVar "l") (EInt 6))
SEof)
(SSeq (SLet "plmn" (EToPlmn (EFld "MCC") (EFld "MNC")))
(SSeq (SCopyB (EInt 0) (EInt 3) (EVar "plmn"))
(SSeq (SCopyB (EInt 3) (EInt 6) (EFld "TraceID"))
(SSeq (SLet "offset" (EInt 6))
(SSeq (SIf (CLt (EVar "l") (EVar "offset"))
SEof)
(SSeq (SPutB (EVar "offset") (EFld "TriggeringEventsLength"))
(SSeq (SLet "offset" (EAdd (EVar "offset") (EInt 1)))
(SSeq (SIf (CLt (EVar "l") (EAdd (EVar "offset") (EToInt (EFld "TriggeringEventsLength"))))
SEof)
(SSeq (SCopyB (EVar "offset") (EAdd (EVar "offset") (EToInt (EFld "TriggeringEventsLength"))) (EFld "TriggeringEvents"))
(SSeq (SLet "offset" (EAdd (EVar "offset") (EToInt (EFld "TriggeringEventsLength"))))
(SSeq (SIf (CLt (EVar "l") (EVar "offset"))
SEof)
(SSeq (SPutB (EVar "offset") (EFld "SessionTraceDepth"))
(SSeq (SLet "offset" (EAdd (EVar "offset") (EInt 1)))
(SSeq (SIf (CLt (EVar "l") (EVar "offset"))
SEof)
(SSeq (SPutB (EVar "offset") (EFld "ListOfInterfacesLength"))
(SSeq (SLet "offset" (EAdd (EVar "offset") (EInt 1)))
(SSeq (SIf (CLt (EVar "l") (EAdd (EVar "offset") (EToInt (EFld "ListOfInterfacesLength"))))
SEof)
(SSeq (SCopyB (EVar "offset") (EAdd (EVar "offset") (EToInt (EFld "ListOfInterfacesLength"))) (EFld "ListOfInterfaces"))
(SSeq (SLet "offset" (EAdd (EVar "offset") (EToInt (EFld "ListOfInterfacesLength"))))
(SSeq (SIf (CLt (EVar "l") (EVar "offset"))
SEof)
(SSeq (SPutB (EVar "offset") (EFld "IPAddressOfTraceCollectionEntityLength"))
(SSeq (SLet "offset" (EAdd (EVar "offset") (EInt 1)))
(SSeq (SIf (CLt (EVar "l") (EAdd (EVar "offset") (EToInt (EFld "IPAddressOfTraceCollectionEntityLength"))))
SEof)
(SSeq (SCopyB (EVar "offset") (EAdd (EVar "offset") (EToInt (EFld "IPAddressOfTraceCollectionEntityLength"))) (EFld "IPAddressOfTraceCollectionEntity"))
(SRet ENil))))))))))))))))))))))))))).

(** ie/trace-information.go:215-222 *)
Definition go_len_TraceInformation : stmt :=
(SSeq (SLet "l" (EAdd (EAdd (EAdd (EAdd (EAdd (EInt 3) (EInt 3)) (EInt 1)) (EInt 1)) (EInt 1)) (EInt 1)))
(SSeq (SLet "l" (EAdd (EVar "l") (EToInt (EFld "TriggeringEventsLength"))))
(SSeq (SLet "l" (EAdd (EVar "l") (EToInt (EFld "ListOfInterfacesLength"))))
(SSeq (SLet "l" (EAdd (EVar "l") (EToInt (EFld "IPAddressOfTraceCollectionEntityLength"))))
(SRet (EVar "l")))))).

(** ie/ue-ip-address.go:221-261 *)
Definition go_un_UEIPAddress : stmt :=
(SSeq (SLet "l" (ELen EBuf))
(SSeq (SIf (CLt (EVar "l") (EInt 1))
SEof)
(SSeq (SSet "Flags" (EIdx EBuf (EInt 0)))
(SSeq (SLet "offset" (EInt 1))
(SSeq (SIf (CAnd (CHas 2 (EFld "Flags")) (CNot (CHas 5 (EFld "Flags"))))
(SSeq (SIf (CLt (EVar "l") (EAdd (EVar "offset") (EInt 4)))
SEof)
(SSeq (SSet "IPv4Address" (ETo4 (EBytes (ESlice EBuf (EVar "offset") (EAdd (EVar "offset") (EInt 4))))))
(SLet "offset" (EAdd (EVar "offset") (EInt 4))))))
(SSeq (SIf (CAnd (CHas 1 (EFld "Flags")) (CNot (CHas 6 (EFld "Flags"))))
(SSeq (SIf (CLt (EVar "l") (EAdd (EVar "offset") (EInt 16)))
SEof)
(SSeq (SSet "IPv6Address" (ETo16 (EBytes (ESlice EBuf (EVar "offset") (EAdd (EVar "offset") (EInt 16))))))
(SLet "offset" (EAdd (EVar "offset") (EInt 16))))))
(SSeq (SIf (CHas 4 (EFld "Flags"))
(SSeq (SIf (CLt (EVar "l") (EAdd (EVar "offset") (EInt 1)))
SEof)
(SSet "IPv6PrefixDelegationBits" (EIdx EBuf (EVar "offset")))))
(SSeq (SIf (CHas 7 (EFld "Flags"))
(SSeq (SIf (CLt (EVar "l") (EAdd (EVar "offset") (EInt 1)))
SEof)
(SSet "IPv6PrefixLength" (EIdx EBuf (EVar "offset")))))
(SRet ENil))))))))).

(** ie/ue-ip-address.go:273-302 *)
Definition go_to_UEIPAddress : stmt :=
(SSeq (SLet "l" (ELen EBuf))
(SSeq (SIf (CLt (EVar "l") (EInt 1))
SEof)
(SSeq (SPutB (EInt 0) (EFld "Flags"))
(SSeq (SLet "offset" (EInt 1))
(SSeq (SIf (CAnd (CHas 2 (EFld "Flags")) (CNot (CHas 5 (EFld "Flags"))))
(SSeq (SCopyB (EVar "offset") (EAdd (EVar "offset") (EInt 4)) (EFld "IPv4Address"))
(SLet "offset" (EAdd (EVar "offset") (EInt 4)))))
(SSeq (SIf (CAnd (CHas 1 (EFld "Flags")) (CNot (CHas 6 (EFld "Flags"))))
(SSeq (SCopyB (EVar "offset") (EAdd (EVar "offset") (EInt 16)) (EFld "IPv6Address"))
(SLet "offset" (EAdd (EVar "offset") (EInt 16)))))
(SSeq (SIf (CHas 4 (EFld "Flags"))
(SSeq (SPutB (EVar "offset") (EFld "IPv6PrefixDelegationBits"))
(SLet "offset" (EAdd (EVar "offset") (EInt 1)))))
(SSeq (SIf (CHas 7 (EFld "Flags"))
(SPutB (EVar "offset") (EFld "IPv6PrefixLength")))
(SRet ENil))))))))).

(** ie/ue-ip-address.go:305-321 *)
Definition go_len_UEIPAddress : stmt :=
(SSeq (SLet "l" (EInt 1))
(SSeq (SIf (CAnd (CHas 2 (EFld "Flags")) (CNot (CHas 5 (EFld "Flags"))))
(SLet "l" (EAdd (EVar "l") (EInt 4))))
(SSeq (SIf (CAnd (CHas 1 (EFld "Flags")) (CNot (CHas 6 (EFld "Flags"))))
(SLet "l" (EAdd (EVar "l") (EInt 16))))
(SSeq (SIf (CHas 4 (EFld "Flags"))
(SLet "l" (EAdd (EVar "l") (EInt 1))))
(SSeq (SIf (CHas 7 (EFld "Flags"))
(SLet "l" (EAdd (EVar "l") (EInt 1))))
(SRet (EVar "l"))))))).

(** ie/ue-link-specific-ip-address.go:145-186 *)
Definition go_un_UELinkSpecificIPAddress : stmt :=
(SSeq (SLet "l" (ELen EBuf))
(SSeq (SIf (CLt (EVar "l") (EInt 1))
SEof)
(SSeq (SSet "Flags" (EIdx EBuf (EInt 0)))
(SSeq (SLet "offset" (EInt 1))
(SSeq (SIf (CHas 1 (EFld "Flags"))
(SSeq (SIf (CLt (EVar "l") (EAdd (EVar "offset") (EInt 4)))
SEof)
(SSeq (SSet "UELinkSpecificIPv4AddressFor3GPPAccess" (EBytes (ESlice EBuf (EVar "offset") (EAdd (EVar "offset") (EInt 4)))))
(SLet "offset" (EAdd (EVar "offset") (EInt 4))))))
(SSeq (SIf (CHas 2 (EFld "Flags"))
(SSeq (SIf (CLt (EVar "l") (EAdd (EVar "offset") (EInt 16)))
SEof)
(SSeq (SSet "UELinkSpecificIPv6AddressFor3GPPAccess" (EBytes (ESlice EBuf (EVar "offset") (EAdd (EVar "offset") (EInt 16)))))
(SLet "offset" (EAdd (EVar "offset") (EInt 16))))))
(SSeq (SIf (CHas 3 (EFld "Flags"))
(SSeq (SIf (CLt (EVar "l") (EAdd (EVar "offset") (EInt 4)))
SEof)
(SSeq (SSet "UELinkSpecificIPv4AddressForNon3GPPAccess" (EBytes (ESlice EBuf (EVar "offset") (EAdd (EVar "offset") (EInt 4)))))
(SLet "offset" (EAdd (EVar "offset") (EInt 4))))))
(SSeq (SIf (CHas 4 (EFld "Flags"))
(SSeq (SIf (CLt (EVar "l") (EAdd (EVar "offset") (EInt 16)))
SEof)
(SSet "UELinkSpecificIPv6AddressForNon3GPPAccess" (EBytes (ESlice EBuf (EVar "offset") (EAdd (EVar "offset") (EInt 16)))))))
(SRet ENil))))))))).

(** ie/ue-link-specific-ip-address.go:198-239 *)
Definition go_to_UELinkSpecificIPAddress : stmt :=
(SSeq (SLet "l" (ELen EBuf))
(SSeq (SIf (CLt (EVar "l") (EInt 1))
SEof)
(SSeq (SPutB (EInt 0) (EFld "Flags"))
(SSeq (SLet "offset" (EInt 1))
(SSeq (SIf (CHas 1 (EFld "Flags"))
(SSeq (SIf (CLt (EVar "l") (EAdd (EVar "offset") (EInt 4)))
SEof)
(SSeq (SCopyB (EVar "offset") (EAdd (EVar "offset") (EInt 4)) (ETo4 (EFld "UELinkSpecificIPv4AddressFor3GPPAccess")))
(SLet "offset" (EAdd (EVar "offset") (EInt 4))))))
(SSeq (SIf (CHas 2 (EFld "Flags"))
(SSeq (SIf (CLt (EVar "l") (EAdd (EVar "offset") (EInt 16)))
SEof)
(SSeq (SCopyB (EVar "offset") (EAdd (EVar "offset") (EInt 16)) (ETo16 (EFld "UELinkSpecificIPv6AddressFor3GPPAccess")))
(SLet "offset" (EAdd (EVar "offset") (EInt 16))))))
(SSeq (SIf (CHas 3 (EFld "Flags"))
(SSeq (SIf (CLt (EVar "l") (EAdd (EVar "offset") (EInt 4)))
SEof)
(SSeq (SCopyB (EVar "offset") (EAdd (EVar "offset") (EInt 4)) (ETo4 (EFld "UELinkSpecificIPv4AddressForNon3GPPAccess")))
(SLet "offset" (EAdd (EVar "offset") (EInt 4))))))
(SSeq (SIf (CHas 4 (EFld "Flags"))
(SSeq (SIf (CLt (EVar "l") (EAdd (EVar "offset") (EInt 16)))
SEof)
(SCopyB (EVar "offset") (EAdd (EVar "offset") (EInt 16)) (ETo16 (EFld "UELinkSpecificIPv6AddressForNon3GPPAccess")))))
(SRet ENil))))))))).

(** ie/ue-link-specific-ip-address.go:242-258 *)
Definition go_len_UELinkSpecificIPAddress : stmt :=
(SSeq (SLet "l" (EInt 1))
(SSeq (SIf (CHas 1 (EFld "Flags"))
(SLet "l" (EAdd (EVar "l") (EInt 4))))
(SSeq (SIf (CHas 2 (EFld "Flags"))
(SLet "l" (EAdd (EVar "l") (EInt 16))))
(SSeq (SIf (CHas 3 (EFld "Flags"))
(SLet "l" (EAdd (EVar "l") (EInt 4))))
(SSeq (SIf (CHas 4 (EFld "Flags"))
(SLet "l" (EAdd (EVar "l") (EInt 16))))
(SRet (EVar "l"))))))).

(** ie/user-id.go:102-167 *)
Definition go_un_UserID : stmt :=
(SSeq (SLet "l" (ELen EBuf))
(SSeq (SIf (CLt (EVar "l") (EInt 1))
SEof)
(SSeq (SSet "Flags" (EIdx EBuf (EInt 0)))
(SSeq (SLet "offset" (EInt 1))
(SSeq (SIf (CHas 1 (EFld "Flags"))
(SSeq (SIf (CLt (EVar "l") (EAdd (EVar "offset") (EInt 1)))
SEof)
(SSeq (SSet "IMSILength" (EIdx EBuf (EVar "offset")))
(SSeq (SLet "offset" (EAdd (EVar "offset") (EInt 1)))
(SSeq (SIf (CLt (EVar "l") (EAdd (EVar "offset") (EToInt (EFld "IMSILength"))))
SEof)
(SSeq (SSet "IMSI" (EFromBcd (ESlice EBuf (EVar "offset") (EAdd (EVar "offset") (EToInt (EFld "IMSILength"))))))
(SLet "offset" (EAdd (EVar "offset") (EToInt (EFld "IMSILength"))))))))))
(SSeq (SIf (CHas 2 (EFld "Flags"))
(SSeq (SIf (CLt (EVar "l") (EAdd (EVar "offset") (EInt 1)))
SEof)
(SSeq (SSet "IMEILength" (EIdx EBuf (EVar "offset")))
(SSeq (SLet "offset" (EAdd (EVar "offset") (EInt 1)))
(SSeq (SIf (CLt (EVar "l") (EAdd (EVar "offset") (EToInt (EFld "IMEILength"))))
SEof)
(SSeq (SSet "IMEI" (EFromBcd (ESlice EBuf (EVar "offset") (EAdd (EVar "offset") (EToInt (EFld "IMEILength"))))))
(SLet "offset" (EAdd (EVar "offset") (EToInt (EFld "IMEILength"))))))))))
(SSeq (SIf (CHas 3 (EFld "Flags"))
(SSeq (SIf (CLt (EVar "l") (EAdd (EVar "offset") (EInt 1)))
SEof)
(SSeq (SSet "MSISDNLength" (EIdx EBuf (EVar "offset")))
(SSeq (SLet "offset" (EAdd (EVar "offset") (EInt 1)))
(SSeq (SIf (CLt (EVar "l") (EAdd (EVar "offset") (EToInt (EFld "MSISDNLength"))))
SEof)
(SSeq (SSet "MSISDN" (EFromBcd (ESlice EBuf (EVar "offset") (EAdd (EVar "offset") (EToInt (EFld "MSISDNLength"))))))
(SLet "offset" (EAdd (EVar "offset") (EToInt (EFld "MSISDNLength"))))))))))
(SSeq (SIf (CHas 4 (EFld "Flags"))
(SSeq (SIf (CLt (EVar "l") (EAdd (EVar "offset") (EInt 1)))
SEof)
(SSeq (SSet "NAILength" (EIdx EBuf (EVar "offset")))
(SSeq (SLet "offset" (EAdd (EVar "offset") (EInt 1)))
(SSeq (SIf (CLt (EVar "l") (EAdd (EVar "offset") (EToInt (EFld "NAILength"))))
SEof)
(SSet "NAI" (EStr (ESlice EBuf (EVar "offset") (EAdd (EVar "offset") (EToInt (EFld "NAILength")))))))))))
(SRet ENil))))))))).

(** ie/user-id.go:179-232 *)
Definition go_to_UserID : stmt :=
(SSeq (SLet "l" (ELen EBuf))
(SSeq (SIf (CLt (EVar "l") (EInt 1))
SEof)
(SSeq (SPutB (EInt 0) (EFld "Flags"))
(SSeq (SLet "offset" (EInt 1))
(SSeq (SIf (CHas 1 (EFld "Flags"))
(SBlock (SSeq (SPutB (EVar "offset") (EFld "IMSILength"))
(SSeq (SLet "offset" (EAdd (EVar "offset") (EInt 1)))
(SSeq (SLet "v" (EToBcd (EFld "IMSI")))
(SSeq (SCopyB (EVar "offset") (EAdd (EVar "offset") (EToInt (EFld "IMSILength"))) (EVar "v"))
(SLet "offset" (EAdd (EVar "offset") (EToInt (EFld "IMSILength"))))))))))
(SSeq (SIf (CHas 2 (EFld "Flags"))
(SBlock (SSeq (SPutB (EVar "offset") (EFld "IMEILength"))
(SSeq (SLet "offset" (EAdd (EVar "offset") (EInt 1)))
(SSeq (SLet "v" (EToBcd (EFld "IMEI")))
(SSeq (SCopyB (EVar "offset") (EAdd (EVar "offset") (EToInt (EFld "IMEILength"))) (EVar "v"))
(SLet "offset" (EAdd (EVar "offset") (EToInt (EFld "IMEILength"))))))))))
(SSeq (SIf (CHas 3 (EFld "Flags"))
(SBlock (SSeq (SPutB (EVar "offset") (EFld "MSISDNLength"))
(SSeq (SLet "offset" (EAdd (EVar "offset") (EInt 1)))
(SSeq (SLet "v" (EToBcd (EFld "MSISDN")))
(SSeq (SCopyB (EVar "offset") (EAdd (EVar "offset") (EToInt (EFld "MSISDNLength"))) (EVar "v"))
(SLet "offset" (EAdd (EVar "offset") (EToInt (EFld "MSISDNLength"))))))))))
(SSeq (SIf (CHas 4 (EFld "Flags"))
(SSeq (SPutB (EVar "offset") (EFld "NAILength"))
(SSeq (SLet "offset" (EAdd (EVar "offset") (EInt 1)))
(SCopyB (EVar "offset") (EAdd (EVar "offset") (EToInt (EFld "NAILength"))) (EFld "NAI")))))
(SRet ENil))))))))).

(** ie/user-id.go:235-251 *)
Definition go_len_UserID : stmt :=
(SSeq (SLet "l" (EInt 1))
(SSeq (SIf (CHas 1 (EFld "Flags"))
(SLet "l" (EAdd (EVar "l") (EAdd (EInt 1) (EToInt (EFld "IMSILength"))))))
(SSeq (SIf (CHas 2 (EFld "Flags"))
(SLet "l" (EAdd (EVar "l") (EAdd (EInt 1) (EToInt (EFld "IMEILength"))))))
(SSeq (SIf (CHas 3 (EFld "Flags"))
(SLet "l" (EAdd (EVar "l") (EAdd (EInt 1) (EToInt (EFld "MSISDNLength"))))))
(SSeq (SIf (CHas 4 (EFld "Flags"))
(SLet "l" (EAdd (EVar "l") (EAdd (EInt 1) (EToInt (EFld "NAILength"))))))
(SRet (EVar "l"))))))).

(** ie/user-plane-ip-resource-information.go:117-169 *)
Definition go_un_UserPlaneIPResourceInformation : stmt :=
(SSeq (SLet "l" (ELen EBuf))
(SSeq (SIf (CLt (EVar "l") (EInt 2))
SEof)
(SSeq (SSet "Flags" (EIdx EBuf (EInt 0)))
(SSeq (SLet "offset" (EInt 1))
(SSeq (SIf (CNe (EAnd (EShr (EFld "Flags") 2) (ENum 7)) (ENum 0))
(SSeq (SIf (CLt (EVar "l") (EAdd (EVar "offset") (EInt 1)))
SEof)
(SSeq (SSet "TEIDRange" (EIdx EBuf (EVar "offset")))
(SLet "offset" (EAdd (EVar "offset") (EInt 1))))))
(SSeq (SIf (CHas 1 (EFld "Flags"))
(SSeq (SIf (CLt (EVar "l") (EAdd (EVar "offset") (EInt 4)))
SEof)
(SSeq (SSet "IPv4Address" (ETo4 (EBytes (ESlice EBuf (EVar "offset") (EAdd (EVar "offset") (EInt 4))))))
(SLet "offset" (EAdd (EVar "offset") (EInt 4))))))
(SSeq (SIf (CHas 2 (EFld "Flags"))
(SSeq (SIf (CLt (EVar "l") (EAdd (EVar "offset") (EInt 16)))
SEof)
(SSeq (SSet "IPv6Address" (ETo16 (EBytes (ESlice EBuf (EVar "offset") (EAdd (EVar "offset") (EInt 16))))))
(SLet "offset" (EAdd (EVar "offset") (EInt 16))))))
(SSeq (SIf (CHas 6 (EFld "Flags"))
(SSeq (SLet "n" (EVar "l"))
(SSeq (SIf (CHas 7 (EFld "Flags"))
(SSeq (SSet "SourceInterface" (EAnd (EIdx EBuf (EVar "n")) (ENum 15)))
(SLet "n" (ESub (EVar "n") (EInt 1)))))
(SSeq (SIf (CLt (EVar "l") (EAdd (EVar "offset") (EVar "n")))
SEof)
(SSeq (SSet "NetworkInstance" (EStr (ESlice EBuf (EVar "offset") (EVar "n"))))
(SRet ENil))))))
(SSeq (SIf (CHas 7 (EFld "Flags"))
(SSet "SourceInterface" (EAnd (EIdx EBuf (EVar "offset")) (ENum 15))))
(SRet ENil)))))))))).

(** ie/user-plane-ip-resource-information.go:181-215 *)
Definition go_to_UserPlaneIPResourceInformation : stmt :=
(SSeq (SLet "l" (ELen EBuf))
(SSeq (SIf (CLt (EVar "l") (EInt 2))
SEof)
(SSeq (SPutB (EInt 0) (EFld "Flags"))
(SSeq (SLet "offset" (EInt 1))
(SSeq (SIf (CNe (EAnd (EShr (EFld "Flags") 2) (ENum 7)) (ENum 0))
(SSeq (SPutB (EVar "offset") (EFld "TEIDRange"))
(SLet "offset" (EAdd (EVar "offset") (EInt 1)))))
(SSeq (SIf (CHas 1 (EFld "Flags"))
(SSeq (SCopyB (EVar "offset") (EAdd (EVar "offset") (EInt 4)) (EFld "IPv4Address"))
(SLet "offset" (EAdd (EVar "offset") (EInt 4)))))
(SSeq (SIf (CHas 2 (EFld "Flags"))
(SSeq (SCopyB (EVar "offset") (EAdd (EVar "offset") (EInt 16)) (EFld "IPv6Address"))
(SLet "offset" (EAdd (EVar "offset") (EInt 16)))))
(SSeq (SIf (CHas 6 (EFld "Flags"))
(SBlock (SSeq (SLet "n" (ELen (EBytes (EFld "NetworkInstance"))))
(SSeq (SCopyB (EVar "offset") (EAdd (EVar "offset") (EVar "n")) (EFld "NetworkInstance"))
(SLet "offset" (EAdd (EVar "offset") (EVar "n")))))))
(SSeq (SIf (CHas 7 (EFld "Flags"))
(SPutB (EVar "offset") (EFld "SourceInterface")))
(SRet ENil)))))))))).

(** ie/user-plane-ip-resource-information.go:218-237 *)
Definition go_len_UserPlaneIPResourceInformation : stmt :=
(SSeq (SLet "l" (EInt 1))
(SSeq (SIf (CNe (EAnd (EShr (EFld "Flags") 2) (ENum 7)) (ENum 0))
(SLet "l" (EAdd (EVar "l") (EInt 1))))
(SSeq (SIf (CHas 1 (EFld "Flags"))
(SLet "l" (EAdd (EVar "l") (EInt 4))))
(SSeq (SIf (CHas 2 (EFld "Flags"))
(SLet "l" (EAdd (EVar "l") (EInt 16))))
(SSeq (SIf (CHas 6 (EFld "Flags"))
(SLet "l" (EAdd (EVar "l") (ELen (EBytes (EFld "NetworkInstance"))))))
(SSeq (SIf (CHas 7 (EFld "Flags"))
(SLet "l" (EAdd (EVar "l") (EInt 1))))
(SRet (EVar "l")))))))).

(** ie/volume-measurement.go:164-221 *)
Definition go_un_VolumeMeasurement : stmt :=
(SSeq (SLet "l" (ELen EBuf))
(SSeq (SIf (CLt (EVar "l") (EInt 2))
SEof)
(SSeq (SSet "Flags" (EIdx EBuf (EInt 0)))
(SSeq (SLet "offset" (EInt 1))
(SSeq (SIf (CHas 1 (EFld "Flags"))
(SSeq (SIf (CLt (EVar "l") (EAdd (EVar "offset") (EInt 8)))
SEof)
(SSeq (SSet "TotalVolume" (EBE 8 (ESlice EBuf (EVar "offset") (EAdd (EVar "offset") (EInt 8)))))
(SLet "offset" (EAdd (EVar "offset") (EInt 8))))))
(SSeq (SIf (CHas 2 (EFld "Flags"))
(SSeq (SIf (CLt (EVar "l") (EAdd (EVar "offset") (EInt 8)))
SEof)
(SSeq (SSet "UplinkVolume" (EBE 8 (ESlice EBuf (EVar "offset") (EAdd (EVar "offset") (EInt 8)))))
(SLet "offset" (EAdd (EVar "offset") (EInt 8))))))
(SSeq (SIf (CHas 3 (EFld "Flags"))
(SSeq (SIf (CLt (EVar "l") (EAdd (EVar "offset") (EInt 8)))
SEof)
(SSeq (SSet "DownlinkVolume" (EBE 8 (ESlice EBuf (EVar "offset") (EAdd (EVar "offset") (EInt 8)))))
(SLet "offset" (EAdd (EVar "offset") (EInt 8))))))
(SSeq (SIf (CHas 4 (EFld "Flags"))
(SSeq (SIf (CLt (EVar "l") (EAdd (EVar "offset") (EInt 8)))
SEof)
(SSeq (SSet "TotalNumberOfPackets" (EBE 8 (ESlice EBuf (EVar "offset") (EAdd (EVar "offset") (EInt 8)))))
(SLet "offset" (EAdd (EVar "offset") (EInt 8))))))
(SSeq (SIf (CHas 5 (EFld "Flags"))
(SSeq (SIf (CLt (EVar "l") (EAdd (EVar "offset") (EInt 8)))
SEof)
(SSeq (SSet "UplinkNumberOfPackets" (EBE 8 (ESlice EBuf (EVar "offset") (EAdd (EVar "offset") (EInt 8)))))
(SLet "offset" (EAdd (EVar "offset") (EInt 8))))))
(SSeq (SIf (CHas 6 (EFld "Flags"))
(SSeq (SIf (CLt (EVar "l") (EAdd (EVar "offset") (EInt 8)))
SEof)
(SSet "DownlinkNumberOfPackets" (EBE 8 (ESlice EBuf (EVar "offset") (EAdd (EVar "offset") (EInt 8)))))))
(SRet ENil))))))))))).

(** ie/volume-measurement.go:233-290 *)
Definition go_to_VolumeMeasurement : stmt :=
(SSeq (SLet "l" (ELen EBuf))
(SSeq (SIf (CLt (EVar "l") (EInt 1))
SEof)
(SSeq (SPutB (EInt 0) (EFld "Flags"))
(SSeq (SLet "offset" (EInt 1))
(SSeq (SIf (CHas 1 (EFld "Flags"))
(SSeq (SIf (CLt (EVar "l") (EAdd (EVar "offset") (EInt 8)))
SEof)
(SSeq (SPut 8 (EVar "offset") (EAdd (EVar "offset") (EInt 8)) (EFld "TotalVolume"))
(SLet "offset" (EAdd (EVar "offset") (EInt 8))))))
(SSeq (SIf (CHas 2 (EFld "Flags"))
(SSeq (SIf (CLt (EVar "l") (EAdd (EVar "offset") (EInt 8)))
SEof)
(SSeq (SPut 8 (EVar "offset") (EAdd (EVar "offset") (EInt 8)) (EFld "UplinkVolume"))
(SLet "offset" (EAdd (EVar "offset") (EInt 8))))))
(SSeq (SIf (CHas 3 (EFld "Flags"))
(SSeq (SIf (CLt (EVar "l") (EAdd (EVar "offset") (EInt 8)))
SEof)
(SSeq (SPut 8 (EVar "offset") (EAdd (EVar "offset") (EInt 8)) (EFld "DownlinkVolume"))
(SLet "offset" (EAdd (EVar "offset") (EInt 8))))))
(SSeq (SIf (CHas 4 (EFld "Flags"))
(SSeq (SIf (CLt (EVar "l") (EAdd (EVar "offset") (EInt 8)))
SEof)
(SSeq (SPut 8 (EVar "offset") (EAdd (EVar "offset") (EInt 8)) (EFld "TotalNumberOfPackets"))
(SLet "offset" (EAdd (EVar "offset") (EInt 8))))))
(SSeq (SIf (CHas 5 (EFld "Flags"))
(SSeq (SIf (CLt (EVar "l") (EAdd (EVar "offset") (EInt 8)))
SEof)
(SSeq (SPut 8 (EVar "offset") (EAdd (EVar "offset") (EInt 8)) (EFld "UplinkNumberOfPackets"))
(SLet "offset" (EAdd (EVar "offset") (EInt 8))))))
(SSeq (SIf (CHas 6 (EFld "Flags"))
(SSeq (SIf (CLt (EVar "l") (EAdd (EVar "offset") (EInt 8)))
SEof)
(SPut 8 (EVar "offset") (EAdd (EVar "offset") (EInt 8)) (EFld "DownlinkNumberOfPackets"))))
(SRet ENil))))))))))).

(** ie/volume-measurement.go:293-315 *)
Definition go_len_VolumeMeasurement : stmt :=
(SSeq (SLet "l" (EInt 1))
(SSeq (SIf (CHas 1 (EFld "Flags"))
(SLet "l" (EAdd (EVar "l") (EInt 8))))
(SSeq (SIf (CHas 2 (EFld "Flags"))
(SLet "l" (EAdd (EVar "l") (EInt 8))))
(SSeq (SIf (CHas 3 (EFld "Flags"))
(SLet "l" (EAdd (EVar "l") (EInt 8))))
(SSeq (SIf (CHas 4 (EFld "Flags"))
(SLet "l" (EAdd (EVar "l") (EInt 8))))
(SSeq (SIf (CHas 5 (EFld "Flags"))
(SLet "l" (EAdd (EVar "l") (EInt 8))))
(SSeq (SIf (CHas 6 (EFld "Flags"))
(SLet "l" (EAdd (EVar "l") (EInt 8))))
(SRet (EVar "l"))))))))).

(** ie/volume-quota.go:128-161 *)
Definition go_un_VolumeQuota : stmt :=
(SSeq (SLet "l" (ELen EBuf))
(SSeq (SIf (CLt (EVar "l") (EInt 2))
SEof)
(SSeq (SSet "Flags" (EIdx EBuf (EInt 0)))
(SSeq (SLet "offset" (EInt 1))
(SSeq (SIf (CHas 1 (EFld "Flags"))
(SSeq (SIf (CLt (EVar "l") (EAdd (EVar "offset") (EInt 8)))
SEof)
(SSeq (SSet "TotalVolume" (EBE 8 (ESlice EBuf (EVar "offset") (EAdd (EVar "offset") (EInt 8)))))
(SLet "offset" (EAdd (EVar "offset") (EInt 8))))))
(SSeq (SIf (CHas 2 (EFld "Flags"))
(SSeq (SIf (CLt (EVar "l") (EAdd (EVar "offset") (EInt 8)))
SEof)
(SSeq (SSet "UplinkVolume" (EBE 8 (ESlice EBuf (EVar "offset") (EAdd (EVar "offset") (EInt 8)))))
(SLet "offset" (EAdd (EVar "offset") (EInt 8))))))
(SSeq (SIf (CHas 3 (EFld "Flags"))
(SSeq (SIf (CLt (EVar "l") (EAdd (EVar "offset") (EInt 8)))
SEof)
(SSet "DownlinkVolume" (EBE 8 (ESlice EBuf (EVar "offset") (EAdd (EVar "offset") (EInt 8)))))))
(SRet ENil)))))))).

(** ie/volume-quota.go:173-206 *)
Definition go_to_VolumeQuota : stmt :=
(SSeq (SLet "l" (ELen EBuf))
(SSeq (SIf (CLt (EVar "l") (EInt 1))
SEof)
(SSeq (SPutB (EInt 0) (EFld "Flags"))
(SSeq (SLet "offset" (EInt 1))
(SSeq (SIf (CHas 1 (EFld "Flags"))
(SSeq (SIf (CLt (EVar "l") (EAdd (EVar "offset") (EInt 8)))
SEof)
(SSeq (SPut 8 (EVar "offset") (EAdd (EVar "offset") (EInt 8)) (EFld "TotalVolume"))
(SLet "offset" (EAdd (EVar "offset") (EInt 8))))))
(SSeq (SIf (CHas 2 (EFld "Flags"))
(SSeq (SIf (CLt (EVar "l") (EAdd (EVar "offset") (EInt 8)))
SEof)
(SSeq (SPut 8 (EVar "offset") (EAdd (EVar "offset") (EInt 8)) (EFld "UplinkVolume"))
(SLet "offset" (EAdd (EVar "offset") (EInt 8))))))
(SSeq (SIf (CHas 3 (EFld "Flags"))
(SSeq (SIf (CLt (EVar "l") (EAdd (EVar "offset") (EInt 8)))
SEof)
(SPut 8 (EVar "offset") (EAdd (EVar "offset") (EInt 8)) (EFld "DownlinkVolume"))))
(SRet ENil)))))))).

(** ie/volume-quota.go:209-222 *)
Definition go_len_VolumeQuota : stmt :=
(SSeq (SLet "l" (EInt 1))
(SSeq (SIf (CHas 1 (EFld "Flags"))
(SLet "l" (EAdd (EVar "l") (EInt 8))))
(SSeq (SIf (CHas 2 (EFld "Flags"))
(SLet "l" (EAdd (EVar "l") (EInt 8))))
(SSeq (SIf (CHas 3 (EFld "Flags"))
(SLet "l" (EAdd (EVar "l") (EInt 8))))
(SRet (EVar "l")))))).

(** ie/volume-threshold.go:128-161 *)
Definition go_un_VolumeThreshold : stmt :=
(SSeq (SLet "l" (ELen EBuf))
(SSeq (SIf (CLt (EVar "l") (EInt 2))
SEof)
(SSeq (SSet "Flags" (EIdx EBuf (EInt 0)))
(SSeq (SLet "offset" (EInt 1))
(SSeq (SIf (CHas 1 (EFld "Flags"))
(SSeq (SIf (CLt (EVar "l") (EAdd (EVar "offset") (EInt 8)))
SEof)
(SSeq (SSet "TotalVolume" (EBE 8 (ESlice EBuf (EVar "offset") (EAdd (EVar "offset") (EInt 8)))))
(SLet "offset" (EAdd (EVar "offset") (EInt 8))))))
(SSeq (SIf (CHas 2 (EFld "Flags"))
(SSeq (SIf (CLt (EVar "l") (EAdd (EVar "offset") (EInt 8)))
SEof)
(SSeq (SSet "UplinkVolume" (EBE 8 (ESlice EBuf (EVar "offset") (EAdd (EVar "offset") (EInt 8)))))
(SLet "offset" (EAdd (EVar "offset") (EInt 8))))))
(SSeq (SIf (CHas 3 (EFld "Flags"))
(SSeq (SIf (CLt (EVar "l") (EAdd (EVar "offset") (EInt 8)))
SEof)
(SSet "DownlinkVolume" (EBE 8 (ESlice EBuf (EVar "offset") (EAdd (EVar "offset") (EInt 8)))))))
(SRet ENil)))))))).

(** ie/volume-threshold.go:173-206 *)
Definition go_to_VolumeThreshold : stmt :=
(SSeq (SLet "l" (ELen EBuf))
(SSeq (SIf (CLt (EVar "l") (EInt 1))
SEof)
(SSeq (SPutB (EInt 0) (EFld "Flags"))
(SSeq (SLet "offset" (EInt 1))
(SSeq (SIf (CHas 1 (EFld "Flags"))
(SSeq (SIf (CLt (EVar "l") (EAdd (EVar "offset") (EInt 8)))
SEof)
(SSeq (SPut 8 (EVar "offset") (EAdd (EVar "offset") (EInt 8)) (EFld "TotalVolume"))
(SLet "offset" (EAdd (EVar "offset") (EInt 8))))))
(SSeq (SIf (CHas 2 (EFld "Flags"))
(SSeq (SIf (CLt (EVar "l") (EAdd (EVar "offset") (EInt 8)))
SEof)
(SSeq (SPut 8 (EVar "offset") (EAdd (EVar "offset") (EInt 8)) (EFld "UplinkVolume"))
(SLet "offset" (EAdd (EVar "offset") (EInt 8))))))
(SSeq (SIf (CHas 3 (EFld "Flags"))
(SSeq (SIf (CLt (EVar "l") (EAdd (EVar "offset") (EInt 8)))
SEof)
(SPut 8 (EVar "offset") (EAdd (EVar "offset") (EInt 8)) (EFld "DownlinkVolume"))))
(SRet ENil)))))))).

(** ie/volume-threshold.go:209-222 *)
Definition go_len_VolumeThreshold : stmt :=
(SSeq (SLet "l" (EInt 1))
(SSeq (SIf (CHas 1 (EFld "Flags"))
(SLet "l" (EAdd (EVar "l") (EInt 8))))
(SSeq (SIf (CHas 2 (EFld "Flags"))
(SLet "l" (EAdd (EVar "l") (EInt 8))))
(SSeq (SIf (CHas 3 (EFld "Flags"))
(SLet "l" (EAdd (EVar "l") (EInt 8))))
(SRet (EVar "l")))))).

(** (f *XxxFields) UnmarshalBinary *)
Definition go_un (k : fkind) : stmt :=
  match k with
  | K_AlternativeSMFIPAddress => go_un_AlternativeSMFIPAddress
  | K_CPPFCPEntityIPAddress => go_un_CPPFCPEntityIPAddress
  | K_CTAG => go_un_CTAG
  | K_DLFlowLevelMarking => go_un_DLFlowLevelMarking
  | K_FSEID => go_un_FSEID
  | K_FTEID => go_un_FTEID
  | K_HeaderEnrichment => go_un_HeaderEnrichment
  | K_IPMulticastAddress => go_un_IPMulticastAddress
  | K_MACAddress => go_un_MACAddress
  | K_MACAddressesDetected => go_un_MACAddressesDetected
  | K_MACAddressesRemoved => go_un_MACAddressesRemoved
  | K_MPTCPAddressInformation => go_un_MPTCPAddressInformation
  | K_NumberOfUEIPAddresses => go_un_NumberOfUEIPAddresses
  | K_OuterHeaderCreation => go_un_OuterHeaderCreation
  | K_PFDContents => go_un_PFDContents
  | K_PMFAddressInformation => go_un_PMFAddressInformation
  | K_PacketDelayThresholds => go_un_PacketDelayThresholds
  | K_PacketRate => go_un_PacketRate
  | K_PacketRateStatus => go_un_PacketRateStatus
  | K_QoSMonitoringMeasurement => go_un_QoSMonitoringMeasurement
  | K_RedirectInformation => go_un_RedirectInformation
  | K_RemoteGTPUPeer => go_un_RemoteGTPUPeer
  | K_SDFFilter => go_un_SDFFilter
  | K_STAG => go_un_STAG
  | K_SourceIPAddress => go_un_SourceIPAddress
  | K_SubsequentVolumeQuota => go_un_SubsequentVolumeQuota
  | K_SubsequentVolumeThreshold => go_un_SubsequentVolumeThreshold
  | K_TraceInformation => go_un_TraceInformation
  | K_UEIPAddress => go_un_UEIPAddress
  | K_UELinkSpecificIPAddress => go_un_UELinkSpecificIPAddress
  | K_UserID => go_un_UserID
  | K_UserPlaneIPResourceInformation => go_un_UserPlaneIPResourceInformation
  | K_VolumeMeasurement => go_un_VolumeMeasurement
  | K_VolumeQuota => go_un_VolumeQuota
  | K_VolumeThreshold => go_un_VolumeThreshold
  end.
(** (f *XxxFields) MarshalTo *)
Definition go_to (k : fkind) : stmt :=
  match k with
  | K_AlternativeSMFIPAddress => go_to_AlternativeSMFIPAddress
  | K_CPPFCPEntityIPAddress => go_to_CPPFCPEntityIPAddress
  | K_CTAG => go_to_CTAG
  | K_DLFlowLevelMarking => go_to_DLFlowLevelMarking
  | K_FSEID => go_to_FSEID
  | K_FTEID => go_to_FTEID
  | K_HeaderEnrichment => go_to_HeaderEnrichment
  | K_IPMulticastAddress => go_to_IPMulticastAddress
  | K_MACAddress => go_to_MACAddress
  | K_MACAddressesDetected => go_to_MACAddressesDetected
  | K_MACAddressesRemoved => go_to_MACAddressesRemoved
  | K_MPTCPAddressInformation => go_to_MPTCPAddressInformation
  | K_NumberOfUEIPAddresses => go_to_NumberOfUEIPAddresses
  | K_OuterHeaderCreation => go_to_OuterHeaderCreation
  | K_PFDContents => go_to_PFDContents
  | K_PMFAddressInformation => go_to_PMFAddressInformation
  | K_PacketDelayThresholds => go_to_PacketDelayThresholds
  | K_PacketRate => go_to_PacketRate
  | K_PacketRateStatus => go_to_PacketRateStatus
  | K_QoSMonitoringMeasurement => go_to_QoSMonitoringMeasurement
  | K_RedirectInformation => go_to_RedirectInformation
  | K_RemoteGTPUPeer => go_to_RemoteGTPUPeer
  | K_SDFFilter => go_to_SDFFilter
  | K_STAG => go_to_STAG
  | K_SourceIPAddress => go_to_SourceIPAddress
  | K_SubsequentVolumeQuota => go_to_SubsequentVolumeQuota
  | K_SubsequentVolumeThreshold => go_to_SubsequentVolumeThreshold
  | K_TraceInformation => go_to_TraceInformation
  | K_UEIPAddress => go_to_UEIPAddress
  | K_UELinkSpecificIPAddress => go_to_UELinkSpecificIPAddress
  | K_UserID => go_to_UserID
  | K_UserPlaneIPResourceInformation => go_to_UserPlaneIPResourceInformation
  | K_VolumeMeasurement => go_to_VolumeMeasurement
  | K_VolumeQuota => go_to_VolumeQuota
  | K_VolumeThreshold => go_to_VolumeThreshold
  end.
(** (f *XxxFields) MarshalLen *)
Definition go_len (k : fkind) : stmt :=
  match k with
  | K_AlternativeSMFIPAddress => go_len_AlternativeSMFIPAddress
  | K_CPPFCPEntityIPAddress => go_len_CPPFCPEntityIPAddress
  | K_CTAG => go_len_CTAG
  | K_DLFlowLevelMarking => go_len_DLFlowLevelMarking
  | K_FSEID => go_len_FSEID
  | K_FTEID => go_len_FTEID
  | K_HeaderEnrichment => go_len_HeaderEnrichment
  | K_IPMulticastAddress => go_len_IPMulticastAddress
  | K_MACAddress => go_len_MACAddress
  | K_MACAddressesDetected => go_len_MACAddressesDetected
  | K_MACAddressesRemoved => go_len_MACAddressesRemoved
  | K_MPTCPAddressInformation => go_len_MPTCPAddressInformation
  | K_NumberOfUEIPAddresses => go_len_NumberOfUEIPAddresses
  | K_OuterHeaderCreation => go_len_OuterHeaderCreation
  | K_PFDContents => go_len_PFDContents
  | K_PMFAddressInformation => go_len_PMFAddressInformation
  | K_PacketDelayThresholds => go_len_PacketDelayThresholds
  | K_PacketRate => go_len_PacketRate
  | K_PacketRateStatus => go_len_PacketRateStatus
  | K_QoSMonitoringMeasurement => go_len_QoSMonitoringMeasurement
  | K_RedirectInformation => go_len_RedirectInformation
  | K_RemoteGTPUPeer => go_len_RemoteGTPUPeer
  | K_SDFFilter => go_len_SDFFilter
  | K_STAG => go_len_STAG
  | K_SourceIPAddress => go_len_SourceIPAddress
  | K_SubsequentVolumeQuota => go_len_SubsequentVolumeQuota
  | K_SubsequentVolumeThreshold => go_len_SubsequentVolumeThreshold
  | K_TraceInformation => go_len_TraceInformation
  | K_UEIPAddress => go_len_UEIPAddress
  | K_UELinkSpecificIPAddress => go_len_UELinkSpecificIPAddress
  | K_UserID => go_len_UserID
  | K_UserPlaneIPResourceInformation => go_len_UserPlaneIPResourceInformation
  | K_VolumeMeasurement => go_len_VolumeMeasurement
  | K_VolumeQuota => go_len_VolumeQuota
  | K_VolumeThreshold => go_len_VolumeThreshold
  end.
