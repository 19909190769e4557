(** C104, C105: the text of the methods of the XxxFields structs. [go_un k], [go_to k] and [go_len k] are the bodies of
    UnmarshalBinary, MarshalTo and MarshalLen of the type k, statement by statement as in the source (GoFields); [call]
    runs one of them on a struct and an argument and gives what is left and what is returned (Go). *)
From Coq Require Import String.
From Verif Require Import Base Bits Codec Codec2 Utils Fields1 Time Fields2 Fields3 Fields4 Access Reuse ReuseProofs ReuseProofs2 ReuseProofs3 AnySpec AnyProofs.
From Verif Require Import Go GoFields GoRep GoProofs GoUn1 GoUn2 GoUn3 GoUn4 GoLen GoTo GoTo1 GoTo2 GoTo3 GoMeta.
Set Implicit Arguments.
Open Scope string_scope.
Open Scope list_scope.
Open Scope nat_scope.

(** the members of Go type uint8 of which MarshalTo uses more than the low octet are octets *)
Definition octet_members (f : fields) : Prop :=
  match f with
  | F_ueip f => (ue_v6d f < 256 /\ ue_v6pl f < 256)%N
  | F_prate f => (pr_uunit f < 256 /\ pr_dunit f < 256)%N
  | F_upri f => (up_range f < 256 /\ up_si f < 256)%N
  | _ => True
  end.

Local Lemma lift_un {A} (rp : A -> store) (k : fkind) (w : A -> fields) b o (r : res A) :
  (forall y, rep k (w y) = Some (rp y)) -> un_agrees rp b o r ->
  match (x <- r ;; Ok (w x)) with
  | Ok g => snd o = Ok GNil /\ rep k g = Some (flds (fst o)) /\ buf (fst o) = b
  | Err e => snd o = Err e | Fault => snd o = Fault | Fuel => snd o = Fuel
  end.
Proof. intros E. destruct r; cbn [bind un_agrees]; auto. intros (H1 & H2 & H3). rewrite E, H2. auto. Qed.

(** UnmarshalBinary: the statements of the source, run on any struct and any argument, return what the functions of the model
    return; on success the struct left is the one of the model, member by member *)
Theorem C104_unmarshal : forall k f F b n, rep k f = Some F -> List.length b < n ->
  let o := call n (go_un k) F b in
  match unmarshal f b with
  | Ok g => snd o = Ok GNil /\ rep k g = Some (flds (fst o)) /\ buf (fst o) = b
  | Err e => snd o = Err e
  | Fault => snd o = Fault
  | Fuel => snd o = Fuel
  end.
Proof.
  intros k f F b n E L. cbv zeta. destruct k, f; try discriminate E; cbn [rep] in E; injection E as <-; cbn [unmarshal go_un];
    match goal with |- match (x <- _ ;; Ok (?w x)) with _ => _ end => eapply (@lift_un _ _ _ w); [intros y; reflexivity|] end;
    first [ apply un_AlternativeSMFIPAddress | apply un_CPPFCPEntityIPAddress | apply un_CTAG | apply un_STAG | apply un_DLFlowLevelMarking
    | apply un_FSEID | apply un_FTEID | apply un_HeaderEnrichment | apply un_IPMulticastAddress | apply un_MACAddress
    | now apply un_MACAddressesDetected | now apply un_MACAddressesRemoved | apply un_MPTCPAddressInformation | apply un_NumberOfUEIPAddresses
    | apply un_OuterHeaderCreation | now apply un_PFDContents | apply un_PMFAddressInformation | apply un_PacketDelayThresholds | apply un_PacketRate
    | apply un_PacketRateStatus | apply un_QoSMonitoringMeasurement | apply un_RedirectInformation | apply un_RemoteGTPUPeer | apply un_SDFFilter
    | apply un_SourceIPAddress | apply un_SubsequentVolumeQuota | apply un_SubsequentVolumeThreshold | apply un_TraceInformation | apply un_UEIPAddress
    | apply un_UELinkSpecificIPAddress | apply un_UserID | apply un_UserPlaneIPResourceInformation | apply un_VolumeMeasurement | apply un_VolumeQuota
    | apply un_VolumeThreshold ].
Qed.
Print Assumptions C104_unmarshal.

(** MarshalLen: the statements of the source return the length of the model, whatever the members *)
Theorem C104_marshal_len : forall k f F b n, rep k f = Some F -> snd (call n (go_len k) F b) = Ok (GI (marshal_len_fields f)).
Proof.
  intros k f F b n E. destruct k, f; try discriminate E; cbn [rep] in E; injection E as <-; cbn [marshal_len_fields go_len];
    first [ apply len_AlternativeSMFIPAddress | apply len_CPPFCPEntityIPAddress | apply len_CTAG | apply len_STAG | apply len_DLFlowLevelMarking
    | apply len_FSEID | apply len_FTEID | apply len_HeaderEnrichment | apply len_IPMulticastAddress | apply len_MACAddress
    | apply len_MACAddressesDetected | apply len_MACAddressesRemoved | apply len_MPTCPAddressInformation | apply len_NumberOfUEIPAddresses
    | apply len_OuterHeaderCreation | apply len_PFDContents | apply len_PMFAddressInformation | apply len_PacketDelayThresholds | apply len_PacketRate
    | apply len_PacketRateStatus | apply len_QoSMonitoringMeasurement | apply len_RedirectInformation | apply len_RemoteGTPUPeer | apply len_SDFFilter
    | apply len_SourceIPAddress | apply len_SubsequentVolumeQuota | apply len_SubsequentVolumeThreshold | apply len_TraceInformation | apply len_UEIPAddress
    | apply len_UELinkSpecificIPAddress | apply len_UserID | apply len_UserPlaneIPResourceInformation | apply len_VolumeMeasurement | apply len_VolumeQuota
    | apply len_VolumeThreshold ].
Qed.
Print Assumptions C104_marshal_len.

(** MarshalTo, into an argument of any length and any content *)
Theorem C104_marshal_to : forall k f F b n, rep k f = Some F -> octet_members f ->
  let o := call n (go_to k) F b in
  match marshal_to_fields f b with
  | Ok c => snd o = Ok GNil /\ buf (fst o) = c
  | Err e => snd o = Err e
  | Fault => snd o = Fault
  | Fuel => snd o = Fuel
  end.
Proof.
  intros k f F b n E M. cbv zeta. destruct k, f; try discriminate E; cbn [rep] in E; injection E as <-; cbn [marshal_to_fields go_to octet_members] in *;
    first [ apply to_AlternativeSMFIPAddress | apply to_CPPFCPEntityIPAddress | apply to_CTAG | apply to_STAG | apply to_DLFlowLevelMarking
    | apply to_FSEID | apply to_FTEID | apply to_HeaderEnrichment | apply to_IPMulticastAddress | apply to_MACAddress
    | apply to_MACAddressesDetected | apply to_MACAddressesRemoved | apply to_MPTCPAddressInformation | apply to_NumberOfUEIPAddresses
    | apply to_OuterHeaderCreation | apply to_PFDContents | apply to_PMFAddressInformation | apply to_PacketDelayThresholds | apply (to_PacketRate n b f (proj1 M) (proj2 M))
    | apply to_PacketRateStatus | apply to_QoSMonitoringMeasurement | apply to_RedirectInformation | apply to_RemoteGTPUPeer | apply to_SDFFilter
    | apply to_SourceIPAddress | apply to_SubsequentVolumeQuota | apply to_SubsequentVolumeThreshold | apply to_TraceInformation | apply (to_UEIPAddress n b f (proj1 M) (proj2 M))
    | apply to_UELinkSpecificIPAddress | apply to_UserID | apply (to_UserPlaneIPResourceInformation n b f (proj1 M) (proj2 M)) | apply to_VolumeMeasurement | apply to_VolumeQuota
    | apply to_VolumeThreshold ].
Qed.
Print Assumptions C104_marshal_to.

(** Marshal: b := make([]byte, f.MarshalLen()); if err := f.MarshalTo(b); err != nil { return nil, err }; return b, nil *)
Definition go_marshal (n : nat) (k : fkind) (F : store) : res (list N) :=
  match snd (call n (go_len k) F []) with
  | Ok (GI l) => let o := call n (go_to k) F (make l) in _ <- snd o ;; Ok (buf (fst o))
  | Ok _ => Fault
  | Err e => Err e
  | Fault => Fault
  | Fuel => Fuel
  end.
Local Lemma marshal_is f : marshal_fields f = marshal_to_fields f (make (marshal_len_fields f)).
Proof. destruct f; reflexivity. Qed.
Theorem C104_marshal : forall k f F n, rep k f = Some F -> octet_members f -> go_marshal n k F = marshal_fields f.
Proof.
  intros k f F n E M. unfold go_marshal. rewrite (C104_marshal_len k f [] n E), marshal_is. cbv zeta.
  pose proof (C104_marshal_to k f (make (marshal_len_fields f)) n E M) as H. cbv zeta in H.
  destruct (marshal_to_fields f (make (marshal_len_fields f))); [destruct H as [-> ->]|rewrite H|rewrite H|rewrite H]; reflexivity.
Qed.
Print Assumptions C104_marshal.

(** ParseXxxFields: new struct, UnmarshalBinary. It always ends, with len(b) + 1 turns of a loop at most. *)
Theorem C104_parse : forall k b n, List.length b < n -> exists F, rep k (fzero k) = Some F /\
  match fparse k b with
  | Ok (VF g) => snd (call n (go_un k) F b) = Ok GNil /\ rep k g = Some (flds (fst (call n (go_un k) F b)))
  | Ok _ => False
  | Err e => snd (call n (go_un k) F b) = Err e
  | Fault => snd (call n (go_un k) F b) = Fault
  | Fuel => snd (call n (go_un k) F b) = Fuel
  end.
Proof.
  intros k b n L. assert (exists F, rep k (fzero k) = Some F) as [F E] by (destruct k; eexists; reflexivity).
  exists F. split; [exact E|]. rewrite (unmarshal_fresh k b). pose proof (C104_unmarshal k (fzero k) b E L) as H. cbv zeta in H.
  destruct (unmarshal (fzero k) b); cbn [bind]; tauto.
Qed.
Print Assumptions C104_parse.

(** C105: whichever way the methods end, with nil, an error or a panic, on any struct and any argument whatever: UnmarshalBinary
    does not write to its argument; MarshalTo does not assign to a member of the struct, nor change the length of the argument;
    MarshalLen does neither. No hypothesis: the store need not even be one of that type. *)
Theorem C105_argument : forall k F b n, buf (fst (call n (go_un k) F b)) = b.
Proof. intros. rewrite call_end, no_put_keeps; [reflexivity|apply go_un_no_put]. Qed.
Print Assumptions C105_argument.
Theorem C105_struct : forall k F b n, flds (fst (call n (go_to k) F b)) = F /\ List.length (buf (fst (call n (go_to k) F b))) = List.length b.
Proof. intros. rewrite call_end. split; [rewrite no_set_keeps; [reflexivity|apply go_to_no_set]|now rewrite buf_length]. Qed.
Print Assumptions C105_struct.
Theorem C105_length_method : forall k F b n, flds (fst (call n (go_len k) F b)) = F /\ buf (fst (call n (go_len k) F b)) = b.
Proof. intros. rewrite call_end. destruct (go_len_pure k) as [H1 H2]. split; [rewrite no_set_keeps|rewrite no_put_keeps]; auto. Qed.
Print Assumptions C105_length_method.

(** * Cases *)
(** an F-TEID with an IPv4 address, decoded by the statements of the source from 9 octets *)
Example C104_case_fteid : let o := call 10 (go_un K_FTEID) (rep_fteid fteid0) [1; 17; 34; 51; 68; 127; 0; 0; 1]%N in
  snd o = Ok GNil /\ look "TEID" (flds (fst o)) = Some (GN 287454020) /\ look "IPv4Address" (flds (fst o)) = Some (GB (Some [127; 0; 0; 1]%N)).
Proof. repeat split. Qed.
(** the same cut after 7 octets: an error, and the struct left has the TEID already and no address (C105 does not say it is untouched) *)
Example C104_case_cut : let o := call 10 (go_un K_FTEID) (rep_fteid fteid0) [1; 17; 34; 51; 68; 127; 0]%N in
  snd o = Err EUnexpectedEOF /\ look "TEID" (flds (fst o)) = Some (GN 287454020) /\ look "IPv4Address" (flds (fst o)) = Some (GB None).
Proof. repeat split. Qed.
