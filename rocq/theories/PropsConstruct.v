(** C87: the arguments of the structured constructors, as the accessor of the same name returns them. *)
From Coq Require Import Floats.SpecFloat.
From Verif Require Import Base IETypes IE Codec Codec2 Utils Time Fields1 Fields2 Fields3 Fields4 FieldsSpec4 Access AccTable AccRun New NewTable NewRun NewProofs2 NewProofs3 Construct ConstructProofs.
Set Implicit Arguments.

(** every structured constructor (35 of them) and all suited arguments *)
Theorem C87_structured g beyond c k a r : calls g beyond c (SFields k) a r -> suited k a ->
  exists i v, r = Ok (Some i) /\ reads k a v /\ access g (con_reader c) i = (f <- v ;; Ok (VF f)).
Proof.
  intros C S. destruct (@back_all k a S) as (f & p & v & N & M & R & P).
  assert (E : r = Ok (Some (new (match con_type c with Some t => t | None => 0%N end) p))).
  { destruct C as [_ <-]. cbn [make_ie build]. rewrite N. cbn [bind]. rewrite M. reflexivity. }
  subst r. destruct (read_fields C) as (f' & p' & N' & M' & _ & Q). assert (f' = f) by congruence. subst f'. assert (p' = p) by congruence. subst p'.
  eexists _, v. split; [reflexivity|]. split; [exact R|]. rewrite Q. exact P.
Qed.
Print Assumptions C87_structured.
(** what is returned is determined by the arguments *)
Theorem C87_determined k a v v' : k <> K_PFDContents -> reads k a v -> reads k a v' -> v = v'.
Proof.
  intros N. destruct k; cbn [fargs] in a; repeat match goal with x : (_ * _)%type |- _ => destruct x end; cbn [reads]; try congruence.
  destruct l as [|[|x l] l']; [contradiction|congruence|congruence].
Qed.
Print Assumptions C87_determined.
(** every kind has its constructor, and no other constructor has a structured payload *)
Definition con_of (k : fkind) : con :=
  match k with
  | K_AlternativeSMFIPAddress => N_AlternativeSMFIPAddress
  | K_CPPFCPEntityIPAddress => N_CPPFCPEntityIPAddress
  | K_CTAG => N_CTAG
  | K_STAG => N_STAG
  | K_DLFlowLevelMarking => N_DLFlowLevelMarking
  | K_FSEID => N_FSEID
  | K_FTEID => N_FTEID
  | K_HeaderEnrichment => N_HeaderEnrichment
  | K_IPMulticastAddress => N_IPMulticastAddress
  | K_MACAddressesDetected => N_MACAddressesDetected
  | K_MACAddressesRemoved => N_MACAddressesRemoved
  | K_MACAddress => N_MACAddress
  | K_MPTCPAddressInformation => N_MPTCPAddressInformation
  | K_NumberOfUEIPAddresses => N_NumberOfUEIPAddresses
  | K_OuterHeaderCreation => N_OuterHeaderCreation
  | K_PacketDelayThresholds => N_PacketDelayThresholds
  | K_PacketRateStatus => N_PacketRateStatus
  | K_PacketRate => N_PacketRate
  | K_PFDContents => N_PFDContents
  | K_PMFAddressInformation => N_PMFAddressInformation
  | K_QoSMonitoringMeasurement => N_QoSMonitoringMeasurement
  | K_RedirectInformation => N_RedirectInformation
  | K_RemoteGTPUPeer => N_RemoteGTPUPeer
  | K_SDFFilter => N_SDFFilter
  | K_SourceIPAddress => N_SourceIPAddress
  | K_SubsequentVolumeQuota => N_SubsequentVolumeQuota
  | K_SubsequentVolumeThreshold => N_SubsequentVolumeThreshold
  | K_TraceInformation => N_TraceInformation
  | K_UEIPAddress => N_UEIPAddress
  | K_UELinkSpecificIPAddress => N_UELinkSpecificIPAddress
  | K_UserID => N_UserID
  | K_UserPlaneIPResourceInformation => N_UserPlaneIPResourceInformation
  | K_VolumeMeasurement => N_VolumeMeasurement
  | K_VolumeQuota => N_VolumeQuota
  | K_VolumeThreshold => N_VolumeThreshold
  end.
Theorem C87_kinds k : con_shape (con_of k) = SFields k /\ forall c, con_shape c = SFields k -> c = con_of k.
Proof. split; [destruct k; reflexivity|]. intros c. destruct c; try discriminate; intros [= <-]; reflexivity. Qed.
Print Assumptions C87_kinds.
Lemma ok_bytes (l : list N) : forallb (fun x => x <? 256)%N l = true -> bytes l.
Proof. intros H. apply Forall_forall. intros x I. apply N.ltb_lt. exact (proj1 (forallb_forall _ _) H x I). Qed.
(** NewFTEID(0x01, 0x11223344, 127.0.0.1, nil, 0) *)
Example C87_ex_fteid g beyond : suited K_FTEID (1, 0x11223344, Some [127; 0; 0; 1], None, 0)%N /\
  exists i, calls g beyond N_FTEID (SFields K_FTEID) (1, 0x11223344, Some [127; 0; 0; 1], None, 0)%N (Ok (Some i)) /\ payload i = [1; 0x11; 0x22; 0x33; 0x44; 127; 0; 0; 1]%N /\
  access g (con_reader N_FTEID) i = Ok (VF (F_fteid {| ft_flags := 1; ft_teid := 0x11223344; ft_v4 := Some [127; 0; 0; 1]%N; ft_v6 := None; ft_chid := 0 |})).
Proof.
  split.
  - cbn [suited]. repeat split; try reflexivity; try (intros; discriminate). { eexists. reflexivity. } apply ok_bytes. reflexivity.
  - eexists. split; [split; reflexivity|]. split; reflexivity.
Qed.
(** NewCTAG with a VLAN identifier of 0x123: the accessor returns 0x1023 *)
Example C87_ex_ctag g beyond : suited K_CTAG (7, 3, 1, 0x123)%N /\
  exists i, calls g beyond N_CTAG (SFields K_CTAG) (7, 3, 1, 0x123)%N (Ok (Some i)) /\ access g (con_reader N_CTAG) i = Ok (VF (F_tag {| tg_flags := 7; tg_pcp := 3; tg_dei := 1; tg_vid := 0x1023 |})).
Proof. split; [repeat split; reflexivity|]. eexists. split; [split; reflexivity|]. reflexivity. Qed.
(** NewSDFFilter("ab", "", "", "", 9) and NewPFDContents("ab", "", "", "", "", nil, nil, {"x"}) *)
Example C87_ex_texts g beyond : suited K_SDFFilter ([97; 98], [], [], [], 9)%N /\ suited K_PFDContents ([97; 98], [], [], [], [], [], [], [[120]])%N /\
  exists i, calls g beyond N_SDFFilter (SFields K_SDFFilter) ([97; 98], [], [], [], 9)%N (Ok (Some i)) /\
  access g (con_reader N_SDFFilter) i = Ok (VF (F_sdf {| sd_flags := 17; sd_fdlen := 2; sd_fd := [97; 98]%N; sd_ttc := []; sd_spi := []; sd_fl := []; sd_fid := 9 |})).
Proof.
  split; [|split].
  - cbn [suited]. repeat split; try reflexivity; try (cbn; auto; fail). apply ok_bytes. reflexivity.
  - cbn [suited]. split; repeat constructor; reflexivity.
  - eexists. split; [split; reflexivity|]. reflexivity.
Qed.
(** NewUserID with a 15-digit IMSI *)
Example C87_ex_userid g beyond : let imsi := [48; 48; 49; 48; 49; 49; 50; 51; 52; 53; 54; 55; 56; 57; 48]%N in suited K_UserID (1, imsi, [], [], [])%N /\
  exists i, calls g beyond N_UserID (SFields K_UserID) (1, imsi, [], [], [])%N (Ok (Some i)) /\
  access g (con_reader N_UserID) i = Ok (VF (F_userid {| ui_flags := 1; ui_imsilen := 8; ui_imsi := imsi; ui_imeilen := 0; ui_imei := []; ui_msisdnlen := 0; ui_msisdn := []; ui_nailen := 0; ui_nai := [] |})).
Proof.
  split.
  - cbn [suited]. split; [reflexivity|]. split; [|discriminate]. intros j s [E|[E|[E|[]]]]; injection E as <- <-; try discriminate. intros _. split; [|discriminate].
    repeat (constructor; [left; split; discriminate|]). constructor.
  - eexists. split; [split; reflexivity|]. vm_compute. reflexivity.
Qed.
