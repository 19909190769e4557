(** Kinds of results and panics of the accessors. *)
From Verif Require Import Base IETypes IE IEProofs IEProofs2 Codec Fields1 Fields2 Fields3 Fields4 Access AccTable AccRun AccProofs AccProofs2.
Set Implicit Arguments.

(** * The result has the type announced in the Go signature *)
Definition fkind_of (k : fkind) (f : fields) : bool :=
  match k, f with
  | (K_AlternativeSMFIPAddress | K_CPPFCPEntityIPAddress), F_altip _ | (K_CTAG | K_STAG), F_tag _ | K_DLFlowLevelMarking, F_dlfl _ | K_FSEID, F_fseid _
  | K_FTEID, F_fteid _ | K_HeaderEnrichment, F_henr _ | K_IPMulticastAddress, F_mcast _ | (K_MACAddressesDetected | K_MACAddressesRemoved), F_macl _
  | K_MACAddress, F_macaddr _ | K_MPTCPAddressInformation, F_mptcp _ | K_NumberOfUEIPAddresses, F_nue _ | K_OuterHeaderCreation, F_ohc _
  | (K_PacketDelayThresholds | K_QoSMonitoringMeasurement), F_delays _ | K_PacketRateStatus, F_prstat _ | K_PacketRate, F_prate _
  | K_PFDContents, F_pfdc _ | K_PMFAddressInformation, F_pmf _ | K_RedirectInformation, F_redir _ | K_RemoteGTPUPeer, F_rpeer _
  | K_SDFFilter, F_sdf _ | K_SourceIPAddress, F_srcip _ | (K_SubsequentVolumeQuota | K_SubsequentVolumeThreshold | K_VolumeQuota | K_VolumeThreshold), F_vol3 _
  | K_TraceInformation, F_trace _ | K_UEIPAddress, F_ueip _ | K_UELinkSpecificIPAddress, F_ulip _ | K_UserID, F_userid _
  | K_UserPlaneIPResourceInformation, F_upri _ | K_VolumeMeasurement, F_volm _ => true
  | _, _ => false
  end.
Definition has_kind (k : kind) (v : val) : bool :=
  match k, v with
  | KN, VN _ | KNN, VNN _ _ | KNs, VNs _ | KB, VB _ | KS, VS _ | KNode, VNode _ | KIEs, VIEs _ | KT, VT _ | KD, VD _ => true
  | KF k, VF f => fkind_of k f
  | _, _ => false
  end.
Definition fk_id (k : fkind) : N :=
  match k with
  | K_AlternativeSMFIPAddress => 0 | K_CPPFCPEntityIPAddress => 1 | K_CTAG => 2 | K_STAG => 3 | K_DLFlowLevelMarking => 4 | K_FSEID => 5 | K_FTEID => 6
  | K_HeaderEnrichment => 7 | K_IPMulticastAddress => 8 | K_MACAddressesDetected => 9 | K_MACAddressesRemoved => 10 | K_MACAddress => 11
  | K_MPTCPAddressInformation => 12 | K_NumberOfUEIPAddresses => 13 | K_OuterHeaderCreation => 14 | K_PacketDelayThresholds => 15
  | K_PacketRateStatus => 16 | K_PacketRate => 17 | K_PFDContents => 18 | K_PMFAddressInformation => 19 | K_QoSMonitoringMeasurement => 20
  | K_RedirectInformation => 21 | K_RemoteGTPUPeer => 22 | K_SDFFilter => 23 | K_SourceIPAddress => 24 | K_SubsequentVolumeQuota => 25
  | K_SubsequentVolumeThreshold => 26 | K_TraceInformation => 27 | K_UEIPAddress => 28 | K_UELinkSpecificIPAddress => 29 | K_UserID => 30
  | K_UserPlaneIPResourceInformation => 31 | K_VolumeMeasurement => 32 | K_VolumeQuota => 33 | K_VolumeThreshold => 34
  end.
Definition kind_id (k : kind) : N :=
  match k with KN => 0 | KNN => 1 | KNs => 2 | KB => 3 | KS => 4 | KNode => 5 | KIEs => 6 | KT => 7 | KD => 8 | KF k => 9 + fk_id k end.
Lemma fk_id_inj k k' : fk_id k = fk_id k' -> k = k'.
Proof. destruct k, k'; intros E; try reflexivity; discriminate E. Qed.
Lemma kind_id_inj k k' : kind_id k = kind_id k' -> k = k'.
Proof.
  destruct k as [ | | | | | | | | |f], k' as [ | | | | | | | | |f']; cbn [kind_id]; intros E; try reflexivity; try (exfalso; lia).
  all: try (f_equal; apply fk_id_inj; lia).
Qed.
Definition keq (k k' : kind) : bool := (kind_id k =? kind_id k')%N.
Lemma keq_eq k k' : keq k k' = true -> k = k'.
Proof. intros E. apply kind_id_inj. now apply N.eqb_eq. Qed.

Definition leaf_kind (l : leaf) : option kind :=
  match l with
  | LUint _ | LAuri | LSuggestedCount | LPPI | LFailedRuleID | LFlowDirection | LNodeIDType | LExponent | LPPIndicator | LQFI | LTGPPInterface => Some KN
  | LString | LFQDN | LFlowDescription => Some KS
  | LTime => Some KT
  | LPayload | LApplyAction | LNodeAddress | LNFInstanceID | LSNSSAI | LTSNBridgeID => Some KB
  | LChildren => Some KIEs
  | LFields k => Some (KF k)
  | LSecs32 | LMillis32 | LNanos64 | LSecs16 | LTimer | LOctet50ms => Some KD
  | LCSIDs => Some KNs
  | LNodeID => Some KNode
  | LFail _ | LInvalid => None
  end.
(** argument and result kinds *)
Definition post_kind (f : post) (k : kind) : option kind :=
  match f, k with
  | PBits _ _, KN => Some KN
  | PGateULDL, KN => Some KNN
  | PU40 _ _, KB | PIndex0, KB | PIndex1, KB | PSD, KB => Some KN
  | PPolicyID, KB | PPoolID, KB => Some KS
  | POwnFQDN, KS => Some KS
  | PCTag, (KF K_MACAddressesDetected | KF K_MACAddressesRemoved) => Some (KF K_CTAG)
  | PSTag, (KF K_MACAddressesDetected | KF K_MACAddressesRemoved) => Some (KF K_STAG)
  | _, _ => None
  end.
Definition act_kind (k : kind) (x : action acc) : bool :=
  match x with
  | Leaf l => match leaf_kind l with Some k' => keq k' k | None => true end
  | Via _ _ b | ViaOwn _ _ b => keq (acc_kind b) k
  | Then c f => match post_kind f (acc_kind c) with Some k' => keq k' k | None => false end
  | OrElse c d => keq (acc_kind c) KS && keq (acc_kind d) KS && keq k KS
  end.
Lemma acts_kind a t : act_kind (acc_kind a) (look a t) = true.
Proof.
  assert (H : cases_ok (fun a _ x => act_kind (acc_kind a) x) (fun a x => act_kind (acc_kind a) x) = true) by (vm_compute; reflexivity).
  destruct (cases_ok_ok _ _ H a t) as [K|[_ K]]; exact K.
Qed.

Ltac okinv := repeat match goal with
  | H : bind ?r _ = Ok _ |- _ => let E := fresh "E" in destruct r eqn:E; cbn [bind] in H; try discriminate H
  | H : (if ?c then _ else _) = Ok _ |- _ => destruct c; try discriminate H
  | H : Ok ?x = Ok ?y |- _ => assert (x = y) by congruence; clear H; subst
  | H : Fault = Ok _ |- _ => discriminate H
  | H : Err _ = Ok _ |- _ => discriminate H
  end.
Lemma fparse_kind k b v : fparse k b = Ok v -> has_kind (KF k) v = true.
Proof. destruct k; cbn [fparse]; unfold as_f; intros E; okinv; reflexivity. Qed.
Section G.
Variable g : N -> bool.
Lemma leaf_run_kind l i v : leaf_run g l i = Ok v -> exists k, leaf_kind l = Some k /\ has_kind k v = true.
Proof.
  destruct l; cbn [leaf_run leaf_kind]; unfold as_n, as_s, as_b, as_d, as_t, as_ies, as_node; intros E; okinv;
  try (eexists; split; [reflexivity|]; reflexivity).
  eexists. split; [reflexivity|]. now apply fparse_kind in E.
Qed.
Lemma post_run_kind f i v w : post_run f i v = Ok w -> forall k, has_kind k v = true -> exists k', post_kind f k = Some k' /\ has_kind k' w = true.
Proof.
  destruct f, v; cbn [post_run]; unfold as_n, as_s; intros E k Hk; okinv; destruct k as [ | | | | | | | | |k]; try discriminate Hk;
  try (eexists; split; [reflexivity|]; reflexivity).
  all: destruct f; try discriminate E; destruct k; try discriminate Hk; (eexists; split; [reflexivity|]); now apply fparse_kind in E.
Qed.
Lemma search_ok p f l v : search p f l = Ok v -> exists x, In x l /\ f x = Ok v.
Proof. induction l as [|x r IH]; cbn [search]; [discriminate|]. destruct (p x); [exists x; split; [now left|assumption]|]. intros E. destruct (IH E) as (y & I & F). exists y. split; [now right|assumption]. Qed.

Theorem run_kind n : forall a i v, run g n a i = Ok v -> has_kind (acc_kind a) v = true.
Proof.
  induction n as [|n IH]; intros a i v E; [discriminate|]. rewrite run_S in E. apply bind_ok in E as (u & _ & E). pose proof (acts_kind a (ty i)) as K.
  destruct (look a (ty i)) as [l|c ts b|c ts b|c f|c d]; cbn [act_kind] in K.
  - destruct (leaf_run_kind _ _ E) as (k & Ek & H). rewrite Ek in K. apply keq_eq in K. congruence.
  - apply bind_ok in E as (w & _ & E). destruct w; try discriminate. apply search_ok in E as (x & _ & E). apply keq_eq in K. rewrite <- K. now apply IH in E.
  - apply bind_ok in E as (w & _ & E). destruct w; try discriminate. apply search_ok in E as (x & _ & E). apply keq_eq in K. rewrite <- K. now apply IH in E.
  - apply bind_ok in E as (w & Ew & E). apply IH in Ew. destruct (post_run_kind _ _ _ E _ Ew) as (k & Ek & H). rewrite Ek in K. apply keq_eq in K. congruence.
  - apply andb_prop in K as [K K3]. apply andb_prop in K as [K1 K2]. apply keq_eq in K1, K2, K3. apply bind_ok in E as (w & Ew & E). apply IH in Ew.
    rewrite K3. destruct w; try discriminate. destruct s; [apply IH in E; now rewrite K2 in E|]. assert (v = VS (n0 :: s)) as -> by congruence. reflexivity.
Qed.
Theorem access_kind a i v : access g a i = Ok v -> has_kind (acc_kind a) v = true.
Proof. apply run_kind. Qed.

End G.

(** * Panics *)
Definition glen (gs : list guard) : nat := fold_right (fun x m => match x with GLen n => Nat.max n m | GType _ => m end) 0 gs.
Lemma check_glen gs i u : check gs i = Ok u -> glen gs <= length (payload i).
Proof.
  induction gs as [|[n|t] r IH]; cbn [check glen fold_right]; intros E; [lia| |].
  - destruct (Nat.ltb_spec (length (payload i)) n); [discriminate|]. apply IH in E. fold (glen r). lia.
  - destruct (negb _); [discriminate|]. apply IH in E. exact E.
Qed.

(** parsers that never panic *)
Definition fsafe (k : fkind) : bool :=
  match k with
  | K_MACAddressesDetected | K_MACAddressesRemoved | K_OuterHeaderCreation | K_PFDContents | K_RemoteGTPUPeer | K_SDFFilter | K_SourceIPAddress
  | K_TraceInformation | K_UserPlaneIPResourceInformation => false
  | _ => true
  end.
(** leaves that do not panic on a payload of at least m octets *)
Definition leaf_safe (m : nat) (l : leaf) : bool :=
  match l with
  | LUint _ | LString | LFQDN | LTime | LPayload | LChildren | LApplyAction | LFlowDirection | LFail _ | LInvalid => true
  | LFields k => fsafe k
  | LSecs32 | LMillis32 | LSNSSAI => 4 <=? m
  | LNanos64 => 8 <=? m
  | LSecs16 | LAuri | LPPI => 2 <=? m
  | LTimer | LOctet50ms | LFailedRuleID | LNodeIDType | LNodeAddress | LNodeID | LPPIndicator | LTGPPInterface | LTSNBridgeID => 1 <=? m
  | LExponent => 12 <=? m
  | LNFInstanceID => 16 <=? m
  | LSuggestedCount | LFlowDescription | LCSIDs | LQFI => false
  end.
(** a lower bound on the length of the octets returned *)
Definition leaf_min (m : nat) (l : leaf) : option nat :=
  match l with
  | LPayload => Some m
  | LApplyAction => Some 1
  | LSNSSAI => Some 4
  | LNFInstanceID => Some 16
  | LNodeAddress => Some 4
  | LTSNBridgeID => Some 0
  | _ => None
  end.
Definition minlen (a : acc) : nat :=
  match a with A_GBR | A_MBR => 10 | A_SNSSAI => 4 | A_ApplyAction | A_OuterHeaderRemoval => 1 | _ => 0 end.
Definition act_min (a : acc) (x : action acc) : bool :=
  match x with
  | Leaf l => match leaf_min (glen (guards (acc_def a))) l with Some m => minlen a <=? m | None => true end
  | Via _ _ b | ViaOwn _ _ b => minlen a <=? minlen b
  | Then _ _ | OrElse _ _ => minlen a =? 0
  end.
Definition post_safe (f : post) (m : nat) : bool :=
  match f with
  | PU40 lo hi => (lo <=? hi) && (hi <=? m)
  | PIndex0 => 1 <=? m
  | PSD => 4 <=? m
  | _ => true
  end.
(** a type guard refuses type t *)
Definition gmiss (gs : list guard) (t : N) : bool := existsb (fun x => match x with GType t' => negb (t =? t')%N | GLen _ => false end) gs.
Fixpoint safe (n : nat) (a : acc) (t : N) : bool :=
  match n with
  | O => false
  | S n =>
      gmiss (guards (acc_def a)) t ||
      match look a t with
      | Leaf l => leaf_safe (glen (guards (acc_def a))) l
      | Via _ ts b => forallb (safe n b) ts
      | ViaOwn _ ts b => negb (memb t ts)
      | Then c f => safe n c t && post_safe f (minlen c)
      | OrElse c d => safe n c t && safe n d t
      end
  end.
Lemma gmiss_class a t : gmiss (guards (acc_def a)) t = gmiss (guards (acc_def a)) (tclass t).
Proof.
  assert (H : forall a, forallb (fun x => match x with GType t' => N.ltb t' tops | GLen _ => true end) (guards (acc_def a)) = true)
    by (apply acc_check; vm_compute; reflexivity).
  specialize (H a). unfold gmiss. induction (guards (acc_def a)) as [|[n|t'] r IH]; [reflexivity|exact (IH H)|]. cbn [forallb existsb] in *.
  apply andb_prop in H as [H1 H2]. rewrite (IH H2). f_equal. f_equal. apply N.ltb_lt in H1. unfold tclass.
  destruct (N.eqb_spec t t'), (N.eqb_spec (N.min t tops) t'); trivial; lia.
Qed.
Lemma viaown_below a t c ts b : look a t = ViaOwn c ts b -> forallb (fun t => N.ltb t tops) ts = true.
Proof.
  assert (H : cases_ok (fun _ _ x => match x with ViaOwn _ ts _ => forallb (fun t => N.ltb t tops) ts | _ => true end)
                       (fun _ x => match x with ViaOwn _ ts _ => forallb (fun t => N.ltb t tops) ts | _ => true end) = true) by (vm_compute; reflexivity).
  intros L. destruct (cases_ok_ok _ _ H a t) as [K|[_ K]]; rewrite L in K; exact K.
Qed.
Lemma safe_class n : forall a t, safe n a t = safe n a (tclass t).
Proof.
  induction n; intros a t; [reflexivity|]. cbn [safe]. rewrite (gmiss_class a t), (look_class a t). f_equal.
  destruct (look a (tclass t)) as [l|c ts b|c ts b|c f|c d] eqn:L; try reflexivity.
  - apply viaown_below in L. f_equal. unfold tclass. destruct (N.le_gt_cases t tops); [now rewrite N.min_l by assumption|].
    rewrite N.min_r by lia. rewrite !memb_above by (assumption || lia). reflexivity.
  - now rewrite (IHn c).
  - now rewrite (IHn c), (IHn d).
Qed.
(** the accessors that can panic, with the IE types at which they can *)
Definition unsafe_table : list (acc * list N) := [
  (A_CTAG, [T_MACAddressesDetected; T_MACAddressesRemoved; T_EthernetContextInformation]);
  (A_DLBufferingSuggestedPacketCount, [T_UpdateBARWithinSessionReportResponse; T_DLBufferingSuggestedPacketCount]);
  (A_FlowDescription, [T_ApplicationDetectionInformation; T_FlowInformation]);
  (A_CSIDs, [T_FQCSID]);
  (A_MACAddressesDetected, [T_UsageReportWithinSessionModificationResponse; T_UsageReportWithinSessionDeletionResponse; T_UsageReportWithinSessionReportRequest; T_EthernetTrafficInformation; T_MACAddressesDetected; T_EthernetContextInformation]);
  (A_MACAddressesRemoved, [T_UsageReportWithinSessionModificationResponse; T_UsageReportWithinSessionDeletionResponse; T_UsageReportWithinSessionReportRequest; T_EthernetTrafficInformation; T_MACAddressesRemoved]);
  (A_OuterHeaderCreation, [T_ForwardingParameters; T_DuplicatingParameters; T_UpdateForwardingParameters; T_OuterHeaderCreation; T_UpdateDuplicatingParameters; T_RedundantTransmissionParameters]);
  (A_PFDContents, [T_ApplicationIDsPFDs; T_PFDContext; T_PFDContents]);
  (A_QFI, [T_DownlinkDataServiceInformation]);
  (A_RemoteGTPUPeer, [T_UserPlanePathFailureReport; T_RemoteGTPUPeer; T_UserPlanePathRecoveryReport; T_GTPUPathQoSControlInformation; T_GTPUPathQoSReport]);
  (A_STAG, [T_MACAddressesDetected; T_MACAddressesRemoved; T_EthernetContextInformation]);
  (A_SDFFilter, [T_CreatePDR; T_PDI; T_SDFFilter; T_EthernetPacketFilter]);
  (A_SourceIPAddress, [T_CreatePDR; T_IPMulticastAddressingInfo; T_JoinIPMulticastInformationWithinUsageReport; T_LeaveIPMulticastInformationWithinUsageReport; T_SourceIPAddress]);
  (A_SubsequentTimeQuota, [T_CreateURR; T_UpdateURR; T_SubsequentTimeQuota; T_AdditionalMonitoringTime]);
  (A_TraceInformation, [T_TraceInformation]);
  (A_UserPlaneIPResourceInformation, [T_UserPlaneIPResourceInformation])].
Definition can_panic (a : acc) (t : N) : Prop := exists ts, In (a, ts) unsafe_table /\ In t ts.
Definition can_panicb (a : acc) (t : N) : bool := existsb (fun '(b, ts) => (acc_id a =? acc_id b)%N && memb t ts) unsafe_table.
Lemma can_panicb_ok a t : can_panicb a t = true <-> can_panic a t.
Proof.
  unfold can_panicb, can_panic. rewrite existsb_exists. split.
  - intros ([b ts] & I & E). apply andb_prop in E as [E1 E2]. apply N.eqb_eq in E1. apply acc_id_inj in E1 as ->. exists ts. split; [assumption|now apply memb_spec].
  - intros (ts & I & T). exists (a, ts). split; [assumption|]. cbn beta iota. rewrite N.eqb_refl. now apply memb_spec.
Qed.
Lemma safe8 : forall a t, safe 8 a t = negb (can_panicb a t).
Proof.
  assert (B : forallb (fun '(_, ts) => forallb (fun t => N.ltb t tops) ts) unsafe_table = true) by (vm_compute; reflexivity).
  assert (C : forall a t, can_panicb a t = can_panicb a (tclass t)).
  { intros a t. unfold can_panicb. induction unsafe_table as [|[b ts] r IH]; [reflexivity|]. cbn [forallb existsb] in *. apply andb_prop in B as [B1 B2].
    rewrite (IH B2). f_equal. f_equal. unfold tclass. destruct (N.le_gt_cases t tops); [now rewrite N.min_l by assumption|].
    rewrite N.min_r by lia. rewrite !memb_above by (assumption || lia). reflexivity. }
  intros a t. apply eqb_prop. revert a t. apply (@check2_ok (fun a t => eqb (safe 8 a t) (negb (can_panicb a t)))).
  - intros a t. now rewrite (safe_class 8 a t), (C a t).
  - vm_compute. reflexivity.
Qed.
