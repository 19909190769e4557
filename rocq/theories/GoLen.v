(** MarshalLen of the XxxFields structs: the Go bodies (GoFields.v) and the hand-written models agree. *)
From Coq Require Import String.
From Verif Require Import Base Bits Codec Codec2 Utils Fields1 Time Fields2 Fields3 Fields4 Access Reuse Go GoFields GoRep GoProofs.
Set Implicit Arguments.
Open Scope string_scope.
Open Scope list_scope.
Open Scope nat_scope.

(** the struct and the buffer are left alone and l is returned *)
Definition len_agrees (F : store) (b : list N) (o : state * res gval) (l : nat) : Prop :=
  snd o = Ok (GI l) /\ flds (fst o) = F /\ buf (fst o) = b.

Lemma upd_same x v F : look x F = Some v -> upd x v F = F.
Proof. induction F as [|[y w] F IH]; cbn; [discriminate|]. destruct (String.eqb x y) eqn:E; [intros [= ->]; reflexivity|]. intros H. now rewrite IH. Qed.
(** if t { x += e } *)
Lemma ex_add n t x e c s tb a k : test s t = Ok tb -> look x (vars s) = Some (GI a) -> eval s e = Ok (GI k) ->
  exec n (SSeq (SIf t (SLet x (EAdd (EVar x) e))) c) s = exec n c (setv x (GI (a + len_if tb k)) s).
Proof.
  intros T L E. rewrite ex_if, T. cbn [fails]. destruct tb; cbn [len_if].
  - rewrite ex_let. cbn [eval]. rewrite L, E. reflexivity.
  - rewrite Nat.add_0_r. unfold setv. rewrite upd_same by exact L. destruct s; reflexivity.
Qed.
(** the same for two additions, the second under a further condition *)
Lemma ex_add2 n t x e t2 e2 c s tb a k tb2 k2 : test s t = Ok tb -> look x (vars s) = Some (GI a) -> eval s e = Ok (GI k) ->
  (forall v, test (setv x v s) t2 = Ok tb2) -> (forall v, eval (setv x v s) e2 = Ok (GI k2)) -> (forall v F, look x (upd x v F) = Some v) ->
  exec n (SSeq (SIf t (SSeq (SLet x (EAdd (EVar x) e)) (SIf t2 (SLet x (EAdd (EVar x) e2))))) c) s
  = exec n c (setv x (GI (a + len_if tb k + len_if (tb && tb2) k2)) s).
Proof.
  intros T L E T2 E2 U. rewrite ex_if, T. cbn [fails]. destruct tb; cbn [len_if andb].
  - rewrite ex_seq, ex_let. cbn [eval]. rewrite L, E. cbn [of_look bind int fails]. erewrite ex_add; [|apply T2|apply U|apply E2].
    unfold setv. cbn [flds vars buf]. f_equal. f_equal. generalize (vars s). intros F. induction F as [|[y w] F IH]; cbn.
    + now rewrite String.eqb_refl.
    + destruct (String.eqb x y) eqn:Q; cbn; rewrite Q; [reflexivity|]. now rewrite IH.
  - rewrite !Nat.add_0_r. unfold setv. rewrite upd_same by exact L. destruct s; reflexivity.
Qed.
Lemma look_upd x v F : look x (upd x v F) = Some v.
Proof. induction F as [|[y u] F IH]; cbn; [now rewrite String.eqb_refl|]. destruct (String.eqb x y) eqn:E; cbn; now rewrite E. Qed.

Ltac lnorm := lazy beta match fix zeta
    delta [eval test bind of_look look upd setf setv setb leave cut flds vars buf int num oct has octs fails
           String.eqb Ascii.eqb Bool.eqb wrap N.eqb Pos.eqb].
Ltac lstep := lazymatch goal with
  | |- len_agrees _ _ (fin (exec ?n (SSeq (SIf ?t (SLet ?x (EAdd (EVar ?x) ?e))) ?c) ?s)) _ =>
      let H := fresh in eassert (H : exec n (SSeq (SIf t (SLet x (EAdd (EVar x) e))) c) s = _) by
        (eapply ex_add; [lnorm; reflexivity|lnorm; reflexivity|lnorm; reflexivity]); rewrite H; clear H; lnorm
  | |- len_agrees _ _ (fin (exec ?n (SSeq (SIf ?t (SSeq (SLet ?x (EAdd (EVar ?x) ?e)) (SIf ?t2 (SLet ?x (EAdd (EVar ?x) ?e2))))) ?c) ?s)) _ =>
      let H := fresh in eassert (H : exec n (SSeq (SIf t (SSeq (SLet x (EAdd (EVar x) e)) (SIf t2 (SLet x (EAdd (EVar x) e2))))) c) s = _) by
        (eapply ex_add2; [lnorm; reflexivity|lnorm; reflexivity|lnorm; reflexivity|intros; lnorm; reflexivity|intros; lnorm; reflexivity|intros; apply look_upd]);
      rewrite H; clear H; lnorm
  | |- len_agrees _ _ (fin (exec ?n (SSeq ?a ?c) ?s)) _ => ex n a c s; lnorm
  | |- len_agrees _ _ (fin (if ?x then _ else _)) _ => destruct x
  end.
Ltac lens := rewrite call_fin; repeat lstep; (split; [|split]); try reflexivity; cbn [fin snd]; f_equal; f_equal; try lia.

Lemma len_AlternativeSMFIPAddress n b f : len_agrees (rep_altip f) b (call n go_len_AlternativeSMFIPAddress (rep_altip f) b) (altip_marshal_len f).
Proof. unfold go_len_AlternativeSMFIPAddress, rep_altip, altip_marshal_len. lens. Qed.
Lemma len_CPPFCPEntityIPAddress n b f : len_agrees (rep_altip f) b (call n go_len_CPPFCPEntityIPAddress (rep_altip f) b) (altip_marshal_len f).
Proof. unfold go_len_CPPFCPEntityIPAddress, rep_altip, altip_marshal_len. lens. Qed.
Lemma len_CTAG n b f : len_agrees (rep_tag f) b (call n go_len_CTAG (rep_tag f) b) (tag_marshal_len f).
Proof. unfold go_len_CTAG, rep_tag, tag_marshal_len. lens. Qed.
Lemma len_DLFlowLevelMarking n b f : len_agrees (rep_dlfl f) b (call n go_len_DLFlowLevelMarking (rep_dlfl f) b) (dlfl_marshal_len f).
Proof. unfold go_len_DLFlowLevelMarking, rep_dlfl, dlfl_marshal_len. lens. Qed.
Lemma len_FSEID n b f : len_agrees (rep_fseid f) b (call n go_len_FSEID (rep_fseid f) b) (fseid_marshal_len f).
Proof. unfold go_len_FSEID, rep_fseid, fseid_marshal_len. lens. Qed.
Lemma len_FTEID n b f : len_agrees (rep_fteid f) b (call n go_len_FTEID (rep_fteid f) b) (fteid_marshal_len f).
Proof. unfold go_len_FTEID, rep_fteid, fteid_marshal_len. lens. Qed.
Lemma len_HeaderEnrichment n b f : len_agrees (rep_henr f) b (call n go_len_HeaderEnrichment (rep_henr f) b) (henr_marshal_len f).
Proof. unfold go_len_HeaderEnrichment, rep_henr, henr_marshal_len. lens. Qed.
Lemma len_IPMulticastAddress n b f : len_agrees (rep_mcast f) b (call n go_len_IPMulticastAddress (rep_mcast f) b) (mcast_marshal_len f).
Proof. unfold go_len_IPMulticastAddress, rep_mcast, mcast_marshal_len. lens. Qed.
Lemma len_MACAddress n b f : len_agrees (rep_macaddr f) b (call n go_len_MACAddress (rep_macaddr f) b) (macaddr_marshal_len f).
Proof. unfold go_len_MACAddress, rep_macaddr, macaddr_marshal_len. lens. Qed.
Lemma len_MACAddressesDetected n b f : len_agrees (rep_macl f) b (call n go_len_MACAddressesDetected (rep_macl f) b) (macl_marshal_len f).
Proof. unfold go_len_MACAddressesDetected, rep_macl, macl_marshal_len. lens. Qed.
Lemma len_MACAddressesRemoved n b f : len_agrees (rep_macl f) b (call n go_len_MACAddressesRemoved (rep_macl f) b) (macl_marshal_len f).
Proof. unfold go_len_MACAddressesRemoved, rep_macl, macl_marshal_len. lens. Qed.
Lemma len_MPTCPAddressInformation n b f : len_agrees (rep_mptcp f) b (call n go_len_MPTCPAddressInformation (rep_mptcp f) b) (mptcp_marshal_len f).
Proof. unfold go_len_MPTCPAddressInformation, rep_mptcp, mptcp_marshal_len. lens. Qed.
Lemma len_NumberOfUEIPAddresses n b f : len_agrees (rep_nue f) b (call n go_len_NumberOfUEIPAddresses (rep_nue f) b) (nue_marshal_len f).
Proof. unfold go_len_NumberOfUEIPAddresses, rep_nue, nue_marshal_len. lens. Qed.
Lemma len_OuterHeaderCreation n b f : len_agrees (rep_ohc f) b (call n go_len_OuterHeaderCreation (rep_ohc f) b) (ohc_marshal_len f).
Proof. unfold go_len_OuterHeaderCreation, rep_ohc, ohc_marshal_len. lens. Qed.
Lemma len_PFDContents n b f : len_agrees (rep_pfdc f) b (call n go_len_PFDContents (rep_pfdc f) b) (pfdc_marshal_len f).
Proof. unfold go_len_PFDContents, rep_pfdc, pfdc_marshal_len. lens. Qed.
Lemma len_PMFAddressInformation n b f : len_agrees (rep_pmf f) b (call n go_len_PMFAddressInformation (rep_pmf f) b) (pmf_marshal_len f).
Proof. unfold go_len_PMFAddressInformation, rep_pmf, pmf_marshal_len. lens. Qed.
Lemma len_PacketDelayThresholds n b f : len_agrees (rep_delays f) b (call n go_len_PacketDelayThresholds (rep_delays f) b) (delays_marshal_len f).
Proof. unfold go_len_PacketDelayThresholds, rep_delays, delays_marshal_len. lens. Qed.
Lemma len_PacketRate n b f : len_agrees (rep_prate f) b (call n go_len_PacketRate (rep_prate f) b) (prate_marshal_len f).
Proof. unfold go_len_PacketRate, rep_prate, prate_marshal_len. lens. Qed.
Lemma len_PacketRateStatus n b f : len_agrees (rep_prstat f) b (call n go_len_PacketRateStatus (rep_prstat f) b) (prstat_marshal_len f).
Proof. unfold go_len_PacketRateStatus, rep_prstat, prstat_marshal_len. lens. Qed.
Lemma len_QoSMonitoringMeasurement n b f : len_agrees (rep_delays1 f) b (call n go_len_QoSMonitoringMeasurement (rep_delays1 f) b) (delays_marshal_len f).
Proof. unfold go_len_QoSMonitoringMeasurement, rep_delays1, delays_marshal_len. lens. Qed.
Lemma len_RedirectInformation n b f : len_agrees (rep_redir f) b (call n go_len_RedirectInformation (rep_redir f) b) (redir_marshal_len f).
Proof. unfold go_len_RedirectInformation, rep_redir, redir_marshal_len. lens. Qed.
Lemma len_RemoteGTPUPeer n b f : len_agrees (rep_rpeer f) b (call n go_len_RemoteGTPUPeer (rep_rpeer f) b) (rpeer_marshal_len f).
Proof. unfold go_len_RemoteGTPUPeer, rep_rpeer, rpeer_marshal_len. lens. Qed.
Lemma len_SDFFilter n b f : len_agrees (rep_sdf f) b (call n go_len_SDFFilter (rep_sdf f) b) (sdf_marshal_len f).
Proof. unfold go_len_SDFFilter, rep_sdf, sdf_marshal_len. lens. Qed.
Lemma len_STAG n b f : len_agrees (rep_tag f) b (call n go_len_STAG (rep_tag f) b) (tag_marshal_len f).
Proof. unfold go_len_STAG, rep_tag, tag_marshal_len. lens. Qed.
Lemma len_SourceIPAddress n b f : len_agrees (rep_srcip f) b (call n go_len_SourceIPAddress (rep_srcip f) b) (srcip_marshal_len f).
Proof. unfold go_len_SourceIPAddress, rep_srcip, srcip_marshal_len. lens. Qed.
Lemma len_SubsequentVolumeQuota n b f : len_agrees (rep_vol3 f) b (call n go_len_SubsequentVolumeQuota (rep_vol3 f) b) (vol3_marshal_len f).
Proof. unfold go_len_SubsequentVolumeQuota, rep_vol3, vol3_marshal_len. lens. Qed.
Lemma len_SubsequentVolumeThreshold n b f : len_agrees (rep_vol3 f) b (call n go_len_SubsequentVolumeThreshold (rep_vol3 f) b) (vol3_marshal_len f).
Proof. unfold go_len_SubsequentVolumeThreshold, rep_vol3, vol3_marshal_len. lens. Qed.
Lemma len_TraceInformation n b f : len_agrees (rep_trace f) b (call n go_len_TraceInformation (rep_trace f) b) (trace_marshal_len f).
Proof. unfold go_len_TraceInformation, rep_trace, trace_marshal_len. lens. Qed.
Lemma len_UEIPAddress n b f : len_agrees (rep_ueip f) b (call n go_len_UEIPAddress (rep_ueip f) b) (ueip_marshal_len f).
Proof. unfold go_len_UEIPAddress, rep_ueip, ueip_marshal_len. lens. Qed.
Lemma len_UELinkSpecificIPAddress n b f : len_agrees (rep_ulip f) b (call n go_len_UELinkSpecificIPAddress (rep_ulip f) b) (ulip_marshal_len f).
Proof. unfold go_len_UELinkSpecificIPAddress, rep_ulip, ulip_marshal_len. lens. Qed.
Lemma len_UserID n b f : len_agrees (rep_userid f) b (call n go_len_UserID (rep_userid f) b) (userid_marshal_len f).
Proof. unfold go_len_UserID, rep_userid, userid_marshal_len. lens. Qed.
Lemma len_UserPlaneIPResourceInformation n b f : len_agrees (rep_upri f) b (call n go_len_UserPlaneIPResourceInformation (rep_upri f) b) (upri_marshal_len f).
Proof. unfold go_len_UserPlaneIPResourceInformation, rep_upri, upri_marshal_len. lens. Qed.
Lemma len_VolumeMeasurement n b f : len_agrees (rep_volm f) b (call n go_len_VolumeMeasurement (rep_volm f) b) (volm_marshal_len f).
Proof. unfold go_len_VolumeMeasurement, rep_volm, volm_marshal_len. lens. Qed.
Lemma len_VolumeQuota n b f : len_agrees (rep_vol3 f) b (call n go_len_VolumeQuota (rep_vol3 f) b) (vol3_marshal_len f).
Proof. unfold go_len_VolumeQuota, rep_vol3, vol3_marshal_len. lens. Qed.
Lemma len_VolumeThreshold n b f : len_agrees (rep_vol3 f) b (call n go_len_VolumeThreshold (rep_vol3 f) b) (vol3_marshal_len f).
Proof. unfold go_len_VolumeThreshold, rep_vol3, vol3_marshal_len. lens. Qed.
