(** MarshalTo of the XxxFields structs: the Go bodies and the hand-written models agree. Addresses and numbers. *)
From Coq Require Import String.
From Verif Require Import Base Bits Codec Codec2 Utils Fields1 Time Fields2 Fields3 Fields4 Access Reuse Go GoFields GoRep GoProofs GoTo.
Set Implicit Arguments.
Open Scope string_scope.
Open Scope list_scope.
Open Scope nat_scope.

Lemma to_AlternativeSMFIPAddress n b f : to_agrees (call n go_to_AlternativeSMFIPAddress (rep_altip f) b) (altip_marshal_to f b).
Proof. unfold go_to_AlternativeSMFIPAddress, rep_altip, altip_marshal_to. startT. blkT wO. blkT wU. Qed.
Lemma to_CPPFCPEntityIPAddress n b f : to_agrees (call n go_to_CPPFCPEntityIPAddress (rep_altip f) b) (altip_marshal_to f b).
Proof. unfold go_to_CPPFCPEntityIPAddress, rep_altip, altip_marshal_to. startT. blkT wO. blkT wU. Qed.
Lemma to_CTAG n b f : to_agrees (call n go_to_CTAG (rep_tag f) b) (tag_marshal_to f b).
Proof. unfold go_to_CTAG, rep_tag, tag_marshal_to. rewrite <- tag_word_go. startT. Qed.
Lemma to_DLFlowLevelMarking n b f : to_agrees (call n go_to_DLFlowLevelMarking (rep_dlfl f) b) (dlfl_marshal_to f b).
Proof. unfold go_to_DLFlowLevelMarking, rep_dlfl, dlfl_marshal_to. startT. blkT wO. blkT wU. Qed.
Lemma to_FSEID n b f : to_agrees (call n go_to_FSEID (rep_fseid f) b) (fseid_marshal_to f b).
Proof. unfold go_to_FSEID, rep_fseid, fseid_marshal_to. startT. blkT wO. blkT wU. Qed.
Lemma to_FTEID n b f : to_agrees (call n go_to_FTEID (rep_fteid f) b) (fteid_marshal_to f b).
Proof. unfold go_to_FTEID, rep_fteid, fteid_marshal_to. startT. stepTL. destruct (has3 (ft_flags f)); [endT|preT]. blkT wO. blkT wU. Qed.
Lemma to_IPMulticastAddress n b f : to_agrees (call n go_to_IPMulticastAddress (rep_mcast f) b) (mcast_marshal_to f b).
Proof. unfold go_to_IPMulticastAddress, rep_mcast, mcast_marshal_to. startT. stepTL. stepTL; preT. blkT wO. blkT wO. endT. Qed.
Lemma to_MPTCPAddressInformation n b f : to_agrees (call n go_to_MPTCPAddressInformation (rep_mptcp f) b) (mptcp_marshal_to f b).
Proof. unfold go_to_MPTCPAddressInformation, rep_mptcp, mptcp_marshal_to. startT. blkT wO. blkT wU. Qed.
Lemma to_NumberOfUEIPAddresses n b f : to_agrees (call n go_to_NumberOfUEIPAddresses (rep_nue f) b) (nue_marshal_to f b).
Proof. unfold go_to_NumberOfUEIPAddresses, rep_nue, nue_marshal_to. startT. blkT wO. blkT wU. Qed.
Lemma to_PMFAddressInformation n b f : to_agrees (call n go_to_PMFAddressInformation (rep_pmf f) b) (pmf_marshal_to f b).
Proof. unfold go_to_PMFAddressInformation, rep_pmf, pmf_marshal_to. startT. blkT wO. blkT wO. Qed.
Lemma to_PacketDelayThresholds n b f : to_agrees (call n go_to_PacketDelayThresholds (rep_delays f) b) (delays_marshal_to f b).
Proof. unfold go_to_PacketDelayThresholds, rep_delays, delays_marshal_to. startT. blkT wO. blkT wO. blkT wU. Qed.
Lemma to_QoSMonitoringMeasurement n b f : to_agrees (call n go_to_QoSMonitoringMeasurement (rep_delays1 f) b) (delays_marshal_to f b).
Proof. unfold go_to_QoSMonitoringMeasurement, rep_delays1, delays_marshal_to. startT. blkT wO. blkT wO. blkT wU. Qed.
Lemma to_STAG n b f : to_agrees (call n go_to_STAG (rep_tag f) b) (tag_marshal_to f b).
Proof. unfold go_to_STAG, rep_tag, tag_marshal_to. rewrite <- tag_word_go. startT. Qed.
Lemma to_SourceIPAddress n b f : to_agrees (call n go_to_SourceIPAddress (rep_srcip f) b) (srcip_marshal_to f b).
Proof. unfold go_to_SourceIPAddress, rep_srcip, srcip_marshal_to. startT. blkT wO. blkT wO. endT. Qed.
Lemma to_SubsequentVolumeQuota n b f : to_agrees (call n go_to_SubsequentVolumeQuota (rep_vol3 f) b) (vol3_marshal_to f b).
Proof. unfold go_to_SubsequentVolumeQuota, rep_vol3, vol3_marshal_to. startT. blkT wO. blkT wO. blkT wU. Qed.
Lemma to_SubsequentVolumeThreshold n b f : to_agrees (call n go_to_SubsequentVolumeThreshold (rep_vol3 f) b) (vol3_marshal_to f b).
Proof. unfold go_to_SubsequentVolumeThreshold, rep_vol3, vol3_marshal_to. startT. blkT wO. blkT wO. blkT wU. Qed.
Lemma to_UEIPAddress n b f : (ue_v6d f < 256)%N -> (ue_v6pl f < 256)%N -> to_agrees (call n go_to_UEIPAddress (rep_ueip f) b) (ueip_marshal_to f b).
Proof. intros H1 H2. unfold go_to_UEIPAddress, rep_ueip, ueip_marshal_to. startT. blkT wO. blkT wO. blkT wO. blkT wU. Qed.
Lemma to_UELinkSpecificIPAddress n b f : to_agrees (call n go_to_UELinkSpecificIPAddress (rep_ulip f) b) (ulip_marshal_to f b).
Proof. unfold go_to_UELinkSpecificIPAddress, rep_ulip, ulip_marshal_to. startT. blkT wO. blkT wO. blkT wO. blkT wU. Qed.
Lemma to_VolumeMeasurement n b f : to_agrees (call n go_to_VolumeMeasurement (rep_volm f) b) (volm_marshal_to f b).
Proof. unfold go_to_VolumeMeasurement, rep_volm, volm_marshal_to. startT. blkT wO. blkT wO. blkT wO. blkT wO. blkT wO. blkT wU. Qed.
Lemma to_VolumeQuota n b f : to_agrees (call n go_to_VolumeQuota (rep_vol3 f) b) (vol3_marshal_to f b).
Proof. unfold go_to_VolumeQuota, rep_vol3, vol3_marshal_to. startT. blkT wO. blkT wO. blkT wU. Qed.
Lemma to_VolumeThreshold n b f : to_agrees (call n go_to_VolumeThreshold (rep_vol3 f) b) (vol3_marshal_to f b).
Proof. unfold go_to_VolumeThreshold, rep_vol3, vol3_marshal_to. startT. blkT wO. blkT wO. blkT wU. Qed.
