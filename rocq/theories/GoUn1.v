(** UnmarshalBinary: the Go bodies against the models of Reuse.v, structs of addresses and numbers. *)
From Coq Require Import String.
From Verif Require Import Base Bits Codec Codec2 Utils Fields1 Time Fields2 Fields3 Fields4 Access Reuse Go GoFields GoRep GoProofs.
Set Implicit Arguments.
Open Scope string_scope.
Open Scope list_scope.
Open Scope nat_scope.

Lemma un_AlternativeSMFIPAddress n b f : un_agrees rep_altip b (call n go_un_AlternativeSMFIPAddress (rep_altip f) b) (altip_unmarshal f b).
Proof. unfold go_un_AlternativeSMFIPAddress, rep_altip, altip_unmarshal. start. blk (sB "IPv4Address"). blk (uB "IPv6Address"). Qed.
Lemma un_CPPFCPEntityIPAddress n b f : un_agrees rep_altip b (call n go_un_CPPFCPEntityIPAddress (rep_altip f) b) (altip_unmarshal f b).
Proof. exact (un_AlternativeSMFIPAddress n b f). Qed.
Lemma un_CTAG n b f : un_agrees rep_tag b (call n go_un_CTAG (rep_tag f) b) (tag_unmarshal f b).
Proof. unfold go_un_CTAG, rep_tag, tag_unmarshal. start. blk (vN "PCP"). blk (vN "DEIFlag"). blk (vN "CVID"). Qed.
Lemma un_STAG n b f : un_agrees rep_tag b (call n go_un_STAG (rep_tag f) b) (tag_unmarshal f b).
Proof. exact (un_CTAG n b f). Qed.
Lemma un_DLFlowLevelMarking n b f : un_agrees rep_dlfl b (call n go_un_DLFlowLevelMarking (rep_dlfl f) b) (dlfl_unmarshal f b).
Proof. unfold go_un_DLFlowLevelMarking, rep_dlfl, dlfl_unmarshal. start. blk (sN "ToSTrafficClass"). blk (uN "ServiceClassIdentifier"). Qed.
Lemma un_FSEID n b f : un_agrees rep_fseid b (call n go_un_FSEID (rep_fseid f) b) (fseid_unmarshal f b).
Proof. unfold go_un_FSEID, rep_fseid, fseid_unmarshal. start. blk (sB "IPv4Address"). blk (uB "IPv6Address"). Qed.
Lemma un_MPTCPAddressInformation n b f : un_agrees rep_mptcp b (call n go_un_MPTCPAddressInformation (rep_mptcp f) b) (mptcp_unmarshal f b).
Proof. unfold go_un_MPTCPAddressInformation, rep_mptcp, mptcp_unmarshal. start. blk (sB "MPTCPIPv4Address"). blk (uB "MPTCPIPv6Address"). Qed.
Lemma un_NumberOfUEIPAddresses n b f : un_agrees rep_nue b (call n go_un_NumberOfUEIPAddresses (rep_nue f) b) (nue_unmarshal f b).
Proof. unfold go_un_NumberOfUEIPAddresses, rep_nue, nue_unmarshal. start. blk (sN "NumberOfUEIPv4Addresses"). blk (uN "NumberOfUEIPv6Addresses"). Qed.
Lemma un_PacketDelayThresholds n b f : un_agrees rep_delays b (call n go_un_PacketDelayThresholds (rep_delays f) b) (delays_unmarshal f b).
Proof.
  unfold go_un_PacketDelayThresholds, rep_delays, delays_unmarshal. start.
  blk (sN "DownlinkPacketDelayThresholds"). blk (sN "UplinkPacketDelayThresholds"). blk (uN "RoundTripPacketDelayThresholds").
Qed.
Lemma un_QoSMonitoringMeasurement n b f : un_agrees rep_delays1 b (call n go_un_QoSMonitoringMeasurement (rep_delays1 f) b) (delays_unmarshal f b).
Proof.
  unfold go_un_QoSMonitoringMeasurement, rep_delays1, delays_unmarshal. start.
  blk (sN "DownlinkPacketDelay"). blk (sN "UplinkPacketDelay"). blk (uN "RoundTripPacketDelay").
Qed.
Lemma un_PMFAddressInformation n b f : un_agrees rep_pmf b (call n go_un_PMFAddressInformation (rep_pmf f) b) (pmf_unmarshal f b).
Proof. unfold go_un_PMFAddressInformation, rep_pmf, pmf_unmarshal. start. blk (sB "PMFIPv4Address"). blk (sB "PMFIPv6Address"). Qed.
Lemma un_MACAddress n b f : un_agrees rep_macaddr b (call n go_un_MACAddress (rep_macaddr f) b) (macaddr_unmarshal f b).
Proof.
  unfold go_un_MACAddress, rep_macaddr, macaddr_unmarshal. start.
  blk (sB "SourceMACAddress"). blk (sB "DestinationMACAddress"). blk (sB "UpperSourceMACAddress"). blk (uB "UpperDestinationMACAddress").
Qed.
Lemma un_UELinkSpecificIPAddress n b f : un_agrees rep_ulip b (call n go_un_UELinkSpecificIPAddress (rep_ulip f) b) (ulip_unmarshal f b).
Proof.
  unfold go_un_UELinkSpecificIPAddress, rep_ulip, ulip_unmarshal. start.
  blk (sB "UELinkSpecificIPv4AddressFor3GPPAccess"). blk (sB "UELinkSpecificIPv6AddressFor3GPPAccess").
  blk (sB "UELinkSpecificIPv4AddressForNon3GPPAccess"). blk (uB "UELinkSpecificIPv6AddressForNon3GPPAccess").
Qed.
Lemma un_VolumeQuota n b f : un_agrees rep_vol3 b (call n go_un_VolumeQuota (rep_vol3 f) b) (vol3_unmarshal f b).
Proof. unfold go_un_VolumeQuota, rep_vol3, vol3_unmarshal. start. blk (sN "TotalVolume"). blk (sN "UplinkVolume"). blk (uN "DownlinkVolume"). Qed.
Lemma un_VolumeThreshold n b f : un_agrees rep_vol3 b (call n go_un_VolumeThreshold (rep_vol3 f) b) (vol3_unmarshal f b).
Proof. exact (un_VolumeQuota n b f). Qed.
Lemma un_SubsequentVolumeQuota n b f : un_agrees rep_vol3 b (call n go_un_SubsequentVolumeQuota (rep_vol3 f) b) (vol3_unmarshal f b).
Proof. exact (un_VolumeQuota n b f). Qed.
Lemma un_SubsequentVolumeThreshold n b f : un_agrees rep_vol3 b (call n go_un_SubsequentVolumeThreshold (rep_vol3 f) b) (vol3_unmarshal f b).
Proof. exact (un_VolumeQuota n b f). Qed.
Lemma un_VolumeMeasurement n b f : un_agrees rep_volm b (call n go_un_VolumeMeasurement (rep_volm f) b) (volm_unmarshal f b).
Proof.
  unfold go_un_VolumeMeasurement, rep_volm, volm_unmarshal. start.
  blk (sN "TotalVolume"). blk (sN "UplinkVolume"). blk (sN "DownlinkVolume").
  blk (sN "TotalNumberOfPackets"). blk (sN "UplinkNumberOfPackets"). blk (uN "DownlinkNumberOfPackets").
Qed.
Lemma un_SourceIPAddress n b f : un_agrees rep_srcip b (call n go_un_SourceIPAddress (rep_srcip f) b) (srcip_unmarshal f b).
Proof. unfold go_un_SourceIPAddress, rep_srcip, srcip_unmarshal. start. blk (sB "IPv4Address"). blk (sB "IPv6Address"). blk (vN "MaskPrefixLength"). Qed.
Lemma un_UEIPAddress n b f : un_agrees rep_ueip b (call n go_un_UEIPAddress (rep_ueip f) b) (ueip_unmarshal f b).
Proof.
  unfold go_un_UEIPAddress, rep_ueip, ueip_unmarshal. start.
  blk (sB "IPv4Address"). blk (sB "IPv6Address"). blk (uN "IPv6PrefixDelegationBits"). blk (uN "IPv6PrefixLength").
Qed.
Lemma un_FTEID n b f : un_agrees rep_fteid b (call n go_un_FTEID (rep_fteid f) b) (fteid_unmarshal f b).
Proof.
  unfold go_un_FTEID, rep_fteid, fteid_unmarshal. start. do 2 stepL. destruct (has3 a).
  - repeat stepL; leaf.
  - pre. blk (sB "IPv4Address"). blk (uB "IPv6Address").
Qed.
Lemma un_IPMulticastAddress n b f : un_agrees rep_mcast b (call n go_un_IPMulticastAddress (rep_mcast f) b) (mcast_unmarshal f b).
Proof.
  unfold go_un_IPMulticastAddress, rep_mcast, mcast_unmarshal. start. do 2 stepL. destruct (has4 a); pre.
  blk (sB "StartIPv4Address"). blk (sB "StartIPv6Address").
  do 2 stepL. destruct (has3 a); cbn [andb].
  - pre. blk (sB "EndIPv4Address"). blk (uB "EndIPv6Address").
  - pre.
Qed.
