(** The contents of the Coq records as members of the Go structs, with their Go names.
    Members no method reads or writes are left out: TEID and ChooseID of AlternativeSMFIPAddressFields and CPPFCPEntityIPAddressFields,
    Flags of HeaderEnrichmentFields. *)
From Coq Require Import String.
From Verif Require Import Base Codec Fields1 Fields2 Fields3 Fields4 Access Reuse Go GoFields.
Open Scope string_scope.

(** ie/alternative-smf-ip-address.go:39-45, ie/cp-pfcp-entity-ip-address.go:51-57 *)
Definition rep_altip (f : altip) : store :=
  [("Flags", GN (ai_flags f)); ("IPv4Address", GB (ai_v4 f)); ("IPv6Address", GB (ai_v6 f))].
(** ie/c-tag.go:85-90, ie/s-tag.go:85-90 *)
Definition rep_tag (f : tag) : store :=
  [("Flags", GN (tg_flags f)); ("PCP", GN (tg_pcp f)); ("DEIFlag", GN (tg_dei f)); ("CVID", GN (tg_vid f))].
(** ie/dl-flow-level-marking.go:85-89 *)
Definition rep_dlfl (f : dlfl) : store :=
  [("Flags", GN (dm_flags f)); ("ToSTrafficClass", GN (dm_ttc f)); ("ServiceClassIdentifier", GN (dm_sci f))].
(** ie/f-seid.go:40-45 *)
Definition rep_fseid (f : fseid) : store :=
  [("Flags", GN (fs_flags f)); ("SEID", GN (fs_seid f)); ("IPv4Address", GB (fs_v4 f)); ("IPv6Address", GB (fs_v6 f))].
(** ie/f-teid.go:122-128 *)
Definition rep_fteid (f : fteid) : store :=
  [("Flags", GN (ft_flags f)); ("TEID", GN (ft_teid f)); ("IPv4Address", GB (ft_v4 f)); ("IPv6Address", GB (ft_v6 f)); ("ChooseID", GN (ft_chid f))].
(** ie/header-enrichment.go:64-71 *)
Definition rep_henr (f : henr) : store :=
  [("HeaderType", GN (he_type f)); ("NameLength", GN (he_namelen f)); ("HeaderFieldName", GS (he_name f)); ("ValueLength", GN (he_vallen f)); ("HeaderFieldValue", GS (he_val f))].
(** ie/ip-multicast-address.go:95-101 *)
Definition rep_mcast (f : mcast) : store :=
  [("Flags", GN (mc_flags f)); ("StartIPv4Address", GB (mc_sv4 f)); ("StartIPv6Address", GB (mc_sv6 f)); ("EndIPv4Address", GB (mc_ev4 f)); ("EndIPv6Address", GB (mc_ev6 f))].
(** ie/mac-address.go:62-68 *)
Definition rep_macaddr (f : macaddr) : store :=
  [("Flags", GN (ma_flags f)); ("SourceMACAddress", GB (ma_src f)); ("DestinationMACAddress", GB (ma_dst f)); ("UpperSourceMACAddress", GB (ma_usrc f)); ("UpperDestinationMACAddress", GB (ma_udst f))].
(** ie/mac-address-detected.go:75-82, ie/mac-address-removed.go:64-71 *)
Definition rep_macl (f : macl) : store :=
  [("NumberOfMACAddresses", GN (ml_n f)); ("MACAddresses", GL (ml_macs f)); ("CTAGLength", GN (ml_ctlen f)); ("CTAG", GB (Some (ml_ctag f))); ("STAGLength", GN (ml_stlen f)); ("STAG", GB (Some (ml_stag f)))].
(** ie/mptcp-address-information.go:68-74 *)
Definition rep_mptcp (f : mptcp) : store :=
  [("Flags", GN (mp_flags f)); ("MPTCPProxyType", GN (mp_type f)); ("MPTCPProxyPort", GN (mp_port f)); ("MPTCPIPv4Address", GB (mp_v4 f)); ("MPTCPIPv6Address", GB (mp_v6 f))].
(** ie/number-of-ue-ip-addresses.go:51-55 *)
Definition rep_nue (f : nue) : store :=
  [("Flags", GN (nu_flags f)); ("NumberOfUEIPv4Addresses", GN (nu_v4 f)); ("NumberOfUEIPv6Addresses", GN (nu_v6 f))].
(** ie/outer-header-creation.go:302-310 *)
Definition rep_ohc (f : ohc) : store :=
  [("OuterHeaderCreationDescription", GN (oh_desc f)); ("TEID", GN (oh_teid f)); ("IPv4Address", GB (oh_v4 f)); ("IPv6Address", GB (oh_v6 f)); ("PortNumber", GN (oh_port f)); ("CTag", GN (oh_ctag f)); ("STag", GN (oh_stag f))].
(** ie/pfd-contents.go:62-80 *)
Definition rep_pfdc (f : pfdc) : store :=
  [("Flags", GN (pc_flags f)); ("FDLength", GN (pc_fdlen f)); ("FlowDescription", GS (pc_fd f)); ("URLLength", GN (pc_urllen f)); ("URL", GS (pc_url f)); ("DNLength", GN (pc_dnlen f)); ("DomainName", GS (pc_dn f)); ("CPLength", GN (pc_cplen f)); ("CustomPFDContent", GS (pc_cp f)); ("DNPLength", GN (pc_dnplen f)); ("DomainNameProtocol", GS (pc_dnp f)); ("AFDLength", GN (pc_afdlen f)); ("AdditionalFlowDescription", GL (pc_afd f)); ("AURLLength", GN (pc_aurllen f)); ("AdditionalURL", GL (pc_aurl f)); ("ADNPLength", GN (pc_adnplen f)); ("AdditionalDomainNameAndProtocol", GL (pc_adnp f))].
(** ie/pmf-address-information.go:63-71 *)
Definition rep_pmf (f : pmf) : store :=
  [("Flags", GN (pm_flags f)); ("PMFIPv4Address", GB (pm_v4 f)); ("PMFIPv6Address", GB (pm_v6 f)); ("PMFPortFor3GPPAccess", GN (pm_port1 f)); ("PMFPortForNon3GPPAccess", GN (pm_port2 f)); ("PMFMACAddressFor3GPPAccess", GB (pm_mac1 f)); ("PMFMACAddressForNon3GPPAccess", GB (pm_mac2 f))].
(** ie/packet-delay-thresholds.go:51-56 *)
Definition rep_delays (f : delays) : store :=
  [("Flags", GN (dy_flags f)); ("DownlinkPacketDelayThresholds", GN (dy_dl f)); ("UplinkPacketDelayThresholds", GN (dy_ul f)); ("RoundTripPacketDelayThresholds", GN (dy_rp f))].
(** ie/packet-rate.go:94-100 *)
Definition rep_prate (f : prate) : store :=
  [("Flags", GN (pr_flags f)); ("UplinkTimeUnit", GN (pr_uunit f)); ("DownlinkTimeUnit", GN (pr_dunit f)); ("UplinkPacketRate", GN (pr_urate f)); ("DownlinkPacketRate", GN (pr_drate f))].
(** ie/packet-rate-status.go:74-81 *)
Definition rep_prstat (f : prstat) : store :=
  [("Flags", GN (ps_flags f)); ("NumberOfRemainingUplinkPacketsAllowed", GN (ps_ul f)); ("NumberOfRemainingAdditionalUplinkPacketsAllowed", GN (ps_aul f)); ("NumberOfRemainingDownlinkPacketsAllowed", GN (ps_dl f)); ("NumberOfRemainingAdditionalDownlinkPacketsAllowed", GN (ps_adl f)); ("RateControlStatusValidityTime", GT (ps_time f))].
(** ie/qos-monitoring-measurement.go:51-56 *)
Definition rep_delays1 (f : delays) : store :=
  [("Flags", GN (dy_flags f)); ("DownlinkPacketDelay", GN (dy_dl f)); ("UplinkPacketDelay", GN (dy_ul f)); ("RoundTripPacketDelay", GN (dy_rp f))].
(** ie/redirect-information.go:70-76 *)
Definition rep_redir (f : redir) : store :=
  [("RedirectAddressType", GN (ri_type f)); ("ServerAddrLength", GN (ri_len f)); ("RedirectServerAddress", GS (ri_addr f)); ("OtherServerAddrLength", GN (ri_olen f)); ("OtherRedirectServerAddress", GS (ri_other f))].
(** ie/remote-gtp-u-peer.go:108-116 *)
Definition rep_rpeer (f : rpeer) : store :=
  [("Flags", GN (rg_flags f)); ("IPv4Address", GB (rg_v4 f)); ("IPv6Address", GB (rg_v6 f)); ("DILength", GN (rg_dilen f)); ("DestinationInterface", GN (rg_di f)); ("NILength", GN (rg_nilen f)); ("NetworkInstance", GS (rg_ni f))].
(** ie/sdf-filter.go:74-82 *)
Definition rep_sdf (f : sdf) : store :=
  [("Flags", GN (sd_flags f)); ("FDLength", GN (sd_fdlen f)); ("FlowDescription", GS (sd_fd f)); ("ToSTrafficClass", GS (sd_ttc f)); ("SecurityParameterIndex", GS (sd_spi f)); ("FlowLabel", GS (sd_fl f)); ("SDFFilterID", GN (sd_fid f))].
(** ie/source-ip-address.go:84-89 *)
Definition rep_srcip (f : srcip) : store :=
  [("Flags", GN (si_flags f)); ("IPv4Address", GB (si_v4 f)); ("IPv6Address", GB (si_v6 f)); ("MaskPrefixLength", GN (si_mpl f))].
(** ie/subsequent-volume-quota.go:73-78, ie/subsequent-volume-threshold.go:73-78, ie/volume-quota.go:62-67, ie/volume-threshold.go:62-67 *)
Definition rep_vol3 (f : vol3) : store :=
  [("Flags", GN (v3_flags f)); ("TotalVolume", GN (v3_tvol f)); ("UplinkVolume", GN (v3_uvol f)); ("DownlinkVolume", GN (v3_dvol f))].
(** ie/trace-information.go:42-51 *)
Definition rep_trace (f : trace) : store :=
  [("MCC", GS (ti_mcc f)); ("MNC", GS (ti_mnc f)); ("TraceID", GS (ti_id f)); ("TriggeringEventsLength", GN (ti_evlen f)); ("TriggeringEvents", GB (ti_ev f)); ("SessionTraceDepth", GN (ti_depth f)); ("ListOfInterfacesLength", GN (ti_iflen f)); ("ListOfInterfaces", GB (ti_ifs f)); ("IPAddressOfTraceCollectionEntityLength", GN (ti_iplen f)); ("IPAddressOfTraceCollectionEntity", GB (ti_ip f))].
(** ie/ue-ip-address.go:180-186 *)
Definition rep_ueip (f : ueip) : store :=
  [("Flags", GN (ue_flags f)); ("IPv4Address", GB (ue_v4 f)); ("IPv6Address", GB (ue_v6 f)); ("IPv6PrefixDelegationBits", GN (ue_v6d f)); ("IPv6PrefixLength", GN (ue_v6pl f))].
(** ie/ue-link-specific-ip-address.go:62-68 *)
Definition rep_ulip (f : ulip) : store :=
  [("Flags", GN (ul_flags f)); ("UELinkSpecificIPv4AddressFor3GPPAccess", GB (ul_v4 f)); ("UELinkSpecificIPv6AddressFor3GPPAccess", GB (ul_v6 f)); ("UELinkSpecificIPv4AddressForNon3GPPAccess", GB (ul_nv4 f)); ("UELinkSpecificIPv6AddressForNon3GPPAccess", GB (ul_nv6 f))].
(** ie/user-id.go:39-49 *)
Definition rep_userid (f : userid) : store :=
  [("Flags", GN (ui_flags f)); ("IMSILength", GN (ui_imsilen f)); ("IMSI", GS (ui_imsi f)); ("IMEILength", GN (ui_imeilen f)); ("IMEI", GS (ui_imei f)); ("MSISDNLength", GN (ui_msisdnlen f)); ("MSISDN", GS (ui_msisdn f)); ("NAILength", GN (ui_nailen f)); ("NAI", GS (ui_nai f))].
(** ie/user-plane-ip-resource-information.go:71-78 *)
Definition rep_upri (f : upri) : store :=
  [("Flags", GN (up_flags f)); ("TEIDRange", GN (up_range f)); ("IPv4Address", GB (up_v4 f)); ("IPv6Address", GB (up_v6 f)); ("NetworkInstance", GS (up_ni f)); ("SourceInterface", GN (up_si f))].
(** ie/volume-measurement.go:53-61 *)
Definition rep_volm (f : volm) : store :=
  [("Flags", GN (vm_flags f)); ("TotalVolume", GN (vm_tvol f)); ("UplinkVolume", GN (vm_uvol f)); ("DownlinkVolume", GN (vm_dvol f)); ("TotalNumberOfPackets", GN (vm_tpkt f)); ("UplinkNumberOfPackets", GN (vm_upkt f)); ("DownlinkNumberOfPackets", GN (vm_dpkt f))].

Definition rep (k : fkind) (f : fields) : option store :=
  match k, f with
  | K_AlternativeSMFIPAddress, F_altip f => Some (rep_altip f)
  | K_CPPFCPEntityIPAddress, F_altip f => Some (rep_altip f)
  | K_CTAG, F_tag f => Some (rep_tag f)
  | K_DLFlowLevelMarking, F_dlfl f => Some (rep_dlfl f)
  | K_FSEID, F_fseid f => Some (rep_fseid f)
  | K_FTEID, F_fteid f => Some (rep_fteid f)
  | K_HeaderEnrichment, F_henr f => Some (rep_henr f)
  | K_IPMulticastAddress, F_mcast f => Some (rep_mcast f)
  | K_MACAddress, F_macaddr f => Some (rep_macaddr f)
  | K_MACAddressesDetected, F_macl f => Some (rep_macl f)
  | K_MACAddressesRemoved, F_macl f => Some (rep_macl f)
  | K_MPTCPAddressInformation, F_mptcp f => Some (rep_mptcp f)
  | K_NumberOfUEIPAddresses, F_nue f => Some (rep_nue f)
  | K_OuterHeaderCreation, F_ohc f => Some (rep_ohc f)
  | K_PFDContents, F_pfdc f => Some (rep_pfdc f)
  | K_PMFAddressInformation, F_pmf f => Some (rep_pmf f)
  | K_PacketDelayThresholds, F_delays f => Some (rep_delays f)
  | K_PacketRate, F_prate f => Some (rep_prate f)
  | K_PacketRateStatus, F_prstat f => Some (rep_prstat f)
  | K_QoSMonitoringMeasurement, F_delays f => Some (rep_delays1 f)
  | K_RedirectInformation, F_redir f => Some (rep_redir f)
  | K_RemoteGTPUPeer, F_rpeer f => Some (rep_rpeer f)
  | K_SDFFilter, F_sdf f => Some (rep_sdf f)
  | K_STAG, F_tag f => Some (rep_tag f)
  | K_SourceIPAddress, F_srcip f => Some (rep_srcip f)
  | K_SubsequentVolumeQuota, F_vol3 f => Some (rep_vol3 f)
  | K_SubsequentVolumeThreshold, F_vol3 f => Some (rep_vol3 f)
  | K_TraceInformation, F_trace f => Some (rep_trace f)
  | K_UEIPAddress, F_ueip f => Some (rep_ueip f)
  | K_UELinkSpecificIPAddress, F_ulip f => Some (rep_ulip f)
  | K_UserID, F_userid f => Some (rep_userid f)
  | K_UserPlaneIPResourceInformation, F_upri f => Some (rep_upri f)
  | K_VolumeMeasurement, F_volm f => Some (rep_volm f)
  | K_VolumeQuota, F_vol3 f => Some (rep_vol3 f)
  | K_VolumeThreshold, F_vol3 f => Some (rep_vol3 f)
  | _, _ => None
  end.
