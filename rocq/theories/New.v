(** The IE constructors (functions of package ie that return an *IE): the shapes of their bodies.
    The 282 constructors are listed in NewTable.v with the IE type and the shape of each; NewRun.v runs them. *)
From Coq Require Import Floats.SpecFloat.
From Verif Require Import Base IETypes IE Bits Codec Utils Time Fields1 Fields2 Fields3 Fields4 Access.
Set Implicit Arguments.

(** * Bodies of the form: fields := NewXxxFields(args); b, err := fields.Marshal(); ...; New(Xxx, b) *)
(** the arguments; a text that holds an IP address stands for what net.ParseIP makes of it, an *IE for its payload *)
Definition fargs (k : fkind) : Type :=
  match k with
  | K_AlternativeSMFIPAddress | K_CPPFCPEntityIPAddress => bslice * bslice
  | K_CTAG | K_STAG => N * N * N * N
  | K_DLFlowLevelMarking => N * N * N
  | K_FSEID => N * bslice * bslice
  | K_FTEID => N * N * bslice * bslice * N
  | K_HeaderEnrichment => N * list N * list N
  | K_IPMulticastAddress => bslice * bslice * bslice * bslice
  | K_MACAddressesDetected | K_MACAddressesRemoved => option (list N) * option (list N) * list (list N)
  | K_MACAddress => bslice * bslice * bslice * bslice
  | K_MPTCPAddressInformation => N * N * bslice * bslice
  | K_NumberOfUEIPAddresses => N * N * N
  | K_OuterHeaderCreation => N * N * bslice * bslice * N * N * N
  | K_PacketDelayThresholds | K_QoSMonitoringMeasurement => N * N * N * N
  | K_PacketRateStatus => N * N * N * N * N * Z
  | K_PacketRate => N * N * N * N * N
  | K_PFDContents => list N * list N * list N * list N * list N * list (list N) * list (list N) * list (list N)
  | K_PMFAddressInformation => bslice * bslice * N * N * bslice * bslice
  | K_RedirectInformation => N * list (list N)
  | K_RemoteGTPUPeer => N * bslice * bslice * N * list N
  | K_SDFFilter => list N * list N * list N * list N * N
  | K_SourceIPAddress => bslice * bslice * N
  | K_SubsequentVolumeQuota | K_SubsequentVolumeThreshold | K_VolumeQuota | K_VolumeThreshold => N * N * N * N
  | K_TraceInformation => list N * list N * list N * bslice * N * bslice * bslice
  | K_UEIPAddress => N * bslice * bslice * N * N
  | K_UELinkSpecificIPAddress => bslice * bslice * bslice * bslice
  | K_UserID => N * list N * list N * list N * list N
  | K_UserPlaneIPResourceInformation => N * N * bslice * bslice * list N * N
  | K_VolumeMeasurement => N * N * N * N * N * N * N
  end.
(** NewXxxFields; the lines modelled are cited at each function (Fields1.v to Fields4.v).
    Fault: NewUserIDFields and NewRedirectInformationFields return nil, on which Marshal panics; the MAC lists panic on a nil tag *)
Definition fnew (k : fkind) : fargs k -> res fields :=
  match k return fargs k -> res fields with
  | K_AlternativeSMFIPAddress | K_CPPFCPEntityIPAddress => fun '(v4, v6) => Ok (F_altip (new_altip v4 v6))
  | K_CTAG | K_STAG => fun '(fl, pcp, dei, vid) => Ok (F_tag (new_tag fl pcp dei vid))
  | K_DLFlowLevelMarking => fun '(fl, ttc, sci) => Ok (F_dlfl (new_dlfl fl ttc sci))
  | K_FSEID => fun '(seid, v4, v6) => Ok (F_fseid (new_fseid seid v4 v6))
  | K_FTEID => fun '(fl, teid, v4, v6, chid) => Ok (F_fteid (new_fteid fl teid v4 v6 chid))
  | K_HeaderEnrichment => fun '(t, name, value) => Ok (F_henr (new_henr t name value))
  | K_IPMulticastAddress => fun '(sv4, sv6, ev4, ev6) => Ok (F_mcast (new_mcast sv4 sv6 ev4 ev6))
  | K_MACAddressesDetected | K_MACAddressesRemoved => fun '(ct, st, macs) => f <- new_macl ct st macs ;; Ok (F_macl f)
  | K_MACAddress => fun '(s, d, us, ud) => Ok (F_macaddr (new_macaddr s d us ud))
  | K_MPTCPAddressInformation => fun '(t, port, v4, v6) => Ok (F_mptcp (new_mptcp t port v4 v6))
  | K_NumberOfUEIPAddresses => fun '(fl, v4, v6) => Ok (F_nue (new_nue fl v4 v6))
  | K_OuterHeaderCreation => fun '(desc, teid, v4, v6, port, ctag, stag) => Ok (F_ohc (new_ohc desc teid v4 v6 port ctag stag))
  | K_PacketDelayThresholds | K_QoSMonitoringMeasurement => fun '(fl, dl, ul, rp) => Ok (F_delays (new_delays fl dl ul rp))
  | K_PacketRateStatus => fun '(fl, ul, aul, dl, adl, t) => Ok (F_prstat (new_prstat fl ul aul dl adl t))
  | K_PacketRate => fun '(fl, uu, up, du, dp) => Ok (F_prate (new_prate fl uu up du dp))
  | K_PFDContents => fun '(fd, url, dn, cp, dnp, afd, aurl, adnp) => Ok (F_pfdc (new_pfdc fd url dn cp dnp afd aurl adnp))
  | K_PMFAddressInformation => fun '(v4, v6, p1, p2, m1, m2) => Ok (F_pmf (new_pmf v4 v6 p1 p2 m1 m2))
  | K_RedirectInformation => fun '(t, addrs) => match new_redir t addrs with Some f => Ok (F_redir f) | None => Fault end
  | K_RemoteGTPUPeer => fun '(fl, v4, v6, di, ni) => Ok (F_rpeer (new_rpeer fl v4 v6 di ni))
  | K_SDFFilter => fun '(fd, ttc, spi, fl, fid) => Ok (F_sdf (new_sdf fd ttc spi fl fid))
  | K_SourceIPAddress => fun '(v4, v6, mpl) => Ok (F_srcip (new_srcip v4 v6 mpl))
  | K_SubsequentVolumeQuota | K_SubsequentVolumeThreshold | K_VolumeQuota | K_VolumeThreshold => fun '(fl, t, u, d) => Ok (F_vol3 (new_vol3 fl t u d))
  | K_TraceInformation => fun '(mcc, mnc, id, ev, depth, ifs, ip) => Ok (F_trace (new_trace mcc mnc id ev depth ifs ip))
  | K_UEIPAddress => fun '(fl, v4, v6, v6d, v6pl) => Ok (F_ueip (new_ueip fl v4 v6 v6d v6pl))
  | K_UELinkSpecificIPAddress => fun '(v4, v6, nv4, nv6) => Ok (F_ulip (new_ulip v4 v6 nv4 nv6))
  | K_UserID => fun '(fl, imsi, imei, msisdn, nai) => f <- new_userid fl imsi imei msisdn nai ;; match f with Some f => Ok (F_userid f) | None => Fault end
  | K_UserPlaneIPResourceInformation => fun '(fl, range, v4, v6, ni, si) => Ok (F_upri (new_upri fl range v4 v6 ni si))
  | K_VolumeMeasurement => fun '(fl, tv, uv, dv, tp, up, dp) => Ok (F_volm (new_volm fl tv uv dv tp up dp))
  end.
(** The wrappers (f *XxxFields) Marshal (tools/wrappers.py): ie/alternative-smf-ip-address.go:121-127, ie/c-tag.go:167-173,
    ie/cp-pfcp-entity-ip-address.go:133-139, ie/dl-flow-level-marking.go:144-150, ie/f-seid.go:127-133, ie/f-teid.go:234-240,
    ie/header-enrichment.go:125-131, ie/ip-multicast-address.go:234-240, ie/mac-address-detected.go:148-154, ie/mac-address-removed.go:137-143,
    ie/mac-address.go:195-201, ie/mptcp-address-information.go:156-162, ie/number-of-ue-ip-addresses.go:124-130, ie/outer-header-creation.go:416-422,
    ie/packet-delay-thresholds.go:144-150, ie/packet-rate-status.go:197-203, ie/packet-rate.go:159-165, ie/pfd-contents.go:374-380,
    ie/pmf-address-information.go:187-193, ie/qos-monitoring-measurement.go:154-160, ie/redirect-information.go:142-148,
    ie/remote-gtp-u-peer.go:209-215, ie/s-tag.go:167-173, ie/sdf-filter.go:229-235, ie/source-ip-address.go:188-194,
    ie/subsequent-volume-quota.go:175-181, ie/subsequent-volume-threshold.go:175-181, ie/trace-information.go:147-153, ie/ue-ip-address.go:264-270,
    ie/ue-link-specific-ip-address.go:189-195, ie/user-id.go:170-176, ie/user-plane-ip-resource-information.go:172-178,
    ie/volume-measurement.go:224-230, ie/volume-quota.go:164-170, ie/volume-threshold.go:164-170 *)
(** Marshal of the XxxFields structs *)
Definition fmarshal (f : fields) : res (list N) :=
  match f with
  | F_fteid f => fteid_marshal f | F_fseid f => fseid_marshal f | F_ueip f => ueip_marshal f | F_altip f => altip_marshal f
  | F_srcip f => srcip_marshal f | F_ulip f => ulip_marshal f | F_mptcp f => mptcp_marshal f | F_pmf f => pmf_marshal f
  | F_rpeer f => rpeer_marshal f | F_mcast f => mcast_marshal f | F_volm f => volm_marshal f | F_vol3 f => vol3_marshal f
  | F_nue f => nue_marshal f | F_delays f => delays_marshal f | F_prate f => prate_marshal f | F_dlfl f => dlfl_marshal f
  | F_prstat f => prstat_marshal f | F_tag f => tag_marshal f | F_sdf f => sdf_marshal f | F_ohc f => ohc_marshal f
  | F_userid f => userid_marshal f | F_henr f => henr_marshal f | F_redir f => redir_marshal f | F_macaddr f => macaddr_marshal f
  | F_upri f => upri_marshal f | F_trace f => trace_marshal f | F_pfdc f => pfdc_marshal f | F_macl f => macl_marshal f
  end.
(** if err != nil { return nil } *)
Definition nil_on_err (r : res (list N)) : res (option (list N)) :=
  match r with Ok b => Ok (Some b) | Err _ => Ok None | Fault => Fault | Fuel => Fuel end.

(** * Bodies that build the payload themselves *)
(** uint8((a<<k)|(b<<j)|...); the arguments are ints (SInts) or uint8s (SOcts, where the shift drops the high bits before the or) *)
Definition ints (ks : list N) (zs : list Z) : N :=
  Z.to_N (fold_right Z.lor 0 (map (fun x => Z.shiftl (snd x) (Z.of_N (fst x))) (combine ks zs)) mod 256)%Z.
Definition octs_or (ks : list N) (xs : list N) : N :=
  fold_right N.lor 0%N (map (fun x => u8 (N.shiftl (snd x) (fst x))) (combine ks xs)).
(** ie/access-availability-information.go:20-22 *)
Definition new_access_availability (status atype : N) : list N := [N.lor (u8 (N.shiftl (N.land status 0x03) 2)) (N.land atype 0x03)].
(** ie/additional-usage-reports-information.go:13-18 *)
Definition new_auri (num : N) : list N := if (num =? 0)%N then be 2 num else be 2 (N.lor num 0x8000).
(** ie/dl-buffering-suggested-packet-count.go:13-18 *)
Definition new_suggested_count (count : N) : list N := if (count <=? 255)%N then [u8 count] else be 2 count.
(** ie/downlink-data-service-information.go:12-24 *)
Definition new_downlink_data (has_ppi has_qfi : bool) (ppi qfi : N) : list N :=
  (N.lor (if has_ppi then 1 else 0) (if has_qfi then 2 else 0))%N :: (if has_ppi then [ppi] else []) ++ (if has_qfi then [qfi] else []).
(** ie/dropped-dl-traffic-threshold.go:14-39 *)
Definition new_dropped_dl (dlpa dlby : bool) (packets bytes : N) : res (list N) :=
  if dlpa then
    if dlby then b <- put (make 17) 0 [3%N] ;; b <- put b 1 (be 8 packets) ;; put b 9 (be 8 bytes)
    else b <- put (make 9) 0 [1%N] ;; put b 1 (be 8 packets)
  else if dlby then b <- put (make 9) 0 [2%N] ;; put b 1 (be 8 bytes)
  else Ok [0%N].
(** ie/failed-rule-id.go:22-39 *)
Definition new_failed_rule_id (typ id : N) : res (list N) :=
  if (typ =? 0)%N then b <- put (make 3) 0 [typ] ;; put b 1 (be 2 (u16 id))
  else if (typ =? 1)%N || (typ =? 2)%N || (typ =? 3)%N then b <- put (make 5) 0 [typ] ;; put b 1 (be 4 id)
  else if (typ =? 4)%N then Ok [typ; u8 id]
  else Ok [typ].
(** ie/flow-information.go:21-31 *)
Definition new_flow_information (dir : N) (desc : list N) : res (list N) :=
  b <- put (make (3 + length desc)) 0 [dir] ;; b <- put b 1 (be 2 (u16 (lenN desc))) ;; copy_from b 3 desc.
(** ie/forwarding-policy.go:10-18 *)
Definition new_forwarding_policy (id : list N) : res (list N) := b <- put (make (1 + length id)) 0 [u8 (lenN id)] ;; copy_from b 1 id.
(** ie/fq-csid.go:22-52; ip is net.ParseIP(nodeAddr); the loop writes the csIDs one after the other *)
Fixpoint put_csids (b : list N) (offset : nat) (ids : list N) : res (list N) :=
  match ids with
  | [] => Ok b
  | c :: r => b <- put b offset (be 2 c) ;; put_csids b (offset + 2) r
  end.
Definition new_fqcsid (addr : list N) (ip : bslice) (ids : list N) : res (option (list N)) :=
  let go ntype nid :=
    b <- put (make (1 + length nid + length ids * 2)) 0 [N.lor (N.land (u8 (N.shiftl ntype 4)) 0xf0) (N.land (lenN ids) 0x0f)] ;;
    b <- copy_range b 1 (length nid + 1) nid ;;
    b <- put_csids b (length nid + 1) ids ;;
    Ok (Some b) in
  match ip with
  | None => match hex_decode addr with Ok nid => go 2%N nid | _ => Ok None end
  | Some x => match to4 ip with Some v4 => go 0%N v4 | None => go 1%N x end
  end.
(** ie/gbr.go:14-19, ie/mbr.go:14-19 *)
Definition new_rates (ul dl : N) : res (list N) := b <- copy_range (make 10) 0 5 (uint64To40 ul) ;; copy_range b 5 10 (uint64To40 dl).
(** ie/ip-version.go:8-17 *)
Definition new_ip_version (v4 v6 : bool) : list N := [N.lor (if v4 then 1 else 0) (if v6 then 2 else 0)]%N.
(** ie/multiplier.go:13-19 *)
Definition new_multiplier (val exp : N) : res (list N) := b <- put (make 12) 0 (be 8 val) ;; put b 8 (be 4 exp).
(** ie/outer-header-removal.go:10-12 *)
Definition new_outer_header_removal (desc ext : N) : list N := be 2 (N.lor (u16 (N.shiftl desc 8)) ext).
(** ie/s-nssai.go:14-19 *)
Definition new_snssai (sst sd : N) : res (list N) := b <- put (make 4) 0 [sst] ;; copy_range b 1 4 (utils_uint32To24 sd).
(** ie/tsn-bridge-id.go:13-22 *)
Definition new_tsn_bridge_id (mac : bslice) : res (list N) :=
  match mac with
  | None => Ok [0%N]
  | Some m => b <- put (make (length m + 1)) 0 [1%N] ;; copy_range b 1 (length m + 1) m
  end.
(** ie/ue-ip-address-pool-identity.go:13-21 *)
Definition new_pool_identity (id : list N) : res (list N) := b <- put (make (2 + length id)) 0 (be 2 (u16 (lenN id))) ;; copy_from b 2 id.
(** ie/up-function-features.go:10-27 *)
Fixpoint put_features (b : list N) (i : nat) (fs : list N) : res (list N) :=
  match fs with
  | [] => Ok b
  | f :: r => if 3 <? i then Ok b else b <- put b i [f] ;; put_features b (S i) r
  end.
Definition new_up_features (fs : list N) : res (list N) := put_features (make (if 3 <=? length fs then 4 else 2)) 0 fs.

(** * Shapes *)
Inductive shape :=
| SGroup                  (* newGroupedIE(T, 0, ies...) *)
| SGroup1 | SGroup2       (* newGroupedIE(T, 0, x), newGroupedIE(T, 0, x, y) *)
| SGroupT | SGroupT1      (* the same with the type an argument *)
| SUint (k : nat)         (* newUint8kValIE(T, v) *)
| SMask (m : N)           (* newUint8ValIE(T, v&m) *)
| SInts (ks : list N) | SOcts (ks : list N)
| SString                 (* newStringIE(T, s) *)
| SFQDN                   (* newFQDNIE(T, s), ie/ie.go:660-662 *)
| SOctets                 (* New(T, octets) for a variadic ...uint8 *)
| STime | STimer | SSecs32 | SSecs16 | SMillis | S50ms | SNanos
| SFields (k : fkind)
| SAccessAvailability | SAuri | SSuggestedCount | SDownlinkData | SDroppedDL | SFailedRuleID | SFlowInformation | SForwardingPolicy
| SFQCSID | SRates | SIPVersion | SMultiplier | SNFInstanceID | SNodeID | SNodeIDHeuristic | SOuterHeaderRemoval | SSNSSAI
| STimeQuotaMechanism | STSNBridgeID | SPoolIdentity | SUPFeatures.

(** the arguments; *IE is option ie (None for nil), time.Time and time.Duration are Z (Time.v) *)
Definition sarg (s : shape) : Type :=
  match s with
  | SGroup => list (option ie)
  | SGroup1 => option ie
  | SGroup2 => option ie * option ie
  | SGroupT => N * list (option ie)
  | SGroupT1 => N * option ie
  | SUint _ | SMask _ | SAuri | SSuggestedCount => N
  | SInts _ => list Z
  | SOcts _ | SOctets | SString | SFQDN | SForwardingPolicy | SNFInstanceID | SPoolIdentity | SUPFeatures => list N
  | STime | STimer | SSecs32 | SSecs16 | SMillis | S50ms | SNanos => Z
  | SFields k => fargs k
  | SAccessAvailability | SFailedRuleID | SRates | SMultiplier | SOuterHeaderRemoval | SSNSSAI => N * N
  | SDownlinkData | SDroppedDL => bool * bool * N * N
  | SFlowInformation => N * list N
  | SFQCSID => list N * bslice * list N
  | SIPVersion => bool * bool
  | SNodeID => option bslice * option bslice * list N
  | SNodeIDHeuristic => list N * bslice
  | STimeQuotaMechanism => N * Z
  | STSNBridgeID => bslice
  end.

Section Build.
(** what the processor makes of a float64 outside the range of the unsigned type it is converted to (left open by the Go specification) *)
Variable beyond : spec_float -> N.
Definition conv (bits : Z) (x : spec_float) : N := match f64_to_uint bits x with Some n => n | None => (beyond x mod 2 ^ Z.to_N bits)%N end.

(** the payload given to New; Ok None: the constructor returns nil.  The groups are in NewRun.v *)
Definition build (s : shape) : sarg s -> res (option (list N)) :=
  let some (b : list N) : res (option (list N)) := Ok (Some b) in
  let osome (r : res (list N)) : res (option (list N)) := b <- r ;; Ok (Some b) in
  match s return sarg s -> res (option (list N)) with
  | SGroup | SGroup1 | SGroup2 | SGroupT | SGroupT1 => fun _ => Ok None
  | SUint k => fun v => some (be k v)
  | SMask m => fun v => some [N.land v m]
  | SInts ks => fun zs => some [ints ks zs]
  | SOcts ks => fun xs => some [octs_or ks xs]
  | SString | SOctets => fun s => some s
  | SFQDN => fun s => osome (encode_fqdn s)
  | STime => fun t => some (new_timestamp t)
  | STimer => fun d => some (new_timer d)
  | SSecs32 => fun d => some (be 4 (conv 32 (dur_seconds d)))
  | SSecs16 => fun d => some (be 2 (conv 16 (dur_seconds d)))
  | SMillis => fun d => some (new_millis d)
  | S50ms => fun d => some (new_ddn_delay d)
  | SNanos => fun d => some (new_time_offset d)
  | SFields k => fun a => f <- fnew k a ;; nil_on_err (fmarshal f)
  | SAccessAvailability => fun '(s, t) => some (new_access_availability s t)
  | SAuri => fun n => some (new_auri n)
  | SSuggestedCount => fun n => some (new_suggested_count n)
  | SDownlinkData => fun '(hp, hq, p, q) => some (new_downlink_data hp hq p q)
  | SDroppedDL => fun '(hp, hb, p, b) => osome (new_dropped_dl hp hb p b)
  | SFailedRuleID => fun '(t, id) => osome (new_failed_rule_id t id)
  | SFlowInformation => fun '(d, s) => osome (new_flow_information d s)
  | SForwardingPolicy => fun s => osome (new_forwarding_policy s)
  | SFQCSID => fun '(a, ip, ids) => new_fqcsid a ip ids
  | SRates => fun '(u, d) => osome (new_rates u d)
  | SIPVersion => fun '(v4, v6) => some (new_ip_version v4 v6)
  | SMultiplier => fun '(v, e) => osome (new_multiplier v e)
  | SNFInstanceID => fun id => osome (slice id 0 16) (* ie/nf-instance-id.go:12-14 *)
  | SNodeID => fun '(v4, v6, s) => new_node_id v4 v6 s
  | SNodeIDHeuristic => fun '(s, ip) => new_node_id_heuristic s ip
  | SOuterHeaderRemoval => fun '(d, e) => some (new_outer_header_removal d e)
  | SSNSSAI => fun '(t, d) => osome (new_snssai t d)
  | STimeQuotaMechanism => fun '(t, d) => some (N.land t 0x03 :: be 4 (conv 32 (dur_seconds d))) (* ie/time-quota-mechanism.go:19-25 *)
  | STSNBridgeID => fun m => osome (new_tsn_bridge_id m)
  | SPoolIdentity => fun s => osome (new_pool_identity s)
  | SUPFeatures => fun fs => osome (new_up_features fs)
  end.
End Build.
