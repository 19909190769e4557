(** The accessor methods of *IE (ie/*.go): what they return and the code of their case bodies.
    The 300-odd accessors are written in a small number of idioms, so each is described by data
    (guards, type cases, the body of each case) in AccTable.v and run by AccRun.v. *)
From Verif Require Import Base IETypes IE Bits Codec Utils Fields1 Time Fields2 Fields3 Fields4.
Set Implicit Arguments.

(** * Results *)
(** pointers to the XxxFields structs; types with the same layout share a record *)
Inductive fields :=
| F_fteid (f : fteid) | F_fseid (f : fseid) | F_ueip (f : ueip) | F_altip (f : altip) | F_srcip (f : srcip) | F_ulip (f : ulip)
| F_mptcp (f : mptcp) | F_pmf (f : pmf) | F_rpeer (f : rpeer) | F_mcast (f : mcast) | F_volm (f : volm) | F_vol3 (f : vol3)
| F_nue (f : nue) | F_delays (f : delays) | F_prate (f : prate) | F_dlfl (f : dlfl) | F_prstat (f : prstat) | F_tag (f : tag)
| F_sdf (f : sdf) | F_ohc (f : ohc) | F_userid (f : userid) | F_henr (f : henr) | F_redir (f : redir) | F_macaddr (f : macaddr)
| F_upri (f : upri) | F_trace (f : trace) | F_pfdc (f : pfdc) | F_macl (f : macl).

Inductive val :=
| VN (n : N)                (* uint8, uint16, uint32, uint64, IEType *)
| VNN (m n : N)             (* two unsigned results *)
| VNs (l : list N)          (* []uint16 *)
| VB (b : list N)           (* []byte, net.HardwareAddr; nil is [] *)
| VS (s : list N)           (* string *)
| VNode (x : node_id)       (* the string returned by NodeID, see Fields3.v *)
| VIEs (l : list ie)        (* []*IE *)
| VT (z : Z)                (* time.Time *)
| VD (z : Z)                (* time.Duration *)
| VF (f : fields).

(** the ParseXxxFields functions called by accessors *)
Inductive fkind :=
| K_AlternativeSMFIPAddress | K_CPPFCPEntityIPAddress | K_CTAG | K_STAG | K_DLFlowLevelMarking | K_FSEID | K_FTEID
| K_HeaderEnrichment | K_IPMulticastAddress | K_MACAddressesDetected | K_MACAddressesRemoved | K_MACAddress
| K_MPTCPAddressInformation | K_NumberOfUEIPAddresses | K_OuterHeaderCreation | K_PacketDelayThresholds
| K_PacketRateStatus | K_PacketRate | K_PFDContents | K_PMFAddressInformation | K_QoSMonitoringMeasurement
| K_RedirectInformation | K_RemoteGTPUPeer | K_SDFFilter | K_SourceIPAddress | K_SubsequentVolumeQuota
| K_SubsequentVolumeThreshold | K_TraceInformation | K_UEIPAddress | K_UELinkSpecificIPAddress | K_UserID
| K_UserPlaneIPResourceInformation | K_VolumeMeasurement | K_VolumeQuota | K_VolumeThreshold.
Definition as_f {A} (c : A -> fields) (r : res A) : res val := x <- r ;; Ok (VF (c x)).
(** The wrappers ParseXxxFields (tools/wrappers.py): ie/alternative-smf-ip-address.go:84-90, ie/c-tag.go:133-139,
    ie/cp-pfcp-entity-ip-address.go:96-102, ie/dl-flow-level-marking.go:107-113, ie/f-seid.go:87-93, ie/f-teid.go:182-188,
    ie/header-enrichment.go:85-91, ie/ip-multicast-address.go:174-180, ie/mac-address-detected.go:98-104, ie/mac-address-removed.go:87-93,
    ie/mac-address.go:138-144, ie/mptcp-address-information.go:117-123, ie/number-of-ue-ip-addresses.go:87-93, ie/outer-header-creation.go:346-352,
    ie/packet-delay-thresholds.go:99-105, ie/packet-rate-status.go:138-144, ie/packet-rate.go:120-126, ie/pfd-contents.go:232-238,
    ie/pmf-address-information.go:126-132, ie/qos-monitoring-measurement.go:109-115, ie/redirect-information.go:102-108,
    ie/remote-gtp-u-peer.go:144-150, ie/s-tag.go:133-139, ie/sdf-filter.go:167-173, ie/source-ip-address.go:143-149,
    ie/subsequent-volume-quota.go:130-136, ie/subsequent-volume-threshold.go:130-136, ie/trace-information.go:79-85, ie/ue-ip-address.go:212-218,
    ie/ue-link-specific-ip-address.go:136-142, ie/user-id.go:93-99, ie/user-plane-ip-resource-information.go:108-114,
    ie/volume-measurement.go:155-161, ie/volume-quota.go:119-125, ie/volume-threshold.go:119-125 *)
(** the files modelled by each parser are cited at its definition (Fields1.v to Fields4.v) *)
Definition fparse (k : fkind) (b : list N) : res val :=
  match k with
  | K_AlternativeSMFIPAddress | K_CPPFCPEntityIPAddress => as_f F_altip (altip_parse b)
  | K_CTAG | K_STAG => as_f F_tag (tag_parse b)
  | K_DLFlowLevelMarking => as_f F_dlfl (dlfl_parse b)
  | K_FSEID => as_f F_fseid (fseid_parse b)
  | K_FTEID => as_f F_fteid (fteid_parse b)
  | K_HeaderEnrichment => as_f F_henr (henr_parse b)
  | K_IPMulticastAddress => as_f F_mcast (mcast_parse b)
  | K_MACAddressesDetected | K_MACAddressesRemoved => as_f F_macl (macl_parse b)
  | K_MACAddress => as_f F_macaddr (macaddr_parse b)
  | K_MPTCPAddressInformation => as_f F_mptcp (mptcp_parse b)
  | K_NumberOfUEIPAddresses => as_f F_nue (nue_parse b)
  | K_OuterHeaderCreation => as_f F_ohc (ohc_parse b)
  | K_PacketDelayThresholds | K_QoSMonitoringMeasurement => as_f F_delays (delays_parse b)
  | K_PacketRateStatus => as_f F_prstat (prstat_parse b)
  | K_PacketRate => as_f F_prate (prate_parse b)
  | K_PFDContents => as_f F_pfdc (pfdc_parse b)
  | K_PMFAddressInformation => as_f F_pmf (pmf_parse b)
  | K_RedirectInformation => as_f F_redir (redir_parse b)
  | K_RemoteGTPUPeer => as_f F_rpeer (rpeer_parse b)
  | K_SDFFilter => as_f F_sdf (sdf_parse b)
  | K_SourceIPAddress => as_f F_srcip (srcip_parse b)
  | K_SubsequentVolumeQuota | K_SubsequentVolumeThreshold | K_VolumeQuota | K_VolumeThreshold => as_f F_vol3 (vol3_parse b)
  | K_TraceInformation => as_f F_trace (trace_parse b)
  | K_UEIPAddress => as_f F_ueip (ueip_parse b)
  | K_UELinkSpecificIPAddress => as_f F_ulip (ulip_parse b)
  | K_UserID => as_f F_userid (userid_parse b)
  | K_UserPlaneIPResourceInformation => as_f F_upri (upri_parse b)
  | K_VolumeMeasurement => as_f F_volm (volm_parse b)
  end.

(** * Case bodies that read the IE itself *)
Inductive leaf :=
| LUint (k : nat)        (* return i.ValueAsUint8k() *)
| LString                (* return i.ValueAsString() *)
| LFQDN                  (* return i.ValueAsFQDN() *)
| LTime                  (* return i.valueAs3GPPTimestamp() *)
| LPayload               (* return i.Payload, nil *)
| LChildren              (* return ParseMultiIEs(i.Payload) *)
| LFields (k : fkind)    (* return ParseXxxFields(i.Payload) *)
| LSecs32 | LMillis32 | LNanos64 | LSecs16   (* time.Duration(binary.BigEndian.UintN(i.Payload[0:n])) * unit *)
| LTimer                 (* the switch on (i.Payload[0] & 0xe0) >> 5 *)
| LOctet50ms             (* time.Duration(int64(i.Payload[0]) * 50000000) *)
| LAuri | LApplyAction | LSuggestedCount | LPPI | LFailedRuleID | LFlowDirection | LFlowDescription
| LNodeIDType | LNodeAddress | LCSIDs | LExponent | LNFInstanceID | LNodeID | LPPIndicator | LQFI | LSNSSAI
| LTGPPInterface | LTSNBridgeID
| LFail (e : err)       (* return zero, e *)
| LInvalid.             (* return zero, &InvalidTypeError{Type: i.Type} *)

Definition as_n (r : res N) : res val := x <- r ;; Ok (VN x).
Definition as_b (r : res (list N)) : res val := x <- r ;; Ok (VB x).
Definition as_s (r : res (list N)) : res val := x <- r ;; Ok (VS x).
Definition as_d (r : res Z) : res val := x <- r ;; Ok (VD x).
Definition as_t (r : res Z) : res val := x <- r ;; Ok (VT x).
Definition as_ies (r : res (list ie)) : res val := x <- r ;; Ok (VIEs x).
Definition as_node (r : res node_id) : res val := x <- r ;; Ok (VNode x).

(** ie/failed-rule-id.go:51-78 after the guards; the rule ID types are 0 PDR, 1 FAR, 2 QER, 3 URR, 4 BAR
    (ie/failed-rule-id.go:12-19) *)
Definition failed_rule_id (p : list N) : res N :=
  t <- index p 0 ;;
  if (t =? 0)%N then need 3 in p ;; getr 2 p 1 3
  else if (t =? 1)%N || (t =? 2)%N || (t =? 3)%N then need 5 in p ;; getr 4 p 1 5
  else if (t =? 4)%N then need 2 in p ;; index p 1
  else Ok 0%N.
(** ie/flow-information.go:90-113, the FlowInformation case; l is a uint16, so 3+l wraps *)
Definition flow_description (p : list N) : res (list N) :=
  l <- getr 2 p 1 3 ;;
  need N.to_nat l in p ;;
  slice p 3 (N.to_nat (u16 (3 + l))).
(** ie/fq-csid.go:81-105,108-134, the FQCSID cases; nodeIDIPv4, nodeIDIPv6, nodeIDOther are 0, 1, 2
    (ie/fq-csid.go:15-19).  The loop of CSIDs runs while offset+2 > len(i.Payload) and slices i.Payload[offset:offset+2]:
    when it is entered it panics in its first round, so no recursion is needed. *)
Definition node_id_type (p : list N) : res N := x <- index p 0 ;; Ok (N.land (N.shiftr x 4) 0x0f).
Definition node_address (p : list N) : res (list N) :=
  t <- node_id_type p ;;
  if (t =? 0)%N || (t =? 2)%N then need 6 in p ;; slice p 1 5
  else if (t =? 1)%N then need 18 in p ;; slice p 1 17
  else Err EMalformed.
Definition csids (p : list N) : res (list N) :=
  t <- node_id_type p ;;
  offset <- (if (t =? 0)%N || (t =? 2)%N then Ok 5 else if (t =? 1)%N then Ok 17 else Err EMalformed) ;;
  if length p <? offset + 2 then x <- getr 2 p offset (offset + 2) ;; Fault else Ok [].
(** ie/tsn-bridge-id.go:35-66, the TSNBridgeID case *)
Definition tsn_bridge_id (p : list N) : res (list N) :=
  x <- index p 0 ;;
  if negb (has1 x) then Ok [] else
  if negb (length p =? 7) && (length p <? 9) then Err EUnexpectedEOF else
  if length p =? 7 then slice p 1 7 else slice p 1 9.
(** ie/dl-buffering-suggested-packet-count.go:21-47, the case of the IE itself: i.Length, not len(i.Payload) *)
Definition suggested_count (g : N -> bool) (i : ie) : res N :=
  if (len i =? 1)%N then index (payload i) 0
  else if (2 <=? len i)%N then value_as_uint g 2 i
  else Err EUnexpectedEOF.
(** the unit switch of ie/timer.go:55-105 and its two copies *)
Definition timer_body (p : list N) : res Z :=
  x <- index p 0 ;;
  let v := Z.of_N (N.land x 0x1f) in
  Ok (match N.shiftr (N.land x 0xe0) 5 with
      | 7%N => maxint64
      | 4%N => v * 10 * hour
      | 3%N => v * hour
      | 2%N => v * 10 * minute
      | 1%N => v * minute
      | 0%N => v * 2 * second
      | _ => 0
      end)%Z.

Definition node_body (p : list N) : res node_id :=
  t <- index p 0 ;;
  q <- from p 1 ;;
  if (t =? 0)%N then Ok (NodeIP (to4 (Some q)))
  else if (t =? 1)%N then Ok (NodeIP (to16 (Some q)))
  else if (t =? 2)%N then s <- decode_fqdn q ;; Ok (NodeName s)
  else Err (EInvalidNodeID t).

Definition leaf_run (g : N -> bool) (l : leaf) (i : ie) : res val :=
  let p := payload i in
  match l with
  | LUint k => as_n (value_as_uint g k i)
  | LString => as_s (value_as_string g i)
  | LFQDN => if g (ty i) then Err (EInvalidTypeT (ty i)) else as_s (decode_fqdn p)     (* ie/ie.go:428-434 *)
  | LTime => if g (ty i) then Err (EInvalidTypeT (ty i)) else as_t (timestamp_value p) (* ie/ie.go:464-473 *)
  | LPayload => Ok (VB p)
  | LChildren => as_ies (parseMultiIEs g p)
  | LFields k => fparse k p
  | LSecs32 => as_d (x <- getr 4 p 0 4 ;; Ok (Z.of_N x * second)%Z)
  | LMillis32 => as_d (x <- getr 4 p 0 4 ;; Ok (Z.of_N x * 1000000)%Z)
  | LNanos64 => as_d (x <- getr 8 p 0 8 ;; Ok (to_i64 x))
  | LSecs16 => as_d (x <- getr 2 p 0 2 ;; Ok (Z.of_N x * second)%Z)
  | LTimer => as_d (timer_body p)
  | LOctet50ms => as_d (x <- index p 0 ;; Ok (Z.of_N x * 50000000)%Z)
  | LAuri => as_n (x <- getr 2 p 0 2 ;; Ok (N.land x 0x7fff))
  | LApplyAction => need 1 in p ;; Ok (VB p)
  | LSuggestedCount => as_n (suggested_count g i)
  | LPPI => as_n (index p 1)
  | LFailedRuleID => as_n (failed_rule_id p)
  | LFlowDirection => need 1 in p ;; as_n (x <- index p 0 ;; Ok (N.land x 0x07))
  | LFlowDescription => as_s (flow_description p)
  | LNodeIDType => as_n (node_id_type p)
  | LNodeAddress => as_b (node_address p)
  | LCSIDs => x <- csids p ;; Ok (VNs x)
  | LExponent => as_n (getr 4 p 8 12)
  | LNFInstanceID => as_b (slice p 0 16)
  | LNodeID => as_node (node_body p)
  | LPPIndicator => as_n (x <- index p 0 ;; Ok (N.land x 0x07))
  | LQFI => need 2 in p ;; as_n (index p 2)
  | LSNSSAI => as_b (slice p 0 4)
  | LTGPPInterface => as_n (x <- index p 0 ;; Ok (N.land x 0x3f))
  | LTSNBridgeID => as_b (tsn_bridge_id p)
  | LFail e => Err e
  | LInvalid => Err (EInvalidTypeT (ty i))
  end.

(** * Bodies that call another accessor on the same IE and use its result *)
Inductive post :=
| PBits (s : N) (m : N)       (* (v >> s) & m *)
| PGateULDL                   (* (v >> 2) & 0x03, v & 0x03 *)
| PU40 (lo hi : nat)          (* utils.Uint40To64(v[lo:hi]) *)
| PIndex0                     (* v[0] *)
| PIndex1                     (* if len(v) < 2: ErrUnexpectedEOF; v[1] *)
| PPolicyID                   (* the identifier of a Forwarding Policy *)
| PPoolID                     (* the string of a UE IP address Pool Identity *)
| PSD                         (* utils.Uint24To32(v[1:4]) *)
| POwnFQDN                    (* ignore v; utils.DecodeFQDN(i.Payload) *)
| PCTag | PSTag.              (* ParseCTAGFields(x.CTAG), ParseSTAGFields(x.STAG) *)

(** An argument of the wrong kind is Fault; AccProofs.v shows that it does not happen. *)
Definition post_run (f : post) (i : ie) (v : val) : res val :=
  match f, v with
  | PBits s m, VN n => Ok (VN (N.land (N.shiftr n s) m))
  | PGateULDL, VN n => Ok (VNN (N.land (N.shiftr n 2) 0x03) (N.land n 0x03))
  | PU40 lo hi, VB b => x <- slice b lo hi ;; Ok (VN (uint40To64 x))
  | PIndex0, VB b => as_n (index b 0)
  | PIndex1, VB b => need 2 in b ;; as_n (index b 1)
  | PPolicyID, VB b =>      (* ie/forwarding-policy.go:75-92 *)
      need 1 in b ;; n <- index b 0 ;; need (N.to_nat n + 1) in b ;; as_s (slice b 1 (N.to_nat n + 1))
  | PPoolID, VB b =>        (* ie/ue-ip-address-pool-identity.go:60-76 *)
      need 2 in b ;; n <- getr 2 b 0 2 ;; need (N.to_nat n + 2) in b ;; as_s (slice b 2 (N.to_nat n + 2))
  | PSD, VB b => x <- slice b 1 4 ;; Ok (VN (utils_uint24To32 x))
  | POwnFQDN, VS _ => as_s (decode_fqdn (payload i))
  | PCTag, VF (F_macl f) => fparse K_CTAG (ml_ctag f)
  | PSTag, VF (F_macl f) => fparse K_STAG (ml_stag f)
  | _, _ => Fault
  end.

(** * Accessors *)
Inductive guard :=
| GLen (n : nat)      (* if len(i.Payload) < n { return zero, io.ErrUnexpectedEOF } *)
| GType (t : N).      (* if i.Type != t { return zero, &InvalidTypeError{Type: i.Type} } *)

Section Action.
Variable A : Type.    (* names of accessors *)
Inductive action :=
| Leaf (l : leaf)
| Via (c : A) (ts : list N) (b : A)
    (* ies, err := i.c(); for x in ies: if x.Type in ts: return x.b(); return zero, ErrIENotFound *)
| ViaOwn (c : A) (ts : list N) (b : A)
    (* the same with i.Type in place of x.Type *)
| Then (c : A) (f : post)
    (* v, err := i.c(); ... f(v) *)
| OrElse (c d : A).
    (* v, err := i.c(); if v != "" return v; return i.d() *)
Record adef := mkdef { guards : list guard; cases : list (list N * action); dflt : action }.
End Action.
Arguments Leaf {A}. Arguments Then {A}.

Definition memb (t : N) (ts : list N) : bool := existsb (N.eqb t) ts.
Fixpoint lookup {A} (cs : list (list N * action A)) (d : action A) (t : N) : action A :=
  match cs with
  | [] => d
  | (ts, a) :: r => if memb t ts then a else lookup r d t
  end.
Fixpoint check (gs : list guard) (i : ie) : res unit :=
  match gs with
  | [] => Ok tt
  | GLen n :: r => need n in payload i ;; check r i
  | GType t :: r => if negb (ty i =? t)%N then Err (EInvalidTypeT (ty i)) else check r i
  end.
