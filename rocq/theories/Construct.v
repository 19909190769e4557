(** What the accessor of a structured IE returns on the IE its constructor built, in terms of the constructor's arguments.
    Nothing here refers to NewXxxFields, Marshal or the decoders. *)
From Verif Require Import Base Codec Codec2 Time Utils Fields1 Fields2 Fields3 Fields4 FieldsSpec4 Access New.
Set Implicit Arguments.

(** an octet of flags given the flags that are set *)
Definition flagsum (l : list (bool * N)) : N := fold_right (fun (x : bool * N) n => if fst x then snd x + n else n)%N 0%N l.
Definition given (v : bslice) : bool := match v with Some _ => true | None => false end.
Definition text (s : list N) : bool := match s with [] => false | _ => true end.
(** an argument is kept when its flag is set *)
Definition when {A} (c : bool) (x z : A) : A := if c then x else z.
(** an address argument is nil or of the family asked for *)
Definition ip4 (v : bslice) : Prop := forall x, v = Some x -> (exists y, to4 v = Some y) /\ bytes x.
Definition ip6 (v : bslice) : Prop := forall x, v = Some x -> (length x = 4 \/ length x = 16) /\ bytes x.
(** an address argument that has to be there *)
Definition addr4 (v : bslice) : Prop := (exists y, to4 v = Some y) /\ bytes (octs v).
Definition addr6 (v : bslice) : Prop := exists x, v = Some x /\ (length x = 4 \/ length x = 16) /\ bytes x.
(** a hardware address argument is nil or of six octets *)
Definition hw (v : bslice) : Prop := forall x, v = Some x -> length x = 6 /\ bytes x.
(** a decimal digit or a to f *)
Definition digit (c : N) : Prop := (48 <= c <= 57 \/ 97 <= c <= 102)%N.
Definition some_bit (fl : N) (l : list N) : Prop := exists i, In i l /\ N.testbit fl i = true.
Local Notation bit := N.testbit.
Local Notation w16 := (fun v : N => v < 2 ^ 16)%N.
Local Notation w32 := (fun v : N => v < 2 ^ 32)%N.
Local Notation w64 := (fun v : N => v < 2 ^ 64)%N.

(** the arguments for which the statement is made: within their Go types; addresses of the family they are given as and present where
    the flags ask for them; texts within the width of their length octets *)
Definition suited (k : fkind) : fargs k -> Prop :=
  match k return fargs k -> Prop with
  | K_AlternativeSMFIPAddress | K_CPPFCPEntityIPAddress => fun '(v4, v6) => ip4 v4 /\ ip6 v6
  | K_CTAG | K_STAG => fun '(fl, pcp, dei, vid) => octet fl /\ (pcp < 8)%N /\ (dei < 2)%N /\ (vid < 4096)%N
  | K_DLFlowLevelMarking => fun '(fl, ttc, sci) => octet fl /\ w16 ttc /\ w16 sci /\ some_bit fl [0; 1]%N
  | K_FSEID => fun '(seid, v4, v6) => w64 seid /\ ip4 v4 /\ ip6 v6
  | K_FTEID => fun '(fl, teid, v4, v6, chid) => octet fl /\ w32 teid /\ octet chid /\
      (bit fl 2 = false -> (bit fl 0 = true -> addr4 v4) /\ (bit fl 1 = true -> addr6 v6))
  | K_HeaderEnrichment => fun '(t, name, value) => octet t /\ bytes name /\ bytes value /\ (lenN name < 256)%N /\ (lenN value < 256)%N
  | K_IPMulticastAddress => fun '(sv4, sv6, ev4, ev6) => ip4 sv4 /\ ip6 sv6 /\ ip4 ev4 /\ ip6 ev6 /\
      (sv4 = None /\ sv6 = None \/ ev4 = None /\ ev6 = None \/ given ev4 = given sv4 /\ given ev6 = given sv6)
  | K_MACAddressesDetected | K_MACAddressesRemoved => fun '(ct, st, macs) => Forall mac6 macs /\ (lenN macs < 256)%N /\
      exists c s, ct = Some c /\ st = Some s /\ bytes c /\ bytes s /\ (lenN c < 256)%N /\ (lenN s < 256)%N
  | K_MACAddress => fun '(s, d, us, ud) => hw s /\ hw d /\ hw us /\ hw ud
  | K_MPTCPAddressInformation => fun '(t, port, v4, v6) => octet t /\ w16 port /\ ip4 v4 /\ ip6 v6
  | K_NumberOfUEIPAddresses => fun '(fl, v4, v6) => octet fl /\ w32 v4 /\ w32 v6
  | K_OuterHeaderCreation => fun '(d, teid, v4, v6, port, ctag, stag) => w16 d /\ w32 teid /\ w16 port /\
      ((bit d 8 || bit d 10 || bit d 12) = true -> addr4 v4) /\ ((bit d 9 || bit d 11 || bit d 13) = true -> addr6 v6) /\
      (bit d 14 || bit d 15 = false \/ bit d 10 || bit d 11 = false)
  | K_PacketDelayThresholds | K_QoSMonitoringMeasurement => fun '(fl, dl, ul, rp) => octet fl /\ w32 dl /\ w32 ul /\ w32 rp
  | K_PacketRateStatus => fun '(fl, ul, aul, dl, adl, t) => octet fl /\ w16 ul /\ w16 aul /\ w16 dl /\ w16 adl /\
      (- 2208988800 * 1000000000 <= t <= 2 ^ 63 - 1 - 2208988800 * 1000000000)%Z
  | K_PacketRate => fun '(fl, uu, up, du, dp) => octet fl /\ octet uu /\ w16 up /\ octet du /\ w16 dp /\ some_bit fl [0; 1]%N
  | K_PFDContents => fun '(fd, url, dn, cp, dnp, afd, aurl, adnp) =>
      Forall (fun s => bytes s /\ (lenN s < 65536)%N) [fd; url; dn; cp; dnp] /\
      Forall (fun l => Forall bytes l /\ (lenN (items l) < 65536)%N) [afd; aurl; adnp]
  | K_PMFAddressInformation => fun '(v4, v6, p1, p2, m1, m2) => ip4 v4 /\ ip6 v6 /\ w16 p1 /\ w16 p2 /\
      (hw m1 /\ m1 <> None) /\ (hw m2 /\ m2 <> None)
  | K_RedirectInformation => fun '(t, addrs) => octet t /\ addrs <> [] /\ Forall (fun s => bytes s /\ (lenN s < 65536)%N) addrs
  | K_RemoteGTPUPeer => fun '(fl, v4, v6, di, ni) => octet fl /\ octet di /\ bytes ni /\ (lenN ni < 65536)%N /\
      (bit fl 1 = true -> addr4 v4) /\ (bit fl 0 = true -> addr6 v6) /\ some_bit fl [0; 1; 2; 3]%N /\
      (bit fl 4 = false \/ bit fl 1 = false /\ bit fl 0 = false)
  | K_SDFFilter => fun '(fd, ttc, spi, fl, fid) => bytes (fd ++ ttc ++ spi ++ fl) /\ (lenN fd < 65536)%N /\
      In (length ttc) [0; 2] /\ In (length spi) [0; 4] /\ In (length fl) [0; 3] /\ w32 fid
  | K_SourceIPAddress => fun '(v4, v6, mpl) => ip4 v4 /\ ip6 v6 /\ octet mpl
  | K_SubsequentVolumeQuota | K_SubsequentVolumeThreshold | K_VolumeQuota | K_VolumeThreshold =>
      fun '(fl, t, u, d) => octet fl /\ w64 t /\ w64 u /\ w64 d
  | K_TraceInformation => fun '(mcc, mnc, id, ev, depth, ifs, ip) => Forall digit mcc /\ Forall digit mnc /\ length mcc = 3 /\
      (length mnc = 2 \/ length mnc = 3 /\ last mnc 0%N <> 102%N) /\ length id = 3 /\
      (lenN (octs ev) < 256)%N /\ (lenN (octs ifs) < 256)%N /\ (exists x, ip = Some x /\ (length x = 4 \/ length x = 16))
  | K_UEIPAddress => fun '(fl, v4, v6, v6d, v6pl) => octet fl /\ octet v6d /\ octet v6pl /\
      (bit fl 1 = true -> bit fl 4 = false -> addr4 v4) /\ (bit fl 0 = true -> bit fl 5 = false -> addr6 v6)
  | K_UELinkSpecificIPAddress => fun '(v4, v6, nv4, nv6) => ip4 v4 /\ ip6 v6 /\ ip4 nv4 /\ ip6 nv6
  | K_UserID => fun '(fl, imsi, imei, msisdn, nai) => octet fl /\
      (forall i s, In (i, s) [(0, imsi); (1, imei); (2, msisdn)]%N -> bit fl i = true -> Forall digit s /\ (lenN s <= 510)%N) /\
      (bit fl 3 = true -> bytes nai /\ (lenN nai < 256)%N)
  | K_UserPlaneIPResourceInformation => fun '(fl, range, v4, v6, ni, si) => octet fl /\ octet range /\ bytes ni /\ (si < 16)%N /\
      (bit fl 0 = true -> addr4 v4) /\ (bit fl 1 = true -> addr6 v6) /\ (some_bit fl [0; 1; 2; 3; 4; 6]%N \/ bit fl 5 = true /\ ni <> [])
  | K_VolumeMeasurement => fun '(fl, tv, uv, dv, tp, up, dp) => octet fl /\ Forall (fun v => w64 v) [tv; uv; dv; tp; up; dp]
  end.

(** what comes back of a digit string: one digit less when there is an even number of them *)
Definition digits_back (s : list N) : list N := if Nat.even (length s) then removelast s else s.
Definition eof {A} : res A := Err EUnexpectedEOF.

(** r is what the accessor returns *)
Definition reads (k : fkind) : fargs k -> res fields -> Prop :=
  match k return fargs k -> res fields -> Prop with
  | K_AlternativeSMFIPAddress | K_CPPFCPEntityIPAddress => fun '(v4, v6) r =>
      r = if given v4 || given v6 then Ok (F_altip {| ai_flags := flagsum [(given v4, 2); (given v6, 1)]%N; ai_v4 := to4 v4; ai_v6 := to16 v6 |}) else eof
  | K_CTAG | K_STAG => fun '(fl, pcp, dei, vid) r =>
      r = Ok (F_tag {| tg_flags := fl; tg_pcp := when (bit fl 0) pcp 0%N; tg_dei := when (bit fl 1) dei 0%N;
                       tg_vid := when (bit fl 2) (vid / 256 * 4096 + vid mod 256)%N 0%N |})
  | K_DLFlowLevelMarking => fun '(fl, ttc, sci) r =>
      r = Ok (F_dlfl {| dm_flags := fl; dm_ttc := when (bit fl 0) ttc 0%N; dm_sci := when (bit fl 1) sci 0%N |})
  | K_FSEID => fun '(seid, v4, v6) r =>
      r = Ok (F_fseid {| fs_flags := flagsum [(given v4, 2); (given v6, 1)]%N; fs_seid := seid; fs_v4 := to4 v4; fs_v6 := to16 v6 |})
  | K_FTEID => fun '(fl, teid, v4, v6, chid) r =>
      r = Ok (F_fteid (if bit fl 2 then {| ft_flags := fl; ft_teid := 0; ft_v4 := None; ft_v6 := None; ft_chid := when (bit fl 3) chid 0%N |}
                       else {| ft_flags := fl; ft_teid := teid; ft_v4 := when (bit fl 0) (to4 v4) None; ft_v6 := when (bit fl 1) (to16 v6) None; ft_chid := 0 |}))
  | K_HeaderEnrichment => fun '(t, name, value) r =>
      r = Ok (F_henr {| he_type := t; he_namelen := lenN name; he_name := name; he_vallen := lenN value; he_val := value |})
  | K_IPMulticastAddress => fun '(sv4, sv6, ev4, ev6) r =>
      r = if given sv4 || given sv6
          then Ok (F_mcast {| mc_flags := flagsum [(given sv4, 2); (given sv6, 1); (given ev4 || given ev6, 4)]%N; mc_sv4 := to4 sv4; mc_sv6 := to16 sv6; mc_ev4 := to4 ev4; mc_ev6 := to16 ev6 |})
          else eof
  | K_MACAddressesDetected | K_MACAddressesRemoved => fun '(ct, st, macs) r =>
      let tail := (lenN (octs ct) :: octs ct) ++ (lenN (octs st) :: octs st) in
      r = if length tail <? 6 then eof
          else match skipn 6 tail with
               | [] => Fault
               | t :: q => if (lenN q + 1 <? t)%N then eof
                           else Ok (F_macl {| ml_n := lenN macs; ml_macs := macs ++ [firstn 6 tail]; ml_ctlen := t; ml_ctag := []; ml_stlen := t; ml_stag := [] |})
               end
  | K_MACAddress => fun '(s, d, us, ud) r =>
      r = if given s || given d || given us || given ud
          then Ok (F_macaddr {| ma_flags := flagsum [(given s, 1); (given d, 2); (given us, 4); (given ud, 8)]%N; ma_src := s; ma_dst := d; ma_usrc := us; ma_udst := ud |})
          else eof
  | K_MPTCPAddressInformation => fun '(t, port, v4, v6) r =>
      r = Ok (F_mptcp {| mp_flags := flagsum [(given v4, 1); (given v6, 2)]%N; mp_type := t; mp_port := port; mp_v4 := to4 v4; mp_v6 := to16 v6 |})
  | K_NumberOfUEIPAddresses => fun '(fl, v4, v6) r =>
      r = Ok (F_nue {| nu_flags := fl; nu_v4 := when (bit fl 0) v4 0%N; nu_v6 := when (bit fl 1) v6 0%N |})
  | K_OuterHeaderCreation => fun '(d, teid, v4, v6, port, ctag, stag) r =>
      r = if bit d 6 || bit d 7 then (if bit d 14 || bit d 15 then Fault else eof)
          else Ok (F_ohc {| oh_desc := d; oh_teid := when (bit d 8 || bit d 9) teid 0%N; oh_v4 := when (bit d 8 || bit d 10 || bit d 12) (to4 v4) None;
                            oh_v6 := when (bit d 9 || bit d 11 || bit d 13) (to16 v6) None; oh_port := when (bit d 10 || bit d 11) port 0%N; oh_ctag := 0; oh_stag := 0 |})
  | K_PacketDelayThresholds | K_QoSMonitoringMeasurement => fun '(fl, dl, ul, rp) r =>
      r = Ok (F_delays {| dy_flags := fl; dy_dl := when (bit fl 0) dl 0%N; dy_ul := when (bit fl 1) ul 0%N; dy_rp := when (bit fl 2) rp 0%N |})
  | K_PacketRateStatus => fun '(fl, ul, aul, dl, adl, t) r =>
      r = Ok (F_prstat {| ps_flags := fl; ps_ul := when (bit fl 0) ul 0%N; ps_aul := when (bit fl 0 && bit fl 2) aul 0%N; ps_dl := when (bit fl 1) dl 0%N;
                          ps_adl := when (bit fl 1 && bit fl 2) adl 0%N; ps_time := (t / 1000000000 * 1000000000)%Z |})
  | K_PacketRate => fun '(fl, uu, up, du, dp) r =>
      r = Ok (F_prate {| pr_flags := fl; pr_uunit := when (bit fl 0) uu 0%N; pr_dunit := when (bit fl 1) du 0%N; pr_urate := when (bit fl 0) up 0%N; pr_drate := when (bit fl 1) dp 0%N |})
  | K_PFDContents => fun '(fd, url, dn, cp, dnp, afd, aurl, adnp) r =>
      let listed (l : list (list N)) := match l with [] => false | _ => true end in
      let fl := flagsum [(text fd, 1); (text url, 2); (text dn, 4); (text cp, 8); (text dnp, 16); (listed afd, 32); (listed aurl, 64); (listed adnp, 128)]%N in
      let ss := [fd; url; dn; cp; dnp; items afd; items aurl; items adnp] in
      let n := 2 + length (wires (pfd_fields fl) ss) in
      (roomy (pfd_fields fl) ss 2 n -> r = Ok (F_pfdc (pfdc_of fl fd url dn cp dnp (items afd) (items aurl) (items adnp) (trim afd) (trim aurl) (trim adnp)))) /\
      (~ roomy (pfd_fields fl) ss 2 n -> r = eof)
  | K_PMFAddressInformation => fun '(v4, v6, p1, p2, m1, m2) r =>
      r = Ok (F_pmf {| pm_flags := flagsum [(given v4, 1); (given v6, 2)]%N; pm_v4 := to4 v4; pm_v6 := to16 v6; pm_port1 := p1; pm_port2 := p2; pm_mac1 := None; pm_mac2 := None |})
  | K_RedirectInformation => fun '(t, addrs) r =>
      match addrs with
      | [] => False
      | [] :: _ => r = Ok (F_redir {| ri_type := t; ri_len := 0; ri_addr := []; ri_olen := 0; ri_other := [] |})
      | a :: o => let c := match o with c :: _ => c | [] => [] end in
                  r = Ok (F_redir {| ri_type := t; ri_len := lenN a; ri_addr := a; ri_olen := lenN a; ri_other := firstn (length a) (skipn 2 (a ++ be 2 (lenN c) ++ c)) |})
      end
  | K_RemoteGTPUPeer => fun '(fl, v4, v6, di, ni) r =>
      r = Ok (F_rpeer {| rg_flags := fl; rg_v4 := when (bit fl 1) (to4 v4) None; rg_v6 := when (bit fl 0) (to16 v6) None; rg_dilen := when (bit fl 2) 1%N 0%N;
                         rg_di := when (bit fl 2) (di mod 16)%N 0%N; rg_nilen := when (bit fl 3) (lenN ni) 0%N; rg_ni := when (bit fl 3) ni [] |})
  | K_SDFFilter => fun '(fd, ttc, spi, fl, fid) r =>
      let id := negb (fid =? 0)%N in
      r = if text fd || text ttc || text spi || text fl || id
          then Ok (F_sdf {| sd_flags := flagsum [(text fd, 1); (text ttc, 2); (text spi, 4); (text fl, 8); (id, 16)]%N; sd_fdlen := lenN fd; sd_fd := fd; sd_ttc := ttc; sd_spi := spi; sd_fl := fl; sd_fid := fid |})
          else eof
  | K_SourceIPAddress => fun '(v4, v6, mpl) r =>
      let masked := negb (mpl =? 0)%N in
      r = if given v4 || given v6 || masked
          then Ok (F_srcip {| si_flags := flagsum [(given v4, 2); (given v6, 1); (masked, 4)]%N; si_v4 := to4 v4; si_v6 := to16 v6; si_mpl := mpl |})
          else eof
  | K_SubsequentVolumeQuota | K_SubsequentVolumeThreshold | K_VolumeQuota | K_VolumeThreshold => fun '(fl, t, u, d) r =>
      r = if bit fl 0 || bit fl 1 || bit fl 2
          then Ok (F_vol3 {| v3_flags := fl; v3_tvol := when (bit fl 0) t 0%N; v3_uvol := when (bit fl 1) u 0%N; v3_dvol := when (bit fl 2) d 0%N |})
          else eof
  | K_TraceInformation => fun '(mcc, mnc, id, ev, depth, ifs, ip) r =>
      r = Ok (F_trace {| ti_mcc := mcc; ti_mnc := mnc; ti_id := id; ti_evlen := lenN (octs ev); ti_ev := None; ti_depth := depth; ti_iflen := lenN (octs ifs); ti_ifs := None;
                         ti_iplen := if given (to4 ip) then 4%N else 16%N; ti_ip := None |})
  | K_UEIPAddress => fun '(fl, v4, v6, v6d, v6pl) r =>
      r = Ok (F_ueip {| ue_flags := fl; ue_v4 := when (bit fl 1 && negb (bit fl 4)) (to4 v4) None; ue_v6 := when (bit fl 0 && negb (bit fl 5)) (to16 v6) None;
                        ue_v6d := when (bit fl 3) v6d 0%N; ue_v6pl := when (bit fl 6) (when (bit fl 3) v6d v6pl) 0%N |})
  | K_UELinkSpecificIPAddress => fun '(v4, v6, nv4, nv6) r =>
      r = Ok (F_ulip {| ul_flags := flagsum [(given v4, 1); (given v6, 2); (given nv4, 4); (given nv6, 8)]%N; ul_v4 := to4 v4; ul_v6 := to16 v6; ul_nv4 := to4 nv4; ul_nv6 := to16 nv6 |})
  | K_UserID => fun '(fl, imsi, imei, msisdn, nai) r =>
      let half (s : list N) := ((lenN s + 1) / 2)%N in
      r = Ok (F_userid {| ui_flags := fl; ui_imsilen := when (bit fl 0) (half imsi) 0%N; ui_imsi := when (bit fl 0) (digits_back imsi) [];
                          ui_imeilen := when (bit fl 1) (half imei) 0%N; ui_imei := when (bit fl 1) (digits_back imei) [];
                          ui_msisdnlen := when (bit fl 2) (half msisdn) 0%N; ui_msisdn := when (bit fl 2) (digits_back msisdn) [];
                          ui_nailen := when (bit fl 3) (lenN nai) 0%N; ui_nai := when (bit fl 3) nai [] |})
  | K_UserPlaneIPResourceInformation => fun '(fl, range, v4, v6, ni, si) r =>
      r = if bit fl 5 then (if bit fl 6 then Fault else eof)
          else Ok (F_upri {| up_flags := fl; up_range := when (bit fl 2 || bit fl 3 || bit fl 4) range 0%N; up_v4 := when (bit fl 0) (to4 v4) None;
                             up_v6 := when (bit fl 1) (to16 v6) None; up_ni := []; up_si := when (bit fl 6) si 0%N |})
  | K_VolumeMeasurement => fun '(fl, tv, uv, dv, tp, up, dp) r =>
      r = if bit fl 0 || bit fl 1 || bit fl 2 || bit fl 3 || bit fl 4 || bit fl 5
          then Ok (F_volm {| vm_flags := fl; vm_tvol := when (bit fl 0) tv 0%N; vm_uvol := when (bit fl 1) uv 0%N; vm_dvol := when (bit fl 2) dv 0%N;
                             vm_tpkt := when (bit fl 3) tp 0%N; vm_upkt := when (bit fl 4) up 0%N; vm_dpkt := when (bit fl 5) dp 0%N |})
          else eof
  end.
