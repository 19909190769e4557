(** UnmarshalBinary of the XxxFields types on a struct that already has contents (Fields1.v to Fields4.v
    model it on the zero struct, as ParseXxxFields calls it). Every reading below is the one of the
    parser of the same name, in the same order; a field the input does not carry keeps its old value.
    On an error the struct is left half written; the model only says that an error is returned. *)
From Verif Require Import Base Bits Codec Codec2 Utils Fields1 Time Fields2 Fields3 Fields4 Access.
Set Implicit Arguments.

(** [copy(dst, src)] with dst a field of the struct: only the octets dst has room for are written; a nil slice stays nil *)
Definition over_octs (dst src : list N) : list N := firstn (length dst) src ++ skipn (length src) dst.
Definition over_slice (dst : bslice) (src : list N) : bslice := match dst with Some d => Some (over_octs d src) | None => None end.
(** [if c { x }] where x reads the field *)
Definition orold {A} (c : bool) (x : res (A * nat)) (d : A) (o : nat) : res (A * nat) := if c then x else Ok (d, o).

(** ie/f-teid.go:191-231 *)
Definition fteid_unmarshal (f : fteid) (b : list N) : res fteid :=
  need 1 in b ;; fl <- index b 0 ;;
  let o := 1 in
  if has3 fl then
    if has4 fl then need (o + 1) in b ;; c <- index b o ;; Ok {| ft_flags := fl; ft_teid := ft_teid f; ft_v4 := ft_v4 f; ft_v6 := ft_v6 f; ft_chid := c |}
    else Ok {| ft_flags := fl; ft_teid := ft_teid f; ft_v4 := ft_v4 f; ft_v6 := ft_v6 f; ft_chid := ft_chid f |}
  else
    '(teid, o) <- rdn true 4 b o (ft_teid f) ;;
    '(v4, o) <- rdb (has1 fl) 4 b o (ft_v4 f) ;;
    '(v6, o) <- rdb (has2 fl) 16 b o (ft_v6 f) ;;
    Ok {| ft_flags := fl; ft_teid := teid; ft_v4 := v4; ft_v6 := v6; ft_chid := ft_chid f |}.
(** ie/f-seid.go:96-124 *)
Definition fseid_unmarshal (f : fseid) (b : list N) : res fseid :=
  need 9 in b ;; fl <- index b 0 ;;
  let o := 1 in
  seid <- getr 8 b o (o + 8) ;; let o := o + 8 in
  '(v4, o) <- rdb (has2 fl) 4 b o (fs_v4 f) ;;
  '(v6, o) <- rdb (has1 fl) 16 b o (fs_v6 f) ;;
  Ok {| fs_flags := fl; fs_seid := seid; fs_v4 := v4; fs_v6 := v6 |}.
(** ie/ue-ip-address.go:221-261 *)
Definition ueip_unmarshal (f : ueip) (b : list N) : res ueip :=
  need 1 in b ;; fl <- index b 0 ;;
  let o := 1 in
  '(v4, o) <- orold (has2 fl && negb (has5 fl)) ('(x, o) <- rdb true 4 b o None ;; Ok (to4 x, o)) (ue_v4 f) o ;;
  '(v6, o) <- orold (has1 fl && negb (has6 fl)) ('(x, o) <- rdb true 16 b o None ;; Ok (to16 x, o)) (ue_v6 f) o ;;
  '(v6d, _) <- rdn (has4 fl) 1 b o (ue_v6d f) ;;
  '(v6pl, _) <- rdn (has7 fl) 1 b o (ue_v6pl f) ;;
  Ok {| ue_flags := fl; ue_v4 := v4; ue_v6 := v6; ue_v6d := v6d; ue_v6pl := v6pl |}.
(** ie/alternative-smf-ip-address.go:93-118, ie/cp-pfcp-entity-ip-address.go:105-130 *)
Definition altip_unmarshal (f : altip) (b : list N) : res altip :=
  need 2 in b ;; fl <- index b 0 ;;
  let o := 1 in
  '(v4, o) <- rdb (has2 fl) 4 b o (ai_v4 f) ;;
  '(v6, o) <- rdb (has1 fl) 16 b o (ai_v6 f) ;;
  Ok {| ai_flags := fl; ai_v4 := v4; ai_v6 := v6 |}.
(** ie/source-ip-address.go:152-185 *)
Definition srcip_unmarshal (f : srcip) (b : list N) : res srcip :=
  need 2 in b ;; fl <- index b 0 ;;
  let o := 1 in
  '(v4, o) <- rdb (has2 fl) 4 b o (si_v4 f) ;;
  '(v6, o) <- rdb (has1 fl) 16 b o (si_v6 f) ;;
  mpl <- (if has3 fl then need o in b ;; index b o else Ok (si_mpl f)) ;;
  Ok {| si_flags := fl; si_v4 := v4; si_v6 := v6; si_mpl := mpl |}.
(** ie/ue-link-specific-ip-address.go:145-186 *)
Definition ulip_unmarshal (f : ulip) (b : list N) : res ulip :=
  need 1 in b ;; fl <- index b 0 ;;
  let o := 1 in
  '(v4, o) <- rdb (has1 fl) 4 b o (ul_v4 f) ;;
  '(v6, o) <- rdb (has2 fl) 16 b o (ul_v6 f) ;;
  '(nv4, o) <- rdb (has3 fl) 4 b o (ul_nv4 f) ;;
  '(nv6, o) <- rdb (has4 fl) 16 b o (ul_nv6 f) ;;
  Ok {| ul_flags := fl; ul_v4 := v4; ul_v6 := v6; ul_nv4 := nv4; ul_nv6 := nv6 |}.
(** ie/mptcp-address-information.go:126-153 *)
Definition mptcp_unmarshal (f : mptcp) (b : list N) : res mptcp :=
  need 4 in b ;; fl <- index b 0 ;; ty <- index b 1 ;; port <- getr 2 b 2 4 ;;
  let o := 4 in
  '(v4, o) <- rdb (has1 fl) 4 b o (mp_v4 f) ;;
  '(v6, o) <- rdb (has2 fl) 16 b o (mp_v6 f) ;;
  Ok {| mp_flags := fl; mp_type := ty; mp_port := port; mp_v4 := v4; mp_v6 := v6 |}.
(** ie/pmf-address-information.go:135-184 *)
Definition pmf_unmarshal (f : pmf) (b : list N) : res pmf :=
  need 1 in b ;; fl <- index b 0 ;;
  let o := 1 in
  '(v4, o) <- rdb (has1 fl) 4 b o (pm_v4 f) ;;
  '(v6, o) <- rdb (has2 fl) 16 b o (pm_v6 f) ;;
  '(port1, o) <- rdn true 2 b o 0 ;;
  '(port2, o) <- rdn true 2 b o 0 ;;
  '(m1, o) <- rds true 6 b o [] ;;
  '(m2, o) <- rds true 6 b o [] ;;
  Ok {| pm_flags := fl; pm_v4 := v4; pm_v6 := v6; pm_port1 := port1; pm_port2 := port2; pm_mac1 := over_slice (pm_mac1 f) m1; pm_mac2 := over_slice (pm_mac2 f) m2 |}.
(** ie/remote-gtp-u-peer.go:153-206 *)
Definition rpeer_unmarshal (f : rpeer) (b : list N) : res rpeer :=
  need 2 in b ;; fl <- index b 0 ;;
  let o := 1 in
  '(v4, o) <- orold (has2 fl) ('(x, o) <- rdb true 4 b o None ;; Ok (to4 x, o)) (rg_v4 f) o ;;
  '(v6, o) <- orold (has1 fl) ('(x, o) <- rdb true 16 b o None ;; Ok (to16 x, o)) (rg_v6 f) o ;;
  '(dilen, di, o) <- (if has3 fl then
      '(n, o) <- rdn true 2 b o 0 ;;
      need (o + N.to_nat n) in b ;; di <- index b o ;; Ok (n, di, o + N.to_nat n)
    else Ok (rg_dilen f, rg_di f, o)) ;;
  '(nilen, ni) <- (if has4 fl then
      '(n, o) <- rdn true 2 b o 0 ;;
      '(s, o) <- rds true (N.to_nat n) b o [] ;; Ok (n, s)
    else Ok (rg_nilen f, rg_ni f)) ;;
  Ok {| rg_flags := fl; rg_v4 := v4; rg_v6 := v6; rg_dilen := dilen; rg_di := di; rg_nilen := nilen; rg_ni := ni |}.
(** ie/ip-multicast-address.go:183-231 *)
Definition mcast_unmarshal (f : mcast) (b : list N) : res mcast :=
  need 2 in b ;; fl <- index b 0 ;;
  let o := 1 in
  if has4 fl then Ok {| mc_flags := fl; mc_sv4 := mc_sv4 f; mc_sv6 := mc_sv6 f; mc_ev4 := mc_ev4 f; mc_ev6 := mc_ev6 f |}
  else
    '(sv4, o) <- rdb (has2 fl) 4 b o (mc_sv4 f) ;;
    '(sv6, o) <- rdb (has1 fl) 16 b o (mc_sv6 f) ;;
    '(ev4, o) <- rdb (has3 fl && has2 fl) 4 b o (mc_ev4 f) ;;
    '(ev6, o) <- rdb (has3 fl && has1 fl) 16 b o (mc_ev6 f) ;;
    Ok {| mc_flags := fl; mc_sv4 := sv4; mc_sv6 := sv6; mc_ev4 := ev4; mc_ev6 := ev6 |}.

(** ie/volume-measurement.go:164-221 *)
Definition volm_unmarshal (f : volm) (b : list N) : res volm :=
  need 2 in b ;; fl <- index b 0 ;;
  let o := 1 in
  '(tvol, o) <- rdn (has1 fl) 8 b o (vm_tvol f) ;;
  '(uvol, o) <- rdn (has2 fl) 8 b o (vm_uvol f) ;;
  '(dvol, o) <- rdn (has3 fl) 8 b o (vm_dvol f) ;;
  '(tpkt, o) <- rdn (has4 fl) 8 b o (vm_tpkt f) ;;
  '(upkt, o) <- rdn (has5 fl) 8 b o (vm_upkt f) ;;
  '(dpkt, o) <- rdn (has6 fl) 8 b o (vm_dpkt f) ;;
  Ok {| vm_flags := fl; vm_tvol := tvol; vm_uvol := uvol; vm_dvol := dvol; vm_tpkt := tpkt; vm_upkt := upkt; vm_dpkt := dpkt |}.
(** ie/volume-quota.go:128-161; ie/volume-threshold.go:128-161;
    ie/subsequent-volume-quota.go:139-172; ie/subsequent-volume-threshold.go:139-172 *)
Definition vol3_unmarshal (f : vol3) (b : list N) : res vol3 :=
  need 2 in b ;; fl <- index b 0 ;;
  let o := 1 in
  '(tvol, o) <- rdn (has1 fl) 8 b o (v3_tvol f) ;;
  '(uvol, o) <- rdn (has2 fl) 8 b o (v3_uvol f) ;;
  '(dvol, o) <- rdn (has3 fl) 8 b o (v3_dvol f) ;;
  Ok {| v3_flags := fl; v3_tvol := tvol; v3_uvol := uvol; v3_dvol := dvol |}.
(** ie/number-of-ue-ip-addresses.go:96-121 *)
Definition nue_unmarshal (f : nue) (b : list N) : res nue :=
  need 1 in b ;; fl <- index b 0 ;;
  let o := 1 in
  '(v4, o) <- rdn (has1 fl) 4 b o (nu_v4 f) ;;
  '(v6, o) <- rdn (has2 fl) 4 b o (nu_v6 f) ;;
  Ok {| nu_flags := fl; nu_v4 := v4; nu_v6 := v6 |}.
(** ie/packet-delay-thresholds.go:108-141; ie/qos-monitoring-measurement.go:118-151 *)
Definition delays_unmarshal (f : delays) (b : list N) : res delays :=
  need 1 in b ;; fl <- index b 0 ;;
  let o := 1 in
  '(dl, o) <- rdn (has1 fl) 4 b o (dy_dl f) ;;
  '(ul, o) <- rdn (has2 fl) 4 b o (dy_ul f) ;;
  '(rp, o) <- rdn (has3 fl) 4 b o (dy_rp f) ;;
  Ok {| dy_flags := fl; dy_dl := dl; dy_ul := ul; dy_rp := rp |}.
(** ie/packet-rate.go:129-156 *)
Definition prate_unmarshal (f : prate) (b : list N) : res prate :=
  need 2 in b ;; fl <- index b 0 ;;
  let o := 1 in
  '(uu, ur, o) <- orold (has1 fl) (rd_rate true b o) (pr_uunit f, pr_urate f) o ;;
  '(du, dr, o) <- orold (has2 fl) (rd_rate true b o) (pr_dunit f, pr_drate f) o ;;
  Ok {| pr_flags := fl; pr_uunit := uu; pr_dunit := du; pr_urate := ur; pr_drate := dr |}.
(** ie/dl-flow-level-marking.go:116-141 *)
Definition dlfl_unmarshal (f : dlfl) (b : list N) : res dlfl :=
  need 1 in b ;; fl <- index b 0 ;;
  let o := 1 in
  '(ttc, o) <- rdn (has1 fl) 2 b o (dm_ttc f) ;;
  '(sci, o) <- rdn (has2 fl) 2 b o (dm_sci f) ;;
  Ok {| dm_flags := fl; dm_ttc := ttc; dm_sci := sci |}.
(** ie/packet-rate-status.go:147-194 *)
Definition prstat_unmarshal (f : prstat) (b : list N) : res prstat :=
  need 2 in b ;; fl <- index b 0 ;;
  let o := 1 in
  '(ul, o) <- rdn (has1 fl) 2 b o (ps_ul f) ;;
  '(aul, o) <- rdn (has1 fl && has3 fl) 2 b o (ps_aul f) ;;
  '(dl, o) <- rdn (has2 fl) 2 b o (ps_dl f) ;;
  '(adl, o) <- rdn (has2 fl && has3 fl) 2 b o (ps_adl f) ;;
  '(x, o) <- rdn true 8 b o 0 ;;
  Ok {| ps_flags := fl; ps_ul := ul; ps_aul := aul; ps_dl := dl; ps_adl := adl; ps_time := time_of_ntp64 x |}.
(** ie/c-tag.go:142-164; ie/s-tag.go:142-164 *)
Definition tag_unmarshal (f : tag) (b : list N) : res tag :=
  need 3 in b ;; fl <- index b 0 ;;
  let o := 1 in
  pcp <- (if has1 fl then x <- index b o ;; Ok (N.land x 0x07) else Ok (tg_pcp f)) ;;
  dei <- (if has2 fl then x <- index b o ;; Ok (N.land (N.shiftr x 3) 0x01) else Ok (tg_dei f)) ;;
  vid <- (if has3 fl then x <- getr 2 b o (o + 2) ;; Ok (N.land x 0xf0ff) else Ok (tg_vid f)) ;;
  Ok {| tg_flags := fl; tg_pcp := pcp; tg_dei := dei; tg_vid := vid |}.

(** ie/sdf-filter.go:176-226 *)
Definition sdf_unmarshal (f : sdf) (b : list N) : res sdf :=
  need 3 in b ;; fl <- index b 0 ;;
  let o := 2 in
  '(fdlen, fd, o) <- (if has1 fl then
      r <- from b o ;; need 3 in r ;;
      n <- getr 2 b o (o + 2) ;; s <- slice b (o + 2) (o + 2 + N.to_nat n) ;; Ok (n, s, o + (2 + N.to_nat n))
    else Ok (sd_fdlen f, sd_fd f, o)) ;;
  '(ttc, o) <- rdsf (has2 fl) 2 b o (sd_ttc f) ;;
  '(spi, o) <- rdsf (has3 fl) 4 b o (sd_spi f) ;;
  '(flab, o) <- rdsf (has4 fl) 3 b o (sd_fl f) ;;
  '(fid, o) <- rdnf (has5 fl) 4 b o (sd_fid f) ;;
  Ok {| sd_flags := fl; sd_fdlen := fdlen; sd_fd := fd; sd_ttc := ttc; sd_spi := spi; sd_fl := flab; sd_fid := fid |}.
(** ie/outer-header-creation.go:355-413 *)
Definition ohc_unmarshal (f : ohc) (b : list N) : res ohc :=
  need 2 in b ;;
  desc <- getr 2 b 0 2 ;;
  let o := 2 in
  o5 <- index b 0 ;;
  '(teid, o) <- rdn (oh_has_teid o5) 4 b o (oh_teid f) ;;
  '(v4, o) <- orold (oh_has_v4 o5) ('(x, o) <- rdb true 4 b o None ;; Ok (to4 x, o)) (oh_v4 f) o ;;
  '(v6, o) <- orold (oh_has_v6 o5) ('(x, o) <- rdb true 16 b o None ;; Ok (to16 x, o)) (oh_v6 f) o ;;
  '(port, o) <- rdn (oh_has_port o5) 2 b o (oh_port f) ;;
  '(ctag, o) <- (if has7 (u8 (N.land desc 0xff)) then need (o + 3) in b ;; x <- getr 4 b o (o + 3) ;; Ok (x, o + 3) else Ok (oh_ctag f, o)) ;;
  stag <- (if has8 (u8 (N.land desc 0xff)) then need (o + 3) in b ;; getr 4 b o (o + 3) else Ok (oh_stag f)) ;;
  Ok {| oh_desc := desc; oh_teid := teid; oh_v4 := v4; oh_v6 := v6; oh_port := port; oh_ctag := ctag; oh_stag := stag |}.
(** ie/user-id.go:102-167 *)
Definition userid_unmarshal (f : userid) (b : list N) : res userid :=
  need 1 in b ;; fl <- index b 0 ;;
  let o := 1 in
  let bcd c o old := orold c ('(l, s, o) <- rd8s true b o ;; Ok ((l, swapped_to_str s true), o)) old o in
  '(il, i, o) <- bcd (has1 fl) o (ui_imsilen f, ui_imsi f) ;;
  '(el, e, o) <- bcd (has2 fl) o (ui_imeilen f, ui_imei f) ;;
  '(ml, m, o) <- bcd (has3 fl) o (ui_msisdnlen f, ui_msisdn f) ;;
  '(nl, n, o) <- orold (has4 fl) (rd8s true b o) (ui_nailen f, ui_nai f) o ;;
  Ok {| ui_flags := fl; ui_imsilen := il; ui_imsi := i; ui_imeilen := el; ui_imei := e; ui_msisdnlen := ml; ui_msisdn := m; ui_nailen := nl; ui_nai := n |}.
(** ie/header-enrichment.go:94-122: every modelled field is set *)
Definition henr_unmarshal (f : henr) (b : list N) : res henr := henr_parse b.
(** ie/redirect-information.go:111-139 *)
Definition redir_unmarshal (f : redir) (b : list N) : res redir :=
  need 3 in b ;;
  t <- index b 0 ;;
  let o := 1 in
  n <- getr 2 b o (o + 2) ;;
  let o := o + 2 in
  need (o + N.to_nat n) in b ;;
  a <- slice b o (o + N.to_nat n) ;;
  m <- getr 2 b 1 3 ;;
  if (m =? 0)%N then Ok {| ri_type := t; ri_len := n; ri_addr := a; ri_olen := m; ri_other := ri_other f |} else
  let o := o + 2 in
  need (o + N.to_nat m) in b ;;
  c <- slice b o (o + N.to_nat m) ;;
  Ok {| ri_type := t; ri_len := n; ri_addr := a; ri_olen := m; ri_other := c |}.
(** ie/mac-address.go:147-192 *)
Definition macaddr_unmarshal (f : macaddr) (b : list N) : res macaddr :=
  need 2 in b ;; fl <- index b 0 ;;
  let o := 1 in
  '(s, o) <- rdb (has1 fl) 6 b o (ma_src f) ;;
  '(d, o) <- rdb (has2 fl) 6 b o (ma_dst f) ;;
  '(us, o) <- rdb (has3 fl) 6 b o (ma_usrc f) ;;
  '(ud, o) <- rdb (has4 fl) 6 b o (ma_udst f) ;;
  Ok {| ma_flags := fl; ma_src := s; ma_dst := d; ma_usrc := us; ma_udst := ud |}.
(** ie/user-plane-ip-resource-information.go:117-169 *)
Definition upri_unmarshal (f : upri) (b : list N) : res upri :=
  let l := length b in
  need 2 in b ;; fl <- index b 0 ;;
  let o := 1 in
  '(range, o) <- rdn (teidri fl) 1 b o (up_range f) ;;
  '(v4, o) <- orold (has1 fl) ('(x, o) <- rdb true 4 b o None ;; Ok (to4 x, o)) (up_v4 f) o ;;
  '(v6, o) <- orold (has2 fl) ('(x, o) <- rdb true 16 b o None ;; Ok (to16 x, o)) (up_v6 f) o ;;
  if has6 fl then
    '(si, n) <- (if has7 fl then x <- index b l ;; Ok (N.land x 0x0f, l - 1) else Ok (up_si f, l)) ;;
    if l <? o + n then Err EUnexpectedEOF else
    ni <- slice b o n ;;
    Ok {| up_flags := fl; up_range := range; up_v4 := v4; up_v6 := v6; up_ni := ni; up_si := si |}
  else
    si <- (if has7 fl then x <- index b o ;; Ok (N.land x 0x0f) else Ok (up_si f)) ;;
    Ok {| up_flags := fl; up_range := range; up_v4 := v4; up_v6 := v6; up_ni := up_ni f; up_si := si |}.
(** [if l < offset+int(n) { EOF }; copy(f.X, b[offset:offset+int(n)]); offset += int(n)] *)
Definition copy_in (old : bslice) (n : N) (b : list N) (o : nat) : res (bslice * nat) :=
  need (o + N.to_nat n) in b ;; s <- slice b o (o + N.to_nat n) ;; Ok (over_slice old s, o + N.to_nat n).
(** ie/trace-information.go:88-144 *)
Definition trace_unmarshal (f : trace) (b : list N) : res trace :=
  need 6 in b ;;
  plmn <- slice b 0 3 ;;
  '(mcc, mnc) <- decode_plmn plmn ;;
  id <- slice b 3 6 ;;
  let o := 6 in
  '(evlen, o) <- rd1 b o ;;
  '(ev, o) <- copy_in (ti_ev f) evlen b o ;;
  '(depth, o) <- rd1 b o ;;
  '(iflen, o) <- rd1 b o ;;
  '(ifs, o) <- copy_in (ti_ifs f) iflen b o ;;
  '(iplen, o) <- rd1 b o ;;
  '(ip, _) <- copy_in (ti_ip f) iplen b o ;;
  Ok {| ti_mcc := mcc; ti_mnc := mnc; ti_id := id; ti_evlen := evlen; ti_ev := ev; ti_depth := depth; ti_iflen := iflen; ti_ifs := ifs; ti_iplen := iplen; ti_ip := ip |}.

(** one field of PFD Contents; old is the length stored in the struct when the guard
    [len(b[offset:]) < offset+2+int(f.XLength)] (lists: [len(b[offset:]) < 2+int(f.XLength)]) is evaluated *)
Definition rd16old (strict : bool) (old : N) (b : list N) (o : nat) : res ((N * list N) * nat) :=
  r <- from b o ;; need ((if strict then o else 0) + 2 + N.to_nat old) in r ;;
  n <- getr 2 b o (o + 2) ;; s <- slice b (o + 2) (o + 2 + N.to_nat n) ;; Ok ((n, s), o + (2 + N.to_nat n)).
(** a list field: the items found are appended to the old ones *)
Definition rd16list (c : bool) (old : N) (l : list (list N)) (b : list N) (o : nat) : res (N * list (list N) * nat) :=
  orold c ('(n, p, o) <- rd16old false old b o ;; r <- pfd_items p ;; Ok ((n, l ++ r), o)) (old, l) o.
(** ie/pfd-contents.go:241-371 *)
Definition pfdc_unmarshal (f : pfdc) (b : list N) : res pfdc :=
  need 2 in b ;; fl <- index b 0 ;;
  let o := 2 in
  '(fdlen, fd, o) <- orold (has1 fl) (rd16old true (pc_fdlen f) b o) (pc_fdlen f, pc_fd f) o ;;
  '(urllen, url, o) <- orold (has2 fl) (rd16old true (pc_urllen f) b o) (pc_urllen f, pc_url f) o ;;
  '(dnlen, dn, o) <- orold (has3 fl) (rd16old true (pc_dnlen f) b o) (pc_dnlen f, pc_dn f) o ;;
  '(cplen, cp, o) <- orold (has4 fl) (rd16old true (pc_cplen f) b o) (pc_cplen f, pc_cp f) o ;;
  '(dnplen, dnp, o) <- orold (has5 fl) (rd16old true (pc_dnplen f) b o) (pc_dnplen f, pc_dnp f) o ;;
  '(afdlen, afd, o) <- rd16list (has6 fl) (pc_afdlen f) (pc_afd f) b o ;;
  '(aurllen, aurl, o) <- rd16list (has7 fl) (pc_aurllen f) (pc_aurl f) b o ;;
  '(adnplen, adnp, o) <- rd16list (has8 fl) (pc_adnplen f) (pc_adnp f) b o ;;
  Ok {| pc_flags := fl; pc_fdlen := fdlen; pc_fd := fd; pc_urllen := urllen; pc_url := url; pc_dnlen := dnlen; pc_dn := dn;
        pc_cplen := cplen; pc_cp := cp; pc_dnplen := dnplen; pc_dnp := dnp;
        pc_afdlen := afdlen; pc_afd := afd; pc_aurllen := aurllen; pc_aurl := aurl; pc_adnplen := adnplen; pc_adnp := adnp |}.
(** ie/mac-address-detected.go:107-145, ie/mac-address-removed.go:96-134 *)
Definition macl_unmarshal (f : macl) (b : list N) : res macl :=
  need 1 in b ;; n <- index b 0 ;;
  '(macs, o) <- rd_macs (S (N.to_nat n)) b 1 ;;
  need o in b ;; ct <- index b o ;;
  need (o + N.to_nat ct) in b ;; cs <- slice b o (o + N.to_nat ct) ;;
  need o in b ;; st <- index b o ;;
  need (o + N.to_nat st) in b ;; ss <- slice b o (o + N.to_nat st) ;;
  Ok {| ml_n := n; ml_macs := ml_macs f ++ macs; ml_ctlen := ct; ml_ctag := over_octs (ml_ctag f) cs; ml_stlen := st; ml_stag := over_octs (ml_stag f) ss |}.

(** f.UnmarshalBinary(b) for any of the structs; the result is the struct after a nil error *)
Definition unmarshal (f : fields) (b : list N) : res fields :=
  match f with
  | F_fteid f => x <- fteid_unmarshal f b ;; Ok (F_fteid x)
  | F_fseid f => x <- fseid_unmarshal f b ;; Ok (F_fseid x)
  | F_ueip f => x <- ueip_unmarshal f b ;; Ok (F_ueip x)
  | F_altip f => x <- altip_unmarshal f b ;; Ok (F_altip x)
  | F_srcip f => x <- srcip_unmarshal f b ;; Ok (F_srcip x)
  | F_ulip f => x <- ulip_unmarshal f b ;; Ok (F_ulip x)
  | F_mptcp f => x <- mptcp_unmarshal f b ;; Ok (F_mptcp x)
  | F_pmf f => x <- pmf_unmarshal f b ;; Ok (F_pmf x)
  | F_rpeer f => x <- rpeer_unmarshal f b ;; Ok (F_rpeer x)
  | F_mcast f => x <- mcast_unmarshal f b ;; Ok (F_mcast x)
  | F_volm f => x <- volm_unmarshal f b ;; Ok (F_volm x)
  | F_vol3 f => x <- vol3_unmarshal f b ;; Ok (F_vol3 x)
  | F_nue f => x <- nue_unmarshal f b ;; Ok (F_nue x)
  | F_delays f => x <- delays_unmarshal f b ;; Ok (F_delays x)
  | F_prate f => x <- prate_unmarshal f b ;; Ok (F_prate x)
  | F_dlfl f => x <- dlfl_unmarshal f b ;; Ok (F_dlfl x)
  | F_prstat f => x <- prstat_unmarshal f b ;; Ok (F_prstat x)
  | F_tag f => x <- tag_unmarshal f b ;; Ok (F_tag x)
  | F_sdf f => x <- sdf_unmarshal f b ;; Ok (F_sdf x)
  | F_ohc f => x <- ohc_unmarshal f b ;; Ok (F_ohc x)
  | F_userid f => x <- userid_unmarshal f b ;; Ok (F_userid x)
  | F_henr f => x <- henr_unmarshal f b ;; Ok (F_henr x)
  | F_redir f => x <- redir_unmarshal f b ;; Ok (F_redir x)
  | F_macaddr f => x <- macaddr_unmarshal f b ;; Ok (F_macaddr x)
  | F_upri f => x <- upri_unmarshal f b ;; Ok (F_upri x)
  | F_trace f => x <- trace_unmarshal f b ;; Ok (F_trace x)
  | F_pfdc f => x <- pfdc_unmarshal f b ;; Ok (F_pfdc x)
  | F_macl f => x <- macl_unmarshal f b ;; Ok (F_macl x)
  end.
(** f.Marshal() for any of the structs; the files are cited at each definition *)
Definition marshal_fields (f : fields) : res (list N) :=
  match f with
  | F_fteid f => fteid_marshal f | F_fseid f => fseid_marshal f | F_ueip f => ueip_marshal f | F_altip f => altip_marshal f
  | F_srcip f => srcip_marshal f | F_ulip f => ulip_marshal f | F_mptcp f => mptcp_marshal f | F_pmf f => pmf_marshal f
  | F_rpeer f => rpeer_marshal f | F_mcast f => mcast_marshal f | F_volm f => volm_marshal f | F_vol3 f => vol3_marshal f
  | F_nue f => nue_marshal f | F_delays f => delays_marshal f | F_prate f => prate_marshal f | F_dlfl f => dlfl_marshal f
  | F_prstat f => prstat_marshal f | F_tag f => tag_marshal f | F_sdf f => sdf_marshal f | F_ohc f => ohc_marshal f
  | F_userid f => userid_marshal f | F_henr f => henr_marshal f | F_redir f => redir_marshal f | F_macaddr f => macaddr_marshal f
  | F_upri f => upri_marshal f | F_trace f => trace_marshal f | F_pfdc f => pfdc_marshal f | F_macl f => macl_marshal f
  end.
(** the zero structs (new(XxxFields)): nil slices, empty strings, zero numbers; the zero time.Time of Packet Rate Status is never read *)
Definition fteid0 : fteid := {| ft_flags := 0; ft_teid := 0; ft_v4 := None; ft_v6 := None; ft_chid := 0 |}.
Definition fseid0 : fseid := {| fs_flags := 0; fs_seid := 0; fs_v4 := None; fs_v6 := None |}.
Definition ueip0 : ueip := {| ue_flags := 0; ue_v4 := None; ue_v6 := None; ue_v6d := 0; ue_v6pl := 0 |}.
Definition altip0 : altip := {| ai_flags := 0; ai_v4 := None; ai_v6 := None |}.
Definition srcip0 : srcip := {| si_flags := 0; si_v4 := None; si_v6 := None; si_mpl := 0 |}.
Definition ulip0 : ulip := {| ul_flags := 0; ul_v4 := None; ul_v6 := None; ul_nv4 := None; ul_nv6 := None |}.
Definition mptcp0 : mptcp := {| mp_flags := 0; mp_type := 0; mp_port := 0; mp_v4 := None; mp_v6 := None |}.
Definition pmf0 : pmf := {| pm_flags := 0; pm_v4 := None; pm_v6 := None; pm_port1 := 0; pm_port2 := 0; pm_mac1 := None; pm_mac2 := None |}.
Definition rpeer0 : rpeer := {| rg_flags := 0; rg_v4 := None; rg_v6 := None; rg_dilen := 0; rg_di := 0; rg_nilen := 0; rg_ni := [] |}.
Definition mcast0 : mcast := {| mc_flags := 0; mc_sv4 := None; mc_sv6 := None; mc_ev4 := None; mc_ev6 := None |}.
Definition volm0 : volm := {| vm_flags := 0; vm_tvol := 0; vm_uvol := 0; vm_dvol := 0; vm_tpkt := 0; vm_upkt := 0; vm_dpkt := 0 |}.
Definition vol30 : vol3 := {| v3_flags := 0; v3_tvol := 0; v3_uvol := 0; v3_dvol := 0 |}.
Definition nue0 : nue := {| nu_flags := 0; nu_v4 := 0; nu_v6 := 0 |}.
Definition delays0 : delays := {| dy_flags := 0; dy_dl := 0; dy_ul := 0; dy_rp := 0 |}.
Definition prate0 : prate := {| pr_flags := 0; pr_uunit := 0; pr_dunit := 0; pr_urate := 0; pr_drate := 0 |}.
Definition dlfl0 : dlfl := {| dm_flags := 0; dm_ttc := 0; dm_sci := 0 |}.
Definition prstat0 : prstat := {| ps_flags := 0; ps_ul := 0; ps_aul := 0; ps_dl := 0; ps_adl := 0; ps_time := 0 |}.
Definition tag0 : tag := {| tg_flags := 0; tg_pcp := 0; tg_dei := 0; tg_vid := 0 |}.
Definition sdf0 : sdf := {| sd_flags := 0; sd_fdlen := 0; sd_fd := []; sd_ttc := []; sd_spi := []; sd_fl := []; sd_fid := 0 |}.
Definition ohc0 : ohc := {| oh_desc := 0; oh_teid := 0; oh_v4 := None; oh_v6 := None; oh_port := 0; oh_ctag := 0; oh_stag := 0 |}.
Definition userid0 : userid := {| ui_flags := 0; ui_imsilen := 0; ui_imsi := []; ui_imeilen := 0; ui_imei := []; ui_msisdnlen := 0; ui_msisdn := []; ui_nailen := 0; ui_nai := [] |}.
Definition henr0 : henr := {| he_type := 0; he_namelen := 0; he_name := []; he_vallen := 0; he_val := [] |}.
Definition redir0 : redir := {| ri_type := 0; ri_len := 0; ri_addr := []; ri_olen := 0; ri_other := [] |}.
Definition macaddr0 : macaddr := {| ma_flags := 0; ma_src := None; ma_dst := None; ma_usrc := None; ma_udst := None |}.
Definition upri0 : upri := {| up_flags := 0; up_range := 0; up_v4 := None; up_v6 := None; up_ni := []; up_si := 0 |}.
Definition trace0 : trace := {| ti_mcc := []; ti_mnc := []; ti_id := []; ti_evlen := 0; ti_ev := None; ti_depth := 0; ti_iflen := 0; ti_ifs := None; ti_iplen := 0; ti_ip := None |}.
Definition pfdc0 : pfdc := {| pc_flags := 0; pc_fdlen := 0; pc_fd := []; pc_urllen := 0; pc_url := []; pc_dnlen := 0; pc_dn := []; pc_cplen := 0; pc_cp := []; pc_dnplen := 0; pc_dnp := []; pc_afdlen := 0; pc_afd := []; pc_aurllen := 0; pc_aurl := []; pc_adnplen := 0; pc_adnp := [] |}.
Definition macl0 : macl := {| ml_n := 0; ml_macs := []; ml_ctlen := 0; ml_ctag := []; ml_stlen := 0; ml_stag := [] |}.
Definition zero_of (f : fields) : fields :=
  match f with
  | F_fteid _ => F_fteid fteid0 | F_fseid _ => F_fseid fseid0 | F_ueip _ => F_ueip ueip0 | F_altip _ => F_altip altip0
  | F_srcip _ => F_srcip srcip0 | F_ulip _ => F_ulip ulip0 | F_mptcp _ => F_mptcp mptcp0 | F_pmf _ => F_pmf pmf0
  | F_rpeer _ => F_rpeer rpeer0 | F_mcast _ => F_mcast mcast0 | F_volm _ => F_volm volm0 | F_vol3 _ => F_vol3 vol30
  | F_nue _ => F_nue nue0 | F_delays _ => F_delays delays0 | F_prate _ => F_prate prate0 | F_dlfl _ => F_dlfl dlfl0
  | F_prstat _ => F_prstat prstat0 | F_tag _ => F_tag tag0 | F_sdf _ => F_sdf sdf0 | F_ohc _ => F_ohc ohc0
  | F_userid _ => F_userid userid0 | F_henr _ => F_henr henr0 | F_redir _ => F_redir redir0 | F_macaddr _ => F_macaddr macaddr0
  | F_upri _ => F_upri upri0 | F_trace _ => F_trace trace0 | F_pfdc _ => F_pfdc pfdc0 | F_macl _ => F_macl macl0
  end.
(** the zero struct each ParseXxxFields allocates *)
Definition fzero (k : fkind) : fields :=
  match k with
  | K_AlternativeSMFIPAddress | K_CPPFCPEntityIPAddress => F_altip altip0
  | K_CTAG | K_STAG => F_tag tag0
  | K_DLFlowLevelMarking => F_dlfl dlfl0
  | K_FSEID => F_fseid fseid0
  | K_FTEID => F_fteid fteid0
  | K_HeaderEnrichment => F_henr henr0
  | K_IPMulticastAddress => F_mcast mcast0
  | K_MACAddressesDetected | K_MACAddressesRemoved => F_macl macl0
  | K_MACAddress => F_macaddr macaddr0
  | K_MPTCPAddressInformation => F_mptcp mptcp0
  | K_NumberOfUEIPAddresses => F_nue nue0
  | K_OuterHeaderCreation => F_ohc ohc0
  | K_PacketDelayThresholds | K_QoSMonitoringMeasurement => F_delays delays0
  | K_PacketRateStatus => F_prstat prstat0
  | K_PacketRate => F_prate prate0
  | K_PFDContents => F_pfdc pfdc0
  | K_PMFAddressInformation => F_pmf pmf0
  | K_RedirectInformation => F_redir redir0
  | K_RemoteGTPUPeer => F_rpeer rpeer0
  | K_SDFFilter => F_sdf sdf0
  | K_SourceIPAddress => F_srcip srcip0
  | K_SubsequentVolumeQuota | K_SubsequentVolumeThreshold | K_VolumeQuota | K_VolumeThreshold => F_vol3 vol30
  | K_TraceInformation => F_trace trace0
  | K_UEIPAddress => F_ueip ueip0
  | K_UELinkSpecificIPAddress => F_ulip ulip0
  | K_UserID => F_userid userid0
  | K_UserPlaneIPResourceInformation => F_upri upri0
  | K_VolumeMeasurement => F_volm volm0
  end.
