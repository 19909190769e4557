(** Slices with spare capacity.  In Go, b[lo:hi] may reach past len(b), up to cap(b); b[i], b[lo:]
    and len(b) do not.  The payload of an IE that was parsed out of a receive buffer has such spare
    capacity: the rest of the datagram, and then whatever earlier datagrams left in the buffer.
    Everywhere else in this model a slice expression past len is Fault; here are the decoders
    of Fields1.v to Fields4.v and the accessors again, on a slice of length L at the start of a
    memory M that extends to the slice's capacity.
    Written by tools/genspare.py from Fields1.v to Fields4.v: the comments with the lines of the Go
    text are the ones found there. *)
From Verif Require Import Base IETypes IE Bits Codec Codec2 Utils Fields1 Time Fields2 Fields3 Fields4 Access AccTable AccRun.
Set Implicit Arguments.

(** the loop over a string p in ie/pfd-contents.go:302-315,327-341,353-367, where p is a slice of length Lp of Mp (Fields4.v: pfd_items) *)
Fixpoint citems_from (fuel : nat) (Lp : nat) (Mp : list N) (s : nat) : res (list (list N)) :=
  match fuel with
  | O => Fuel
  | S fuel =>
      let e := s + 2 in
      if Lp <=? e then Ok [] else
      l <- getr 2 Mp s e ;;
      if Lp <? e + N.to_nat l then Ok [] else
      a <- slice Mp e (e + N.to_nat l) ;;
      r <- citems_from fuel Lp Mp (s + (2 + N.to_nat l)) ;; Ok (a :: r)
  end.
Definition citems (Lp : nat) (Mp : list N) : res (list (list N)) := citems_from (S Lp) Lp Mp 0.

Section Cap.
Variable L : nat.
Variable M : list N.
(** [if len(b) < k { return io.ErrUnexpectedEOF }] *)
Notation "'room' k ;; r" := (if L <? k then Err EUnexpectedEOF else r) (at level 61, k at next level, right associativity).
(** b[i], and the bounds check of b[lo:] *)
Definition cindex (i : nat) : res N := if i <? L then index M i else Fault.
Definition cfrom (lo : nat) : res unit := if lo <=? L then Ok tt else Fault.
(** the idioms of Codec.v and Codec2.v *)
Definition crd (n o : nat) : res (list N * nat) := room (o + n) ;; x <- slice M o (o + n) ;; Ok (x, o + n).
Definition crdb (c : bool) n o (d : bslice) : res (bslice * nat) := if c then '(x, o) <- crd n o ;; Ok (Some x, o) else Ok (d, o).
Definition crdn (c : bool) n o (d : N) : res (N * nat) := if c then '(x, o) <- crd n o ;; Ok (unbe x, o) else Ok (d, o).
Definition crds (c : bool) n o (d : list N) : res (list N * nat) := if c then crd n o else Ok (d, o).
Definition crdf (n o : nat) : res (list N * nat) := _ <- cfrom o ;; room (o + n) ;; x <- slice M o (o + n) ;; Ok (x, o + n).
Definition crdsf (c : bool) n o (d : list N) : res (list N * nat) := if c then crdf n o else Ok (d, o).
Definition crdnf (c : bool) n o (d : N) : res (N * nat) := if c then '(x, o) <- crdf n o ;; Ok (unbe x, o) else Ok (d, o).
Definition crd8s (c : bool) (o : nat) : res (N * list N * nat) :=
  if c then room (o + 1) ;; n <- cindex o ;; '(s, o) <- crd (N.to_nat n) (o + 1) ;; Ok (n, s, o) else Ok (0%N, [], o).

(** ie/f-teid.go:182-188,191-231 *)
Definition fteid_cap : res fteid :=
  room 1 ;; fl <- cindex 0 ;;
  let o := 1 in
  if has3 fl then
    if has4 fl then room (o + 1) ;; c <- cindex o ;; Ok {| ft_flags := fl; ft_teid := 0; ft_v4 := None; ft_v6 := None; ft_chid := c |}
    else Ok {| ft_flags := fl; ft_teid := 0; ft_v4 := None; ft_v6 := None; ft_chid := 0 |}
  else
    '(teid, o) <- crdn true 4 o 0 ;;
    '(v4, o) <- crdb (has1 fl) 4 o None ;;
    '(v6, o) <- crdb (has2 fl) 16 o None ;;
    Ok {| ft_flags := fl; ft_teid := teid; ft_v4 := v4; ft_v6 := v6; ft_chid := 0 |}.
(** ie/f-seid.go:87-93,96-124 *)
Definition fseid_cap : res fseid :=
  room 9 ;; fl <- cindex 0 ;;
  let o := 1 in
  seid <- getr 8 M o (o + 8) ;; let o := o + 8 in
  '(v4, o) <- crdb (has2 fl) 4 o None ;;
  '(v6, o) <- crdb (has1 fl) 16 o None ;;
  Ok {| fs_flags := fl; fs_seid := seid; fs_v4 := v4; fs_v6 := v6 |}.
(** ie/ue-ip-address.go:212-218,221-261; the offset is not advanced after the delegation bits *)
Definition ueip_cap : res ueip :=
  room 1 ;; fl <- cindex 0 ;;
  let o := 1 in
  '(v4, o) <- crdb (has2 fl && negb (has5 fl)) 4 o None ;;
  '(v6, o) <- crdb (has1 fl && negb (has6 fl)) 16 o None ;;
  '(v6d, _) <- crdn (has4 fl) 1 o 0 ;;
  '(v6pl, _) <- crdn (has7 fl) 1 o 0 ;;
  Ok {| ue_flags := fl; ue_v4 := to4 v4; ue_v6 := to16 v6; ue_v6d := v6d; ue_v6pl := v6pl |}.
(** ie/alternative-smf-ip-address.go:93-118, ie/cp-pfcp-entity-ip-address.go:105-130 *)
Definition altip_cap : res altip :=
  room 2 ;; fl <- cindex 0 ;;
  let o := 1 in
  '(v4, o) <- crdb (has2 fl) 4 o None ;;
  '(v6, o) <- crdb (has1 fl) 16 o None ;;
  Ok {| ai_flags := fl; ai_v4 := v4; ai_v6 := v6 |}.
(** ie/source-ip-address.go:152-185; the last guard is l < offset, not l < offset+1 *)
Definition srcip_cap : res srcip :=
  room 2 ;; fl <- cindex 0 ;;
  let o := 1 in
  '(v4, o) <- crdb (has2 fl) 4 o None ;;
  '(v6, o) <- crdb (has1 fl) 16 o None ;;
  mpl <- (if has3 fl then room o ;; cindex o else Ok 0%N) ;;
  Ok {| si_flags := fl; si_v4 := v4; si_v6 := v6; si_mpl := mpl |}.
(** ie/ue-link-specific-ip-address.go:145-186 *)
Definition ulip_cap : res ulip :=
  room 1 ;; fl <- cindex 0 ;;
  let o := 1 in
  '(v4, o) <- crdb (has1 fl) 4 o None ;;
  '(v6, o) <- crdb (has2 fl) 16 o None ;;
  '(nv4, o) <- crdb (has3 fl) 4 o None ;;
  '(nv6, o) <- crdb (has4 fl) 16 o None ;;
  Ok {| ul_flags := fl; ul_v4 := v4; ul_v6 := v6; ul_nv4 := nv4; ul_nv6 := nv6 |}.
(** ie/mptcp-address-information.go:126-153 *)
Definition mptcp_cap : res mptcp :=
  room 4 ;; fl <- cindex 0 ;; ty <- cindex 1 ;; port <- getr 2 M 2 4 ;;
  let o := 4 in
  '(v4, o) <- crdb (has1 fl) 4 o None ;;
  '(v6, o) <- crdb (has2 fl) 16 o None ;;
  Ok {| mp_flags := fl; mp_type := ty; mp_port := port; mp_v4 := v4; mp_v6 := v6 |}.
(** ie/pmf-address-information.go:135-184; the MAC addresses are copied into nil slices, i.e. not stored *)
Definition pmf_cap : res pmf :=
  room 1 ;; fl <- cindex 0 ;;
  let o := 1 in
  '(v4, o) <- crdb (has1 fl) 4 o None ;;
  '(v6, o) <- crdb (has2 fl) 16 o None ;;
  '(port1, o) <- crdn true 2 o 0 ;;
  '(port2, o) <- crdn true 2 o 0 ;;
  '(_, o) <- crds true 6 o [] ;;
  '(_, o) <- crds true 6 o [] ;;
  Ok {| pm_flags := fl; pm_v4 := v4; pm_v6 := v6; pm_port1 := port1; pm_port2 := port2; pm_mac1 := None; pm_mac2 := None |}.
(** ie/remote-gtp-u-peer.go:153-206 *)
Definition rpeer_cap : res rpeer :=
  room 2 ;; fl <- cindex 0 ;;
  let o := 1 in
  '(v4, o) <- crdb (has2 fl) 4 o None ;;
  '(v6, o) <- crdb (has1 fl) 16 o None ;;
  '(dilen, di, o) <- (if has3 fl then
      '(n, o) <- crdn true 2 o 0 ;;
      room (o + N.to_nat n) ;; di <- cindex o ;; Ok (n, di, o + N.to_nat n)
    else Ok (0%N, 0%N, o)) ;;
  '(nilen, ni) <- (if has4 fl then
      '(n, o) <- crdn true 2 o 0 ;;
      '(s, o) <- crds true (N.to_nat n) o [] ;; Ok (n, s)
    else Ok (0%N, [])) ;;
  Ok {| rg_flags := fl; rg_v4 := to4 v4; rg_v6 := to16 v6; rg_dilen := dilen; rg_di := di; rg_nilen := nilen; rg_ni := ni |}.
(** ie/ip-multicast-address.go:183-231 *)
Definition mcast_cap : res mcast :=
  room 2 ;; fl <- cindex 0 ;;
  let o := 1 in
  if has4 fl then Ok {| mc_flags := fl; mc_sv4 := None; mc_sv6 := None; mc_ev4 := None; mc_ev6 := None |}
  else
    '(sv4, o) <- crdb (has2 fl) 4 o None ;;
    '(sv6, o) <- crdb (has1 fl) 16 o None ;;
    '(ev4, o) <- crdb (has3 fl && has2 fl) 4 o None ;;
    '(ev6, o) <- crdb (has3 fl && has1 fl) 16 o None ;;
    Ok {| mc_flags := fl; mc_sv4 := sv4; mc_sv6 := sv6; mc_ev4 := ev4; mc_ev6 := ev6 |}.
(** ie/volume-measurement.go:155-161,164-221 *)
Definition volm_cap : res volm :=
  room 2 ;; fl <- cindex 0 ;;
  let o := 1 in
  '(tvol, o) <- crdn (has1 fl) 8 o 0 ;;
  '(uvol, o) <- crdn (has2 fl) 8 o 0 ;;
  '(dvol, o) <- crdn (has3 fl) 8 o 0 ;;
  '(tpkt, o) <- crdn (has4 fl) 8 o 0 ;;
  '(upkt, o) <- crdn (has5 fl) 8 o 0 ;;
  '(dpkt, o) <- crdn (has6 fl) 8 o 0 ;;
  Ok {| vm_flags := fl; vm_tvol := tvol; vm_uvol := uvol; vm_dvol := dvol; vm_tpkt := tpkt; vm_upkt := upkt; vm_dpkt := dpkt |}.
(** ie/volume-quota.go:128-161; ie/volume-threshold.go:128-161; ie/subsequent-volume-quota.go:139-172; ie/subsequent-volume-threshold.go:139-172 *)
Definition vol3_cap : res vol3 :=
  room 2 ;; fl <- cindex 0 ;;
  let o := 1 in
  '(tvol, o) <- crdn (has1 fl) 8 o 0 ;;
  '(uvol, o) <- crdn (has2 fl) 8 o 0 ;;
  '(dvol, o) <- crdn (has3 fl) 8 o 0 ;;
  Ok {| v3_flags := fl; v3_tvol := tvol; v3_uvol := uvol; v3_dvol := dvol |}.
(** ie/number-of-ue-ip-addresses.go:96-121 *)
Definition nue_cap : res nue :=
  room 1 ;; fl <- cindex 0 ;;
  let o := 1 in
  '(v4, o) <- crdn (has1 fl) 4 o 0 ;;
  '(v6, o) <- crdn (has2 fl) 4 o 0 ;;
  Ok {| nu_flags := fl; nu_v4 := v4; nu_v6 := v6 |}.
(** ie/packet-delay-thresholds.go:108-141; ie/qos-monitoring-measurement.go:118-151 *)
Definition delays_cap : res delays :=
  room 1 ;; fl <- cindex 0 ;;
  let o := 1 in
  '(dl, o) <- crdn (has1 fl) 4 o 0 ;;
  '(ul, o) <- crdn (has2 fl) 4 o 0 ;;
  '(rp, o) <- crdn (has3 fl) 4 o 0 ;;
  Ok {| dy_flags := fl; dy_dl := dl; dy_ul := ul; dy_rp := rp |}.
(** [if l < offset+3 {EOF}; unit = b[offset]; rate = Uint16(b[offset+1:offset+3]); offset += 3] under a condition *)
Definition crd_rate (c : bool) (o : nat) : res (N * N * nat) :=
  if c then room (o + 3) ;; u <- cindex o ;; p <- getr 2 M (o + 1) (o + 3) ;; Ok (u, p, o + 3) else Ok (0%N, 0%N, o).
(** ie/packet-rate.go:129-156 *)
Definition prate_cap : res prate :=
  room 2 ;; fl <- cindex 0 ;;
  let o := 1 in
  '(uu, ur, o) <- crd_rate (has1 fl) o ;;
  '(du, dr, o) <- crd_rate (has2 fl) o ;;
  Ok {| pr_flags := fl; pr_uunit := uu; pr_dunit := du; pr_urate := ur; pr_drate := dr |}.
(** ie/dl-flow-level-marking.go:116-141 *)
Definition dlfl_cap : res dlfl :=
  room 1 ;; fl <- cindex 0 ;;
  let o := 1 in
  '(ttc, o) <- crdn (has1 fl) 2 o 0 ;;
  '(sci, o) <- crdn (has2 fl) 2 o 0 ;;
  Ok {| dm_flags := fl; dm_ttc := ttc; dm_sci := sci |}.
(** ie/packet-rate-status.go:147-194 *)
Definition prstat_cap : res prstat :=
  room 2 ;; fl <- cindex 0 ;;
  let o := 1 in
  '(ul, o) <- crdn (has1 fl) 2 o 0 ;;
  '(aul, o) <- crdn (has1 fl && has3 fl) 2 o 0 ;;
  '(dl, o) <- crdn (has2 fl) 2 o 0 ;;
  '(adl, o) <- crdn (has2 fl && has3 fl) 2 o 0 ;;
  '(x, o) <- crdn true 8 o 0 ;;
  Ok {| ps_flags := fl; ps_ul := ul; ps_aul := aul; ps_dl := dl; ps_adl := adl; ps_time := time_of_ntp64 x |}.
(** ie/c-tag.go:142-164; ie/s-tag.go:142-164 *)
Definition tag_cap : res tag :=
  room 3 ;; fl <- cindex 0 ;;
  let o := 1 in
  pcp <- (if has1 fl then x <- cindex o ;; Ok (N.land x 0x07) else Ok 0%N) ;;
  dei <- (if has2 fl then x <- cindex o ;; Ok (N.land (N.shiftr x 3) 0x01) else Ok 0%N) ;;
  vid <- (if has3 fl then x <- getr 2 M o (o + 2) ;; Ok (N.land x 0xf0ff) else Ok 0%N) ;;
  Ok {| tg_flags := fl; tg_pcp := pcp; tg_dei := dei; tg_vid := vid |}.
(** ie/sdf-filter.go:117-119,127-129,137-139,147-149,157-159,176-226 *)
Definition sdf_cap : res sdf :=
  room 3 ;; fl <- cindex 0 ;;
  let o := 2 in
  '(fdlen, fd, o) <- (if has1 fl then
      _ <- cfrom o ;; room (o + 3) ;;
      n <- getr 2 M o (o + 2) ;; s <- slice M (o + 2) (o + 2 + N.to_nat n) ;; Ok (n, s, o + (2 + N.to_nat n))
    else Ok (0%N, [], o)) ;;
  '(ttc, o) <- crdsf (has2 fl) 2 o [] ;;
  '(spi, o) <- crdsf (has3 fl) 4 o [] ;;
  '(flab, o) <- crdsf (has4 fl) 3 o [] ;;
  '(fid, o) <- crdnf (has5 fl) 4 o 0%N ;;
  Ok {| sd_flags := fl; sd_fdlen := fdlen; sd_fd := fd; sd_ttc := ttc; sd_spi := spi; sd_fl := flab; sd_fid := fid |}.
(** ie/outer-header-creation.go:355-413; binary.BigEndian.Uint32 is given three octets *)
Definition ohc_cap : res ohc :=
  room 2 ;;
  desc <- getr 2 M 0 2 ;;
  let o := 2 in
  o5 <- cindex 0 ;;
  '(teid, o) <- crdn (oh_has_teid o5) 4 o 0%N ;;
  '(v4, o) <- crdb (oh_has_v4 o5) 4 o None ;;
  '(v6, o) <- crdb (oh_has_v6 o5) 16 o None ;;
  '(port, o) <- crdn (oh_has_port o5) 2 o 0%N ;;
  '(ctag, o) <- (if has7 (u8 (N.land desc 0xff)) then room (o + 3) ;; x <- getr 4 M o (o + 3) ;; Ok (x, o + 3) else Ok (0%N, o)) ;;
  stag <- (if has8 (u8 (N.land desc 0xff)) then room (o + 3) ;; getr 4 M o (o + 3) else Ok 0%N) ;;
  Ok {| oh_desc := desc; oh_teid := teid; oh_v4 := to4 v4; oh_v6 := to16 v6; oh_port := port; oh_ctag := ctag; oh_stag := stag |}.
(** ie/user-id.go:102-167 *)
Definition userid_cap : res userid :=
  room 1 ;; fl <- cindex 0 ;;
  let o := 1 in
  '(il, i, o) <- crd8s (has1 fl) o ;;
  '(el, e, o) <- crd8s (has2 fl) o ;;
  '(ml, m, o) <- crd8s (has3 fl) o ;;
  '(nl, n, o) <- crd8s (has4 fl) o ;;
  let str c v := if c : bool then swapped_to_str v true else [] in
  Ok {| ui_flags := fl; ui_imsilen := il; ui_imsi := str (has1 fl) i; ui_imeilen := el; ui_imei := str (has2 fl) e;
        ui_msisdnlen := ml; ui_msisdn := str (has3 fl) m; ui_nailen := nl; ui_nai := n |}.
(** ie/header-enrichment.go:94-122 *)
Definition henr_cap : res henr :=
  room 2 ;;
  t <- cindex 0 ;;
  nl <- cindex 1 ;;
  let o := 2 in
  '(name, o) <- crd (N.to_nat nl) o ;;
  '(vl, v, o) <- crd8s true o ;;
  Ok {| he_type := t; he_namelen := nl; he_name := name; he_vallen := vl; he_val := v |}.
(** ie/redirect-information.go:111-139 *)
Definition redir_cap : res redir :=
  room 3 ;;
  t <- cindex 0 ;;
  let o := 1 in
  n <- getr 2 M o (o + 2) ;;
  let o := o + 2 in
  room (o + N.to_nat n) ;;
  a <- slice M o (o + N.to_nat n) ;;
  m <- getr 2 M 1 3 ;;
  if (m =? 0)%N then Ok {| ri_type := t; ri_len := n; ri_addr := a; ri_olen := m; ri_other := [] |} else
  let o := o + 2 in
  room (o + N.to_nat m) ;;
  c <- slice M o (o + N.to_nat m) ;;
  Ok {| ri_type := t; ri_len := n; ri_addr := a; ri_olen := m; ri_other := c |}.
(** ie/mac-address.go:98-100,108-110,118-120,128-130,147-192 *)
Definition macaddr_cap : res macaddr :=
  room 2 ;; fl <- cindex 0 ;;
  let o := 1 in
  '(s, o) <- crdb (has1 fl) 6 o None ;;
  '(d, o) <- crdb (has2 fl) 6 o None ;;
  '(us, o) <- crdb (has3 fl) 6 o None ;;
  '(ud, o) <- crdb (has4 fl) 6 o None ;;
  Ok {| ma_flags := fl; ma_src := s; ma_dst := d; ma_usrc := us; ma_udst := ud |}.
(** ie/user-plane-ip-resource-information.go:117-169 *)
Definition upri_cap : res upri :=
  let l := L in
  room 2 ;; fl <- cindex 0 ;;
  let o := 1 in
  '(range, o) <- crdn (teidri fl) 1 o 0%N ;;
  '(v4, o) <- crdb (has1 fl) 4 o None ;;
  '(v6, o) <- crdb (has2 fl) 16 o None ;;
  if has6 fl then
    '(si, n) <- (if has7 fl then x <- cindex l ;; Ok (N.land x 0x0f, l - 1) else Ok (0%N, l)) ;;
    if l <? o + n then Err EUnexpectedEOF else
    ni <- slice M o n ;;
    Ok {| up_flags := fl; up_range := range; up_v4 := to4 v4; up_v6 := to16 v6; up_ni := ni; up_si := si |}
  else
    si <- (if has7 fl then x <- cindex o ;; Ok (N.land x 0x0f) else Ok 0%N) ;;
    Ok {| up_flags := fl; up_range := range; up_v4 := to4 v4; up_v6 := to16 v6; up_ni := []; up_si := si |}.
(** [if l < offset { EOF }; x = b[offset]; offset++] *)
Definition crd1 (o : nat) : res (N * nat) := room o ;; x <- cindex o ;; Ok (x, o + 1).
(** [if l < offset+int(n) { EOF }; copy(f.X, b[offset:offset+int(n)]); offset += int(n)]; f.X is nil, so nothing is copied *)
Definition cskip_nil (n : N) (o : nat) : res nat := room (o + N.to_nat n) ;; _ <- slice M o (o + N.to_nat n) ;; Ok (o + N.to_nat n).
(** ie/trace-information.go:88-144 *)
Definition trace_cap : res trace :=
  room 6 ;;
  plmn <- slice M 0 3 ;;
  '(mcc, mnc) <- decode_plmn plmn ;;
  id <- slice M 3 6 ;;
  let o := 6 in
  '(evlen, o) <- crd1 o ;;
  o <- cskip_nil evlen o ;;
  '(depth, o) <- crd1 o ;;
  '(iflen, o) <- crd1 o ;;
  o <- cskip_nil iflen o ;;
  '(iplen, o) <- crd1 o ;;
  _ <- cskip_nil iplen o ;;
  Ok {| ti_mcc := mcc; ti_mnc := mnc; ti_id := id; ti_evlen := evlen; ti_ev := None; ti_depth := depth; ti_iflen := iflen; ti_ifs := None; ti_iplen := iplen; ti_ip := None |}.
(** one field of UnmarshalBinary: [if len(b[offset:]) < extra+2 { EOF }; n = Uint16(b[offset:offset+2]); s = b[offset+2:offset+2+n]; offset += 2+n];
    the plain strings have extra = offset (the test compares the length of b[offset:] with offset+2), the lists extra = 0.
    f.XLength is zero when the test runs. *)
Definition crd16s (strict c : bool) (o : nat) : res (N * list N * nat) :=
  if c then
    _ <- cfrom o ;; room (o + ((if strict then o else 0) + 2)) ;;
    n <- getr 2 M o (o + 2) ;; s <- slice M (o + 2) (o + 2 + N.to_nat n) ;; Ok (n, s, o + (2 + N.to_nat n))
  else Ok (0%N, [], o).
(** ie/pfd-contents.go:232-238,241-371 *)
Definition pfdc_cap : res pfdc :=
  room 2 ;; fl <- cindex 0 ;;
  let o := 2 in
  '(fdlen, fd, o) <- crd16s true (has1 fl) o ;;
  '(urllen, url, o) <- crd16s true (has2 fl) o ;;
  '(dnlen, dn, o) <- crd16s true (has3 fl) o ;;
  '(cplen, cp, o) <- crd16s true (has4 fl) o ;;
  '(dnplen, dnp, o) <- crd16s true (has5 fl) o ;;
  '(afdlen, p, o) <- crd16s false (has6 fl) o ;; afd <- citems (length p) (skipn (o - length p) M) ;;
  '(aurllen, p, o) <- crd16s false (has7 fl) o ;; aurl <- citems (length p) (skipn (o - length p) M) ;;
  '(adnplen, p, o) <- crd16s false (has8 fl) o ;; adnp <- citems (length p) (skipn (o - length p) M) ;;
  Ok {| pc_flags := fl; pc_fdlen := fdlen; pc_fd := fd; pc_urllen := urllen; pc_url := url; pc_dnlen := dnlen; pc_dn := dn;
        pc_cplen := cplen; pc_cp := cp; pc_dnplen := dnplen; pc_dnp := dnp;
        pc_afdlen := afdlen; pc_afd := afd; pc_aurllen := aurllen; pc_aurl := aurl; pc_adnplen := adnplen; pc_adnp := adnp |}.
(** k more addresses from o *)
Fixpoint crd_macs (k : nat) (o : nat) : res (list (list N) * nat) :=
  match k with
  | O => Ok ([], o)
  | S k => '(x, o) <- crd 6 o ;; '(r, o) <- crd_macs k o ;; Ok (x :: r, o)
  end.
(** ie/mac-address-detected.go:107-145, ie/mac-address-removed.go:96-134;
    the loop runs for i = 0 to n inclusive; copy(f.CTAG, ...) copies into a nil slice, so nothing; the offset is not advanced *)
Definition macl_cap : res macl :=
  room 1 ;; n <- cindex 0 ;;
  '(macs, o) <- crd_macs (S (N.to_nat n)) 1 ;;
  room o ;; ct <- cindex o ;;
  room (o + N.to_nat ct) ;; _ <- slice M o (o + N.to_nat ct) ;;
  room o ;; st <- cindex o ;;
  room (o + N.to_nat st) ;; _ <- slice M o (o + N.to_nat st) ;;
  Ok {| ml_n := n; ml_macs := macs; ml_ctlen := ct; ml_ctag := []; ml_stlen := st; ml_stag := [] |}.
End Cap.

(** * The case bodies of Access.v *)
Definition cfparse (k : fkind) (L : nat) (M : list N) : res val :=
  match k with
  | K_AlternativeSMFIPAddress | K_CPPFCPEntityIPAddress => as_f F_altip (altip_cap L M)
  | K_CTAG | K_STAG => as_f F_tag (tag_cap L M)
  | K_DLFlowLevelMarking => as_f F_dlfl (dlfl_cap L M)
  | K_FSEID => as_f F_fseid (fseid_cap L M)
  | K_FTEID => as_f F_fteid (fteid_cap L M)
  | K_HeaderEnrichment => as_f F_henr (henr_cap L M)
  | K_IPMulticastAddress => as_f F_mcast (mcast_cap L M)
  | K_MACAddressesDetected | K_MACAddressesRemoved => as_f F_macl (macl_cap L M)
  | K_MACAddress => as_f F_macaddr (macaddr_cap L M)
  | K_MPTCPAddressInformation => as_f F_mptcp (mptcp_cap L M)
  | K_NumberOfUEIPAddresses => as_f F_nue (nue_cap L M)
  | K_OuterHeaderCreation => as_f F_ohc (ohc_cap L M)
  | K_PacketDelayThresholds | K_QoSMonitoringMeasurement => as_f F_delays (delays_cap L M)
  | K_PacketRateStatus => as_f F_prstat (prstat_cap L M)
  | K_PacketRate => as_f F_prate (prate_cap L M)
  | K_PFDContents => as_f F_pfdc (pfdc_cap L M)
  | K_PMFAddressInformation => as_f F_pmf (pmf_cap L M)
  | K_RedirectInformation => as_f F_redir (redir_cap L M)
  | K_RemoteGTPUPeer => as_f F_rpeer (rpeer_cap L M)
  | K_SDFFilter => as_f F_sdf (sdf_cap L M)
  | K_SourceIPAddress => as_f F_srcip (srcip_cap L M)
  | K_SubsequentVolumeQuota | K_SubsequentVolumeThreshold | K_VolumeQuota | K_VolumeThreshold => as_f F_vol3 (vol3_cap L M)
  | K_TraceInformation => as_f F_trace (trace_cap L M)
  | K_UEIPAddress => as_f F_ueip (ueip_cap L M)
  | K_UELinkSpecificIPAddress => as_f F_ulip (ulip_cap L M)
  | K_UserID => as_f F_userid (userid_cap L M)
  | K_UserPlaneIPResourceInformation => as_f F_upri (upri_cap L M)
  | K_VolumeMeasurement => as_f F_volm (volm_cap L M)
  end.

(** A payload of length L at the start of M *)
Section Leaf.
Variable L : nat.
Variable M : list N.
Notation "'room' k ;; r" := (if L <? k then Err EUnexpectedEOF else r) (at level 61, k at next level, right associativity).
(** utils.go:155-177 (Utils.v: decode_fqdn_loop) *)
Fixpoint cfqdn_loop (n : nat) (offset : nat) (fqdn : list (list N)) : res (list (list N)) :=
  match n with
  | O => Fuel
  | S n =>
      if L <=? offset then Ok fqdn else
      x <- cindex L M offset ;;
      let l := N.to_nat x in
      if L <? offset + l + 1 then Ok fqdn else
      s <- slice M (offset + 1) (offset + l + 1) ;;
      cfqdn_loop n (offset + (l + 1)) (fqdn ++ [s])
  end.
Definition cdecode_fqdn : res (list N) := ls <- cfqdn_loop (S L) 0 [] ;; Ok (join_dot ls).
(** ie/ie.go:464-473 *)
Definition ctimestamp : res Z := room 4 ;; x <- getr 4 M 0 4 ;; Ok (Z.of_N (u32 (x + (4294967296 - 2208988800))) * second)%Z.
(** ie/failed-rule-id.go:51-78 *)
Definition cfailed_rule_id : res N :=
  t <- cindex L M 0 ;;
  if (t =? 0)%N then room 3 ;; getr 2 M 1 3
  else if (t =? 1)%N || (t =? 2)%N || (t =? 3)%N then room 5 ;; getr 4 M 1 5
  else if (t =? 4)%N then room 2 ;; cindex L M 1
  else Ok 0%N.
(** ie/flow-information.go:90-113: binary.BigEndian.Uint16(i.Payload[1:3]) without a check of the length *)
Definition cflow_description : res (list N) :=
  l <- getr 2 M 1 3 ;;
  room (N.to_nat l) ;;
  slice M 3 (N.to_nat (u16 (3 + l))).
(** ie/fq-csid.go:81-105,108-134.  The loop goes on while offset+2 > len(i.Payload), so it only ends by slicing past the
    capacity; one unit of fuel per round. *)
Definition cnode_id_type : res N := x <- cindex L M 0 ;; Ok (N.land (N.shiftr x 4) 0x0f).
Definition cnode_address : res (list N * list N) :=
  t <- cnode_id_type ;;
  if (t =? 0)%N || (t =? 2)%N then room 6 ;; x <- slice M 1 5 ;; Ok (x, skipn 5 M)
  else if (t =? 1)%N then room 18 ;; x <- slice M 1 17 ;; Ok (x, skipn 17 M)
  else Err EMalformed.
Fixpoint ccsids_loop (n offset : nat) (got : list N) : res (list N) :=
  match n with
  | O => Fuel
  | S n => if L <? offset + 2 then x <- getr 2 M offset (offset + 2) ;; ccsids_loop n (offset + 2) (got ++ [x]) else Ok got
  end.
Definition ccsids : res (list N) :=
  t <- cnode_id_type ;;
  offset <- (if (t =? 0)%N || (t =? 2)%N then Ok 5 else if (t =? 1)%N then Ok 17 else Err EMalformed) ;;
  ccsids_loop (S (length M)) offset [].
(** ie/tsn-bridge-id.go:35-66 *)
Definition ctsn_bridge_id : res (list N * list N) :=
  x <- cindex L M 0 ;;
  if negb (has1 x) then Ok ([], []) else
  if negb (L =? 7) && (L <? 9) then Err EUnexpectedEOF else
  if L =? 7 then y <- slice M 1 7 ;; Ok (y, skipn 7 M) else y <- slice M 1 9 ;; Ok (y, skipn 9 M).
End Leaf.
(** ie/node-id.go:77-113 *)
Definition cnode_body (L : nat) (M : list N) : res node_id :=
  t <- cindex L M 0 ;;
  _ <- cfrom L 1 ;;
  let q := firstn (L - 1) (skipn 1 M) in
  if (t =? 0)%N then Ok (NodeIP (to4 (Some q)))
  else if (t =? 1)%N then Ok (NodeIP (to16 (Some q)))
  else if (t =? 2)%N then s <- cdecode_fqdn (L - 1) (skipn 1 M) ;; Ok (NodeName s)
  else Err (EInvalidNodeID t).

(** * Decoding: an IE and the spare capacity of its payload *)
Definition cie : Type := ie * list N.
Section Run.
Variable g : N -> bool.
(** UnmarshalBinary (ie/ie.go:514-556) and ParseMultiIEs (ie/ie.go:496-511) on the first L octets of M, as in IE.v.
    The payload is b[offset:end] (ie/ie.go:544): its capacity is the rest of M.  A payload that is not assigned is nil. *)
Fixpoint cunmarshal (n : nat) (L : nat) (M : list N) {struct n} : res cie :=
  match n with
  | O => Fuel
  | S n =>
    if L <? 4 then Err EUnexpectedEOF else
    t <- getr 2 M 0 2 ;;
    ln <- getr 2 M 2 4 ;;
    let offset := 4 in
    let fin := N.to_nat ln in
    '(e, offset, fin) <-
      (if vendor t then
         if L <? 6 then Err EUnexpectedEOF else
         if fin <? 2 then Err EInvalidLength else
         e <- getr 2 M 4 6 ;; Ok (e, offset + 2, fin - 2)
       else Ok (0%N, offset, fin)) ;;
    if L <=? offset then Ok (mkIE t ln e [] [], []) else
    if L <? offset + fin then Err EUnexpectedEOF else
    p <- slice M offset (offset + fin) ;;
    if g t then
      cs <- cparse_multi n fin (skipn offset M) ;; Ok (mkIE t ln e p (map fst cs), skipn (offset + fin) M)
    else Ok (mkIE t ln e p [], skipn (offset + fin) M)
  end
with cparse_multi (n : nat) (L : nat) (M : list N) {struct n} : res (list cie) :=
  match n with
  | O => Fuel
  | S n =>
    if L =? 0 then Ok [] else
    x <- cunmarshal n L M ;;
    _ <- cfrom L (mlen g (fst x)) ;;
    r <- cparse_multi n (L - mlen g (fst x)) (skipn (mlen g (fst x)) M) ;;
    Ok (x :: r)
  end.
Definition cparse (L : nat) (M : list N) : res cie := cunmarshal (S (S L)) L M.
Definition cparseMultiIEs (L : nat) (M : list N) : res (list cie) := cparse_multi (S (S L)) L M.

(** * Accessors *)
(** Results: CV is a number, a string, a time or a struct; CB is a slice b with spare capacity r; CIEs are IEs. *)
Inductive cval := CV (v : val) | CB (b r : list N) | CIEs (l : list cie).
Definition plain (x : cval) : val := match x with CV v => v | CB b _ => VB b | CIEs l => VIEs (map fst l) end.

(** Case bodies; the ones not listed do not slice: i.Payload[k], or binary.BigEndian.UintN(i.Payload), which is bounded by len.
    A struct read by way of its fields is taken for a value: its own slices are not sliced again by any accessor
    other than ParseCTAGFields(x.CTAG), where x.CTAG is nil. *)
Definition cleaf_run (l : leaf) (x : cie) : res cval :=
  let i := fst x in
  let L := length (payload i) in
  let M := payload i ++ snd x in
  let cv r := v <- r ;; Ok (CV v) in
  match l with
  | LFQDN => if g (ty i) then Err (EInvalidTypeT (ty i)) else cv (as_s (cdecode_fqdn L M))
  | LTime => if g (ty i) then Err (EInvalidTypeT (ty i)) else cv (as_t (ctimestamp L M))
  | LPayload => Ok (CB (payload i) (snd x))
  | LChildren => is <- cparseMultiIEs L M ;; Ok (CIEs is)
  | LFields k => cv (cfparse k L M)
  | LSecs32 => cv (as_d (x <- getr 4 M 0 4 ;; Ok (Z.of_N x * second)%Z))
  | LMillis32 => cv (as_d (x <- getr 4 M 0 4 ;; Ok (Z.of_N x * 1000000)%Z))
  | LNanos64 => cv (as_d (x <- getr 8 M 0 8 ;; Ok (to_i64 x)))
  | LSecs16 => cv (as_d (x <- getr 2 M 0 2 ;; Ok (Z.of_N x * second)%Z))
  | LAuri => cv (as_n (x <- getr 2 M 0 2 ;; Ok (N.land x 0x7fff)))
  | LApplyAction => if L <? 1 then Err EUnexpectedEOF else Ok (CB (payload i) (snd x))
  | LFailedRuleID => cv (as_n (cfailed_rule_id L M))
  | LFlowDescription => cv (as_s (cflow_description L M))
  | LNodeAddress => '(b, r) <- cnode_address L M ;; Ok (CB b r)
  | LCSIDs => y <- ccsids L M ;; Ok (CV (VNs y))
  | LExponent => cv (as_n (getr 4 M 8 12))
  | LNFInstanceID => b <- slice M 0 16 ;; Ok (CB b (skipn 16 M))
  | LNodeID => cv (as_node (cnode_body L M))
  | LSNSSAI => b <- slice M 0 4 ;; Ok (CB b (skipn 4 M))
  | LTSNBridgeID => '(b, r) <- ctsn_bridge_id L M ;; Ok (CB b r)
  | _ => cv (leaf_run g l i)
  end.
Definition cpost_run (f : post) (x : cie) (v : cval) : res cval :=
  let cv r := v <- r ;; Ok (CV v) in
  match f, v with
  | PU40 lo hi, CB b r => x <- slice (b ++ r) lo hi ;; Ok (CV (VN (uint40To64 x)))
  | PPolicyID, CB b r =>
      if length b <? 1 then Err EUnexpectedEOF else n <- index b 0 ;;
      if length b <? N.to_nat n + 1 then Err EUnexpectedEOF else cv (as_s (slice (b ++ r) 1 (N.to_nat n + 1)))
  | PPoolID, CB b r =>
      if length b <? 2 then Err EUnexpectedEOF else n <- getr 2 (b ++ r) 0 2 ;;
      if length b <? N.to_nat n + 2 then Err EUnexpectedEOF else cv (as_s (slice (b ++ r) 2 (N.to_nat n + 2)))
  | PSD, CB b r => x <- slice (b ++ r) 1 4 ;; Ok (CV (VN (utils_uint24To32 x)))
  | POwnFQDN, CV (VS _) => cv (as_s (cdecode_fqdn (length (payload (fst x))) (payload (fst x) ++ snd x)))
  | _, _ => cv (post_run f (fst x) (plain v))
  end.
Fixpoint csearch (p : cie -> bool) (f : cie -> res cval) (l : list cie) : res cval :=
  match l with
  | [] => Err EIENotFound
  | x :: r => if p x then f x else csearch p f r
  end.
Fixpoint crun (n : nat) (a : acc) (x : cie) : res cval :=
  match n with
  | O => Fuel
  | S n =>
      let d := acc_def a in
      _ <- check (guards d) (fst x) ;;
      match lookup (cases d) (dflt d) (ty (fst x)) with
      | Leaf l => cleaf_run l x
      | Via c ts b =>
          v <- crun n c x ;;
          match v with CIEs l => csearch (fun y => memb (ty (fst y)) ts) (fun y => crun n b y) l | _ => Fault end
      | ViaOwn c ts b =>
          v <- crun n c x ;;
          match v with CIEs l => csearch (fun y => memb (ty (fst x)) ts) (fun y => crun n b y) l | _ => Fault end
      | Then c f => v <- crun n c x ;; cpost_run f x v
      | OrElse c d =>
          v <- crun n c x ;;
          match plain v with VS [] => crun n d x | VS _ => Ok v | _ => Fault end
      end
  end.
(** i.a() for an element i parsed out of a longer buffer, as its caller sees it *)
Definition caccess (a : acc) (x : cie) : res val := v <- crun (4 * S (length (payload (fst x)))) a x ;; Ok (plain v).
End Run.
