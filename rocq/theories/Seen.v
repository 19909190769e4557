(** Memory of the decoded structs and of the other results of the accessors: which of them are
    copies and which are slices of the IE's payload, that is, of the receive buffer.
    A struct that keeps slices of its payload is modelled by what its holder reads from it for each
    later contents m of the memory of that payload. *)
From Verif Require Import Base IETypes IE Bits Codec Utils Fields1 Time Fields2 Fields3 Fields4 Access.
Set Implicit Arguments.

(** the slice b[o:o+n] of a payload, read when the payload holds m *)
Definition window (o n : nat) (m : list N) : list N := firstn n (skipn o m).
(** [if l < offset+n { return io.ErrUnexpectedEOF }; f.X = b[offset:offset+n]; offset += n] under a condition,
    for a member that becomes a slice of b; To4 of 4 octets and To16 of 16 return their argument *)
Definition rdw (c : bool) (n : nat) (b : list N) (o : nat) : res ((list N -> bslice) * nat) :=
  if c then need (o + n) in b ;; _ <- slice b o (o + n) ;; Ok (fun m => Some (window o n m), o + n)
  else Ok (fun _ => None, o).

(** ie/f-teid.go:191-231 *)
Definition fteid_seen (b : list N) : res (list N -> fteid) :=
  need 1 in b ;; fl <- index b 0 ;;
  let o := 1 in
  if has3 fl then
    if has4 fl then need (o + 1) in b ;; c <- index b o ;; Ok (fun _ => {| ft_flags := fl; ft_teid := 0; ft_v4 := None; ft_v6 := None; ft_chid := c |})
    else Ok (fun _ => {| ft_flags := fl; ft_teid := 0; ft_v4 := None; ft_v6 := None; ft_chid := 0 |})
  else
    '(teid, o) <- rdn true 4 b o 0 ;;
    '(v4, o) <- rdw (has1 fl) 4 b o ;;
    '(v6, o) <- rdw (has2 fl) 16 b o ;;
    Ok (fun m => {| ft_flags := fl; ft_teid := teid; ft_v4 := v4 m; ft_v6 := v6 m; ft_chid := 0 |}).
(** ie/f-seid.go:96-124 *)
Definition fseid_seen (b : list N) : res (list N -> fseid) :=
  need 9 in b ;; fl <- index b 0 ;;
  let o := 1 in
  seid <- getr 8 b o (o + 8) ;; let o := o + 8 in
  '(v4, o) <- rdw (has2 fl) 4 b o ;;
  '(v6, o) <- rdw (has1 fl) 16 b o ;;
  Ok (fun m => {| fs_flags := fl; fs_seid := seid; fs_v4 := v4 m; fs_v6 := v6 m |}).
(** ie/ue-ip-address.go:221-261 *)
Definition ueip_seen (b : list N) : res (list N -> ueip) :=
  need 1 in b ;; fl <- index b 0 ;;
  let o := 1 in
  '(v4, o) <- rdw (has2 fl && negb (has5 fl)) 4 b o ;;
  '(v6, o) <- rdw (has1 fl && negb (has6 fl)) 16 b o ;;
  '(v6d, _) <- rdn (has4 fl) 1 b o 0 ;;
  '(v6pl, _) <- rdn (has7 fl) 1 b o 0 ;;
  Ok (fun m => {| ue_flags := fl; ue_v4 := v4 m; ue_v6 := v6 m; ue_v6d := v6d; ue_v6pl := v6pl |}).
(** ie/alternative-smf-ip-address.go:93-118, ie/cp-pfcp-entity-ip-address.go:105-130 *)
Definition altip_seen (b : list N) : res (list N -> altip) :=
  need 2 in b ;; fl <- index b 0 ;;
  let o := 1 in
  '(v4, o) <- rdw (has2 fl) 4 b o ;;
  '(v6, o) <- rdw (has1 fl) 16 b o ;;
  Ok (fun m => {| ai_flags := fl; ai_v4 := v4 m; ai_v6 := v6 m |}).
(** ie/source-ip-address.go:152-185 *)
Definition srcip_seen (b : list N) : res (list N -> srcip) :=
  need 2 in b ;; fl <- index b 0 ;;
  let o := 1 in
  '(v4, o) <- rdw (has2 fl) 4 b o ;;
  '(v6, o) <- rdw (has1 fl) 16 b o ;;
  mpl <- (if has3 fl then need o in b ;; index b o else Ok 0%N) ;;
  Ok (fun m => {| si_flags := fl; si_v4 := v4 m; si_v6 := v6 m; si_mpl := mpl |}).
(** ie/ue-link-specific-ip-address.go:145-186 *)
Definition ulip_seen (b : list N) : res (list N -> ulip) :=
  need 1 in b ;; fl <- index b 0 ;;
  let o := 1 in
  '(v4, o) <- rdw (has1 fl) 4 b o ;;
  '(v6, o) <- rdw (has2 fl) 16 b o ;;
  '(nv4, o) <- rdw (has3 fl) 4 b o ;;
  '(nv6, o) <- rdw (has4 fl) 16 b o ;;
  Ok (fun m => {| ul_flags := fl; ul_v4 := v4 m; ul_v6 := v6 m; ul_nv4 := nv4 m; ul_nv6 := nv6 m |}).
(** ie/mptcp-address-information.go:126-153 *)
Definition mptcp_seen (b : list N) : res (list N -> mptcp) :=
  need 4 in b ;; fl <- index b 0 ;; ty <- index b 1 ;; port <- getr 2 b 2 4 ;;
  let o := 4 in
  '(v4, o) <- rdw (has1 fl) 4 b o ;;
  '(v6, o) <- rdw (has2 fl) 16 b o ;;
  Ok (fun m => {| mp_flags := fl; mp_type := ty; mp_port := port; mp_v4 := v4 m; mp_v6 := v6 m |}).
(** ie/pmf-address-information.go:135-184; the MAC addresses are copied into nil slices *)
Definition pmf_seen (b : list N) : res (list N -> pmf) :=
  need 1 in b ;; fl <- index b 0 ;;
  let o := 1 in
  '(v4, o) <- rdw (has1 fl) 4 b o ;;
  '(v6, o) <- rdw (has2 fl) 16 b o ;;
  '(port1, o) <- rdn true 2 b o 0 ;;
  '(port2, o) <- rdn true 2 b o 0 ;;
  '(_, o) <- rds true 6 b o [] ;;
  '(_, o) <- rds true 6 b o [] ;;
  Ok (fun m => {| pm_flags := fl; pm_v4 := v4 m; pm_v6 := v6 m; pm_port1 := port1; pm_port2 := port2; pm_mac1 := None; pm_mac2 := None |}).
(** ie/remote-gtp-u-peer.go:153-206; the network instance is a string, so a copy *)
Definition rpeer_seen (b : list N) : res (list N -> rpeer) :=
  need 2 in b ;; fl <- index b 0 ;;
  let o := 1 in
  '(v4, o) <- rdw (has2 fl) 4 b o ;;
  '(v6, o) <- rdw (has1 fl) 16 b o ;;
  '(dilen, di, o) <- (if has3 fl then
      '(n, o) <- rdn true 2 b o 0 ;;
      need (o + N.to_nat n) in b ;; di <- index b o ;; Ok (n, di, o + N.to_nat n)
    else Ok (0%N, 0%N, o)) ;;
  '(nilen, ni) <- (if has4 fl then
      '(n, o) <- rdn true 2 b o 0 ;;
      '(s, o) <- rds true (N.to_nat n) b o [] ;; Ok (n, s)
    else Ok (0%N, [])) ;;
  Ok (fun m => {| rg_flags := fl; rg_v4 := v4 m; rg_v6 := v6 m; rg_dilen := dilen; rg_di := di; rg_nilen := nilen; rg_ni := ni |}).
(** ie/ip-multicast-address.go:183-231 *)
Definition mcast_seen (b : list N) : res (list N -> mcast) :=
  need 2 in b ;; fl <- index b 0 ;;
  let o := 1 in
  if has4 fl then Ok (fun _ => {| mc_flags := fl; mc_sv4 := None; mc_sv6 := None; mc_ev4 := None; mc_ev6 := None |})
  else
    '(sv4, o) <- rdw (has2 fl) 4 b o ;;
    '(sv6, o) <- rdw (has1 fl) 16 b o ;;
    '(ev4, o) <- rdw (has3 fl && has2 fl) 4 b o ;;
    '(ev6, o) <- rdw (has3 fl && has1 fl) 16 b o ;;
    Ok (fun m => {| mc_flags := fl; mc_sv4 := sv4 m; mc_sv6 := sv6 m; mc_ev4 := ev4 m; mc_ev6 := ev6 m |}).
(** ie/outer-header-creation.go:355-413 *)
Definition ohc_seen (b : list N) : res (list N -> ohc) :=
  need 2 in b ;;
  desc <- getr 2 b 0 2 ;;
  let o := 2 in
  o5 <- index b 0 ;;
  '(teid, o) <- rdn (oh_has_teid o5) 4 b o 0%N ;;
  '(v4, o) <- rdw (oh_has_v4 o5) 4 b o ;;
  '(v6, o) <- rdw (oh_has_v6 o5) 16 b o ;;
  '(port, o) <- rdn (oh_has_port o5) 2 b o 0%N ;;
  '(ctag, o) <- (if has7 (u8 (N.land desc 0xff)) then need (o + 3) in b ;; x <- getr 4 b o (o + 3) ;; Ok (x, o + 3) else Ok (0%N, o)) ;;
  stag <- (if has8 (u8 (N.land desc 0xff)) then need (o + 3) in b ;; getr 4 b o (o + 3) else Ok 0%N) ;;
  Ok (fun m => {| oh_desc := desc; oh_teid := teid; oh_v4 := v4 m; oh_v6 := v6 m; oh_port := port; oh_ctag := ctag; oh_stag := stag |}).
(** ie/user-plane-ip-resource-information.go:117-169; the network instance is a string *)
Definition upri_seen (b : list N) : res (list N -> upri) :=
  let l := length b in
  need 2 in b ;; fl <- index b 0 ;;
  let o := 1 in
  '(range, o) <- rdn (teidri fl) 1 b o 0%N ;;
  '(v4, o) <- rdw (has1 fl) 4 b o ;;
  '(v6, o) <- rdw (has2 fl) 16 b o ;;
  if has6 fl then
    '(si, n) <- (if has7 fl then x <- index b l ;; Ok (N.land x 0x0f, l - 1) else Ok (0%N, l)) ;;
    if l <? o + n then Err EUnexpectedEOF else
    ni <- slice b o n ;;
    Ok (fun m => {| up_flags := fl; up_range := range; up_v4 := v4 m; up_v6 := v6 m; up_ni := ni; up_si := si |})
  else
    si <- (if has7 fl then x <- index b o ;; Ok (N.land x 0x0f) else Ok 0%N) ;;
    Ok (fun m => {| up_flags := fl; up_range := range; up_v4 := v4 m; up_v6 := v6 m; up_ni := []; up_si := si |}).
(** ie/mac-address-detected.go:107-145, ie/mac-address-removed.go:96-134 *)
Fixpoint macs_seen (k : nat) (b : list N) (o : nat) : res ((list N -> list (list N)) * nat) :=
  match k with
  | O => Ok (fun _ => [], o)
  | S k => need (o + 6) in b ;; _ <- slice b o (o + 6) ;;
           '(r, e) <- macs_seen k b (o + 6) ;; Ok (fun m => window o 6 m :: r m, e)
  end.
Definition macl_seen (b : list N) : res (list N -> macl) :=
  need 1 in b ;; n <- index b 0 ;;
  '(macs, o) <- macs_seen (S (N.to_nat n)) b 1 ;;
  need o in b ;; ct <- index b o ;;
  need (o + N.to_nat ct) in b ;; _ <- slice b o (o + N.to_nat ct) ;;
  need o in b ;; st <- index b o ;;
  need (o + N.to_nat st) in b ;; _ <- slice b o (o + N.to_nat st) ;;
  Ok (fun m => {| ml_n := n; ml_macs := macs m; ml_ctlen := ct; ml_ctag := []; ml_stlen := st; ml_stag := [] |}).

(** All struct decoders.  Those in the last line keep numbers, strings and slices they made
    themselves (ie/mac-address.go:147-192 with make, the string(...)
    conversions of SDF Filter, User ID, Header Enrichment, Redirect Information, PFD Contents). *)
Definition seen_as {A} (c : A -> fields) (r : res (list N -> A)) : res (list N -> fields) := v <- r ;; Ok (fun m => c (v m)).
Definition fseen (k : fkind) (b : list N) : res (list N -> fields) :=
  match k with
  | K_FTEID => seen_as F_fteid (fteid_seen b)
  | K_FSEID => seen_as F_fseid (fseid_seen b)
  | K_UEIPAddress => seen_as F_ueip (ueip_seen b)
  | K_AlternativeSMFIPAddress | K_CPPFCPEntityIPAddress => seen_as F_altip (altip_seen b)
  | K_SourceIPAddress => seen_as F_srcip (srcip_seen b)
  | K_UELinkSpecificIPAddress => seen_as F_ulip (ulip_seen b)
  | K_MPTCPAddressInformation => seen_as F_mptcp (mptcp_seen b)
  | K_PMFAddressInformation => seen_as F_pmf (pmf_seen b)
  | K_RemoteGTPUPeer => seen_as F_rpeer (rpeer_seen b)
  | K_IPMulticastAddress => seen_as F_mcast (mcast_seen b)
  | K_OuterHeaderCreation => seen_as F_ohc (ohc_seen b)
  | K_UserPlaneIPResourceInformation => seen_as F_upri (upri_seen b)
  | K_MACAddressesDetected | K_MACAddressesRemoved => seen_as F_macl (macl_seen b)
  | _ => v <- fparse k b ;; match v with VF f => Ok (fun _ => f) | _ => Fault end
  end.
