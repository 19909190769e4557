(** Structured payloads made of flags and IP addresses.
    net.IP values are byte slices ([bslice]); where a constructor takes strings and calls net.ParseIP,
    the model takes the result of net.ParseIP (nil or 16 octets). Each XxxFields type has parse
    (ParseXxxFields on the zero struct), marshal_len, marshal_to, marshal and the constructor. *)
From Verif Require Import Base Codec.
Set Implicit Arguments.
Definition setif (c : bool) (bit fl : N) : N := if c then N.lor fl bit else fl.

(** * F-TEID *)
(** ie/f-teid.go:122-128 *)
Record fteid := { ft_flags : N; ft_teid : N; ft_v4 : bslice; ft_v6 : bslice; ft_chid : N }.
(** ie/f-teid.go:131-139 *)
Definition new_fteid flags teid v4 v6 chid :=
  {| ft_flags := flags; ft_teid := teid; ft_v4 := v4; ft_v6 := v6; ft_chid := chid |}.
(** ie/f-teid.go:182-188,191-231 *)
Definition fteid_parse (b : list N) : res fteid :=
  need 1 in b ;; fl <- index b 0 ;;
  let o := 1 in
  if has3 fl then
    if has4 fl then need (o + 1) in b ;; c <- index b o ;; Ok {| ft_flags := fl; ft_teid := 0; ft_v4 := None; ft_v6 := None; ft_chid := c |}
    else Ok {| ft_flags := fl; ft_teid := 0; ft_v4 := None; ft_v6 := None; ft_chid := 0 |}
  else
    '(teid, o) <- rdn true 4 b o 0 ;;
    '(v4, o) <- rdb (has1 fl) 4 b o None ;;
    '(v6, o) <- rdb (has2 fl) 16 b o None ;;
    Ok {| ft_flags := fl; ft_teid := teid; ft_v4 := v4; ft_v6 := v6; ft_chid := 0 |}.
(** ie/f-teid.go:286-303 *)
Definition fteid_marshal_len (f : fteid) : nat :=
  if has3 (ft_flags f) then 1 + len_if (has4 (ft_flags f)) 1
  else 1 + (4 + (len_if (has1 (ft_flags f)) 4 + len_if (has2 (ft_flags f)) 16)).
(** ie/f-teid.go:243-283 *)
Definition fteid_marshal_to (f : fteid) (b : list N) : res (list N) :=
  need 1 in b ;; b <- put b 0 [ft_flags f] ;;
  let o := 1 in
  if has3 (ft_flags f) then
    if has4 (ft_flags f) then need (o + 1) in b ;; put b o [ft_chid f] else Ok b
  else
    '(b, o) <- wrn true 4 (ft_teid f) b o ;;
    '(b, o) <- wrb (has1 (ft_flags f) && notnil (ft_v4 f)) 4 (octs (to4 (ft_v4 f))) b o ;;
    '(b, o) <- wrb (has2 (ft_flags f) && notnil (ft_v6 f)) 16 (octs (to16 (ft_v6 f))) b o ;;
    Ok b.
(** ie/f-teid.go:234-240 *)
Definition fteid_marshal f := fteid_marshal_to f (make (fteid_marshal_len f)).

(** * F-SEID *)
(** ie/f-seid.go:40-45 *)
Record fseid := { fs_flags : N; fs_seid : N; fs_v4 : bslice; fs_v6 : bslice }.
(** ie/f-seid.go:48-64,72-74,82-84 *)
Definition new_fseid seid v4 v6 :=
  {| fs_flags := setif (notnil v6) 1 (setif (notnil v4) 2 0); fs_seid := seid; fs_v4 := v4; fs_v6 := v6 |}.
(** ie/f-seid.go:87-93,96-124 *)
Definition fseid_parse (b : list N) : res fseid :=
  need 9 in b ;; fl <- index b 0 ;;
  let o := 1 in
  seid <- getr 8 b o (o + 8) ;; let o := o + 8 in
  '(v4, o) <- rdb (has2 fl) 4 b o None ;;
  '(v6, o) <- rdb (has1 fl) 16 b o None ;;
  Ok {| fs_flags := fl; fs_seid := seid; fs_v4 := v4; fs_v6 := v6 |}.
(** ie/f-seid.go:167-179 *)
Definition fseid_marshal_len (f : fseid) : nat := 9 + (len_if (notnil (fs_v4 f)) 4 + len_if (notnil (fs_v6 f)) 16).
(** ie/f-seid.go:136-164 *)
Definition fseid_marshal_to (f : fseid) (b : list N) : res (list N) :=
  need 9 in b ;; b <- put b 0 [fs_flags f] ;;
  let o := 1 in
  '(b, o) <- cpn true 8 (fs_seid f) b o ;;
  '(b, o) <- wrb (has2 (fs_flags f) && notnil (fs_v4 f)) 4 (octs (to4 (fs_v4 f))) b o ;;
  '(b, o) <- wrb (has1 (fs_flags f) && notnil (fs_v6 f)) 16 (octs (to16 (fs_v6 f))) b o ;;
  Ok b.
(** ie/f-seid.go:127-133 *)
Definition fseid_marshal f := fseid_marshal_to f (make (fseid_marshal_len f)).

(** * UE IP Address *)
(** ie/ue-ip-address.go:180-186 *)
Record ueip := { ue_flags : N; ue_v4 : bslice; ue_v6 : bslice; ue_v6d : N; ue_v6pl : N }.
(** ie/ue-ip-address.go:189-209; v4 and v6 are the results of net.ParseIP *)
Definition new_ueip flags v4 v6 v6d v6pl :=
  {| ue_flags := flags;
     ue_v4 := if has2 flags && negb (has5 flags) then to4 v4 else None;
     ue_v6 := if has1 flags && negb (has6 flags) then to16 v6 else None;
     ue_v6d := if has4 flags then v6d else 0;
     ue_v6pl := if has7 flags then v6pl else 0 |}.
(** ie/ue-ip-address.go:212-218,221-261; the offset is not advanced after the delegation bits *)
Definition ueip_parse (b : list N) : res ueip :=
  need 1 in b ;; fl <- index b 0 ;;
  let o := 1 in
  '(v4, o) <- rdb (has2 fl && negb (has5 fl)) 4 b o None ;;
  '(v6, o) <- rdb (has1 fl && negb (has6 fl)) 16 b o None ;;
  '(v6d, _) <- rdn (has4 fl) 1 b o 0 ;;
  '(v6pl, _) <- rdn (has7 fl) 1 b o 0 ;;
  Ok {| ue_flags := fl; ue_v4 := to4 v4; ue_v6 := to16 v6; ue_v6d := v6d; ue_v6pl := v6pl |}.
(** ie/ue-ip-address.go:305-321 *)
Definition ueip_marshal_len (f : ueip) : nat :=
  let fl := ue_flags f in
  1 + (len_if (has2 fl && negb (has5 fl)) 4 + (len_if (has1 fl && negb (has6 fl)) 16 + (len_if (has4 fl) 1 + len_if (has7 fl) 1))).
(** ie/ue-ip-address.go:273-302 *)
Definition ueip_marshal_to (f : ueip) (b : list N) : res (list N) :=
  let fl := ue_flags f in
  need 1 in b ;; b <- put b 0 [fl] ;;
  let o := 1 in
  '(b, o) <- cpb (has2 fl && negb (has5 fl)) 4 (octs (ue_v4 f)) b o ;;
  '(b, o) <- cpb (has1 fl && negb (has6 fl)) 16 (octs (ue_v6 f)) b o ;;
  '(b, o) <- cpn (has4 fl) 1 (ue_v6d f) b o ;;
  '(b, _) <- cpn (has7 fl) 1 (ue_v6pl f) b o ;;
  Ok b.
(** ie/ue-ip-address.go:264-270 *)
Definition ueip_marshal f := ueip_marshal_to f (make (ueip_marshal_len f)).

(** * Alternative SMF IP Address and CP PFCP Entity IP Address: the two files are copies of each other *)
(** ie/alternative-smf-ip-address.go:39-45, ie/cp-pfcp-entity-ip-address.go:51-57;
    the fields TEID and ChooseID are never read or written *)
Record altip := { ai_flags : N; ai_v4 : bslice; ai_v6 : bslice }.
(** ie/alternative-smf-ip-address.go:48-61, ie/cp-pfcp-entity-ip-address.go:60-73 *)
Definition new_altip v4 v6 := {| ai_flags := setif (notnil v6) 1 (setif (notnil v4) 2 0); ai_v4 := v4; ai_v6 := v6 |}.
(** ie/alternative-smf-ip-address.go:93-118, ie/cp-pfcp-entity-ip-address.go:105-130 *)
Definition altip_parse (b : list N) : res altip :=
  need 2 in b ;; fl <- index b 0 ;;
  let o := 1 in
  '(v4, o) <- rdb (has2 fl) 4 b o None ;;
  '(v6, o) <- rdb (has1 fl) 16 b o None ;;
  Ok {| ai_flags := fl; ai_v4 := v4; ai_v6 := v6 |}.
(** ie/alternative-smf-ip-address.go:157-167, ie/cp-pfcp-entity-ip-address.go:169-179 *)
Definition altip_marshal_len (f : altip) : nat := 1 + (len_if (notnil (ai_v4 f)) 4 + len_if (notnil (ai_v6 f)) 16).
(** ie/alternative-smf-ip-address.go:130-154, ie/cp-pfcp-entity-ip-address.go:142-166 *)
Definition altip_marshal_to (f : altip) (b : list N) : res (list N) :=
  need 1 in b ;; b <- put b 0 [ai_flags f] ;;
  let o := 1 in
  '(b, o) <- wrb (notnil (ai_v4 f)) 4 (octs (to4 (ai_v4 f))) b o ;;
  '(b, o) <- wrb (notnil (ai_v6 f)) 16 (octs (to16 (ai_v6 f))) b o ;;
  Ok b.
Definition altip_marshal f := altip_marshal_to f (make (altip_marshal_len f)).

(** * Source IP Address *)
(** ie/source-ip-address.go:84-89 *)
Record srcip := { si_flags : N; si_v4 : bslice; si_v6 : bslice; si_mpl : N }.
(** ie/source-ip-address.go:92-110 *)
Definition new_srcip v4 v6 mpl :=
  {| si_flags := setif (negb (mpl =? 0)%N) 4 (setif (notnil v6) 1 (setif (notnil v4) 2 0)); si_v4 := v4; si_v6 := v6; si_mpl := mpl |}.
(** ie/source-ip-address.go:152-185; the last guard is l < offset, not l < offset+1 *)
Definition srcip_parse (b : list N) : res srcip :=
  need 2 in b ;; fl <- index b 0 ;;
  let o := 1 in
  '(v4, o) <- rdb (has2 fl) 4 b o None ;;
  '(v6, o) <- rdb (has1 fl) 16 b o None ;;
  mpl <- (if has3 fl then need o in b ;; index b o else Ok 0%N) ;;
  Ok {| si_flags := fl; si_v4 := v4; si_v6 := v6; si_mpl := mpl |}.
(** ie/source-ip-address.go:233-246 *)
Definition srcip_marshal_len (f : srcip) : nat :=
  let fl := si_flags f in 1 + (len_if (has2 fl) 4 + (len_if (has1 fl) 16 + len_if (has3 fl) 1)).
(** ie/source-ip-address.go:197-230 *)
Definition srcip_marshal_to (f : srcip) (b : list N) : res (list N) :=
  let fl := si_flags f in
  need 1 in b ;; b <- put b 0 [fl] ;;
  let o := 1 in
  '(b, o) <- wrb (has2 fl) 4 (octs (to4 (si_v4 f))) b o ;;
  '(b, o) <- wrb (has1 fl) 16 (octs (to16 (si_v6 f))) b o ;;
  if has3 fl then need o in b ;; put b o [si_mpl f] else Ok b.
Definition srcip_marshal f := srcip_marshal_to f (make (srcip_marshal_len f)).

(** * UE Link-Specific IP Address *)
(** ie/ue-link-specific-ip-address.go:62-68 *)
Record ulip := { ul_flags : N; ul_v4 : bslice; ul_v6 : bslice; ul_nv4 : bslice; ul_nv6 : bslice }.
(** ie/ue-link-specific-ip-address.go:71-93 *)
Definition new_ulip v4 v6 nv4 nv6 :=
  {| ul_flags := setif (notnil nv6) 8 (setif (notnil nv4) 4 (setif (notnil v6) 2 (setif (notnil v4) 1 0)));
     ul_v4 := v4; ul_v6 := v6; ul_nv4 := nv4; ul_nv6 := nv6 |}.
(** ie/ue-link-specific-ip-address.go:145-186 *)
Definition ulip_parse (b : list N) : res ulip :=
  need 1 in b ;; fl <- index b 0 ;;
  let o := 1 in
  '(v4, o) <- rdb (has1 fl) 4 b o None ;;
  '(v6, o) <- rdb (has2 fl) 16 b o None ;;
  '(nv4, o) <- rdb (has3 fl) 4 b o None ;;
  '(nv6, o) <- rdb (has4 fl) 16 b o None ;;
  Ok {| ul_flags := fl; ul_v4 := v4; ul_v6 := v6; ul_nv4 := nv4; ul_nv6 := nv6 |}.
(** ie/ue-link-specific-ip-address.go:242-258 *)
Definition ulip_marshal_len (f : ulip) : nat :=
  let fl := ul_flags f in 1 + (len_if (has1 fl) 4 + (len_if (has2 fl) 16 + (len_if (has3 fl) 4 + len_if (has4 fl) 16))).
(** ie/ue-link-specific-ip-address.go:198-239 *)
Definition ulip_marshal_to (f : ulip) (b : list N) : res (list N) :=
  let fl := ul_flags f in
  need 1 in b ;; b <- put b 0 [fl] ;;
  let o := 1 in
  '(b, o) <- wrb (has1 fl) 4 (octs (to4 (ul_v4 f))) b o ;;
  '(b, o) <- wrb (has2 fl) 16 (octs (to16 (ul_v6 f))) b o ;;
  '(b, o) <- wrb (has3 fl) 4 (octs (to4 (ul_nv4 f))) b o ;;
  '(b, o) <- wrb (has4 fl) 16 (octs (to16 (ul_nv6 f))) b o ;;
  Ok b.
Definition ulip_marshal f := ulip_marshal_to f (make (ulip_marshal_len f)).

(** * MPTCP Address Information *)
(** ie/mptcp-address-information.go:68-74 *)
Record mptcp := { mp_flags : N; mp_type : N; mp_port : N; mp_v4 : bslice; mp_v6 : bslice }.
(** ie/mptcp-address-information.go:77-94 *)
Definition new_mptcp ptype port v4 v6 :=
  {| mp_flags := setif (notnil v6) 2 (setif (notnil v4) 1 0); mp_type := ptype; mp_port := port; mp_v4 := v4; mp_v6 := v6 |}.
(** ie/mptcp-address-information.go:126-153 *)
Definition mptcp_parse (b : list N) : res mptcp :=
  need 4 in b ;; fl <- index b 0 ;; ty <- index b 1 ;; port <- getr 2 b 2 4 ;;
  let o := 4 in
  '(v4, o) <- rdb (has1 fl) 4 b o None ;;
  '(v6, o) <- rdb (has2 fl) 16 b o None ;;
  Ok {| mp_flags := fl; mp_type := ty; mp_port := port; mp_v4 := v4; mp_v6 := v6 |}.
(** ie/mptcp-address-information.go:195-205 *)
Definition mptcp_marshal_len (f : mptcp) : nat :=
  let fl := mp_flags f in 1 + 1 + 2 + (len_if (has1 fl) 4 + len_if (has2 fl) 16).
(** ie/mptcp-address-information.go:165-192 *)
Definition mptcp_marshal_to (f : mptcp) (b : list N) : res (list N) :=
  let fl := mp_flags f in
  need 4 in b ;; b <- put b 0 [fl] ;; b <- put b 1 [mp_type f] ;; b <- put b 2 (be 2 (mp_port f)) ;;
  let o := 4 in
  '(b, o) <- wrb (has1 fl) 4 (octs (to4 (mp_v4 f))) b o ;;
  '(b, o) <- wrb (has2 fl) 16 (octs (to16 (mp_v6 f))) b o ;;
  Ok b.
Definition mptcp_marshal f := mptcp_marshal_to f (make (mptcp_marshal_len f)).

(** * PMF Address Information *)
(** ie/pmf-address-information.go:63-71 *)
Record pmf := { pm_flags : N; pm_v4 : bslice; pm_v6 : bslice; pm_port1 : N; pm_port2 : N; pm_mac1 : bslice; pm_mac2 : bslice }.
(** ie/pmf-address-information.go:74-93 *)
Definition new_pmf v4 v6 port1 port2 mac1 mac2 :=
  {| pm_flags := setif (notnil v6) 2 (setif (notnil v4) 1 0); pm_v4 := v4; pm_v6 := v6;
     pm_port1 := port1; pm_port2 := port2; pm_mac1 := mac1; pm_mac2 := mac2 |}.
(** ie/pmf-address-information.go:135-184; the MAC addresses are copied into nil slices, i.e. not stored *)
Definition pmf_parse (b : list N) : res pmf :=
  need 1 in b ;; fl <- index b 0 ;;
  let o := 1 in
  '(v4, o) <- rdb (has1 fl) 4 b o None ;;
  '(v6, o) <- rdb (has2 fl) 16 b o None ;;
  '(port1, o) <- rdn true 2 b o 0 ;;
  '(port2, o) <- rdn true 2 b o 0 ;;
  '(_, o) <- rds true 6 b o [] ;;
  '(_, o) <- rds true 6 b o [] ;;
  Ok {| pm_flags := fl; pm_v4 := v4; pm_v6 := v6; pm_port1 := port1; pm_port2 := port2; pm_mac1 := None; pm_mac2 := None |}.
(** ie/pmf-address-information.go:248-257 *)
Definition pmf_marshal_len (f : pmf) : nat :=
  let fl := pm_flags f in 1 + (2 + 2 + 6 + 6 + (len_if (has1 fl) 4 + len_if (has2 fl) 16)).
(** ie/pmf-address-information.go:196-245 *)
Definition pmf_marshal_to (f : pmf) (b : list N) : res (list N) :=
  let fl := pm_flags f in
  need 1 in b ;; b <- put b 0 [fl] ;;
  let o := 1 in
  '(b, o) <- wrb (has1 fl) 4 (octs (to4 (pm_v4 f))) b o ;;
  '(b, o) <- wrb (has2 fl) 16 (octs (to16 (pm_v6 f))) b o ;;
  '(b, o) <- wrn true 2 (pm_port1 f) b o ;;
  '(b, o) <- wrn true 2 (pm_port2 f) b o ;;
  '(b, o) <- wrb true 6 (octs (pm_mac1 f)) b o ;;
  '(b, o) <- wrb true 6 (octs (pm_mac2 f)) b o ;;
  Ok b.
Definition pmf_marshal f := pmf_marshal_to f (make (pmf_marshal_len f)).

(** * Remote GTP-U Peer *)
(** ie/remote-gtp-u-peer.go:108-116 *)
Record rpeer := { rg_flags : N; rg_v4 : bslice; rg_v6 : bslice; rg_dilen : N; rg_di : N; rg_nilen : N; rg_ni : list N }.
(** ie/remote-gtp-u-peer.go:119-141; v4 and v6 are the results of net.ParseIP *)
Definition new_rpeer flags v4 v6 di ni :=
  {| rg_flags := flags;
     rg_v4 := if has2 flags then to4 v4 else None;
     rg_v6 := if has1 flags then to16 v6 else None;
     rg_dilen := if has3 flags then 1 else 0;
     rg_di := if has3 flags then N.land di 15 else 0;
     rg_nilen := if has4 flags then u16 (lenN ni) else 0;
     rg_ni := if has4 flags then ni else [] |}.
(** ie/remote-gtp-u-peer.go:153-206 *)
Definition rpeer_parse (b : list N) : res rpeer :=
  need 2 in b ;; fl <- index b 0 ;;
  let o := 1 in
  '(v4, o) <- rdb (has2 fl) 4 b o None ;;
  '(v6, o) <- rdb (has1 fl) 16 b o None ;;
  '(dilen, di, o) <- (if has3 fl then
      '(n, o) <- rdn true 2 b o 0 ;;
      need (o + N.to_nat n) in b ;; di <- index b o ;; Ok (n, di, o + N.to_nat n)
    else Ok (0%N, 0%N, o)) ;;
  '(nilen, ni) <- (if has4 fl then
      '(n, o) <- rdn true 2 b o 0 ;;
      '(s, o) <- rds true (N.to_nat n) b o [] ;; Ok (n, s)
    else Ok (0%N, [])) ;;
  Ok {| rg_flags := fl; rg_v4 := to4 v4; rg_v6 := to16 v6; rg_dilen := dilen; rg_di := di; rg_nilen := nilen; rg_ni := ni |}.
(** ie/remote-gtp-u-peer.go:254-270 *)
Definition rpeer_marshal_len (f : rpeer) : nat :=
  let fl := rg_flags f in
  1 + (len_if (has2 fl && negb (has5 fl)) 4 + (len_if (has1 fl && negb (has5 fl)) 16
   + (len_if (has3 fl) (2 + N.to_nat (rg_dilen f)) + len_if (has4 fl) (2 + N.to_nat (rg_nilen f))))).
(** ie/remote-gtp-u-peer.go:218-251 *)
Definition rpeer_marshal_to (f : rpeer) (b : list N) : res (list N) :=
  let fl := rg_flags f in
  need 2 in b ;; b <- put b 0 [fl] ;;
  let o := 1 in
  '(b, o) <- cpb (has2 fl) 4 (octs (rg_v4 f)) b o ;;
  '(b, o) <- cpb (has1 fl) 16 (octs (rg_v6 f)) b o ;;
  '(b, o) <- (if has3 fl then
      '(b, o) <- cpn true 2 (rg_dilen f) b o ;; b <- put b o [rg_di f] ;; Ok (b, o + N.to_nat (rg_dilen f))
    else Ok (b, o)) ;;
  if has4 fl then
    '(b, o) <- cpn true 2 (rg_nilen f) b o ;;
    copy_range b o (o + N.to_nat (rg_nilen f)) (rg_ni f)
  else Ok b.
Definition rpeer_marshal f := rpeer_marshal_to f (make (rpeer_marshal_len f)).

(** * IP Multicast Address *)
(** ie/ip-multicast-address.go:95-101 *)
Record mcast := { mc_flags : N; mc_sv4 : bslice; mc_sv6 : bslice; mc_ev4 : bslice; mc_ev6 : bslice }.
(** ie/ip-multicast-address.go:104-131 *)
Definition new_mcast sv4 sv6 ev4 ev6 :=
  if negb (notnil sv4) && negb (notnil sv6) then {| mc_flags := N.lor 0 8; mc_sv4 := None; mc_sv6 := None; mc_ev4 := None; mc_ev6 := None |}
  else {| mc_flags := setif (notnil ev6) 4 (setif (notnil ev4) 4 (setif (notnil sv6) 1 (setif (notnil sv4) 2 0)));
          mc_sv4 := sv4; mc_sv6 := sv6; mc_ev4 := ev4; mc_ev6 := ev6 |}.
(** ie/ip-multicast-address.go:183-231 *)
Definition mcast_parse (b : list N) : res mcast :=
  need 2 in b ;; fl <- index b 0 ;;
  let o := 1 in
  if has4 fl then Ok {| mc_flags := fl; mc_sv4 := None; mc_sv6 := None; mc_ev4 := None; mc_ev6 := None |}
  else
    '(sv4, o) <- rdb (has2 fl) 4 b o None ;;
    '(sv6, o) <- rdb (has1 fl) 16 b o None ;;
    '(ev4, o) <- rdb (has3 fl && has2 fl) 4 b o None ;;
    '(ev6, o) <- rdb (has3 fl && has1 fl) 16 b o None ;;
    Ok {| mc_flags := fl; mc_sv4 := sv4; mc_sv6 := sv6; mc_ev4 := ev4; mc_ev6 := ev6 |}.
(** ie/ip-multicast-address.go:293-309 *)
Definition mcast_marshal_len (f : mcast) : nat :=
  1 + (len_if (notnil (mc_sv4 f)) 4 + (len_if (notnil (mc_sv6 f)) 16 + (len_if (notnil (mc_ev4 f)) 4 + len_if (notnil (mc_ev6 f)) 16))).
(** ie/ip-multicast-address.go:243-290 *)
Definition mcast_marshal_to (f : mcast) (b : list N) : res (list N) :=
  let fl := mc_flags f in
  need 1 in b ;; b <- put b 0 [fl] ;;
  let o := 1 in
  if has4 fl then Ok b
  else
    '(b, o) <- wrb (has2 fl) 4 (octs (to4 (mc_sv4 f))) b o ;;
    '(b, o) <- wrb (has1 fl) 16 (octs (to16 (mc_sv6 f))) b o ;;
    '(b, o) <- wrb (has3 fl && has2 fl) 4 (octs (to4 (mc_ev4 f))) b o ;;
    '(b, o) <- wrb (has3 fl && has1 fl) 16 (octs (to16 (mc_ev6 f))) b o ;;
    Ok b.
Definition mcast_marshal f := mcast_marshal_to f (make (mcast_marshal_len f)).
