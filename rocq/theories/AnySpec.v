(** What MarshalTo of an XxxFields struct with arbitrary contents does with a buffer of MarshalLen octets z: the octets, an error or a panic.
    The structs are exported and so are their members, so any contents can occur. An octet z in the result is one that was not written;
    Marshal is the case of z = 0, a new buffer. *)
From Verif Require Import Base Bits Codec Codec2 Utils Fields1 Fields2 Fields3 Fields4 Access.
From Verif Require Import NewProofs6.
Set Implicit Arguments.

(** f.MarshalTo(b) and f.MarshalLen() for any of the structs; the files are cited at each definition *)
Definition marshal_to_fields (f : fields) (b : list N) : res (list N) :=
  match f with
  | F_fteid f => fteid_marshal_to f b | F_fseid f => fseid_marshal_to f b | F_ueip f => ueip_marshal_to f b | F_altip f => altip_marshal_to f b
  | F_srcip f => srcip_marshal_to f b | F_ulip f => ulip_marshal_to f b | F_mptcp f => mptcp_marshal_to f b | F_pmf f => pmf_marshal_to f b
  | F_rpeer f => rpeer_marshal_to f b | F_mcast f => mcast_marshal_to f b | F_volm f => volm_marshal_to f b | F_vol3 f => vol3_marshal_to f b
  | F_nue f => nue_marshal_to f b | F_delays f => delays_marshal_to f b | F_prate f => prate_marshal_to f b | F_dlfl f => dlfl_marshal_to f b
  | F_prstat f => prstat_marshal_to f b | F_tag f => tag_marshal_to f b | F_sdf f => sdf_marshal_to f b | F_ohc f => ohc_marshal_to f b
  | F_userid f => userid_marshal_to f b | F_henr f => henr_marshal_to f b | F_redir f => redir_marshal_to f b | F_macaddr f => macaddr_marshal_to f b
  | F_upri f => upri_marshal_to f b | F_trace f => trace_marshal_to f b | F_pfdc f => pfdc_marshal_to f b | F_macl f => macl_marshal_to f b
  end.
Definition marshal_len_fields (f : fields) : nat :=
  match f with
  | F_fteid f => fteid_marshal_len f | F_fseid f => fseid_marshal_len f | F_ueip f => ueip_marshal_len f | F_altip f => altip_marshal_len f
  | F_srcip f => srcip_marshal_len f | F_ulip f => ulip_marshal_len f | F_mptcp f => mptcp_marshal_len f | F_pmf f => pmf_marshal_len f
  | F_rpeer f => rpeer_marshal_len f | F_mcast f => mcast_marshal_len f | F_volm f => volm_marshal_len f | F_vol3 f => vol3_marshal_len f
  | F_nue f => nue_marshal_len f | F_delays f => delays_marshal_len f | F_prate f => prate_marshal_len f | F_dlfl f => dlfl_marshal_len f
  | F_prstat f => prstat_marshal_len f | F_tag f => tag_marshal_len f | F_sdf f => sdf_marshal_len f | F_ohc f => ohc_marshal_len f
  | F_userid f => userid_marshal_len f | F_henr f => henr_marshal_len f | F_redir f => redir_marshal_len f | F_macaddr f => macaddr_marshal_len f
  | F_upri f => upri_marshal_len f | F_trace f => trace_marshal_len f | F_pfdc f => pfdc_marshal_len f | F_macl f => macl_marshal_len f
  end.

Section On.
Variable z : N.

(** n octets: the first n of s, and what was in the buffer where s is shorter *)
Definition fit (n : nat) (s : list N) : list N := firstn n s ++ repeat z (n - length s).
(** an address member, converted (to4/to16) or as it stands *)
Definition conv4 (ip : bslice) : list N := fit 4 (octs (to4 ip)).
Definition conv16 (ip : bslice) : list N := fit 16 (octs (to16 ip)).
Definition raw4 (ip : bslice) : list N := fit 4 (octs ip).
Definition raw16 (ip : bslice) : list N := fit 16 (octs ip).
Definition left (n : nat) : list N := repeat z n.
(** a string after its length: the length member is written as it stands, and that many octets follow *)
Definition str8 (n : N) (s : list N) : list N := n :: fit (N.to_nat n) s.
Definition str16 (n : N) (s : list N) : list N := be 2 n ++ fit (N.to_nat n) s.
Definition bit (fl : N) (n : N) : bool := N.testbit fl n.
(** digits of BCD members: swapped, an odd number filled with f *)
Definition digits_ok (s : list N) : bool := ishexs s.
Definition bcd (s : list N) : list N := match str_to_swapped s ascii_f with Ok v => v | _ => [] end.
(** the strings of a list member and the room they take *)
Definition items (l : list (list N)) : list N := concat (map (fun a => be 2 (lenN a) ++ a) l).
Definition items_len (l : list (list N)) : nat := length (items l).

(** Remote GTP-U Peer: room that MarshalLen reserves without the first octet, and the addresses that MarshalTo writes *)
Definition rp_rest (f : rpeer) : nat := let fl := rg_flags f in len_if (bit fl 2) (2 + N.to_nat (rg_dilen f)) + len_if (bit fl 3) (2 + N.to_nat (rg_nilen f)).
Definition rp_addrs (f : rpeer) : list N := opts (bit (rg_flags f) 1) (raw4 (rg_v4 f)) ++ opts (bit (rg_flags f) 0) (raw16 (rg_v6 f)).
(** MAC Address: one address after the other, with k octets of room left *)
Fixpoint mac_walk (l : list (bool * bslice)) (k : nat) (w : list N) : res (list N) :=
  match l with
  | [] => Ok (w ++ left k)
  | (false, _) :: l => mac_walk l k w
  | (true, a) :: l => if k <? 6 then Err EUnexpectedEOF else if length (octs a) <? 6 then Fault else mac_walk l (k - 6) (w ++ firstn 6 (octs a))
  end.
(** PFD Contents: the lists and the length members of those that are flagged *)
Definition pfd_lists (f : pfdc) : list (bool * N * list (list N)) :=
  [(bit (pc_flags f) 5, pc_afdlen f, pc_afd f); (bit (pc_flags f) 6, pc_aurllen f, pc_aurl f); (bit (pc_flags f) 7, pc_adnplen f, pc_adnp f)].
Definition pfd_said (f : pfdc) : nat := list_sum (map (fun x => let '(c, n, _) := x in len_if c (N.to_nat n)) (pfd_lists f)).
Definition pfd_real (f : pfdc) : nat := list_sum (map (fun x => let '(c, _, l) := x in len_if c (items_len l)) (pfd_lists f)).

Definition expected_on (f : fields) : res (list N) :=
  match f with
  | F_fteid f => let fl := ft_flags f in
      Ok (fl :: if bit fl 2 then opts (bit fl 3) [ft_chid f]
          else be 4 (ft_teid f) ++ opts (bit fl 0 && notnil (ft_v4 f)) (conv4 (ft_v4 f)) ++ opts (bit fl 1 && notnil (ft_v6 f)) (conv16 (ft_v6 f)) ++
               left (len_if (bit fl 0 && negb (notnil (ft_v4 f))) 4 + len_if (bit fl 1 && negb (notnil (ft_v6 f))) 16))
  | F_fseid f => let fl := fs_flags f in
      Ok (fl :: be 8 (fs_seid f) ++ opts (bit fl 1 && notnil (fs_v4 f)) (conv4 (fs_v4 f)) ++ opts (bit fl 0 && notnil (fs_v6 f)) (conv16 (fs_v6 f)) ++
          left (len_if (negb (bit fl 1) && notnil (fs_v4 f)) 4 + len_if (negb (bit fl 0) && notnil (fs_v6 f)) 16))
  | F_ueip f => let fl := ue_flags f in
      Ok (fl :: opts (bit fl 1 && negb (bit fl 4)) (raw4 (ue_v4 f)) ++ opts (bit fl 0 && negb (bit fl 5)) (raw16 (ue_v6 f)) ++
          opts (bit fl 3) (be 1 (ue_v6d f)) ++ opts (bit fl 6) (be 1 (ue_v6pl f)))
  | F_altip f => Ok (ai_flags f :: opts (notnil (ai_v4 f)) (conv4 (ai_v4 f)) ++ opts (notnil (ai_v6 f)) (conv16 (ai_v6 f)))
  | F_srcip f => let fl := si_flags f in
      Ok (fl :: opts (bit fl 1) (conv4 (si_v4 f)) ++ opts (bit fl 0) (conv16 (si_v6 f)) ++ opts (bit fl 2) [si_mpl f])
  | F_ulip f => let fl := ul_flags f in
      Ok (fl :: opts (bit fl 0) (conv4 (ul_v4 f)) ++ opts (bit fl 1) (conv16 (ul_v6 f)) ++ opts (bit fl 2) (conv4 (ul_nv4 f)) ++ opts (bit fl 3) (conv16 (ul_nv6 f)))
  | F_mptcp f => let fl := mp_flags f in
      Ok (fl :: mp_type f :: be 2 (mp_port f) ++ opts (bit fl 0) (conv4 (mp_v4 f)) ++ opts (bit fl 1) (conv16 (mp_v6 f)))
  | F_pmf f => let fl := pm_flags f in
      Ok (fl :: opts (bit fl 0) (conv4 (pm_v4 f)) ++ opts (bit fl 1) (conv16 (pm_v6 f)) ++ be 2 (pm_port1 f) ++ be 2 (pm_port2 f) ++ fit 6 (octs (pm_mac1 f)) ++ fit 6 (octs (pm_mac2 f)))
  | F_rpeer f => let fl := rg_flags f in
      let addrs := bit fl 1 || bit fl 0 in
      if (rp_rest f =? 0) && (bit fl 4 || negb addrs) then Err EUnexpectedEOF
      else if bit fl 4 && addrs then
        if negb (bit fl 3) && (length (rp_addrs f) <? N.to_nat (rg_dilen f))
        then Ok (fl :: rp_addrs f ++ be 2 (rg_dilen f) ++ [rg_di f] ++ left (N.to_nat (rg_dilen f) - length (rp_addrs f) - 1))
        else Fault
      else if bit fl 2 && negb (bit fl 3) && (rg_dilen f =? 0)%N then Fault
      else Ok (fl :: rp_addrs f ++ opts (bit fl 2) (be 2 (rg_dilen f) ++ fit (N.to_nat (rg_dilen f)) [rg_di f]) ++ opts (bit fl 3) (str16 (rg_nilen f) (rg_ni f)))
  | F_mcast f => let fl := mc_flags f in
      let room := len_if (notnil (mc_sv4 f)) 4 + len_if (notnil (mc_sv6 f)) 16 + len_if (notnil (mc_ev4 f)) 4 + len_if (notnil (mc_ev6 f)) 16 in
      if bit fl 3 then Ok (fl :: left room)
      else
        let w := opts (bit fl 1) (conv4 (mc_sv4 f)) ++ opts (bit fl 0) (conv16 (mc_sv6 f)) ++ opts (bit fl 2 && bit fl 1) (conv4 (mc_ev4 f)) ++ opts (bit fl 2 && bit fl 0) (conv16 (mc_ev6 f)) in
        if room <? length w then Err EUnexpectedEOF else Ok (fl :: w ++ left (room - length w))
  | F_volm f => let fl := vm_flags f in
      Ok (fl :: opts (bit fl 0) (be 8 (vm_tvol f)) ++ opts (bit fl 1) (be 8 (vm_uvol f)) ++ opts (bit fl 2) (be 8 (vm_dvol f)) ++
          opts (bit fl 3) (be 8 (vm_tpkt f)) ++ opts (bit fl 4) (be 8 (vm_upkt f)) ++ opts (bit fl 5) (be 8 (vm_dpkt f)))
  | F_vol3 f => let fl := v3_flags f in
      Ok (fl :: opts (bit fl 0) (be 8 (v3_tvol f)) ++ opts (bit fl 1) (be 8 (v3_uvol f)) ++ opts (bit fl 2) (be 8 (v3_dvol f)))
  | F_nue f => let fl := nu_flags f in Ok (fl :: opts (bit fl 0) (be 4 (nu_v4 f)) ++ opts (bit fl 1) (be 4 (nu_v6 f)))
  | F_delays f => let fl := dy_flags f in Ok (fl :: opts (bit fl 0) (be 4 (dy_dl f)) ++ opts (bit fl 1) (be 4 (dy_ul f)) ++ opts (bit fl 2) (be 4 (dy_rp f)))
  | F_prate f => let fl := pr_flags f in
      if bit fl 0 || bit fl 1 then Ok (fl :: opts (bit fl 0) (be 1 (pr_uunit f) ++ be 2 (pr_urate f)) ++ opts (bit fl 1) (be 1 (pr_dunit f) ++ be 2 (pr_drate f)))
      else Err EUnexpectedEOF
  | F_dlfl f => let fl := dm_flags f in
      if bit fl 0 || bit fl 1 then Ok (fl :: opts (bit fl 0) (be 2 (dm_ttc f)) ++ opts (bit fl 1) (be 2 (dm_sci f))) else Err EUnexpectedEOF
  | F_prstat f => let fl := ps_flags f in
      Ok (fl :: opts (bit fl 0) (be 2 (ps_ul f)) ++ opts (bit fl 0 && bit fl 2) (be 2 (ps_aul f)) ++ opts (bit fl 1) (be 2 (ps_dl f)) ++ opts (bit fl 1 && bit fl 2) (be 2 (ps_adl f)) ++
          be 8 (Time.secs1900 (ps_time f)))
  | F_tag f => Ok (tg_flags f :: be 2 (tag_word f))
  | F_sdf f => let fl := sd_flags f in
      Ok (fl :: z :: opts (bit fl 0) (str16 (sd_fdlen f) (sd_fd f)) ++ opts (bit fl 1) (fit 2 (sd_ttc f)) ++ opts (bit fl 2) (fit 4 (sd_spi f)) ++
          opts (bit fl 3) (fit 3 (sd_fl f)) ++ opts (bit fl 4) (be 4 (sd_fid f)))
  | F_ohc f => let o := oct5 (oh_desc f) in
      Ok (be 2 (oh_desc f) ++ opts (oh_has_teid o) (be 4 (oh_teid f)) ++ opts (oh_has_v4 o) (raw4 (oh_v4 f)) ++ opts (oh_has_v6 o) (raw16 (oh_v6 f)) ++
          if bit o 6 || bit o 7 then opts (bit o 6) (be 3 (oh_ctag f)) ++ opts (bit o 7) (be 3 (oh_stag f)) ++ left (len_if (oh_has_port o) 2)
          else opts (oh_has_port o) (be 2 (oh_port f)))
  | F_userid f => let fl := ui_flags f in
      if (negb (bit fl 0) || digits_ok (ui_imsi f)) && (negb (bit fl 1) || digits_ok (ui_imei f)) && (negb (bit fl 2) || digits_ok (ui_msisdn f))
      then Ok (fl :: opts (bit fl 0) (str8 (ui_imsilen f) (bcd (ui_imsi f))) ++ opts (bit fl 1) (str8 (ui_imeilen f) (bcd (ui_imei f))) ++
               opts (bit fl 2) (str8 (ui_msisdnlen f) (bcd (ui_msisdn f))) ++ opts (bit fl 3) (str8 (ui_nailen f) (ui_nai f)))
      else Err EHex
  | F_henr f =>
      let said := N.to_nat (he_namelen f) + N.to_nat (he_vallen f) in let real := length (he_name f) + length (he_val f) in
      if real <? said then Fault else Ok (he_type f :: str8 (he_namelen f) (he_name f) ++ str8 (he_vallen f) (he_val f) ++ left (real - said))
  | F_redir f => Ok (ri_type f :: str16 (ri_len f) (ri_addr f) ++ str16 (ri_olen f) (ri_other f))
  | F_macaddr f => let fl := ma_flags f in
      mac_walk [(bit fl 0, ma_src f); (bit fl 1, ma_dst f); (bit fl 2, ma_usrc f); (bit fl 3, ma_udst f)]
        (len_if (notnil (ma_src f)) 6 + len_if (notnil (ma_dst f)) 6 + len_if (notnil (ma_usrc f)) 6 + len_if (notnil (ma_udst f)) 6) [fl]
  | F_upri f => let fl := up_flags f in
      let w := opts (teidri fl) (be 1 (up_range f)) ++ opts (bit fl 0) (raw4 (up_v4 f)) ++ opts (bit fl 1) (raw16 (up_v6 f)) ++ opts (bit fl 5) (up_ni f) ++ opts (bit fl 6) (be 1 (up_si f)) in
      match w with [] => Err EUnexpectedEOF | _ => Ok (fl :: w) end
  | F_trace f =>
      if digits_ok (ti_mcc f) && digits_ok (ti_mnc f) then
        if (length (ti_mnc f) =? 2) || (3 <=? length (ti_mcc f)) && (3 <=? length (ti_mnc f)) then
          Ok (fit 3 (match encode_plmn (ti_mcc f) (ti_mnc f) with Ok p => p | _ => [] end) ++ fit 3 (ti_id f) ++ str8 (ti_evlen f) (octs (ti_ev f)) ++
              ti_depth f :: str8 (ti_iflen f) (octs (ti_ifs f)) ++ str8 (ti_iplen f) (octs (ti_ip f)))
        else Fault
      else Err EHex
  | F_pfdc f => let fl := pc_flags f in
      if pfd_said f <? pfd_real f then Fault
      else Ok (fl :: z :: opts (bit fl 0) (str16 (pc_fdlen f) (pc_fd f)) ++ opts (bit fl 1) (str16 (pc_urllen f) (pc_url f)) ++ opts (bit fl 2) (str16 (pc_dnlen f) (pc_dn f)) ++
               opts (bit fl 3) (str16 (pc_cplen f) (pc_cp f)) ++ opts (bit fl 4) (str16 (pc_dnplen f) (pc_dnp f)) ++
               opts (bit fl 5) (be 2 (pc_afdlen f) ++ items (pc_afd f)) ++ opts (bit fl 6) (be 2 (pc_aurllen f) ++ items (pc_aurl f)) ++ opts (bit fl 7) (be 2 (pc_adnplen f) ++ items (pc_adnp f)) ++
               left (pfd_said f - pfd_real f))
  | F_macl f =>
      if N.to_nat (ml_n f) <? length (ml_macs f) then Fault
      else Ok (ml_n f :: concat (map (fit 6) (ml_macs f)) ++ str8 (ml_ctlen f) (ml_ctag f) ++ str8 (ml_stlen f) (ml_stag f) ++ left (6 * (N.to_nat (ml_n f) - length (ml_macs f))))
  end.
End On.
(** in a new buffer *)
Notation expected := (expected_on 0).
