(** What a struct holds after UnmarshalBinary on top of earlier contents, in terms of the flags of
    3GPP TS 29.244 section 8.2 (bit 0 is the least significant one) and of what a fresh struct would hold. *)
From Verif Require Import Base Codec Fields1 Fields2 Fields3 Fields4 Access.
Set Implicit Arguments.
Local Notation bit := N.testbit.

(** the field is carried by the input (then it has the value a fresh struct gets) or not (then it has its old value) *)
Definition pick {A} (carried : bool) (new old : A) : A := if carried then new else old.
(** old octets overwritten from the left by new ones, without changing their number *)
Definition overwritten (old new : list N) : list N := firstn (length old) (new ++ skipn (length new) old).
Definition overwritten_slice (old : bslice) (new : list N) : bslice := match old with Some x => Some (overwritten x new) | None => None end.
Definition octets_at (b : list N) (pos n : nat) : list N := firstn n (skipn pos b).
Definition when (c : bool) (n : nat) : nat := if c then n else 0.

(** f is the struct before, x what a fresh struct holds after the same input b *)
Definition kept_fteid (f x : fteid) : fteid :=
  let fl := ft_flags x in let ch := bit fl 2 in
  {| ft_flags := fl; ft_teid := pick (negb ch) (ft_teid x) (ft_teid f); ft_v4 := pick (negb ch && bit fl 0) (ft_v4 x) (ft_v4 f);
     ft_v6 := pick (negb ch && bit fl 1) (ft_v6 x) (ft_v6 f); ft_chid := pick (ch && bit fl 3) (ft_chid x) (ft_chid f) |}.
Definition kept_fseid (f x : fseid) : fseid :=
  let fl := fs_flags x in
  {| fs_flags := fl; fs_seid := fs_seid x; fs_v4 := pick (bit fl 1) (fs_v4 x) (fs_v4 f); fs_v6 := pick (bit fl 0) (fs_v6 x) (fs_v6 f) |}.
Definition kept_ueip (f x : ueip) : ueip :=
  let fl := ue_flags x in
  {| ue_flags := fl; ue_v4 := pick (bit fl 1 && negb (bit fl 4)) (ue_v4 x) (ue_v4 f); ue_v6 := pick (bit fl 0 && negb (bit fl 5)) (ue_v6 x) (ue_v6 f);
     ue_v6d := pick (bit fl 3) (ue_v6d x) (ue_v6d f); ue_v6pl := pick (bit fl 6) (ue_v6pl x) (ue_v6pl f) |}.
Definition kept_altip (f x : altip) : altip :=
  let fl := ai_flags x in {| ai_flags := fl; ai_v4 := pick (bit fl 1) (ai_v4 x) (ai_v4 f); ai_v6 := pick (bit fl 0) (ai_v6 x) (ai_v6 f) |}.
Definition kept_srcip (f x : srcip) : srcip :=
  let fl := si_flags x in
  {| si_flags := fl; si_v4 := pick (bit fl 1) (si_v4 x) (si_v4 f); si_v6 := pick (bit fl 0) (si_v6 x) (si_v6 f); si_mpl := pick (bit fl 2) (si_mpl x) (si_mpl f) |}.
Definition kept_ulip (f x : ulip) : ulip :=
  let fl := ul_flags x in
  {| ul_flags := fl; ul_v4 := pick (bit fl 0) (ul_v4 x) (ul_v4 f); ul_v6 := pick (bit fl 1) (ul_v6 x) (ul_v6 f);
     ul_nv4 := pick (bit fl 2) (ul_nv4 x) (ul_nv4 f); ul_nv6 := pick (bit fl 3) (ul_nv6 x) (ul_nv6 f) |}.
Definition kept_mptcp (f x : mptcp) : mptcp :=
  let fl := mp_flags x in
  {| mp_flags := fl; mp_type := mp_type x; mp_port := mp_port x; mp_v4 := pick (bit fl 0) (mp_v4 x) (mp_v4 f); mp_v6 := pick (bit fl 1) (mp_v6 x) (mp_v6 f) |}.
(** a fresh PMF struct never holds the MAC addresses (its slices are nil); old ones are overwritten *)
Definition kept_pmf (b : list N) (f x : pmf) : pmf :=
  let fl := pm_flags x in let macs := 1 + when (bit fl 0) 4 + when (bit fl 1) 16 + 4 in
  {| pm_flags := fl; pm_v4 := pick (bit fl 0) (pm_v4 x) (pm_v4 f); pm_v6 := pick (bit fl 1) (pm_v6 x) (pm_v6 f); pm_port1 := pm_port1 x; pm_port2 := pm_port2 x;
     pm_mac1 := overwritten_slice (pm_mac1 f) (octets_at b macs 6); pm_mac2 := overwritten_slice (pm_mac2 f) (octets_at b (macs + 6) 6) |}.
Definition kept_rpeer (f x : rpeer) : rpeer :=
  let fl := rg_flags x in
  {| rg_flags := fl; rg_v4 := pick (bit fl 1) (rg_v4 x) (rg_v4 f); rg_v6 := pick (bit fl 0) (rg_v6 x) (rg_v6 f);
     rg_dilen := pick (bit fl 2) (rg_dilen x) (rg_dilen f); rg_di := pick (bit fl 2) (rg_di x) (rg_di f);
     rg_nilen := pick (bit fl 3) (rg_nilen x) (rg_nilen f); rg_ni := pick (bit fl 3) (rg_ni x) (rg_ni f) |}.
Definition kept_mcast (f x : mcast) : mcast :=
  let fl := mc_flags x in let some := negb (bit fl 3) in
  {| mc_flags := fl; mc_sv4 := pick (some && bit fl 1) (mc_sv4 x) (mc_sv4 f); mc_sv6 := pick (some && bit fl 0) (mc_sv6 x) (mc_sv6 f);
     mc_ev4 := pick (some && bit fl 2 && bit fl 1) (mc_ev4 x) (mc_ev4 f); mc_ev6 := pick (some && bit fl 2 && bit fl 0) (mc_ev6 x) (mc_ev6 f) |}.
Definition kept_volm (f x : volm) : volm :=
  let fl := vm_flags x in
  {| vm_flags := fl; vm_tvol := pick (bit fl 0) (vm_tvol x) (vm_tvol f); vm_uvol := pick (bit fl 1) (vm_uvol x) (vm_uvol f); vm_dvol := pick (bit fl 2) (vm_dvol x) (vm_dvol f);
     vm_tpkt := pick (bit fl 3) (vm_tpkt x) (vm_tpkt f); vm_upkt := pick (bit fl 4) (vm_upkt x) (vm_upkt f); vm_dpkt := pick (bit fl 5) (vm_dpkt x) (vm_dpkt f) |}.
Definition kept_vol3 (f x : vol3) : vol3 :=
  let fl := v3_flags x in
  {| v3_flags := fl; v3_tvol := pick (bit fl 0) (v3_tvol x) (v3_tvol f); v3_uvol := pick (bit fl 1) (v3_uvol x) (v3_uvol f); v3_dvol := pick (bit fl 2) (v3_dvol x) (v3_dvol f) |}.
Definition kept_nue (f x : nue) : nue :=
  let fl := nu_flags x in {| nu_flags := fl; nu_v4 := pick (bit fl 0) (nu_v4 x) (nu_v4 f); nu_v6 := pick (bit fl 1) (nu_v6 x) (nu_v6 f) |}.
Definition kept_delays (f x : delays) : delays :=
  let fl := dy_flags x in
  {| dy_flags := fl; dy_dl := pick (bit fl 0) (dy_dl x) (dy_dl f); dy_ul := pick (bit fl 1) (dy_ul x) (dy_ul f); dy_rp := pick (bit fl 2) (dy_rp x) (dy_rp f) |}.
Definition kept_prate (f x : prate) : prate :=
  let fl := pr_flags x in
  {| pr_flags := fl; pr_uunit := pick (bit fl 0) (pr_uunit x) (pr_uunit f); pr_dunit := pick (bit fl 1) (pr_dunit x) (pr_dunit f);
     pr_urate := pick (bit fl 0) (pr_urate x) (pr_urate f); pr_drate := pick (bit fl 1) (pr_drate x) (pr_drate f) |}.
Definition kept_dlfl (f x : dlfl) : dlfl :=
  let fl := dm_flags x in {| dm_flags := fl; dm_ttc := pick (bit fl 0) (dm_ttc x) (dm_ttc f); dm_sci := pick (bit fl 1) (dm_sci x) (dm_sci f) |}.
Definition kept_prstat (f x : prstat) : prstat :=
  let fl := ps_flags x in
  {| ps_flags := fl; ps_ul := pick (bit fl 0) (ps_ul x) (ps_ul f); ps_aul := pick (bit fl 0 && bit fl 2) (ps_aul x) (ps_aul f);
     ps_dl := pick (bit fl 1) (ps_dl x) (ps_dl f); ps_adl := pick (bit fl 1 && bit fl 2) (ps_adl x) (ps_adl f); ps_time := ps_time x |}.
Definition kept_tag (f x : tag) : tag :=
  let fl := tg_flags x in
  {| tg_flags := fl; tg_pcp := pick (bit fl 0) (tg_pcp x) (tg_pcp f); tg_dei := pick (bit fl 1) (tg_dei x) (tg_dei f); tg_vid := pick (bit fl 2) (tg_vid x) (tg_vid f) |}.
Definition kept_sdf (f x : sdf) : sdf :=
  let fl := sd_flags x in
  {| sd_flags := fl; sd_fdlen := pick (bit fl 0) (sd_fdlen x) (sd_fdlen f); sd_fd := pick (bit fl 0) (sd_fd x) (sd_fd f); sd_ttc := pick (bit fl 1) (sd_ttc x) (sd_ttc f);
     sd_spi := pick (bit fl 2) (sd_spi x) (sd_spi f); sd_fl := pick (bit fl 3) (sd_fl x) (sd_fl f); sd_fid := pick (bit fl 4) (sd_fid x) (sd_fid f) |}.
(** octet 5 of the IE is the high octet of the description; the tags are read when bits 6 and 7 of the low octet are set *)
Definition kept_ohc (f x : ohc) : ohc :=
  let h := (oh_desc x / 256)%N in let l := oh_desc x in
  {| oh_desc := oh_desc x; oh_teid := pick (bit h 0 || bit h 1) (oh_teid x) (oh_teid f); oh_v4 := pick (bit h 0 || bit h 2 || bit h 4) (oh_v4 x) (oh_v4 f);
     oh_v6 := pick (bit h 1 || bit h 3 || bit h 5) (oh_v6 x) (oh_v6 f); oh_port := pick (bit h 2 || bit h 3) (oh_port x) (oh_port f);
     oh_ctag := pick (bit l 6) (oh_ctag x) (oh_ctag f); oh_stag := pick (bit l 7) (oh_stag x) (oh_stag f) |}.
Definition kept_userid (f x : userid) : userid :=
  let fl := ui_flags x in
  {| ui_flags := fl; ui_imsilen := pick (bit fl 0) (ui_imsilen x) (ui_imsilen f); ui_imsi := pick (bit fl 0) (ui_imsi x) (ui_imsi f);
     ui_imeilen := pick (bit fl 1) (ui_imeilen x) (ui_imeilen f); ui_imei := pick (bit fl 1) (ui_imei x) (ui_imei f);
     ui_msisdnlen := pick (bit fl 2) (ui_msisdnlen x) (ui_msisdnlen f); ui_msisdn := pick (bit fl 2) (ui_msisdn x) (ui_msisdn f);
     ui_nailen := pick (bit fl 3) (ui_nailen x) (ui_nailen f); ui_nai := pick (bit fl 3) (ui_nai x) (ui_nai f) |}.
(** the other address is only read when the two octets after the type are not both 0 *)
Definition kept_redir (f x : redir) : redir :=
  {| ri_type := ri_type x; ri_len := ri_len x; ri_addr := ri_addr x; ri_olen := ri_olen x; ri_other := pick (negb (ri_len x =? 0)%N) (ri_other x) (ri_other f) |}.
Definition kept_macaddr (f x : macaddr) : macaddr :=
  let fl := ma_flags x in
  {| ma_flags := fl; ma_src := pick (bit fl 0) (ma_src x) (ma_src f); ma_dst := pick (bit fl 1) (ma_dst x) (ma_dst f);
     ma_usrc := pick (bit fl 2) (ma_usrc x) (ma_usrc f); ma_udst := pick (bit fl 3) (ma_udst x) (ma_udst f) |}.
Definition kept_upri (f x : upri) : upri :=
  let fl := up_flags x in
  {| up_flags := fl; up_range := pick (bit fl 2 || bit fl 3 || bit fl 4) (up_range x) (up_range f); up_v4 := pick (bit fl 0) (up_v4 x) (up_v4 f);
     up_v6 := pick (bit fl 1) (up_v6 x) (up_v6 f); up_ni := pick (bit fl 5) (up_ni x) (up_ni f); up_si := pick (bit fl 6) (up_si x) (up_si f) |}.
(** the three octet strings of a fresh Trace Information struct are nil; old ones are overwritten *)
Definition kept_trace (b : list N) (f x : trace) : trace :=
  let e := N.to_nat (ti_evlen x) in let i := N.to_nat (ti_iflen x) in
  {| ti_mcc := ti_mcc x; ti_mnc := ti_mnc x; ti_id := ti_id x; ti_evlen := ti_evlen x; ti_ev := overwritten_slice (ti_ev f) (octets_at b 7 e); ti_depth := ti_depth x;
     ti_iflen := ti_iflen x; ti_ifs := overwritten_slice (ti_ifs f) (octets_at b (7 + e + 2) i); ti_iplen := ti_iplen x;
     ti_ip := overwritten_slice (ti_ip f) (octets_at b (7 + e + 2 + i + 1) (N.to_nat (ti_iplen x))) |}.
(** the addresses are appended to the old ones, the tags (nil in a fresh struct) are overwritten *)
Definition kept_macl (b : list N) (f x : macl) : macl :=
  let t := 1 + 6 * (N.to_nat (ml_n x) + 1) in
  {| ml_n := ml_n x; ml_macs := ml_macs f ++ ml_macs x; ml_ctlen := ml_ctlen x; ml_ctag := overwritten (ml_ctag f) (octets_at b t (N.to_nat (ml_ctlen x)));
     ml_stlen := ml_stlen x; ml_stag := overwritten (ml_stag f) (octets_at b t (N.to_nat (ml_stlen x))) |}.
(** the items of the three lists are appended to the old ones *)
Definition kept_pfdc (f x : pfdc) : pfdc :=
  let fl := pc_flags x in
  {| pc_flags := fl; pc_fdlen := pick (bit fl 0) (pc_fdlen x) (pc_fdlen f); pc_fd := pick (bit fl 0) (pc_fd x) (pc_fd f);
     pc_urllen := pick (bit fl 1) (pc_urllen x) (pc_urllen f); pc_url := pick (bit fl 1) (pc_url x) (pc_url f);
     pc_dnlen := pick (bit fl 2) (pc_dnlen x) (pc_dnlen f); pc_dn := pick (bit fl 2) (pc_dn x) (pc_dn f);
     pc_cplen := pick (bit fl 3) (pc_cplen x) (pc_cplen f); pc_cp := pick (bit fl 3) (pc_cp x) (pc_cp f);
     pc_dnplen := pick (bit fl 4) (pc_dnplen x) (pc_dnplen f); pc_dnp := pick (bit fl 4) (pc_dnp x) (pc_dnp f);
     pc_afdlen := pick (bit fl 5) (pc_afdlen x) (pc_afdlen f); pc_afd := pc_afd f ++ pc_afd x;
     pc_aurllen := pick (bit fl 6) (pc_aurllen x) (pc_aurllen f); pc_aurl := pc_aurl f ++ pc_aurl x;
     pc_adnplen := pick (bit fl 7) (pc_adnplen x) (pc_adnplen f); pc_adnp := pc_adnp f ++ pc_adnp x |}.
Definition kept (b : list N) (f x : fields) : fields :=
  match f, x with
  | F_fteid f, F_fteid x => F_fteid (kept_fteid f x) | F_fseid f, F_fseid x => F_fseid (kept_fseid f x)
  | F_ueip f, F_ueip x => F_ueip (kept_ueip f x) | F_altip f, F_altip x => F_altip (kept_altip f x)
  | F_srcip f, F_srcip x => F_srcip (kept_srcip f x) | F_ulip f, F_ulip x => F_ulip (kept_ulip f x)
  | F_mptcp f, F_mptcp x => F_mptcp (kept_mptcp f x) | F_pmf f, F_pmf x => F_pmf (kept_pmf b f x)
  | F_rpeer f, F_rpeer x => F_rpeer (kept_rpeer f x) | F_mcast f, F_mcast x => F_mcast (kept_mcast f x)
  | F_volm f, F_volm x => F_volm (kept_volm f x) | F_vol3 f, F_vol3 x => F_vol3 (kept_vol3 f x)
  | F_nue f, F_nue x => F_nue (kept_nue f x) | F_delays f, F_delays x => F_delays (kept_delays f x)
  | F_prate f, F_prate x => F_prate (kept_prate f x) | F_dlfl f, F_dlfl x => F_dlfl (kept_dlfl f x)
  | F_prstat f, F_prstat x => F_prstat (kept_prstat f x) | F_tag f, F_tag x => F_tag (kept_tag f x)
  | F_sdf f, F_sdf x => F_sdf (kept_sdf f x) | F_ohc f, F_ohc x => F_ohc (kept_ohc f x)
  | F_userid f, F_userid x => F_userid (kept_userid f x) | F_henr f, F_henr x => F_henr x
  | F_redir f, F_redir x => F_redir (kept_redir f x) | F_macaddr f, F_macaddr x => F_macaddr (kept_macaddr f x)
  | F_upri f, F_upri x => F_upri (kept_upri f x) | F_trace f, F_trace x => F_trace (kept_trace b f x)
  | F_pfdc f, F_pfdc x => F_pfdc (kept_pfdc f x) | F_macl f, F_macl x => F_macl (kept_macl b f x)
  | _, x => x
  end.
Definition is_pfdc (f : fields) : bool := match f with F_pfdc _ => true | _ => false end.
(** the lengths stored in a PFD Contents struct are all 0 *)
Definition no_lengths (f : pfdc) : Prop :=
  (pc_fdlen f = 0 /\ pc_urllen f = 0 /\ pc_dnlen f = 0 /\ pc_cplen f = 0 /\ pc_dnplen f = 0 /\ pc_afdlen f = 0 /\ pc_aurllen f = 0 /\ pc_adnplen f = 0)%N.
(** structs whose encoding only uses what the flags announce, all of which the decoding sets
    (and the MAC address lists, whose encoding panics after any decoding) *)
Definition clean (f : fields) : bool :=
  match f with
  | F_fteid _ | F_ueip _ | F_srcip _ | F_ulip _ | F_mptcp _ | F_rpeer _ | F_volm _ | F_vol3 _ | F_nue _ | F_delays _ | F_prate _ | F_dlfl _
  | F_prstat _ | F_sdf _ | F_userid _ | F_henr _ | F_redir _ | F_upri _ | F_macl _ => true
  | _ => false
  end.
