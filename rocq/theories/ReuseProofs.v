(** UnmarshalBinary on a used struct: proofs. *)
From Verif Require Import Base Bits Codec Codec2 Utils Fields1 Time Fields2 Fields3 FieldsProofs3d Fields4 Access Reuse ReuseSpec.
Set Implicit Arguments.

Ltac prj := cbn [bind fst snd andb orb negb ft_flags ft_teid ft_v4 ft_v6 ft_chid fs_flags fs_seid fs_v4 fs_v6 ue_flags ue_v4 ue_v6 ue_v6d ue_v6pl ai_flags ai_v4 ai_v6 si_flags si_v4 si_v6 si_mpl ul_flags ul_v4 ul_v6 ul_nv4 ul_nv6 mp_flags mp_type mp_port mp_v4 mp_v6 pm_flags pm_v4 pm_v6 pm_port1 pm_port2 pm_mac1 pm_mac2 rg_flags rg_v4 rg_v6 rg_dilen rg_di rg_nilen rg_ni mc_flags mc_sv4 mc_sv6 mc_ev4 mc_ev6 vm_flags vm_tvol vm_uvol vm_dvol vm_tpkt vm_upkt vm_dpkt v3_flags v3_tvol v3_uvol v3_dvol nu_flags nu_v4 nu_v6 dy_flags dy_dl dy_ul dy_rp pr_flags pr_uunit pr_dunit pr_urate pr_drate dm_flags dm_ttc dm_sci ps_flags ps_ul ps_aul ps_dl ps_adl ps_time tg_flags tg_pcp tg_dei tg_vid sd_flags sd_fdlen sd_fd sd_ttc sd_spi sd_fl sd_fid oh_desc oh_teid oh_v4 oh_v6 oh_port oh_ctag oh_stag ui_flags ui_imsilen ui_imsi ui_imeilen ui_imei ui_msisdnlen ui_msisdn ui_nailen ui_nai he_type he_namelen he_name he_vallen he_val ri_type ri_len ri_addr ri_olen ri_other ma_flags ma_src ma_dst ma_usrc ma_udst up_flags up_range up_v4 up_v6 up_ni up_si ti_mcc ti_mnc ti_id ti_evlen ti_ev ti_depth ti_iflen ti_ifs ti_iplen ti_ip pc_flags pc_fdlen pc_fd pc_urllen pc_url pc_dnlen pc_dn pc_cplen pc_cp pc_dnplen pc_dnp pc_afdlen pc_afd pc_aurllen pc_aurl pc_adnplen pc_adnp ml_n ml_macs ml_ctlen ml_ctag ml_stlen ml_stag].
Ltac scrut t :=
  lazymatch t with
  | bind ?r _ => scrut r
  | (if ?c then _ else _) => scrut c
  | andb ?x _ => scrut x
  | orb ?x _ => scrut x
  | negb ?x => scrut x
  | _ => t
  end.
Ltac walk1 :=
  match goal with
  | |- ?L = _ => let s := scrut L in
      lazymatch type of s with
      | bool => destruct s eqn:?
      | res _ => tryif is_constructor_app s then fail else destruct s as [?x| | |] eqn:?
      end; prj
  end
with is_constructor_app s := lazymatch s with Ok _ => idtac | Err _ => idtac | Fault => idtac | Fuel => idtac | _ => fail end.
Ltac pairs := repeat match goal with p : (_ * _)%type |- _ => destruct p end.
Ltac fin := bits; repeat match goal with H : ?x = ?y :> bool |- context [?x] => rewrite H; prj end;
  repeat match goal with |- context [if ?c then _ else _] => let s := scrut c in destruct s; prj end; try reflexivity.
Ltac walk := repeat (walk1; try reflexivity; pairs; prj); fin.
Ltac start := unfold rdn, rdb, rds, rdsf, rdnf, rd8s, rd_rate, orold, pick.
Ltac flag1 := walk1; [reflexivity|]; walk1; try reflexivity; bits.
Lemma fteid_kept f b : fteid_unmarshal f b = (x <- fteid_parse b ;; Ok (kept_fteid f x)).
Proof. unfold fteid_unmarshal, fteid_parse, kept_fteid. start. flag1. walk. Qed.
Lemma fseid_kept f b : fseid_unmarshal f b = (x <- fseid_parse b ;; Ok (kept_fseid f x)).
Proof. unfold fseid_unmarshal, fseid_parse, kept_fseid. start. flag1. walk. Qed.
Lemma ueip_kept f b : ueip_unmarshal f b = (x <- ueip_parse b ;; Ok (kept_ueip f x)).
Proof. unfold ueip_unmarshal, ueip_parse, kept_ueip. start. flag1. walk. Qed.
Lemma altip_kept f b : altip_unmarshal f b = (x <- altip_parse b ;; Ok (kept_altip f x)).
Proof. unfold altip_unmarshal, altip_parse, kept_altip. start. flag1. walk. Qed.
Lemma srcip_kept f b : srcip_unmarshal f b = (x <- srcip_parse b ;; Ok (kept_srcip f x)).
Proof. unfold srcip_unmarshal, srcip_parse, kept_srcip. start. flag1. walk. Qed.
Lemma ulip_kept f b : ulip_unmarshal f b = (x <- ulip_parse b ;; Ok (kept_ulip f x)).
Proof. unfold ulip_unmarshal, ulip_parse, kept_ulip. start. flag1. walk. Qed.
Lemma mptcp_kept f b : mptcp_unmarshal f b = (x <- mptcp_parse b ;; Ok (kept_mptcp f x)).
Proof. unfold mptcp_unmarshal, mptcp_parse, kept_mptcp. start. flag1. walk. Qed.
Lemma rpeer_kept f b : rpeer_unmarshal f b = (x <- rpeer_parse b ;; Ok (kept_rpeer f x)).
Proof. unfold rpeer_unmarshal, rpeer_parse, kept_rpeer. start. flag1. walk. Qed.
Lemma mcast_kept f b : mcast_unmarshal f b = (x <- mcast_parse b ;; Ok (kept_mcast f x)).
Proof. unfold mcast_unmarshal, mcast_parse, kept_mcast. start. flag1. walk. Qed.
Lemma volm_kept f b : volm_unmarshal f b = (x <- volm_parse b ;; Ok (kept_volm f x)).
Proof. unfold volm_unmarshal, volm_parse, kept_volm. start. flag1. walk. Qed.
Lemma vol3_kept f b : vol3_unmarshal f b = (x <- vol3_parse b ;; Ok (kept_vol3 f x)).
Proof. unfold vol3_unmarshal, vol3_parse, kept_vol3. start. flag1. walk. Qed.
Lemma nue_kept f b : nue_unmarshal f b = (x <- nue_parse b ;; Ok (kept_nue f x)).
Proof. unfold nue_unmarshal, nue_parse, kept_nue. start. flag1. walk. Qed.
Lemma delays_kept f b : delays_unmarshal f b = (x <- delays_parse b ;; Ok (kept_delays f x)).
Proof. unfold delays_unmarshal, delays_parse, kept_delays. start. flag1. walk. Qed.
Lemma prate_kept f b : prate_unmarshal f b = (x <- prate_parse b ;; Ok (kept_prate f x)).
Proof. unfold prate_unmarshal, prate_parse, kept_prate. start. flag1. walk. Qed.
Lemma dlfl_kept f b : dlfl_unmarshal f b = (x <- dlfl_parse b ;; Ok (kept_dlfl f x)).
Proof. unfold dlfl_unmarshal, dlfl_parse, kept_dlfl. start. flag1. walk. Qed.
Lemma prstat_kept f b : prstat_unmarshal f b = (x <- prstat_parse b ;; Ok (kept_prstat f x)).
Proof. unfold prstat_unmarshal, prstat_parse, kept_prstat. start. flag1. walk. Qed.
Lemma tag_kept f b : tag_unmarshal f b = (x <- tag_parse b ;; Ok (kept_tag f x)).
Proof. unfold tag_unmarshal, tag_parse, kept_tag. start. flag1. walk. Qed.
Lemma sdf_kept f b : sdf_unmarshal f b = (x <- sdf_parse b ;; Ok (kept_sdf f x)).
Proof. unfold sdf_unmarshal, sdf_parse, kept_sdf. start. flag1. walk. Qed.
Lemma userid_kept f b : userid_unmarshal f b = (x <- userid_parse b ;; Ok (kept_userid f x)).
Proof. unfold userid_unmarshal, userid_parse, kept_userid. start. flag1. walk. Qed.
Lemma macaddr_kept f b : macaddr_unmarshal f b = (x <- macaddr_parse b ;; Ok (kept_macaddr f x)).
Proof. unfold macaddr_unmarshal, macaddr_parse, kept_macaddr. start. flag1. walk. Qed.
