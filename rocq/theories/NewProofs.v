(** What the constructors build is made of octets: if the arguments have the types Go gives them, so has the payload. *)
From Coq Require Import Floats.SpecFloat.
From Verif Require Import Header Base IETypes IE Spec Bits Codec Codec2 Utils UtilsProofs Time Fields1 Fields2 Fields3 Fields4 Access AccTable New NewTable NewRun.
Set Implicit Arguments.

(** every value r can give satisfies P *)
Definition yields {A} (P : A -> Prop) (r : res A) : Prop := forall a, r = Ok a -> P a.
Lemma yields_bind {A B} (P : A -> Prop) (Q : B -> Prop) (r : res A) (k : A -> res B) :
  yields P r -> (forall a, P a -> yields Q (k a)) -> yields Q (bind r k).
Proof. intros H K b E. apply bind_ok in E. destruct E as [a [E1 E2]]. exact (K a (H a E1) b E2). Qed.
Lemma yields_ok {A} (P : A -> Prop) a : P a -> yields P (Ok a). Proof. now intros H b [= <-]. Qed.
Lemma yields_err {A} (P : A -> Prop) e : yields P (Err e). Proof. discriminate. Qed.
Lemma yields_fault {A} (P : A -> Prop) : yields P Fault. Proof. discriminate. Qed.
Lemma yields_if {A} (P : A -> Prop) (c : bool) x y : yields P x -> yields P y -> yields P (if c then x else y).
Proof. now destruct c. Qed.

Lemma make_bytes n : bytes (make n). Proof. induction n; [constructor|]. constructor; [reflexivity|exact IHn]. Qed.
Lemma one_byte x : octet x -> bytes [x]. Proof. intros H. repeat constructor. exact H. Qed.
Lemma put_yields b o s : bytes b -> bytes s -> yields bytes (put b o s).
Proof.
  intros Hb Hs a E. unfold put in E. destruct (o + length s <=? length b); [|discriminate]. injection E as <-.
  apply bytes_app. split; [now apply bytes_firstn|]. apply bytes_app. split; [exact Hs|now apply bytes_skipn].
Qed.
Lemma copy_range_yields b lo hi s : bytes b -> bytes s -> yields bytes (copy_range b lo hi s).
Proof.
  intros Hb Hs a E. unfold copy_range in E. destruct ((lo <=? hi) && (hi <=? length b)); [|discriminate]. injection E as <-.
  apply bytes_app. split; [now apply bytes_firstn|]. apply bytes_app. split; [now apply bytes_firstn|now apply bytes_skipn].
Qed.
Lemma copy_from_yields b lo s : bytes b -> bytes s -> yields bytes (copy_from b lo s).
Proof. intros Hb Hs. unfold copy_from. now apply copy_range_yields. Qed.
Definition fst_bytes (x : list N * nat) : Prop := bytes (fst x).
Create HintDb yl.
#[local] Hint Resolve make_bytes one_byte put_yields copy_range_yields copy_from_yields be_bytes yields_ok yields_err yields_fault bytes_skipn bytes_firstn : yl.
Lemma wrb_yields c n s b o : bytes b -> bytes s -> yields fst_bytes (wrb c n s b o).
Proof. intros Hb Hs. unfold wrb. destruct c; [|now apply yields_ok]. apply yields_if; [apply yields_err|]. eapply yields_bind; [eauto with yl|]. intros a Ha. now apply yields_ok. Qed.
Lemma wrn_yields c n v b o : bytes b -> yields fst_bytes (wrn c n v b o).
Proof. intros Hb. unfold wrn. destruct c; [|now apply yields_ok]. apply yields_if; [apply yields_err|]. eapply yields_bind; [eauto with yl|]. intros a Ha. now apply yields_ok. Qed.
Lemma cpb_yields c n s b o : bytes b -> bytes s -> yields fst_bytes (cpb c n s b o).
Proof. intros Hb Hs. unfold cpb. destruct c; [|now apply yields_ok]. eapply yields_bind; [eauto with yl|]. intros a Ha. now apply yields_ok. Qed.
Lemma cpn_yields c n v b o : bytes b -> yields fst_bytes (cpn c n v b o).
Proof. intros Hb. unfold cpn. destruct c; [|now apply yields_ok]. eapply yields_bind; [eauto with yl|]. intros a Ha. now apply yields_ok. Qed.
Lemma cp8s_yields c n s b o : octet n -> bytes b -> bytes s -> yields fst_bytes (cp8s c n s b o).
Proof. intros Hn Hb Hs. unfold cp8s. destruct c; [|now apply yields_ok]. eapply yields_bind; [eauto with yl|]. intros a Ha. eapply yields_bind; [eauto with yl|]. intros a' Ha'. now apply yields_ok. Qed.
Lemma cp16s_yields c n s b o : bytes b -> bytes s -> yields fst_bytes (cp16s c n s b o).
Proof. intros Hb Hs. unfold cp16s. destruct c; [|now apply yields_ok]. eapply yields_bind; [eauto with yl|]. intros a Ha. eapply yields_bind; [eauto with yl|]. intros a' Ha'. now apply yields_ok. Qed.
Lemma wr1x_yields x b o : octet x -> bytes b -> yields fst_bytes (wr1x x b o).
Proof. intros Hx Hb. unfold wr1x. apply yields_if; [apply yields_err|]. eapply yields_bind; [eauto with yl|]. intros a Ha. now apply yields_ok. Qed.
Lemma slice_yields b lo hi : bytes b -> yields bytes (slice b lo hi).
Proof. intros Hb a E. unfold slice in E. destruct ((lo <=? hi) && (hi <=? length b)); [|discriminate]. injection E as <-. now apply bytes_firstn, bytes_skipn. Qed.
Lemma wrmac_yields c a b o : bytes (octs a) -> bytes b -> yields fst_bytes (wrmac c a b o).
Proof.
  intros Ha Hb. unfold wrmac. destruct c; [|now apply yields_ok]. apply yields_if; [apply yields_err|]. eapply yields_bind; [now apply slice_yields|]. intros s Hs.
  eapply yields_bind; [eauto with yl|]. intros a' Ha'. now apply yields_ok.
Qed.
Lemma cp_items_yields l : Forall bytes l -> forall b o, bytes b -> yields fst_bytes (cp_items l b o).
Proof.
  induction 1 as [|a l Ha Hl IH]; intros b o Hb; cbn [cp_items]; [now apply yields_ok|]. eapply yields_bind; [eauto with yl|]. intros b1 H1. eapply yields_bind; [eauto with yl|].
  intros b2 H2. now apply IH.
Qed.
Lemma cp16l_yields c n l b o : Forall bytes l -> bytes b -> yields fst_bytes (cp16l c n l b o).
Proof. intros Hl Hb. unfold cp16l. destruct c; [|now apply yields_ok]. eapply yields_bind; [eauto with yl|]. intros b1 H1. now apply cp_items_yields. Qed.
Lemma cp_macs_yields l : Forall bytes l -> forall b o, bytes b -> yields fst_bytes (cp_macs l b o).
Proof. induction 1 as [|a l Ha Hl IH]; intros b o Hb; cbn [cp_macs]; [now apply yields_ok|]. eapply yields_bind; [eauto with yl|]. intros b1 H1. now apply IH. Qed.
Lemma to4_octs v : bytes (octs v) -> bytes (octs (to4 v)).
Proof. intros H. destruct (to4 v) eqn:E; [|constructor]. exact (@to4_bytes _ _ E H). Qed.
Lemma to16_octs v : bytes (octs v) -> bytes (octs (to16 v)).
Proof. intros H. destruct (to16 v) eqn:E; [|constructor]. exact (@to16_bytes _ _ E H). Qed.
#[local] Hint Resolve wrb_yields wrn_yields cpb_yields cpn_yields cp8s_yields cp16s_yields wr1x_yields wrmac_yields cp16l_yields cp_macs_yields to4_octs to16_octs : yl.

(** the hex decoder and what is built on it *)
Lemma hexval_lt c x : hexval c = Some x -> (x < 16)%N.
Proof. unfold hexval. repeat (match goal with |- context [if ?c then _ else _] => destruct c eqn:?E end; try discriminate); intros [= <-]; lia. Qed.
Lemma hex_decode_yields s : yields bytes (hex_decode s).
Proof.
  assert (H : forall n s, length s <= n -> yields bytes (hex_decode s)).
  { induction n as [|n IH]; intros [|a [|b r]] L; try (cbn in L; lia); cbn [hex_decode].
    - apply yields_ok. constructor.
    - apply yields_ok. constructor.
    - apply yields_err.
    - destruct (hexval a) as [x|] eqn:Ex; [|apply yields_err]. destruct (hexval b) as [y|] eqn:Ey; [|apply yields_err].
      eapply yields_bind; [apply IH; cbn in L; lia|]. intros t Ht. apply yields_ok. constructor; [|exact Ht]. apply hexval_lt in Ex, Ey. unfold octet. lia. }
  intros b E. now apply (H (length s) s (Nat.le_refl _)).
Qed.

Lemma swap_yields raw : bytes (swap raw).
Proof. unfold swap. induction raw as [|x r IH]; [constructor|]. constructor; [apply u8_lt|exact IH]. Qed.
Lemma swapped_yields s f : yields bytes (str_to_swapped s f).
Proof. unfold str_to_swapped. eapply yields_bind; [destruct (Nat.even (length s)); apply hex_decode_yields|]. intros a _. apply yields_ok, swap_yields. Qed.
Lemma index_yields b i : bytes b -> yields octet (index b i).
Proof.
  intros Hb x E. unfold index in E. destruct (nth_error b i) eqn:F; [|discriminate]. injection E as <-. apply nth_error_In in F. unfold bytes in Hb. rewrite Forall_forall in Hb. auto.
Qed.
Lemma plmn_yields mcc mnc : yields bytes (encode_plmn mcc mnc).
Proof.
  unfold encode_plmn. eapply yields_bind; [apply swapped_yields|]. intros c Hc. eapply yields_bind; [apply swapped_yields|]. intros n Hn.
  apply yields_if; [apply yields_ok, bytes_app; auto|]. repeat (eapply yields_bind; [now apply index_yields|intros ? ?]).
  apply yields_ok. repeat constructor; trivial. apply (@lor_bound _ _ 8); [now apply (@land_bound _ _ 8)|]. apply (@land_bound _ _ 8), u8_lt.
Qed.
Lemma split_dot_bytes s : bytes s -> Forall bytes (split_dot s).
Proof.
  induction 1 as [|x s Hx Hs IH]; cbn [split_dot]; [repeat constructor|]. destruct (split_dot s) as [|l r] eqn:E; destruct (x =? 46)%N; repeat constructor; trivial.
  all: inversion IH; subst; trivial; constructor; trivial.
Qed.
Lemma fqdn_loop_yields ls : Forall bytes ls -> forall b o, bytes b -> yields bytes (encode_fqdn_loop b o ls).
Proof.
  induction 1 as [|l ls Hl Hls IH]; intros b o Hb; cbn [encode_fqdn_loop]; [now apply yields_ok|]. eapply yields_bind; [apply put_yields; [exact Hb|apply one_byte, u8_lt]|]. intros b1 H1.
  eapply yields_bind; [now apply copy_from_yields|]. intros b2 H2. now apply IH.
Qed.
Lemma fqdn_yields s : bytes s -> yields bytes (encode_fqdn s).
Proof. intros Hs. apply fqdn_loop_yields; [now apply split_dot_bytes|apply make_bytes]. Qed.
Lemma cpbcd_yields c n s b o : octet n -> bytes b -> yields fst_bytes (cpbcd c n s b o).
Proof.
  intros Hn Hb. unfold cpbcd. destruct c; [|now apply yields_ok]. eapply yields_bind; [eauto with yl|]. intros a Ha. eapply yields_bind; [apply swapped_yields|]. intros v Hv.
  eapply yields_bind; [eauto with yl|]. intros a' Ha'. now apply yields_ok.
Qed.
#[local] Hint Resolve plmn_yields fqdn_yields cpbcd_yields : yl.

(** * The field structs *)
Definition ftyped (f : fields) : Prop :=
  match f with
  | F_fteid f => octet (ft_flags f) /\ octet (ft_chid f) /\ bytes (octs (ft_v4 f)) /\ bytes (octs (ft_v6 f))
  | F_fseid f => octet (fs_flags f) /\ bytes (octs (fs_v4 f)) /\ bytes (octs (fs_v6 f))
  | F_ueip f => octet (ue_flags f) /\ bytes (octs (ue_v4 f)) /\ bytes (octs (ue_v6 f))
  | F_altip f => octet (ai_flags f) /\ bytes (octs (ai_v4 f)) /\ bytes (octs (ai_v6 f))
  | F_srcip f => octet (si_flags f) /\ octet (si_mpl f) /\ bytes (octs (si_v4 f)) /\ bytes (octs (si_v6 f))
  | F_ulip f => octet (ul_flags f) /\ bytes (octs (ul_v4 f)) /\ bytes (octs (ul_v6 f)) /\ bytes (octs (ul_nv4 f)) /\ bytes (octs (ul_nv6 f))
  | F_mptcp f => octet (mp_flags f) /\ octet (mp_type f) /\ bytes (octs (mp_v4 f)) /\ bytes (octs (mp_v6 f))
  | F_pmf f => octet (pm_flags f) /\ bytes (octs (pm_v4 f)) /\ bytes (octs (pm_v6 f)) /\ bytes (octs (pm_mac1 f)) /\ bytes (octs (pm_mac2 f))
  | F_rpeer f => octet (rg_flags f) /\ octet (rg_di f) /\ bytes (octs (rg_v4 f)) /\ bytes (octs (rg_v6 f)) /\ bytes (rg_ni f)
  | F_mcast f => octet (mc_flags f) /\ bytes (octs (mc_sv4 f)) /\ bytes (octs (mc_sv6 f)) /\ bytes (octs (mc_ev4 f)) /\ bytes (octs (mc_ev6 f))
  | F_volm f => octet (vm_flags f)
  | F_vol3 f => octet (v3_flags f)
  | F_nue f => octet (nu_flags f)
  | F_delays f => octet (dy_flags f)
  | F_prate f => octet (pr_flags f)
  | F_dlfl f => octet (dm_flags f)
  | F_prstat f => octet (ps_flags f)
  | F_tag f => octet (tg_flags f)
  | F_sdf f => octet (sd_flags f) /\ bytes (sd_fd f) /\ bytes (sd_ttc f) /\ bytes (sd_spi f) /\ bytes (sd_fl f)
  | F_ohc f => bytes (octs (oh_v4 f)) /\ bytes (octs (oh_v6 f))
  | F_userid f => octet (ui_flags f) /\ octet (ui_imsilen f) /\ octet (ui_imeilen f) /\ octet (ui_msisdnlen f) /\ octet (ui_nailen f) /\ bytes (ui_nai f)
  | F_henr f => octet (he_type f) /\ octet (he_namelen f) /\ octet (he_vallen f) /\ bytes (he_name f) /\ bytes (he_val f)
  | F_redir f => octet (ri_type f) /\ bytes (ri_addr f) /\ bytes (ri_other f)
  | F_macaddr f => octet (ma_flags f) /\ bytes (octs (ma_src f)) /\ bytes (octs (ma_dst f)) /\ bytes (octs (ma_usrc f)) /\ bytes (octs (ma_udst f))
  | F_upri f => octet (up_flags f) /\ bytes (octs (up_v4 f)) /\ bytes (octs (up_v6 f)) /\ bytes (up_ni f)
  | F_trace f => bytes (ti_id f) /\ octet (ti_evlen f) /\ octet (ti_depth f) /\ octet (ti_iflen f) /\ octet (ti_iplen f) /\
      bytes (octs (ti_ev f)) /\ bytes (octs (ti_ifs f)) /\ bytes (octs (ti_ip f))
  | F_pfdc f => octet (pc_flags f) /\ bytes (pc_fd f) /\ bytes (pc_url f) /\ bytes (pc_dn f) /\ bytes (pc_cp f) /\ bytes (pc_dnp f) /\
      Forall bytes (pc_afd f) /\ Forall bytes (pc_aurl f) /\ Forall bytes (pc_adnp f)
  | F_macl f => octet (ml_n f) /\ octet (ml_ctlen f) /\ octet (ml_stlen f) /\ bytes (ml_ctag f) /\ bytes (ml_stag f) /\ Forall bytes (ml_macs f)
  end.
Ltac step := match goal with
  | |- yields _ (if _ then _ else _) => apply yields_if
  | |- yields _ (Err _) => apply yields_err
  | |- yields bytes (Ok _) => apply yields_ok; assumption
  | |- yields bytes (let '(_, _) := ?x in _) => let b := fresh "b" in let o := fresh "o" in destruct x as [b o]; cbn [fst_bytes fst] in *
  | |- yields bytes (bind _ _) => eapply yields_bind; [solve [eauto 4 with yl]|intros ? ?]
  | |- yields bytes (match ?l with [] => _ | _ => _ end) => destruct l
  | |- yields bytes _ => solve [eauto 4 with yl]
  end.
Lemma marshal_yields f : ftyped f -> yields bytes (fmarshal f).
Proof.
  destruct f as [f|f|f|f|f|f|f|f|f|f|f|f|f|f|f|f|f|f|f|f|f|f|f|f|f|f|f|f]; cbn [ftyped fmarshal]; intros H; repeat match type of H with _ /\ _ => destruct H as [? H] end;
  match goal with |- yields _ (?m _) => unfold m end; match goal with |- yields _ (?m _ _) => unfold m end; pose proof (make_bytes); cbn zeta; unfold fst_bytes in *; repeat step.
  eapply yields_bind with (P := fst_bytes).
  { apply yields_if; [|now apply yields_ok]. eapply yields_bind; [now apply cpn_yields|]. intros [b1 o1] Hb1. eapply yields_bind; [apply put_yields; [exact Hb1|now apply one_byte]|].
    intros b2 Hb2. now apply yields_ok. }
  intros [b1 o1] Hb1. apply yields_if; [|now apply yields_ok]. eapply yields_bind; [now apply cpn_yields|]. intros [b2 o2] Hb2. now apply copy_range_yields.
Qed.

(** the arguments that Go types as uint8, []byte, string, net.IP or net.HardwareAddr are made of octets (the wider integers need no bound) *)
Definition fargs_ok (k : fkind) : fargs k -> Prop :=
  let ip (v : bslice) := bytes (octs v) in
  match k return fargs k -> Prop with
  | K_AlternativeSMFIPAddress | K_CPPFCPEntityIPAddress => fun '(v4, v6) => ip v4 /\ ip v6
  | K_CTAG | K_STAG => fun '(fl, pcp, dei, vid) => octet fl
  | K_DLFlowLevelMarking => fun '(fl, ttc, sci) => octet fl
  | K_FSEID => fun '(seid, v4, v6) => ip v4 /\ ip v6
  | K_FTEID => fun '(fl, teid, v4, v6, chid) => octet fl /\ ip v4 /\ ip v6 /\ octet chid
  | K_HeaderEnrichment => fun '(t, name, value) => octet t /\ bytes name /\ bytes value
  | K_IPMulticastAddress => fun '(sv4, sv6, ev4, ev6) => ip sv4 /\ ip sv6 /\ ip ev4 /\ ip ev6
  | K_MACAddressesDetected | K_MACAddressesRemoved => fun '(ct, st, macs) => ip ct /\ ip st /\ Forall bytes macs
  | K_MACAddress => fun '(s, d, us, ud) => ip s /\ ip d /\ ip us /\ ip ud
  | K_MPTCPAddressInformation => fun '(t, port, v4, v6) => octet t /\ ip v4 /\ ip v6
  | K_NumberOfUEIPAddresses => fun '(fl, v4, v6) => octet fl
  | K_OuterHeaderCreation => fun '(desc, teid, v4, v6, port, ctag, stag) => ip v4 /\ ip v6
  | K_PacketDelayThresholds | K_QoSMonitoringMeasurement => fun '(fl, dl, ul, rp) => octet fl
  | K_PacketRateStatus => fun '(fl, ul, aul, dl, adl, t) => octet fl
  | K_PacketRate => fun '(fl, uu, up, du, dp) => octet fl
  | K_PFDContents => fun '(fd, url, dn, cp, dnp, afd, aurl, adnp) =>
      bytes fd /\ bytes url /\ bytes dn /\ bytes cp /\ bytes dnp /\ Forall bytes afd /\ Forall bytes aurl /\ Forall bytes adnp
  | K_PMFAddressInformation => fun '(v4, v6, p1, p2, m1, m2) => ip v4 /\ ip v6 /\ ip m1 /\ ip m2
  | K_RedirectInformation => fun '(t, addrs) => octet t /\ Forall bytes addrs
  | K_RemoteGTPUPeer => fun '(fl, v4, v6, di, ni) => octet fl /\ ip v4 /\ ip v6 /\ octet di /\ bytes ni
  | K_SDFFilter => fun '(fd, ttc, spi, fl, fid) => bytes fd /\ bytes ttc /\ bytes spi /\ bytes fl
  | K_SourceIPAddress => fun '(v4, v6, mpl) => ip v4 /\ ip v6 /\ octet mpl
  | K_SubsequentVolumeQuota | K_SubsequentVolumeThreshold | K_VolumeQuota | K_VolumeThreshold => fun '(fl, t, u, d) => octet fl
  | K_TraceInformation => fun '(mcc, mnc, id, ev, depth, ifs, v) => bytes id /\ ip ev /\ octet depth /\ ip ifs /\ ip v
  | K_UEIPAddress => fun '(fl, v4, v6, v6d, v6pl) => octet fl /\ ip v4 /\ ip v6
  | K_UELinkSpecificIPAddress => fun '(v4, v6, nv4, nv6) => ip v4 /\ ip v6 /\ ip nv4 /\ ip nv6
  | K_UserID => fun '(fl, imsi, imei, msisdn, nai) => octet fl /\ bytes nai
  | K_UserPlaneIPResourceInformation => fun '(fl, range, v4, v6, ni, si) => octet fl /\ ip v4 /\ ip v6 /\ bytes ni
  | K_VolumeMeasurement => fun '(fl, tv, uv, dv, tp, up, dp) => octet fl
  end.
Definition arg_ok (s : shape) : sarg s -> Prop :=
  match s return sarg s -> Prop with
  | SMask _ => fun v => octet v
  | SUint _ | SInts _ | SOcts _ | STime | STimer | SSecs32 | SSecs16 | SMillis | S50ms | SNanos
  | SAccessAvailability | SAuri | SSuggestedCount | SDroppedDL | SRates | SIPVersion | SMultiplier | SOuterHeaderRemoval | STimeQuotaMechanism => fun _ => True
  | SGroup | SGroup1 | SGroup2 | SGroupT | SGroupT1 => fun _ => True
  | SString | SOctets | SFQDN | SForwardingPolicy | SNFInstanceID | SPoolIdentity | SUPFeatures => fun s => bytes s
  | SFields k => fun a => fargs_ok k a
  | SDownlinkData => fun '(hp, hq, p, q) => octet p /\ octet q
  | SFailedRuleID => fun '(t, id) => octet t
  | SFlowInformation => fun '(d, s) => octet d /\ bytes s
  | SFQCSID => fun '(a, ip, ids) => bytes (octs ip)
  | SNodeID => fun '(v4, v6, s) => (forall ip, v4 = Some ip -> bytes (octs ip)) /\ (forall ip, v6 = Some ip -> bytes (octs ip)) /\ bytes s
  | SNodeIDHeuristic => fun '(s, ip) => bytes s /\ bytes (octs ip)
  | SSNSSAI => fun '(t, d) => octet t
  | STSNBridgeID => fun m => bytes (octs m)
  end.

Ltac flagbits := repeat match goal with |- context [notnil ?x] => destruct (notnil x) | |- context [nonempty ?x] => destruct (nonempty x) | |- context [nonnil ?x] => destruct (nonnil x)
  | |- context [negb ?x] => destruct (negb x) end; reflexivity.
Lemma octs_if (c : bool) v : bytes (octs v) -> bytes (octs (if c then v else None)). Proof. destruct c; [trivial|constructor]. Qed.
Lemma bytes_if (c : bool) s : bytes s -> bytes (if c then s else []). Proof. destruct c; [trivial|constructor]. Qed.
Lemma lst_if (c : bool) l : Forall bytes l -> Forall bytes (if c then l else []). Proof. destruct c; [trivial|constructor]. Qed.
Lemma octet_if (c : bool) x y : octet x -> octet y -> octet (if c then x else y). Proof. now destruct c. Qed.
Lemma bcd_field_yields c s : yields (fun o => match o with Some (l, _) => octet l | None => True end) (bcd_field c s).
Proof. unfold bcd_field. intros a E. destruct c; [|now injection E as <-]. destruct (str_to_swapped s _); try discriminate; injection E as <-; [apply u8_lt|exact I]. Qed.
Ltac leaf := lazymatch goal with
  | |- octet (setif _ _ _) => unfold setif; flagbits
  | |- octet (fold_left _ _ _) => cbv beta iota delta [fold_left fst snd]; flagbits
  | |- octet (u8 _) => apply u8_lt
  | |- octet (if _ then _ else _) => apply octet_if; leaf
  | |- octet (N.lor _ _) => reflexivity
  | |- octet (N.land _ 15) => change 15%N with (N.ones 4); rewrite N.land_ones; eapply N.lt_le_trans; [apply N.mod_lt; discriminate|discriminate]
  | |- octet 0 => reflexivity
  | |- octet 1 => reflexivity
  | |- octet 4 => reflexivity
  | |- octet 16 => reflexivity
  | |- bytes (octs None) => constructor
  | |- bytes (octs (if _ then _ else _)) => apply octs_if; leaf
  | |- bytes (octs (to4 _)) => apply to4_octs; leaf
  | |- bytes (octs (to16 _)) => apply to16_octs; leaf
  | |- bytes (if _ then _ else _) => apply bytes_if; leaf
  | |- Forall bytes (if _ then _ else _) => apply lst_if; leaf
  | |- octet ?x => match goal with H : octet x |- _ => exact H end
  | |- bytes ?x => match goal with H : bytes x |- _ => exact H end
  | |- Forall bytes ?x => match goal with H : Forall bytes x |- _ => exact H end
  end.
Lemma fnew_typed k (a : fargs k) : fargs_ok k a -> yields ftyped (fnew k a).
Proof.
  destruct k; cbn [fargs fargs_ok fnew] in *; repeat match goal with x : (_ * _)%type |- _ => destruct x end; intros H; repeat match type of H with _ /\ _ => destruct H as [? H] end.
  all: try (apply yields_ok; unfold ftyped, new_fteid, new_fseid, new_ueip, new_altip, new_srcip, new_ulip, new_mptcp, new_pmf, new_rpeer, new_mcast, new_volm, new_vol3, new_nue, new_delays, new_prate, new_dlfl, new_prstat, new_tag, new_sdf, new_ohc, new_henr, new_macaddr, new_upri, new_trace, new_pfdc).
  all: cbv beta iota delta [ft_flags ft_teid ft_v4 ft_v6 ft_chid fs_flags fs_seid fs_v4 fs_v6 ue_flags ue_v4 ue_v6 ue_v6d ue_v6pl ai_flags ai_v4 ai_v6 si_flags si_v4 si_v6 si_mpl ul_flags ul_v4 ul_v6 ul_nv4 ul_nv6 mp_flags mp_type mp_port mp_v4 mp_v6 pm_flags pm_v4 pm_v6 pm_port1 pm_port2 pm_mac1 pm_mac2 rg_flags rg_v4 rg_v6 rg_dilen rg_di rg_nilen rg_ni mc_flags mc_sv4 mc_sv6 mc_ev4 mc_ev6 vm_flags vm_tvol vm_uvol vm_dvol vm_tpkt vm_upkt vm_dpkt v3_flags v3_tvol v3_uvol v3_dvol nu_flags nu_v4 nu_v6 dy_flags dy_dl dy_ul dy_rp pr_flags pr_uunit pr_dunit pr_urate pr_drate dm_flags dm_ttc dm_sci ps_flags ps_ul ps_aul ps_dl ps_adl ps_time tg_flags tg_pcp tg_dei tg_vid sd_flags sd_fdlen sd_fd sd_ttc sd_spi sd_fl sd_fid oh_desc oh_teid oh_v4 oh_v6 oh_port oh_ctag oh_stag ui_flags ui_imsilen ui_imsi ui_imeilen ui_imei ui_msisdnlen ui_msisdn ui_nailen ui_nai he_type he_namelen he_name he_vallen he_val ri_type ri_len ri_addr ri_olen ri_other ma_flags ma_src ma_dst ma_usrc ma_udst up_flags up_range up_v4 up_v6 up_ni up_si ti_mcc ti_mnc ti_id ti_evlen ti_ev ti_depth ti_iflen ti_ifs ti_iplen ti_ip pc_flags pc_fdlen pc_fd pc_urllen pc_url pc_dnlen pc_dn pc_cplen pc_cp pc_dnplen pc_dnp pc_afdlen pc_afd pc_aurllen pc_aurl pc_adnplen pc_adnp ml_n ml_macs ml_ctlen ml_ctag ml_stlen ml_stag].

  all: try (repeat match goal with |- _ /\ _ => split end; leaf).
  - destruct (negb (notnil b1) && negb (notnil b2)); repeat split; leaf.
  - destruct o, o0; try discriminate. apply yields_ok. cbn [ftyped ml_n ml_ctlen ml_stlen ml_ctag ml_stag ml_macs]. repeat split; trivial; apply u8_lt.
  - destruct o, o0; try discriminate. apply yields_ok. cbn [ftyped ml_n ml_ctlen ml_stlen ml_ctag ml_stag ml_macs]. repeat split; trivial; apply u8_lt.
  - destruct l as [|x [|y l]]; [discriminate| |]; cbn [new_redir]; apply yields_ok; cbn [ftyped ri_type ri_addr ri_other]; repeat split; trivial; try (constructor; fail).
    all: repeat match goal with K : Forall _ (_ :: _) |- _ => inversion K; clear K; subst end; trivial.
  - destruct (to4 b) eqn:E; cbv beta iota; repeat split; trivial; try apply u8_lt; try leaf; try (unfold octet; lia).
    exact (@to4_bytes _ _ E H).
  - unfold new_userid. intros f E. apply bind_ok in E. destruct E as [u [E1 E2]]. destruct u as [u|]; [|discriminate]. injection E2 as <-.
    apply bind_ok in E1. destruct E1 as [[[il i]|] [F1 E1]]; [|discriminate]. apply bind_ok in E1. destruct E1 as [[[el e]|] [F2 E1]]; [|discriminate].
    apply bind_ok in E1. destruct E1 as [[[ml m]|] [F3 E1]]; [|discriminate]. injection E1 as <-. apply bcd_field_yields in F1, F2, F3.
    cbn [ftyped ui_flags ui_imsilen ui_imeilen ui_msisdnlen ui_nailen ui_nai]. repeat split; trivial; leaf.
Qed.

Lemma lor_octet a b : octet a -> octet b -> octet (N.lor a b). Proof. intros Ha Hb. now apply (@lor_bound a b 8). Qed.
Lemma ints_octet ks zs : octet (ints ks zs).
Proof. unfold ints, octet. set (x := fold_right _ _ _). pose proof (Z.mod_pos_bound x 256 eq_refl). lia. Qed.
Lemma octs_or_octet ks xs : octet (octs_or ks xs).
Proof. unfold octs_or. induction (combine ks xs) as [|x r IH]; cbn [map fold_right]; [reflexivity|]. apply lor_octet; [apply u8_lt|exact IH]. Qed.
Lemma put_csids_yields ids : forall b o, bytes b -> yields bytes (put_csids b o ids).
Proof. induction ids as [|c r IH]; intros b o Hb; cbn [put_csids]; [now apply yields_ok|]. eapply yields_bind; [apply put_yields; [exact Hb|apply be_bytes]|]. intros b1 H1. now apply IH. Qed.
Lemma put_features_yields fs : bytes fs -> forall b i, bytes b -> yields bytes (put_features b i fs).
Proof.
  induction 1 as [|f r Hf Hr IH]; intros b i Hb; cbn [put_features]; [now apply yields_ok|]. apply yields_if; [now apply yields_ok|].
  eapply yields_bind; [apply put_yields; [exact Hb|now apply one_byte]|]. intros b1 H1. now apply IH.
Qed.
Definition opt_bytes (o : option (list N)) : Prop := match o with Some p => bytes p | None => True end.
Lemma some_yields r : yields bytes r -> yields opt_bytes (b <- r ;; Ok (Some b)).
Proof. intros H. eapply yields_bind; [exact H|]. intros a Ha. now apply yields_ok. Qed.
Lemma nil_yields r : yields bytes r -> yields opt_bytes (nil_on_err r).
Proof. intros H a E. destruct r; try discriminate; injection E as <-; [now apply H|exact I]. Qed.
Lemma new_timer_bytes d : bytes (new_timer d).
Proof. unfold new_timer. destruct (if (Z.rem d (10 * hour) =? 0)%Z then _ else _) as [u v]. apply one_byte, u8_lt. Qed.
Lemma to_u8_octet d : octet (to_u8 d). Proof. unfold to_u8, octet. pose proof (Z.mod_pos_bound d 256 eq_refl). change (2 ^ 8)%Z with 256%Z. lia. Qed.
Lemma land3 x : octet (N.land x 3). Proof. rewrite N.land_comm. now apply (@land_bound 3 x 8). Qed.
Lemma land15 x : octet (N.land x 15). Proof. rewrite N.land_comm. now apply (@land_bound 15 x 8). Qed.
Ltac yl := repeat match goal with
  | |- yields bytes (bind (put _ _ _) _) => eapply yields_bind; [apply put_yields; [first [assumption|apply make_bytes]|first [apply be_bytes|apply one_byte; first [assumption|apply u8_lt|reflexivity]]]|intros ? ?]
  | |- yields bytes (bind (copy_range _ _ _ _) _) => eapply yields_bind; [apply copy_range_yields; [first [assumption|apply make_bytes]|first [apply be_bytes|assumption]]|intros ? ?]
  | |- yields bytes (put _ _ _) => apply put_yields; [assumption|apply be_bytes]
  | |- yields bytes (copy_range _ _ _ _) => apply copy_range_yields; [assumption|first [apply be_bytes|assumption]]
  | |- yields bytes (copy_from _ _ _) => apply copy_from_yields; assumption
  | |- yields bytes (Ok [0%N]) => now apply yields_ok, one_byte
  end.
Lemma build_yields beyond s (a : sarg s) : arg_ok s a -> yields opt_bytes (build beyond s a).
Proof.
  destruct s; cbn [sarg arg_ok build] in *; intros H; repeat match goal with x : (_ * _)%type |- _ => destruct x end; repeat match type of H with _ /\ _ => destruct H as [? H] end.
  all: try (apply yields_ok; exact I). all: try (apply yields_ok, be_bytes). all: try (apply yields_ok; exact H).
  all: try apply some_yields.
  - apply yields_ok, one_byte. now apply (@land_bound _ _ 8).
  - apply yields_ok, one_byte, ints_octet.
  - apply yields_ok, one_byte, octs_or_octet.
  - now apply fqdn_yields.
  - apply yields_ok, new_timer_bytes.
  - apply yields_ok, one_byte, to_u8_octet.
  - eapply yields_bind; [now apply fnew_typed|]. intros f Hf. now apply nil_yields, marshal_yields.
  - apply yields_ok, one_byte, lor_octet; [apply u8_lt|]. apply land3.
  - apply yields_ok. unfold opt_bytes, new_auri. destruct (a =? 0)%N; apply be_bytes.
  - apply yields_ok. unfold opt_bytes, new_suggested_count. destruct (a <=? 255)%N; [apply one_byte, u8_lt|apply be_bytes].
  - apply yields_ok. unfold opt_bytes, new_downlink_data. constructor; [destruct b, b0; reflexivity|]. apply bytes_app. destruct b, b0; split; try constructor; trivial; constructor.
  - unfold new_dropped_dl. destruct b, b0; yl.
  - unfold new_failed_rule_id. repeat match goal with |- yields _ (if _ then _ else _) => apply yields_if end; yl.
    + apply yields_ok. constructor; [exact H|]. apply one_byte, u8_lt.
    + apply yields_ok. now apply one_byte.
  - unfold new_flow_information. yl.
  - unfold new_forwarding_policy. yl. 
  - unfold new_fqcsid. cbv zeta.
    assert (K : forall t nid, bytes nid -> yields opt_bytes (b <- put (make (1 + length nid + length l * 2)) 0 [N.lor (N.land (u8 (N.shiftl t 4)) 0xf0) (N.land (lenN l) 0x0f)] ;;
        b <- copy_range b 1 (length nid + 1) nid ;; b <- put_csids b (length nid + 1) l ;; Ok (Some b))).
    { intros t nid Hn. eapply yields_bind; [apply put_yields; [apply make_bytes|apply one_byte, lor_octet; [apply (@land_bound _ _ 8), u8_lt|apply land15]]|]. intros b1 H1.
      eapply yields_bind; [now apply copy_range_yields|]. intros b2 H2. eapply yields_bind; [now apply put_csids_yields|]. intros b3 H3. now apply yields_ok. }
    destruct b as [x|].
    + destruct (to4 (Some x)) eqn:E; apply K; [exact (@to4_bytes _ _ E H)|exact H].
    + pose proof (hex_decode_yields l0) as Y. destruct (hex_decode l0); try (apply yields_ok; exact I). apply K. now apply Y.
  - unfold new_rates. rewrite !uint64To40_be. yl.
  - apply yields_ok, one_byte. destruct b, b0; reflexivity.
  - unfold new_multiplier. yl.
  - now apply slice_yields.
  - unfold new_node_id. destruct o as [ip|]; [|destruct o0 as [ip|]; [|destruct l; [now apply yields_ok|]]].
    + eapply yields_bind; [apply put_yields; [apply make_bytes|now apply one_byte]|]. intros b1 Hb1. apply some_yields. apply copy_from_yields; [exact Hb1|]. apply to4_octs. auto.
    + eapply yields_bind; [apply put_yields; [apply make_bytes|now apply one_byte]|]. intros b1 Hb1. apply some_yields. apply copy_from_yields; [exact Hb1|]. apply to16_octs. auto.
    + eapply yields_bind; [apply put_yields; [apply make_bytes|now apply one_byte]|]. intros b1 Hb1. eapply yields_bind; [now apply fqdn_yields|]. intros e He. apply some_yields. now apply copy_from_yields.
  - unfold new_node_id_heuristic. destruct l as [|x r]; [now apply yields_ok|]. destruct b as [y|]; [destruct (to4 (Some y)) eqn:E|].
    + eapply yields_bind; [apply put_yields; [apply make_bytes|now apply one_byte]|]. intros b1 Hb1. apply some_yields. apply copy_from_yields; [exact Hb1|]. exact (@to4_bytes _ _ E H).
    + eapply yields_bind; [apply put_yields; [apply make_bytes|now apply one_byte]|]. intros b1 Hb1. apply some_yields. apply copy_from_yields; [exact Hb1|]. now apply to16_octs.
    + eapply yields_bind; [apply put_yields; [apply make_bytes|now apply one_byte]|]. intros b1 Hb1. eapply yields_bind; [now apply fqdn_yields|]. intros e He. apply some_yields. now apply copy_from_yields.
  - unfold new_snssai. unfold utils_uint32To24. yl. apply copy_range_yields; trivial. unfold Header.uint32To24. repeat constructor; apply u8_lt.
  - apply yields_ok. constructor; [apply land3|apply be_bytes].
  - unfold new_tsn_bridge_id. destruct a as [m|]; [yl|now apply yields_ok, one_byte].
  - unfold new_pool_identity. yl.
  - unfold new_up_features. apply put_features_yields; [exact H|apply make_bytes].
Qed.
