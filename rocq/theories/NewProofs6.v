(** Which calls of the constructors return nil, and which panic. *)
From Coq Require Import Floats.SpecFloat.
From Verif Require Import Base IETypes IE Spec Bits IEProofs IEProofs2 Codec Codec2 Utils UtilsProofs Time TimeProofs Fields1 Fields2 Fields3 Fields4
  FieldsProofs1 FieldsProofs1b FieldsProofs1c FieldsProofs1d FieldsProofs2 FieldsProofs3 FieldsProofs3b FieldsProofs3c FieldsProofs3d FieldsProofs4 FieldsProofs4b FieldsProofs4c FieldsProofs4d FieldsSpec4
  Access AccTable AccRun AccProofs New NewTable NewRun NewProofs NewProofs2 NewProofs3 NewProofs4.
Set Implicit Arguments.

(** ** written in terms of the arguments *)
Definition ishexs (s : list N) : bool := forallb ishex s.
Definition short_mac (m : bslice) : bool := match m with Some x => length x <? 6 | None => false end.
(** two length octets and the string, for each *)
Definition listed (l : list (list N)) : N := fold_right (fun s n => 2 + lenN s + n)%N 0%N l.
Definition isnil {A} (x : option A) : bool := match x with None => true | _ => false end.
Definition fpanics (k : fkind) : fargs k -> bool :=
  match k return fargs k -> bool with
  | K_UserID => fun '(fl, imsi, imei, msisdn, _) => N.testbit fl 0 && negb (ishexs imsi) || N.testbit fl 1 && negb (ishexs imei) || N.testbit fl 2 && negb (ishexs msisdn)
  | K_RedirectInformation => fun '(_, addrs) => match addrs with [] => true | _ => false end
  | K_MACAddressesDetected | K_MACAddressesRemoved => fun '(ct, st, macs) => isnil ct || isnil st || (256 <=? lenN macs)%N
  | K_MACAddress => fun '(s, d, us, ud) => short_mac s || short_mac d || short_mac us || short_mac ud
  | K_PFDContents => fun '(_, _, _, _, _, afd, aurl, adnp) => (65536 <=? listed afd)%N || (65536 <=? listed aurl)%N || (65536 <=? listed adnp)%N
  | K_RemoteGTPUPeer => fun '(fl, _, _, _, _) => N.testbit fl 4 && (N.testbit fl 1 || N.testbit fl 0) && (N.testbit fl 2 || N.testbit fl 3)
  | K_TraceInformation => fun '(mcc, mnc, _, _, _, _, _) => ishexs mcc && ishexs mnc && negb (length mnc =? 2) && ((length mcc <=? 2) || (length mnc <=? 2))
  | _ => fun _ => false
  end.
Definition fnils (k : fkind) : fargs k -> bool :=
  match k return fargs k -> bool with
  | K_DLFlowLevelMarking => fun '(fl, _, _) => negb (N.testbit fl 0) && negb (N.testbit fl 1)
  | K_PacketRate => fun '(fl, _, _, _, _) => negb (N.testbit fl 0) && negb (N.testbit fl 1)
  | K_IPMulticastAddress => fun '(sv4, sv6, ev4, ev6) => notnil sv6 && (if notnil ev4 then negb (notnil ev6) else notnil ev6 && notnil sv4)
  | K_RemoteGTPUPeer => fun '(fl, _, _, _, _) => negb (N.testbit fl 2) && negb (N.testbit fl 3) && (N.testbit fl 4 || negb (N.testbit fl 0) && negb (N.testbit fl 1))
  | K_UserPlaneIPResourceInformation => fun '(fl, _, _, _, ni, _) => negb (N.testbit fl 2 || N.testbit fl 3 || N.testbit fl 4) && negb (N.testbit fl 0) && negb (N.testbit fl 1) && (negb (N.testbit fl 5) || match ni with [] => true | _ => false end) && negb (N.testbit fl 6)
  | K_TraceInformation => fun '(mcc, mnc, _, _, _, _, _) => negb (ishexs mcc && ishexs mnc)
  | _ => fun _ => false
  end.
Definition panics (s : shape) : sarg s -> bool :=
  match s return sarg s -> bool with
  | SFields k => @fpanics k
  | SNFInstanceID => fun id => length id <? 16
  | _ => fun _ => false
  end.
Definition nils (s : shape) : sarg s -> bool :=
  match s return sarg s -> bool with
  | SFields k => @fnils k
  | SNodeID => fun '(v4, v6, n) => match v4, v6, n with None, None, [] => true | _, _, _ => false end
  | SNodeIDHeuristic => fun '(n, _) => match n with [] => true | _ => false end
  | SFQCSID => fun '(a, ip, _) => isnil ip && negb (ishexs a && Nat.even (length a))
  | _ => fun _ => false
  end.

Section Verdict.
Variable g : N -> bool.
Variable beyond : spec_float -> N.
Definition verdict {A} (p n : bool) (r : res (option A)) : Prop := if p then r = Fault else if n then r = Ok None else exists x, r = Ok (Some x).
Definition mverdict (p n : bool) (r : res (list N)) : Prop := if p then r = Fault else if n then exists e, r = Err e else exists x, r = Ok x.
Lemma mverdict_ok p n r : mverdict p n r -> verdict p n (nil_on_err r).
Proof. unfold mverdict, verdict. destruct p; [now intros ->|]. destruct n; [intros [e ->]; reflexivity|intros [x ->]; cbn; eauto]. Qed.
Lemma total_verdict r : (exists w, r = Ok w) -> verdict false false (nil_on_err r).
Proof. intros [w ->]. cbn. eauto. Qed.

Ltac bits := rewrite ?has1_testbit, ?has2_testbit, ?has3_testbit, ?has4_testbit, ?has5_testbit, ?has6_testbit, ?has7_testbit, ?has8_testbit in *.
Ltac wl6 :=
  let b' := fresh "b" in let L := fresh "L" in
  match goal with
  | |- context [cpb ?c ?n ?s ?b ?o] => destruct (@cpb_len c n s b o) as (b' & -> & L); [cbn [len_if]; lia|cbn [bind len_if]]
  | |- context [cpn ?c ?n ?s ?b ?o] => destruct (@cpn_len c n s b o) as (b' & -> & L); [cbn [len_if]; lia|cbn [bind len_if]]
  | |- context [put ?b ?o ?s] => destruct (@put_len b o s) as (b' & -> & L); [rewrite ?be_length; cbn [length]; lia|cbn [bind]]
  | |- context [copy_range ?b ?x ?y ?s] => destruct (@copy_range_len b x y s) as (b' & -> & L); [lia..|cbn [bind]]
  end.
Lemma iff_verdict (p : bool) r : (r = Fault <-> p = true) -> (r <> Fault -> exists w, r = Ok w) -> mverdict p false r.
Proof. intros F O. unfold mverdict. destruct p; [now apply F|]. apply O. intros E. apply F in E. discriminate. Qed.
Lemma userid_verdict fl i e m n : mverdict (fpanics K_UserID (fl, i, e, m, n)) false (new_userid_ie fl i e m n).
Proof.
  destruct (new_userid_fault fl i e m n) as [F O]. bits.
  assert (D : forall c s, (c = true /\ ~ hexstr s) <-> c && negb (ishexs s) = true).
  { intros c s. unfold hexstr, ishexs. rewrite Bool.andb_true_iff, Bool.negb_true_iff. destruct (forallb ishex s); intuition congruence. }
  rewrite !D in F. apply iff_verdict; [|exact O]. cbn [fpanics]. rewrite F, !Bool.orb_true_iff. tauto.
Qed.
Lemma redir_verdict t l : mverdict (fpanics K_RedirectInformation (t, l)) false (new_redir_ie t l).
Proof. destruct (new_redir_fault t l) as [F O]. apply iff_verdict; [rewrite F; destruct l; cbn; intuition congruence|]. intros H. apply O. intros ->. now apply H, F. Qed.
Lemma macaddr_verdict s d us ud : mverdict (fpanics K_MACAddress (s, d, us, ud)) false (macaddr_marshal (new_macaddr s d us ud)).
Proof.
  destruct (new_macaddr_fault s d us ud) as [F O]. apply iff_verdict; [|exact O]. rewrite F. cbn [fpanics]. rewrite !Bool.orb_true_iff.
  assert (D : forall m, short_mac m = true <-> exists x, Some x = m /\ length x < 6).
  { intros [x|]; cbn [short_mac]; [|split; [discriminate|now intros (? & ? & _)]]. rewrite Nat.ltb_lt. split; [eauto|]. now intros (y & [= <-] & L). }
  rewrite !D. cbn [In]. split; [intros (x & [H|[H|[H|[H|[]]]]] & L); subst; eauto 10|]. intros [[[(x & E & L)|(x & E & L)]|(x & E & L)]|(x & E & L)]; exists x; subst; tauto.
Qed.
Lemma macl_verdict ct st macs : mverdict (isnil ct || isnil st || (256 <=? lenN macs)%N) false (f <- new_macl ct st macs ;; macl_marshal f).
Proof.
  destruct ct as [ct|]; [|reflexivity]. destruct st as [st|]; [|reflexivity]. cbn [isnil orb]. destruct (N.leb_spec 256 (lenN macs)) as [L|L]; cbn [mverdict].
  - destruct (@macl_marshal_new_fault ct st macs L) as (f & -> & E). exact E.
  - destruct (@macl_marshal_new ct st macs L) as (f & -> & E). cbn [bind]. rewrite E. eauto.
Qed.
Lemma listed_items l : listed l = lenN (items l).
Proof. induction l as [|s l IH]; [reflexivity|]. cbn [listed fold_right]. fold (listed l). rewrite IH, items_cons. unfold lenN. rewrite app_length, seg16_length. cbn [len_if]. lia. Qed.
Lemma pfdc_verdict fd url dn cp dnp afd aurl adnp : mverdict (fpanics K_PFDContents (fd, url, dn, cp, dnp, afd, aurl, adnp)) false (pfdc_marshal (new_pfdc fd url dn cp dnp afd aurl adnp)).
Proof.
  cbn [fpanics]. rewrite !listed_items.
  destruct (N.leb_spec 65536 (lenN (items afd))); [cbn [orb mverdict]; apply pfdc_marshal_new_fault; unfold lists_fit; lia|].
  destruct (N.leb_spec 65536 (lenN (items aurl))); [cbn [orb mverdict]; apply pfdc_marshal_new_fault; unfold lists_fit; lia|].
  destruct (N.leb_spec 65536 (lenN (items adnp))); [cbn [orb mverdict]; apply pfdc_marshal_new_fault; unfold lists_fit; lia|].
  cbn [orb mverdict]. destruct (@pfdc_marshal_new fd url dn cp dnp afd aurl adnp) as (w & E & _); [unfold lists_fit; lia|]. eauto.
Qed.
Lemma rpeer_verdict fl v4 v6 di ni : mverdict (fpanics K_RemoteGTPUPeer (fl, v4, v6, di, ni)) (fnils K_RemoteGTPUPeer (fl, v4, v6, di, ni)) (rpeer_marshal (new_rpeer fl v4 v6 di ni)).
Proof.
  cbn [fpanics fnils]. destruct (N.testbit fl 4 && _ && _) eqn:P.
  - cbn [mverdict]. apply Bool.andb_true_iff in P. destruct P as [P P3]. apply Bool.andb_true_iff in P. destruct P as [P1 P2].
    apply rpeer_marshal_panics; cbn [new_rpeer rg_flags rg_dilen]; [exact P1|exact P2|]. bits. destruct (N.testbit fl 3); [now left|right]. destruct (N.testbit fl 2); [now split|discriminate].
  - unfold rpeer_marshal, rpeer_marshal_to, rpeer_marshal_len, new_rpeer. cbn [rg_flags rg_v4 rg_v6 rg_dilen rg_di rg_nilen rg_ni]. bits.
    destruct (N.testbit fl 0) eqn:B0, (N.testbit fl 1) eqn:B1, (N.testbit fl 2) eqn:B2, (N.testbit fl 3) eqn:B3, (N.testbit fl 4) eqn:B4; try discriminate P; clear P;
      cbn [negb andb orb mverdict len_if];
      try (eexists; reflexivity); wl3_start; cbn [Nat.add N.to_nat] in *; change (Pos.to_nat 1) with 1 in *;
      (match goal with |- context [if ?b <? 2 then _ else _] => destruct (Nat.ltb_spec b 2); [lia|] end); change (N.to_nat 1) with 1; repeat wl6; eauto.
Qed.
Lemma wrb_short n s b o : length b < o + n -> wrb true n s b o = Err EUnexpectedEOF.
Proof. intros H. unfold wrb. destruct (Nat.ltb_spec (length b) (o + n)); [reflexivity|lia]. Qed.
Ltac wlm :=
  let b' := fresh "b" in let L := fresh "L" in
  match goal with
  | |- context [wrb true ?n ?s ?b ?o] => rewrite (@wrb_short n s b o) by lia; cbn [bind]
  | |- context [wrb ?c ?n ?s ?b ?o] => destruct (@wrb_len c n s b o) as (b' & -> & L); [cbn [len_if]; lia|cbn [bind len_if]]
  end.
Lemma mcast_verdict sv4 sv6 ev4 ev6 : mverdict false (fnils K_IPMulticastAddress (sv4, sv6, ev4, ev6)) (mcast_marshal (new_mcast sv4 sv6 ev4 ev6)).
Proof.
  cbn [fnils]. unfold mcast_marshal, mcast_marshal_to, mcast_marshal_len, new_mcast.
  destruct (notnil sv4) eqn:A4, (notnil sv6) eqn:A6, (notnil ev4) eqn:E4, (notnil ev6) eqn:E6; cbn [negb andb orb mc_flags mc_sv4 mc_sv6 mc_ev4 mc_ev6 mverdict setif];
    rewrite ?A4, ?A6, ?E4, ?E6;
    repeat match goal with |- context [has1 ?x] => let v := eval vm_compute in (has1 x) in change (has1 x) with v | |- context [has2 ?x] => let v := eval vm_compute in (has2 x) in change (has2 x) with v
      | |- context [has3 ?x] => let v := eval vm_compute in (has3 x) in change (has3 x) with v | |- context [has4 ?x] => let v := eval vm_compute in (has4 x) in change (has4 x) with v end;
    cbn [andb len_if Nat.add]; try (eexists; reflexivity); wl3_start; (match goal with |- context [if ?b <? 1 then _ else _] => destruct (Nat.ltb_spec b 1); [lia|] end);
    (match goal with |- context [put ?b ?o ?s] => destruct (@put_len b o s) as (b' & -> & L'); [cbn [length]; lia|cbn [bind]] end); repeat wlm; eauto.
Qed.
Lemma upri_verdict fl rg v4 v6 ni si : octet fl -> mverdict false (fnils K_UserPlaneIPResourceInformation (fl, rg, v4, v6, ni, si)) (upri_marshal (new_upri fl rg v4 v6 ni si)).
Proof.
  intros O. cbn [fnils]. unfold upri_marshal, upri_marshal_to, upri_marshal_len, new_upri. cbn [up_flags up_range up_v4 up_v6 up_ni up_si]. rewrite (teidri_bits O). bits.
  set (te := N.testbit fl 2 || N.testbit fl 3 || N.testbit fl 4). clearbody te.
  destruct te eqn:T, (N.testbit fl 0) eqn:B0, (N.testbit fl 1) eqn:B1, (N.testbit fl 5) eqn:B5, (N.testbit fl 6) eqn:B6; destruct ni as [|c ni]; cbn [negb andb orb mverdict len_if Nat.add length];
      try (eexists; reflexivity); wl3_start;
      (match goal with |- context [if ?b <? 2 then _ else _] => destruct (Nat.ltb_spec b 2); [cbn [length] in *; lia|] end); repeat wl6; eauto.
Qed.
Lemma trace_verdict mcc mnc id ev d ifs ip : mverdict (fpanics K_TraceInformation (mcc, mnc, id, ev, d, ifs, ip)) (fnils K_TraceInformation (mcc, mnc, id, ev, d, ifs, ip)) (trace_marshal (new_trace mcc mnc id ev d ifs ip)).
Proof.
  set (f := new_trace mcc mnc id ev d ifs ip). assert (E : ti_mcc f = mcc /\ ti_mnc f = mnc) by (unfold f, new_trace; destruct (to4 ip); split; reflexivity). clearbody f. destruct E as [E1 E2].
  cbn [fpanics fnils]. unfold trace_marshal, trace_marshal_to, trace_marshal_len. rewrite E1, E2. destruct (encode_plmn_cases mcc mnc) as (C1 & C2 & C3). unfold ishexs.
  wl3_start. destruct (Nat.ltb_spec (length z) 6); [lia|]. destruct (forallb ishex mcc && forallb ishex mnc); cbn [negb andb].
  - clear C1. specialize (C2 eq_refl). specialize (C3 eq_refl).
    assert (T : forall p, exists w, (b <- copy_range z 0 3 p ;; b <- copy_range b 3 6 (ti_id f) ;; '(b, o) <- wr1x (ti_evlen f) b 6 ;;
      '(b, o) <- wrb true (N.to_nat (ti_evlen f)) (octs (ti_ev f)) b o ;; '(b, o) <- wr1x (ti_depth f) b o ;; '(b, o) <- wr1x (ti_iflen f) b o ;;
      '(b, o) <- wrb true (N.to_nat (ti_iflen f)) (octs (ti_ifs f)) b o ;; '(b, o) <- wr1x (ti_iplen f) b o ;; '(b, o) <- wrb true (N.to_nat (ti_iplen f)) (octs (ti_ip f)) b o ;; Ok b) = Ok w).
    { intros p. clear -L. unfold wr1x.
      repeat first [
        match goal with |- context [if ?b <? ?n then _ else _] => destruct (Nat.ltb_spec b n); [exfalso; lia|] end
      | match goal with |- context [copy_range ?b ?x ?y ?s] => destruct (@copy_range_len b x y s) as (? & -> & ?); [lia..|]; cbn [bind] end
      | match goal with |- context [put ?b ?x ?s] => destruct (@put_len b x s) as (? & -> & ?); [cbn [length]; lia|]; cbn [bind] end
      | match goal with |- context [wrb ?c ?n ?s ?b ?o] => destruct (@wrb_len c n s b o) as (? & -> & ?); [cbn [len_if]; lia|]; cbn [bind len_if] end ].
      eauto. }
    destruct (Nat.eqb_spec (length mnc) 2) as [M|M]; cbn [negb andb mverdict].
    + destruct (C3 M) as (p & -> & _). apply T.
    + destruct (C2 M) as [F O]. destruct (Nat.leb_spec (length mcc) 2); [cbn [orb mverdict]; now rewrite F by auto|]. destruct (Nat.leb_spec (length mnc) 2); [cbn [orb mverdict]; now rewrite F by auto|].
      cbn [orb mverdict]. destruct O as (p & -> & _); [lia..|]. apply T.
  - cbn [mverdict]. rewrite C1 by reflexivity. cbn [bind]. eauto.
Qed.
Lemma henr_total t n v : exists w, henr_marshal (new_henr t n v) = Ok w.
Proof.
  unfold henr_marshal, henr_marshal_to, henr_marshal_len, new_henr. cbn [he_type he_namelen he_name he_vallen he_val].
  assert (U : forall s : list N, N.to_nat (u8 (lenN s)) <= length s) by (intros s; unfold u8, lenN; pose proof (N.mod_le (N.of_nat (length s)) 256 ltac:(lia)); lia).
  pose proof (U n). pose proof (U v). wl3_start. destruct (Nat.ltb_spec (length z) 2); [lia|]. destruct (@put_len z 0 [t]) as (? & -> & ?); [cbn; lia|]. cbn [bind].
  repeat match goal with |- context [cp8s ?c ?n ?s ?b ?o] => destruct (@cp8s_len c n s b o) as (? & -> & ?); [cbn [len_if]; lia|]; cbn [bind len_if] end. eauto.
Qed.
Lemma hex_verdict s : match hex_decode s with Ok _ => ishexs s && Nat.even (length s) = true | _ => ishexs s && Nat.even (length s) = false end.
Proof.
  assert (H : forall n s, length s <= n -> match hex_decode s with Ok _ => ishexs s && Nat.even (length s) = true | _ => ishexs s && Nat.even (length s) = false end).
  { clear. induction n as [|n IH]; intros [|a [|b r]] L; try (cbn in L; lia); cbn [hex_decode]; try reflexivity.
    - destruct (hexval a); apply Bool.andb_false_r.
    - specialize (IH r ltac:(cbn [length] in L; lia)). change (ishexs (a :: b :: r)) with (ishex a && (ishex b && ishexs r)). cbn [length Nat.even]. unfold ishex.
      destruct (hexval a), (hexval b); cbn [andb]; try reflexivity. destruct (hex_decode r); exact IH. }
  now apply (H (length s)).
Qed.

Lemma some_verdict (r : res (list N)) x : r = Ok x -> verdict false false (b <- r ;; Ok (Some b)).
Proof. intros ->. cbn. eauto. Qed.
Lemma fields_verdict k (a : fargs k) : fargs_ok k a -> verdict (fpanics k a) (fnils k a) (f <- fnew k a ;; nil_on_err (fmarshal f)).
Proof.
  assert (T : forall f, (exists w, fmarshal f = Ok w) -> verdict false false (f <- Ok f ;; nil_on_err (fmarshal f))) by (intros f [w E]; cbn [bind]; rewrite E; cbn; eauto).
  destruct k; intros OK; cbn [fargs fargs_ok] in a, OK;
    repeat match goal with x : (_ * _)%type |- _ => destruct x end; cbn [fnew].
  all: try (cbn [fpanics fnils]; apply T; cbn [fmarshal]; first
    [ match goal with |- context [altip_marshal ?f] => destruct (altip_marshal_total f) as (w & E & _) end; now exists w
    | match goal with |- context [fseid_marshal ?f] => destruct (fseid_marshal_total f) as (w & E & _) end; now exists w
    | match goal with |- context [fteid_marshal ?f] => destruct (fteid_marshal_total f) as (w & E & _) end; now exists w
    | match goal with |- context [ueip_marshal ?f] => destruct (ueip_marshal_total f) as (w & E & _) end; now exists w
    | match goal with |- context [srcip_marshal ?f] => destruct (srcip_marshal_total f) as (w & E & _) end; now exists w
    | match goal with |- context [ulip_marshal ?f] => destruct (ulip_marshal_total f) as (w & E & _) end; now exists w
    | match goal with |- context [mptcp_marshal ?f] => destruct (mptcp_marshal_total f) as (w & E & _) end; now exists w
    | match goal with |- context [pmf_marshal ?f] => destruct (pmf_marshal_total f) as (w & E & _) end; now exists w
    | match goal with |- context [sdf_marshal ?f] => destruct (sdf_marshal_total f) as (w & E & _) end; now exists w
    | match goal with |- context [ohc_marshal ?f] => destruct (ohc_marshal_total f) as (w & E & _) end; now exists w
    | match goal with |- context [volm_marshal ?f] => destruct (volm_marshal_wire f) as (-> & _) end; eauto
    | match goal with |- context [vol3_marshal ?f] => destruct (vol3_marshal_wire f) as (-> & _) end; eauto
    | match goal with |- context [nue_marshal ?f] => destruct (nue_marshal_wire f) as (-> & _) end; eauto
    | match goal with |- context [delays_marshal ?f] => destruct (delays_marshal_wire f) as (-> & _) end; eauto
    | match goal with |- context [prstat_marshal ?f] => destruct (prstat_marshal_wire f) as (-> & _) end; eauto
    | apply henr_total
    | eexists; reflexivity ]; fail).
  - (* DL flow level marking *) cbn [fpanics fnils bind fmarshal]. apply mverdict_ok. match goal with |- context [dlfl_marshal ?f] => destruct (dlfl_marshal_wire f) as (_ & ->) end. cbn [new_dlfl dm_flags].
    rewrite <- Bool.negb_orb. destruct (_ || _); cbn; eauto.
  - cbn [fpanics bind fmarshal]. apply mverdict_ok, mcast_verdict.
  - pose proof (macl_verdict o o0 l) as V. cbn [fpanics fnils]. destruct o as [ct|], o0 as [st|]; try reflexivity. cbn [new_macl bind fmarshal] in *. now apply mverdict_ok in V.
  - pose proof (macl_verdict o o0 l) as V. cbn [fpanics fnils]. destruct o as [ct|], o0 as [st|]; try reflexivity. cbn [new_macl bind fmarshal] in *. now apply mverdict_ok in V.
  - cbn [bind fmarshal fnils]. apply mverdict_ok, macaddr_verdict.
  - cbn [fpanics fnils bind fmarshal]. apply mverdict_ok. match goal with |- context [prate_marshal ?f] => destruct (prate_marshal_wire f) as (_ & ->) end. cbn [new_prate pr_flags].
    rewrite <- Bool.negb_orb. destruct (_ || _); cbn; eauto.
  - cbn [bind fmarshal fnils]. apply mverdict_ok, pfdc_verdict.
  - match goal with |- context [new_redir ?t ?l] => pose proof (redir_verdict t l) as V; unfold new_redir_ie in V; destruct (new_redir t l) end; cbn [bind fmarshal fnils] in *; now apply mverdict_ok in V.
  - cbn [bind fmarshal]. apply mverdict_ok, rpeer_verdict.
  - cbn [bind fmarshal]. apply mverdict_ok, trace_verdict.
  - match goal with |- context [new_userid ?f ?a ?b ?c ?d] => pose proof (userid_verdict f a b c d) as V; unfold new_userid_ie in V; destruct (new_userid f a b c d) as [[|]|e| |] end; cbn [bind fmarshal fnils] in *; try (now apply mverdict_ok in V). exfalso. unfold mverdict in V. destruct (fpanics _ _); [discriminate|]. destruct V; discriminate.
  - cbn [bind fmarshal fpanics]. apply mverdict_ok, upri_verdict. tauto.
Qed.
Theorem build_verdict s (a : sarg s) : arg_ok s a -> is_group s = false -> verdict (panics s a) (nils s a) (build beyond s a).
Proof.
  intros OK G. destruct s; try discriminate G; cbn [build panics nils]; cbn [sarg] in a; unfold bslice in *; repeat match goal with x : (_ * _)%type |- _ => destruct x end; try (cbn; eauto; fail).
  all: try (apply fields_verdict; exact OK).
  all: try (eapply some_verdict; first [apply encode_fqdn_ok|apply dropped_dl_octets|apply failed_rule_octets|apply flow_octets|apply forwarding_octets|apply rates_octets|apply multiplier_octets|apply snssai_octets|apply tsn_octets|apply pool_octets|apply features_octets]; fail).
  - rewrite fqcsid_octets. destruct o as [x|]; cbn [isnil andb verdict]; [destruct (to4 (Some x)); eauto|]. match goal with |- context [hex_decode ?l] => pose proof (hex_verdict l) as H; destruct (hex_decode l) end; rewrite H; cbn; eauto.
  - unfold slice. destruct (Nat.ltb_spec (length a) 16); cbn [verdict].
    + replace (16 <=? length a) with false by (symmetry; apply Nat.leb_gt; lia). reflexivity.
    + replace (16 <=? length a) with true by (symmetry; apply Nat.leb_le; lia). cbn. eauto.
  - destruct o as [v4|]; [rewrite new_node_id_v4; cbn; eauto|]. destruct o0 as [v6|]; [rewrite new_node_id_v6; cbn; eauto|]. destruct l as [|c l]; [reflexivity|]. rewrite new_node_id_fqdn by discriminate. cbn [verdict]. eauto.
  - destruct l as [|c l]; [reflexivity|]. cbn [verdict]. destruct o as [x|].
    + rewrite heuristic_ip by (reflexivity || discriminate). destruct (to4 (Some x)); [rewrite new_node_id_v4|rewrite new_node_id_v6]; eauto.
    + rewrite heuristic_name, new_node_id_fqdn by discriminate. eauto.
Qed.
(** the same for the whole constructor *)
Theorem calls_verdict c s a r : calls g beyond c s a r -> arg_ok s a -> is_group s = false ->
  (r = Fault <-> panics s a = true) /\ (r = Ok None <-> panics s a = false /\ nils s a = true) /\ ((exists i, r = Ok (Some i)) <-> panics s a = false /\ nils s a = false).
Proof.
  intros [S C] OK G. pose proof (build_verdict s a OK G) as V.
  assert (E : make_ie g beyond (match con_type c with Some t => t | None => 0%N end) s a = (p <- build beyond s a ;; Ok (option_map (new (match con_type c with Some t => t | None => 0%N end)) p))) by (destruct s; try discriminate G; reflexivity).
  rewrite E in C. subst r. unfold verdict in V. destruct (panics s a), (nils s a).
  1, 2: rewrite V; cbn [bind]; split; [tauto|]; split; split; try discriminate; try (now intros [? ?]); now intros [i ?].
  - rewrite V. cbn. split; [split; discriminate|]. split; [tauto|]. split; [now intros [i ?]|now intros [_ ?]].
  - destruct V as [x ->]. cbn. split; [split; discriminate|]. split; [split; [discriminate|now intros [_ ?]]|]. split; [tauto|eauto].
Qed.
Theorem group_verdict c s a r : calls g beyond c s a r -> is_group s = true -> exists i, r = Ok (Some i).
Proof. intros [S C] G. destruct s; try discriminate G; cbn [make_ie sarg] in *; try destruct a as [x y]; rewrite new_grouped_ok in C; eauto. Qed.

(** * Node ID *)
Lemma node_body_value p : 2 <= length p -> node_id_value p = node_body p.
Proof. intros L. unfold node_id_value, node_body. destruct (Nat.ltb_spec (length p) 2); [lia|reflexivity]. Qed.
Lemma node_con c : con_shape c = SNodeID \/ con_shape c = SNodeIDHeuristic -> con_reader c = A_NodeID /\ con_leaf c = LNodeID /\ c <> N_NetworkInstanceFQDN.
Proof. destruct c; intros [E|E]; try discriminate E; repeat split; discriminate. Qed.
Lemma node_access c s a i p : calls g beyond c s a (Ok (Some i)) -> s = SNodeID \/ s = SNodeIDHeuristic -> build beyond s a = Ok (Some p) -> 2 <= length p ->
  payload i = p /\ access g A_NodeID i = as_node (node_id_value p).
Proof.
  intros C S B L. destruct (@node_con c) as (R & F & K); [rewrite (proj1 C); exact S|]. assert (G : is_group s = false) by (destruct S as [-> | ->]; reflexivity).
  destruct (@calls_read g beyond c s a i p C G K B) as [P A]; [unfold con_min; rewrite R; exact L|].
  split; [exact P|]. rewrite <- R, A, F. cbn [leaf_run]. rewrite P. now rewrite node_body_value.
Qed.
Lemma node_read_v4 ip v6 n i x : calls g beyond N_NodeID SNodeID (Some ip, v6, n) (Ok (Some i)) -> to4 ip = Some x -> access g A_NodeID i = Ok (VNode (NodeIP (Some x))).
Proof.
  intros C T. destruct (@node_access N_NodeID SNodeID (Some ip, v6, n) i (0%N :: x) C) as [_ ->]; [now left| | |].
  - cbn [build]. now rewrite new_node_id_v4, T.
  - cbn [length]. rewrite (to4_len _ T). lia.
  - rewrite node_v4_value by exact (to4_len _ T). reflexivity.
Qed.
Lemma node_read_v6 ip n i x : calls g beyond N_NodeID SNodeID (None, Some ip, n) (Ok (Some i)) -> to16 ip = Some x -> access g A_NodeID i = Ok (VNode (NodeIP (Some x))).
Proof.
  intros C T. destruct (@node_access N_NodeID SNodeID (None, Some ip, n) i (1%N :: x) C) as [_ ->]; [now left| | |].
  - cbn [build]. now rewrite new_node_id_v6, T.
  - cbn [length]. rewrite (to16_len _ T). lia.
  - rewrite node_v6_value by exact (to16_len _ T). reflexivity.
Qed.
Lemma name_read c s a i n : calls g beyond c s a (Ok (Some i)) -> s = SNodeID \/ s = SNodeIDHeuristic -> build beyond s a = new_node_id None None n -> n <> [] -> bytes n ->
  (access g A_NodeID i = Ok (VNode (NodeName n)) <-> Forall (fun l => lenN l < 256)%N (split_dot n)).
Proof.
  intros C S B NE Hn. rewrite new_node_id_fqdn in B by exact NE. destruct (node_fqdn_value NE Hn) as (t & V & E).
  destruct (@node_access c s a i _ C S B) as [_ ->].
  - cbn [length]. rewrite split_total. lia.
  - rewrite V. cbn [as_node bind]. rewrite <- E. split; [now intros [= ->]|now intros ->].
Qed.
Lemma heuristic_read n ip i x : calls g beyond N_NodeIDHeuristic SNodeIDHeuristic (n, Some ip) (Ok (Some i)) ->
  match to4 (Some ip) with Some v => Some v | None => to16 (Some ip) end = Some x -> access g A_NodeID i = Ok (VNode (NodeIP (Some x))).
Proof.
  intros C T. pose proof (calls_verdict C) as V.
  assert (NE : n <> []). { intros ->. destruct C as [_ C]. discriminate C. } clear V.
  destruct (to4 (Some ip)) as [v|] eqn:F.
  - injection T as ->. destruct (@node_access N_NodeIDHeuristic SNodeIDHeuristic (n, Some ip) i (0%N :: x) C) as [_ ->]; [now right| | |].
    + cbn [build]. rewrite heuristic_ip by (reflexivity || exact NE). now rewrite F, new_node_id_v4, F.
    + cbn [length]. rewrite (to4_len _ F). lia.
    + rewrite node_v4_value by exact (to4_len _ F). reflexivity.
  - destruct (@node_access N_NodeIDHeuristic SNodeIDHeuristic (n, Some ip) i (1%N :: x) C) as [_ ->]; [now right| | |].
    + cbn [build]. rewrite heuristic_ip by (reflexivity || exact NE). now rewrite F, new_node_id_v6, T.
    + cbn [length]. rewrite (to16_len _ T). lia.
    + rewrite node_v6_value by exact (to16_len _ T). reflexivity.
Qed.
End Verdict.
