(** Which octets of the buffer MarshalTo leaves as they are. *)
From Verif Require Import Base Bits Codec Codec2 Utils Fields1 Fields2 Fields3 Fields4 Access Reuse AnySpec AnyProofs.
Set Implicit Arguments.

Definition fits (n : nat) (s : list N) : bool := n <=? length s.
Definition good4 (ip : bslice) : bool := notnil (to4 ip).
Definition good16 (ip : bslice) : bool := notnil (to16 ip).
(** The structs that fill the MarshalLen octets: each flagged address is one of the right size, no string is shorter than its length member,
    and the members that MarshalLen counts are those that MarshalTo writes. *)
Definition filled (f : fields) : bool :=
  match f with
  | F_fteid f => let fl := ft_flags f in bit fl 2 || implb (bit fl 0) (good4 (ft_v4 f)) && implb (bit fl 1) (good16 (ft_v6 f))
  | F_fseid f => let fl := fs_flags f in implb (notnil (fs_v4 f)) (bit fl 1 && good4 (fs_v4 f)) && implb (notnil (fs_v6 f)) (bit fl 0 && good16 (fs_v6 f))
  | F_ueip f => let fl := ue_flags f in implb (bit fl 1 && negb (bit fl 4)) (fits 4 (octs (ue_v4 f))) && implb (bit fl 0 && negb (bit fl 5)) (fits 16 (octs (ue_v6 f)))
  | F_altip f => implb (notnil (ai_v4 f)) (good4 (ai_v4 f)) && implb (notnil (ai_v6 f)) (good16 (ai_v6 f))
  | F_srcip f => let fl := si_flags f in implb (bit fl 1) (good4 (si_v4 f)) && implb (bit fl 0) (good16 (si_v6 f))
  | F_ulip f => let fl := ul_flags f in implb (bit fl 0) (good4 (ul_v4 f)) && implb (bit fl 1) (good16 (ul_v6 f)) && implb (bit fl 2) (good4 (ul_nv4 f)) && implb (bit fl 3) (good16 (ul_nv6 f))
  | F_mptcp f => let fl := mp_flags f in implb (bit fl 0) (good4 (mp_v4 f)) && implb (bit fl 1) (good16 (mp_v6 f))
  | F_pmf f => let fl := pm_flags f in implb (bit fl 0) (good4 (pm_v4 f)) && implb (bit fl 1) (good16 (pm_v6 f)) && fits 6 (octs (pm_mac1 f)) && fits 6 (octs (pm_mac2 f))
  | F_rpeer f => let fl := rg_flags f in
      implb (bit fl 1) (fits 4 (octs (rg_v4 f))) && implb (bit fl 0) (fits 16 (octs (rg_v6 f))) &&
      (if bit fl 4 && (bit fl 1 || bit fl 0) then N.to_nat (rg_dilen f) <=? 1 + (len_if (bit fl 1) 4 + len_if (bit fl 0) 16) else implb (bit fl 2) (rg_dilen f <=? 1)%N) &&
      implb (bit fl 3) (fits (N.to_nat (rg_nilen f)) (rg_ni f))
  | F_mcast f => let fl := mc_flags f in
      let room := len_if (notnil (mc_sv4 f)) 4 + len_if (notnil (mc_sv6 f)) 16 + len_if (notnil (mc_ev4 f)) 4 + len_if (notnil (mc_ev6 f)) 16 in
      let used := len_if (bit fl 1) 4 + len_if (bit fl 0) 16 + len_if (bit fl 2 && bit fl 1) 4 + len_if (bit fl 2 && bit fl 0) 16 in
      if bit fl 3 then room =? 0
      else (room <=? used) && implb (bit fl 1) (good4 (mc_sv4 f)) && implb (bit fl 0) (good16 (mc_sv6 f)) && implb (bit fl 2 && bit fl 1) (good4 (mc_ev4 f)) && implb (bit fl 2 && bit fl 0) (good16 (mc_ev6 f))
  | F_volm _ | F_vol3 _ | F_nue _ | F_delays _ | F_prate _ | F_dlfl _ | F_prstat _ | F_tag _ => true
  | F_sdf _ | F_pfdc _ => false
  | F_ohc f => let o := oct5 (oh_desc f) in
      implb (oh_has_v4 o) (fits 4 (octs (oh_v4 f))) && implb (oh_has_v6 o) (fits 16 (octs (oh_v6 f))) && negb ((bit o 6 || bit o 7) && oh_has_port o)
  | F_userid f => let fl := ui_flags f in
      implb (bit fl 0) (fits (N.to_nat (ui_imsilen f)) (bcd (ui_imsi f))) && implb (bit fl 1) (fits (N.to_nat (ui_imeilen f)) (bcd (ui_imei f))) &&
      implb (bit fl 2) (fits (N.to_nat (ui_msisdnlen f)) (bcd (ui_msisdn f))) && implb (bit fl 3) (fits (N.to_nat (ui_nailen f)) (ui_nai f))
  | F_henr f => (length (he_name f) =? N.to_nat (he_namelen f)) && (length (he_val f) =? N.to_nat (he_vallen f))
  | F_redir f => fits (N.to_nat (ri_len f)) (ri_addr f) && fits (N.to_nat (ri_olen f)) (ri_other f)
  | F_macaddr f => let fl := ma_flags f in
      len_if (notnil (ma_src f)) 6 + len_if (notnil (ma_dst f)) 6 + len_if (notnil (ma_usrc f)) 6 + len_if (notnil (ma_udst f)) 6 <=?
      len_if (bit fl 0) 6 + len_if (bit fl 1) 6 + len_if (bit fl 2) 6 + len_if (bit fl 3) 6
  | F_upri f => let fl := up_flags f in implb (bit fl 0) (fits 4 (octs (up_v4 f))) && implb (bit fl 1) (fits 16 (octs (up_v6 f)))
  | F_trace f => (3 <=? length (ti_mcc f)) && fits 3 (ti_id f) && fits (N.to_nat (ti_evlen f)) (octs (ti_ev f)) && fits (N.to_nat (ti_iflen f)) (octs (ti_ifs f)) && fits (N.to_nat (ti_iplen f)) (octs (ti_ip f))
  | F_macl f => forallb (fits 6) (ml_macs f) && (N.to_nat (ml_n f) <=? length (ml_macs f)) && fits (N.to_nat (ml_ctlen f)) (ml_ctag f) && fits (N.to_nat (ml_stlen f)) (ml_stag f)
  end.

(** segments *)
Lemma fit_in z n s : fits n s = true -> fit z n s = firstn n s.
Proof. intros H. apply Nat.leb_le in H. unfold fit. replace (n - length s) with 0 by lia. now rewrite app_nil_r. Qed.
Lemma fit_differ n s : fits n s = false -> fit 0 n s <> fit 1 n s.
Proof.
  intros H E. apply Nat.leb_gt in H. unfold fit in E. apply app_inv_head in E. destruct (n - length s) eqn:X; [lia|]. discriminate E.
Qed.
Lemma to4_length x v : to4 x = Some v -> length v = 4.
Proof.
  destruct x as [x|]; cbn [to4]; [|discriminate]. destruct (Nat.eqb_spec (length x) 4); [intros [= <-]; assumption|]. destruct (Nat.eqb_spec (length x) 16); [|discriminate].
  destruct (list_eq_dec _ _ _); [|discriminate]. intros E. assert (v = skipn 12 x) as -> by congruence. rewrite skipn_length. lia.
Qed.
Lemma to16_length x v : to16 x = Some v -> length v = 16.
Proof.
  destruct x as [x|]; cbn [to16]; [|discriminate]. destruct (Nat.eqb_spec (length x) 4); [intros E; assert (v = v4prefix ++ x) as -> by congruence; rewrite app_length; change (length v4prefix) with 12; lia|]. destruct (Nat.eqb_spec (length x) 16); [|discriminate]. now intros [= <-].
Qed.
Lemma good4_fits x : fits 4 (octs (to4 x)) = good4 x.
Proof. unfold good4. destruct (to4 x) as [v|] eqn:E; cbn [notnil octs]; [|reflexivity]. unfold fits. apply to4_length in E. now rewrite E. Qed.
Lemma good16_fits x : fits 16 (octs (to16 x)) = good16 x.
Proof. unfold good16. destruct (to16 x) as [v|] eqn:E; cbn [notnil octs]; [|reflexivity]. unfold fits. apply to16_length in E. now rewrite E. Qed.
Lemma good4_notnil x : good4 x = true -> notnil x = true. Proof. destruct x; [reflexivity|discriminate]. Qed.
Lemma good16_notnil x : good16 x = true -> notnil x = true. Proof. destruct x; [reflexivity|discriminate]. Qed.

Lemma cons_iff (x : N) a b : x :: a = x :: b <-> a = b. Proof. split; congruence. Qed.
Lemma app_iff (a a' b b' : list N) : length a = length a' -> (a ++ b = a' ++ b' <-> a = a' /\ b = b').
Proof.
  revert a'. induction a as [|x a IH]; intros [|y a'] H; cbn in *; try discriminate; [tauto|]. injection H as H. specialize (IH a' H). split.
  - intros E. injection E as -> E. apply IH in E. destruct E as [-> ->]. auto.
  - intros [E ->]. injection E as -> ->. reflexivity.
Qed.
Lemma fit_iff n s : fit 0 n s = fit 1 n s <-> fits n s = true.
Proof. destruct (fits n s) eqn:E; split; intros H; try reflexivity; try discriminate; [now rewrite !fit_in|]. now apply fit_differ in E. Qed.
Lemma left_iff k : left 0 k = left 1 k <-> k = 0. Proof. unfold left. destruct k; split; intros; try reflexivity; discriminate. Qed.
Lemma opts_iff c s s' (P : bool) : (s = s' <-> P = true) -> (opts c s = opts c s' <-> implb c P = true).
Proof. intros H. destruct c; cbn [opts implb]; tauto. Qed.
Lemma o_fit c n s : opts c (fit 0 n s) = opts c (fit 1 n s) <-> implb c (fits n s) = true. Proof. apply opts_iff, fit_iff. Qed.
Lemma o_conv4 c x : opts c (conv4 0 x) = opts c (conv4 1 x) <-> implb c (good4 x) = true. Proof. rewrite <- good4_fits. apply o_fit. Qed.
Lemma o_conv16 c x : opts c (conv16 0 x) = opts c (conv16 1 x) <-> implb c (good16 x) = true. Proof. rewrite <- good16_fits. apply o_fit. Qed.
Lemma o_raw4 c x : opts c (raw4 0 x) = opts c (raw4 1 x) <-> implb c (fits 4 (octs x)) = true. Proof. apply o_fit. Qed.
Lemma o_raw16 c x : opts c (raw16 0 x) = opts c (raw16 1 x) <-> implb c (fits 16 (octs x)) = true. Proof. apply o_fit. Qed.
Lemma str8_iff n s : str8 0 n s = str8 1 n s <-> fits (N.to_nat n) s = true. Proof. unfold str8. rewrite cons_iff. apply fit_iff. Qed.
Lemma str16_iff n s : str16 0 n s = str16 1 n s <-> fits (N.to_nat n) s = true. Proof. unfold str16. rewrite app_iff by reflexivity. rewrite fit_iff. tauto. Qed.
Lemma o_str8 c n s : opts c (str8 0 n s) = opts c (str8 1 n s) <-> implb c (fits (N.to_nat n) s) = true. Proof. apply opts_iff, str8_iff. Qed.
Lemma o_str16 c n s : opts c (str16 0 n s) = opts c (str16 1 n s) <-> implb c (fits (N.to_nat n) s) = true. Proof. apply opts_iff, str16_iff. Qed.
Lemma refl_iff (s : list N) : s = s <-> True. Proof. tauto. Qed.
Ltac ln := repeat (rewrite ?app_length, ?opts_length, ?fit_length, ?str8_length, ?str16_length; unfold conv4, conv16, raw4, raw16, left; rewrite ?repeat_length); reflexivity.
Ltac segs := repeat first [rewrite cons_iff|rewrite app_iff by ln];
  repeat rewrite ?cons_iff, ?o_conv4, ?o_conv16, ?o_raw4, ?o_raw16, ?o_str8, ?o_str16, ?o_fit, ?str8_iff, ?str16_iff, ?fit_iff, ?left_iff, ?refl_iff.
Ltac fin2 := segs; rewrite ?andb_true_iff; tauto.

Definition told (f : fields) : Prop := forall w0 w1, expected_on 0 f = Ok w0 -> expected_on 1 f = Ok w1 -> (w0 = w1 <-> filled f = true).
Lemma ok_iff (a b : list N) : Ok a = Ok b <-> a = b. Proof. split; congruence. Qed.
Ltac opn := intros w0 w1; cbn [expected_on filled]; cbv zeta; rewrite !ok_iff; intros <- <-.
Lemma ueip_told f : told (F_ueip f). Proof. opn. fin2. Qed.
Lemma altip_told f : told (F_altip f). Proof. opn. fin2. Qed.
Lemma srcip_told f : told (F_srcip f). Proof. opn. fin2. Qed.
Lemma ulip_told f : told (F_ulip f). Proof. opn. fin2. Qed.
Lemma mptcp_told f : told (F_mptcp f). Proof. opn. fin2. Qed.
Lemma pmf_told f : told (F_pmf f). Proof. opn. fin2. Qed.
Lemma volm_told f : told (F_volm f). Proof. opn. tauto. Qed.
Lemma vol3_told f : told (F_vol3 f). Proof. opn. tauto. Qed.
Lemma nue_told f : told (F_nue f). Proof. opn. tauto. Qed.
Lemma delays_told f : told (F_delays f). Proof. opn. tauto. Qed.
Lemma prate_told f : told (F_prate f). Proof. intros w0 w1. cbn [expected_on filled]. cbv zeta. intros -> E. split; [reflexivity|]. congruence. Qed.
Lemma dlfl_told f : told (F_dlfl f). Proof. intros w0 w1. cbn [expected_on filled]. cbv zeta. intros -> E. split; [reflexivity|]. congruence. Qed.
Lemma prstat_told f : told (F_prstat f). Proof. opn. tauto. Qed.
Lemma tag_told f : told (F_tag f). Proof. opn. tauto. Qed.
Lemma redir_told f : told (F_redir f). Proof. opn. fin2. Qed.
Lemma sdf_told f : told (F_sdf f). Proof. opn. split; discriminate. Qed.
Lemma pfdc_told f : told (F_pfdc f).
Proof. intros w0 w1. cbn [expected_on filled]. cbv zeta. destruct (_ <? _); [discriminate|]. rewrite !ok_iff. intros <- <-. split; discriminate. Qed.
Lemma fteid_told f : told (F_fteid f).
Proof.
  opn. destruct (bit (ft_flags f) 2); [cbn [orb]; tauto|]. cbn [orb]. segs. rewrite andb_true_iff. destruct (bit (ft_flags f) 0), (bit (ft_flags f) 1), (ft_v4 f) as [a|], (ft_v6 f) as [b|]; cbn [notnil andb negb implb len_if Nat.add good4 to4 good16 to16]; intuition (try discriminate; try lia).
Qed.
Lemma fseid_told f : told (F_fseid f).
Proof.
  opn. segs. rewrite andb_true_iff. destruct (bit (fs_flags f) 0), (bit (fs_flags f) 1), (fs_v4 f) as [a|], (fs_v6 f) as [b|]; cbn [notnil andb negb implb len_if Nat.add]; intuition (try discriminate; try lia).
Qed.
Lemma ohc_told f : told (F_ohc f).
Proof.
  opn. set (o := oct5 (oh_desc f)). destruct (bit o 6 || bit o 7); segs; rewrite ?andb_true_iff, ?negb_true_iff; cbn [andb]; [|intuition congruence].
  destruct (oh_has_port o); cbn [len_if]; intuition (try discriminate; try lia).
Qed.
Lemma userid_told f : told (F_userid f).
Proof. intros w0 w1. cbn [expected_on filled]. cbv zeta. destruct (_ && _ && _); [|discriminate]. rewrite !ok_iff. intros <- <-. fin2. Qed.
Lemma henr_told f : told (F_henr f).
Proof.
  intros w0 w1. cbn [expected_on filled]. cbv zeta. destruct (Nat.ltb_spec (length (he_name f) + length (he_val f)) (N.to_nat (he_namelen f) + N.to_nat (he_vallen f))) as [H|H]; [discriminate|]. rewrite !ok_iff. intros <- <-.
  segs. rewrite andb_true_iff, !Nat.eqb_eq. unfold fits. rewrite !Nat.leb_le. lia.
Qed.
Lemma upri_told f : told (F_upri f).
Proof.
  intros w0 w1. cbn [expected_on filled]. cbv zeta. set (fl := up_flags f). set (a := opts (teidri fl) _). set (d := opts (bit fl 5) _). set (e := opts (bit fl 6) _).
  assert (I : a ++ opts (bit fl 0) (raw4 0 (up_v4 f)) ++ opts (bit fl 1) (raw16 0 (up_v6 f)) ++ d ++ e = a ++ opts (bit fl 0) (raw4 1 (up_v4 f)) ++ opts (bit fl 1) (raw16 1 (up_v6 f)) ++ d ++ e <->
     implb (bit fl 0) (fits 4 (octs (up_v4 f))) && implb (bit fl 1) (fits 16 (octs (up_v6 f))) = true) by fin2.
  rewrite <- I. destruct (a ++ opts _ (raw4 0 _) ++ _); [discriminate|]. destruct (a ++ _); [discriminate|]. rewrite !ok_iff. intros <- <-. split; congruence.
Qed.
Lemma plmn_fits mcc mnc : digits_ok mcc && digits_ok mnc = true -> (length mnc =? 2) || (3 <=? length mcc) && (3 <=? length mnc) = true ->
  fits 3 (match encode_plmn mcc mnc with Ok p => p | _ => [] end) = (3 <=? length mcc).
Proof.
  intros D H. pose proof (plmn_any mcc mnc) as P. rewrite D, H in P. revert P. unfold encode_plmn. destruct (str_to_swapped mcc ascii_f) as [c| | |] eqn:C; cbn [bind]; try discriminate. destruct (str_to_swapped mnc ascii_f) as [n| | |] eqn:M; cbn [bind]; try discriminate.
  apply swapped_len in C, M. destruct (Nat.eqb_spec (length mnc) 2) as [E|E].
  - intros _. unfold fits. rewrite app_length, C, M, E. change (Nat.div2 3) with 1. pose proof (div2_2 (length mcc)). destruct (Nat.leb_spec 3 (length mcc)), (Nat.leb_spec 3 (Nat.div2 (S (length mcc)) + 1)); reflexivity || lia.
  - cbn [orb] in H. apply andb_prop in H. destruct H as [H1 H2]. rewrite H1. apply Nat.leb_le in H1, H2. apply div2_2 in H1, H2. rewrite <- C in H1. rewrite <- M in H2. destruct c as [|c0 [|c1 c]]; cbn [length] in H1; try lia. destruct n as [|n0 [|n1 n]]; cbn [length] in H2; try lia. reflexivity.
Qed.
Lemma trace_told f : told (F_trace f).
Proof.
  intros w0 w1. cbn [expected_on filled]. destruct (_ && _) eqn:D; [|discriminate]. destruct (_ || _) eqn:H; [|discriminate]. rewrite !ok_iff. intros <- <-. segs. rewrite plmn_fits by assumption. rewrite !andb_true_iff. tauto.
Qed.
Lemma map_fit l : concat (map (fit 0 6) l) = concat (map (fit 1 6) l) <-> forallb (fits 6) l = true.
Proof. induction l as [|a l IH]; cbn [map concat forallb]; [tauto|]. rewrite app_iff by ln. rewrite fit_iff, andb_true_iff, IH. tauto. Qed.
Lemma macs_length z l : length (concat (map (fit z 6) l)) = 6 * length l.
Proof. induction l as [|a l IH]; [reflexivity|]. cbn [map concat length]. rewrite app_length, fit_length, IH. lia. Qed.
Lemma macl_told f : told (F_macl f).
Proof.
  intros w0 w1. cbn [expected_on filled]. cbv zeta. destruct (Nat.ltb_spec (N.to_nat (ml_n f)) (length (ml_macs f))) as [H|H]; [discriminate|]. rewrite !ok_iff. intros <- <-.
  rewrite cons_iff. rewrite app_iff by (now rewrite !macs_length). rewrite map_fit. segs. rewrite !andb_true_iff, Nat.leb_le. intuition lia.
Qed.
Lemma mac_walk_told l : forall k w w0 w1, mac_walk 0 l k w = Ok w0 -> mac_walk 1 l k w = Ok w1 -> (w0 = w1 <-> k <= list_sum (map (fun x => len_if (fst x) 6) l)).
Proof.
  induction l as [|[[|] a] l IH]; intros k w w0 w1; cbn [mac_walk map fst list_sum fold_right len_if].
  - rewrite !ok_iff. intros <- <-. rewrite app_iff by reflexivity. rewrite left_iff. intuition lia.
  - destruct (Nat.ltb_spec k 6); [discriminate|]. destruct (_ <? 6); [discriminate|]. intros E0 E1. rewrite (IH _ _ _ _ E0 E1). unfold list_sum. lia.
  - intros E0 E1. rewrite (IH _ _ _ _ E0 E1). unfold list_sum. lia.
Qed.
Lemma macaddr_told f : told (F_macaddr f).
Proof.
  intros w0 w1. cbn [expected_on filled]. cbv zeta. intros E0 E1. rewrite (mac_walk_told _ _ _ E0 E1). rewrite Nat.leb_le. cbn [map fst list_sum fold_right]. lia.
Qed.
Lemma mcast_told f : told (F_mcast f).
Proof.
  intros w0 w1. cbn [expected_on filled]. cbv zeta. set (fl := mc_flags f). set (room := _ + _ + _ + _). destruct (bit fl 3); [rewrite !ok_iff; intros <- <-; segs; rewrite Nat.eqb_eq; tauto|].
  set (v := fun z => opts (bit fl 1) (conv4 z (mc_sv4 f)) ++ opts (bit fl 0) (conv16 z (mc_sv6 f)) ++ opts (bit fl 2 && bit fl 1) (conv4 z (mc_ev4 f)) ++ opts (bit fl 2 && bit fl 0) (conv16 z (mc_ev6 f))).
  assert (L : forall z, length (v z) = len_if (bit fl 1) 4 + len_if (bit fl 0) 16 + len_if (bit fl 2 && bit fl 1) 4 + len_if (bit fl 2 && bit fl 0) 16).
  { intros z. unfold v, conv4, conv16. rewrite !app_length, !opts_length, !fit_length. lia. }
  fold (v 0%N). fold (v 1%N). rewrite !L. set (used := len_if (bit fl 1) 4 + _ + _ + _). destruct (Nat.ltb_spec room used) as [H|H]; [discriminate|]. rewrite !ok_iff. intros <- <-.
  rewrite cons_iff. rewrite app_iff by (now rewrite !L). unfold v. segs. rewrite !andb_true_iff, Nat.leb_le. intuition lia.
Qed.
Lemma rpeer_told f : told (F_rpeer f).
Proof.
  intros w0 w1. cbn [expected_on filled]. cbv zeta. set (fl := rg_flags f). destruct (_ && (_ || negb _)) eqn:E1; [discriminate|].
  assert (L : forall z, length (rp_addrs z f) = len_if (bit fl 1) 4 + len_if (bit fl 0) 16) by (intros z; unfold rp_addrs, raw4, raw16; fold fl; rewrite app_length, !opts_length, !fit_length; reflexivity).
  assert (A : rp_addrs 0 f = rp_addrs 1 f <-> implb (bit fl 1) (fits 4 (octs (rg_v4 f))) && implb (bit fl 0) (fits 16 (octs (rg_v6 f))) = true) by (unfold rp_addrs; fold fl; fin2).
  rewrite !L. destruct (bit fl 4 && (bit fl 1 || bit fl 0)) eqn:E2.
  - destruct (negb (bit fl 3)) eqn:B3; cbn [andb]; [|discriminate]. apply negb_true_iff in B3. match goal with |- context [?x <? ?y] => destruct (Nat.ltb_spec x y) as [X|X] end; [|discriminate]. rewrite !ok_iff. intros <- <-.
    rewrite cons_iff. rewrite app_iff by (now rewrite !L). rewrite A. segs. rewrite B3. cbn [implb]. rewrite !andb_true_iff, Nat.leb_le. cbn [app]. rewrite ?cons_iff, ?left_iff. intuition lia.
  - destruct (_ && (_ =? 0)%N) eqn:E3; [discriminate|]. rewrite !ok_iff. intros <- <-. rewrite cons_iff. rewrite app_iff by (now rewrite !L). rewrite A.
    rewrite app_iff by (rewrite !opts_length, !app_length, !fit_length; reflexivity). segs. rewrite !andb_true_iff.
    assert (D : opts (bit fl 2) (be 2 (rg_dilen f) ++ fit 0 (N.to_nat (rg_dilen f)) [rg_di f]) = opts (bit fl 2) (be 2 (rg_dilen f) ++ fit 1 (N.to_nat (rg_dilen f)) [rg_di f]) <-> implb (bit fl 2) (rg_dilen f <=? 1)%N = true).
    { apply opts_iff. rewrite app_iff by reflexivity. rewrite fit_iff. unfold fits. cbn [length]. rewrite Nat.leb_le, N.leb_le. intuition lia. }
    rewrite D. tauto.
Qed.
Theorem fields_told f : told f.
Proof.
  destruct f as [x|x|x|x|x|x|x|x|x|x|x|x|x|x|x|x|x|x|x|x|x|x|x|x|x|x|x|x].
  - exact (@fteid_told x).
  - exact (@fseid_told x).
  - exact (@ueip_told x).
  - exact (@altip_told x).
  - exact (@srcip_told x).
  - exact (@ulip_told x).
  - exact (@mptcp_told x).
  - exact (@pmf_told x).
  - exact (@rpeer_told x).
  - exact (@mcast_told x).
  - exact (@volm_told x).
  - exact (@vol3_told x).
  - exact (@nue_told x).
  - exact (@delays_told x).
  - exact (@prate_told x).
  - exact (@dlfl_told x).
  - exact (@prstat_told x).
  - exact (@tag_told x).
  - exact (@sdf_told x).
  - exact (@ohc_told x).
  - exact (@userid_told x).
  - exact (@henr_told x).
  - exact (@redir_told x).
  - exact (@macaddr_told x).
  - exact (@upri_told x).
  - exact (@trace_told x).
  - exact (@pfdc_told x).
  - exact (@macl_told x).
Qed.
