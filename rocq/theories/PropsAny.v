(** C95: Marshal of a struct with arbitrary contents. *)
From Verif Require Import Base Bits Codec Codec2 Utils Fields1 Fields2 Fields3 Fields4 Access Reuse AnySpec AnyProofs.
From Verif Require Import UtilsProofs NewProofs6.
Set Implicit Arguments.
Local Notation fit := (AnySpec.fit 0).
Local Notation str8 := (AnySpec.str8 0).
Local Notation str16 := (AnySpec.str16 0).
Local Notation conv4 := (AnySpec.conv4 0).
Local Notation conv16 := (AnySpec.conv16 0).
Local Notation raw4 := (AnySpec.raw4 0).
Local Notation raw16 := (AnySpec.raw16 0).
Local Notation rp_addrs := (AnySpec.rp_addrs 0).
Local Notation mac_walk := (AnySpec.mac_walk 0).
Local Notation zeros := (AnySpec.left 0).

(** The exact outcome, for every struct and all contents. *)
Theorem C95_exact : forall f, marshal_fields f = expected f.
Proof. exact fields_any. Qed.
Print Assumptions C95_exact.

(** Which contents are refused, and which make Marshal panic. *)
Definition refused (f : fields) : bool :=
  match f with
  | F_rpeer f => let fl := rg_flags f in negb (bit fl 2) && negb (bit fl 3) && (bit fl 4 || negb (bit fl 1 || bit fl 0))
  | F_mcast f => let fl := mc_flags f in
      negb (bit fl 3) &&
      (len_if (notnil (mc_sv4 f)) 4 + len_if (notnil (mc_sv6 f)) 16 + len_if (notnil (mc_ev4 f)) 4 + len_if (notnil (mc_ev6 f)) 16 <?
       len_if (bit fl 1) 4 + len_if (bit fl 0) 16 + len_if (bit fl 2 && bit fl 1) 4 + len_if (bit fl 2 && bit fl 0) 16)
  | F_prate f => negb (bit (pr_flags f) 0 || bit (pr_flags f) 1)
  | F_dlfl f => negb (bit (dm_flags f) 0 || bit (dm_flags f) 1)
  | F_userid f => let fl := ui_flags f in bit fl 0 && negb (digits_ok (ui_imsi f)) || bit fl 1 && negb (digits_ok (ui_imei f)) || bit fl 2 && negb (digits_ok (ui_msisdn f))
  | F_upri f => let fl := up_flags f in negb (teidri fl || bit fl 0 || bit fl 1 || bit fl 5 && negb (length (up_ni f) =? 0) || bit fl 6)
  | F_trace f => negb (digits_ok (ti_mcc f) && digits_ok (ti_mnc f))
  | _ => false
  end.
Definition panics (f : fields) : bool :=
  match f with
  | F_rpeer f => let fl := rg_flags f in
      if bit fl 4 && (bit fl 1 || bit fl 0)
      then bit fl 3 || bit fl 2 && (N.to_nat (rg_dilen f) <=? len_if (bit fl 1) 4 + len_if (bit fl 0) 16)
      else bit fl 2 && negb (bit fl 3) && (rg_dilen f =? 0)%N
  | F_henr f => length (he_name f) + length (he_val f) <? N.to_nat (he_namelen f) + N.to_nat (he_vallen f)
  | F_trace f => digits_ok (ti_mcc f) && digits_ok (ti_mnc f) && negb (length (ti_mnc f) =? 2) && ((length (ti_mcc f) <? 3) || (length (ti_mnc f) <? 3))
  | F_pfdc f => pfd_said f <? pfd_real f
  | F_macl f => N.to_nat (ml_n f) <? length (ml_macs f)
  | _ => false
  end.
Definition is_macaddr (f : fields) : bool := match f with F_macaddr _ => true | _ => false end.
Lemma opts_nil c s : opts c s = [] <-> c = false \/ s = []. Proof. unfold opts. destruct c; intuition (try discriminate; auto). Qed.
Lemma verdict f : is_macaddr f = false ->
  match marshal_fields f with
  | Ok w => refused f = false /\ panics f = false
  | Err e => refused f = true /\ e = match f with F_userid _ | F_trace _ => EHex | _ => EUnexpectedEOF end
  | Fault => refused f = false /\ panics f = true
  | Fuel => False
  end.
Proof.
  rewrite fields_any. destruct f as [f|f|f|f|f|f|f|f|f|f|f|f|f|f|f|f|f|f|f|f|f|f|f|f|f|f|f|f]; cbn [is_macaddr]; intros M; try discriminate M; clear M; cbn [refused panics]; try (cbn [expected_on]; split; reflexivity).
  - cbn [expected_on]. cbv zeta. unfold rp_rest. set (fl := rg_flags f). assert (L : length (rp_addrs f) = len_if (bit fl 1) 4 + len_if (bit fl 0) 16).
    { unfold AnySpec.rp_addrs. fold fl. rewrite app_length. unfold AnySpec.raw4, raw16. destruct (bit fl 1), (bit fl 0); cbn [opts len_if]; rewrite ?fit_length; reflexivity. }
    rewrite L. destruct (bit fl 4) eqn:B4, (bit fl 1) eqn:B1, (bit fl 0) eqn:B0, (bit fl 2) eqn:B2, (bit fl 3) eqn:B3; cbn [len_if andb orb negb Nat.add Nat.eqb];
      repeat match goal with |- context [?a <? ?b] => destruct (Nat.ltb_spec a b) | |- context [?a <=? ?b] => destruct (Nat.leb_spec a b) | |- context [(?a =? ?b)%N] => destruct (N.eqb_spec a b) end; try lia; try (split; reflexivity); auto.
  - cbn [expected_on]. cbv zeta. set (fl := mc_flags f). destruct (bit fl 3); [split; reflexivity|]. cbn [negb andb]. unfold AnySpec.conv4, conv16. rewrite !app_length, !opts_length, !fit_length, !Nat.add_assoc. destruct (_ <? _); split; reflexivity.
  - cbn [expected_on]. cbv zeta. destruct (_ || _); split; reflexivity.
  - cbn [expected_on]. cbv zeta. destruct (_ || _); split; reflexivity.
  - cbn [expected_on]. cbv zeta. destruct (bit (ui_flags f) 0), (bit (ui_flags f) 1), (bit (ui_flags f) 2), (digits_ok (ui_imsi f)), (digits_ok (ui_imei f)), (digits_ok (ui_msisdn f)); split; reflexivity.
  - cbn [expected_on]. cbv zeta. destruct (_ <? _); split; reflexivity.
  - cbn [expected_on]. cbv zeta. set (fl := up_flags f). unfold AnySpec.raw4, raw16. destruct (teidri fl); [split; reflexivity|].
    assert (F4 : forall s, exists a r, fit 4 s = a :: r) by (intros s; destruct (fit 4 s) eqn:E; [apply (f_equal (@length N)) in E; rewrite fit_length in E; discriminate|eauto]).
    assert (F16 : forall s, exists a r, fit 16 s = a :: r) by (intros s; destruct (fit 16 s) eqn:E; [apply (f_equal (@length N)) in E; rewrite fit_length in E; discriminate|eauto]).
    destruct (F4 (octs (up_v4 f))) as (? & ? & ->), (F16 (octs (up_v6 f))) as (? & ? & ->). destruct (bit fl 0); [split; reflexivity|]. destruct (bit fl 1); [split; reflexivity|].
    destruct (bit fl 5), (up_ni f), (bit fl 6); split; reflexivity.
  - cbn [expected_on]. destruct (_ && _); [|split; reflexivity]. destruct (length (ti_mnc f) =? 2); [split; reflexivity|]. cbn [orb negb andb].
    destruct (Nat.leb_spec 3 (length (ti_mcc f))), (Nat.leb_spec 3 (length (ti_mnc f))), (Nat.ltb_spec (length (ti_mcc f)) 3), (Nat.ltb_spec (length (ti_mnc f)) 3); try lia; split; reflexivity.
  - cbn [expected_on]. cbv zeta. destruct (_ <? _); split; reflexivity.
  - cbn [expected_on]. cbv zeta. destruct (_ <? _); split; reflexivity.
Qed.
Theorem C95_panic_exact : forall f, is_macaddr f = false -> (marshal_fields f = Fault <-> panics f = true /\ refused f = false).
Proof. intros f H. pose proof (verdict f H) as V. destruct (marshal_fields f); intuition congruence. Qed.
Print Assumptions C95_panic_exact.
Theorem C95_error_exact : forall f, is_macaddr f = false -> ((exists e, marshal_fields f = Err e) <-> refused f = true).
Proof.
  intros f H. pose proof (verdict f H) as V. destruct (marshal_fields f) as [w|e| |].
  - split; [intros [e K]; discriminate K|]. destruct V; congruence.
  - split; [intros _; exact (proj1 V)|eauto].
  - split; [intros [e K]; discriminate K|]. destruct V; congruence.
  - contradiction.
Qed.
Print Assumptions C95_error_exact.
(** MAC Address: with 6 octets or more in each flagged address, the result depends on the numbers of flagged and of non-nil addresses alone. *)
Definition count_true (l : list bool) : nat := length (filter (fun b => b) l).
Lemma mac_walk_ok l : forall k w, (forall a, In (true, a) l -> 6 <= length (octs a)) ->
  mac_walk l (6 * k) w = if k <? count_true (map fst l) then Err EUnexpectedEOF else Ok (w ++ concat (map (fun x => opts (fst x) (firstn 6 (octs (snd x)))) l) ++ zeros (6 * (k - count_true (map fst l)))).
Proof.
  induction l as [|[[|] a] l IH]; intros k w H; cbn [AnySpec.mac_walk map fst snd concat opts app].
  - now rewrite Nat.sub_0_r.
  - change (count_true (true :: map fst l)) with (S (count_true (map fst l))). destruct k as [|k]; [reflexivity|]. destruct (Nat.ltb_spec (6 * S k) 6); [lia|]. destruct (Nat.ltb_spec (length (octs a)) 6) as [X|_]; [specialize (H a (or_introl eq_refl)); lia|].
    replace (6 * S k - 6) with (6 * k) by lia. rewrite IH by (intros b Hb; apply H; now right). change (S k <? S ?x) with (k <? x). change (S k - S ?x) with (k - x). destruct (_ <? _); [reflexivity|]. now rewrite <- !app_assoc.
  - rewrite IH by (intros b Hb; apply H; now right). reflexivity.
Qed.
Definition mac_members (f : macaddr) : list (bool * bslice) := [(bit (ma_flags f) 0, ma_src f); (bit (ma_flags f) 1, ma_dst f); (bit (ma_flags f) 2, ma_usrc f); (bit (ma_flags f) 3, ma_udst f)].
Theorem C95_mac : forall f, let l := mac_members f in let flagged := count_true (map fst l) in let given := count_true (map (fun x => notnil (snd x)) l) in
  (forall a, In (true, a) l -> 6 <= length (octs a)) ->
  marshal_fields (F_macaddr f) = if given <? flagged then Err EUnexpectedEOF
    else Ok (ma_flags f :: concat (map (fun x => opts (fst x) (firstn 6 (octs (snd x)))) l) ++ zeros (6 * (given - flagged))).
Proof.
  intros f l flagged given H. rewrite fields_any. cbn [expected_on]. cbv zeta. fold (mac_members f). fold l.
  replace (len_if (notnil (ma_src f)) 6 + _ + _ + _) with (6 * given) by (unfold given, l, mac_members; cbn [map snd]; destruct (notnil (ma_src f)), (notnil (ma_dst f)), (notnil (ma_usrc f)), (notnil (ma_udst f)); reflexivity).
  rewrite mac_walk_ok by exact H. reflexivity.
Qed.
Print Assumptions C95_mac.
(** a flagged address of fewer than 6 octets makes Marshal panic, if it is the first that is flagged *)
Theorem C95_mac_panic : forall f, bit (ma_flags f) 0 = true -> notnil (ma_src f) = true -> length (octs (ma_src f)) < 6 -> marshal_fields (F_macaddr f) = Fault.
Proof.
  intros f H0 Hn H. rewrite fields_any. cbn [expected_on]. cbv zeta. rewrite H0, Hn. cbn [AnySpec.mac_walk len_if Nat.add]. change (S ?x <? 6) with (S x <? 6). destruct (Nat.ltb_spec (length (octs (ma_src f))) 6); [|lia].
  match goal with |- (if ?x then _ else _) = _ => replace x with false by (symmetry; apply Nat.ltb_ge; lia) end. reflexivity.
Qed.
Print Assumptions C95_mac_panic.

(** Whenever there is a result it has the length that MarshalLen announces. *)
Lemma fit_l n s : length (fit n s) = n. Proof. apply fit_length. Qed.
Lemma zeros_l n : length (zeros n) = n. Proof. apply repeat_length. Qed.
Lemma mac_walk_len l : forall k w r, mac_walk l k w = Ok r -> length r = length w + k.
Proof.
  induction l as [|[[|] a] l IH]; intros k w r; cbn [AnySpec.mac_walk]; [intros [= <-]; now rewrite app_length, zeros_l| |apply IH].
  destruct (Nat.ltb_spec k 6); [discriminate|]. destruct (Nat.ltb_spec (length (octs a)) 6); [discriminate|]. intros E. apply IH in E. rewrite E, app_length, firstn_length. lia.
Qed.
Ltac lensx := repeat (rewrite ?app_length, ?opts_length, ?be_length, ?fit_l, ?zeros_l, ?str16_length, ?str8_length; cbn [length Nat.add]).
Lemma macs_length l : length (concat (map (fit 6) l)) = 6 * length l.
Proof. induction l as [|a l IH]; [reflexivity|]. cbn [map concat length]. rewrite app_length, fit_l, IH. lia. Qed.
Theorem C95_length : forall f w, marshal_fields f = Ok w -> length w = marshal_len_fields f.
Proof.
  intros f w. rewrite fields_any. destruct f as [f|f|f|f|f|f|f|f|f|f|f|f|f|f|f|f|f|f|f|f|f|f|f|f|f|f|f|f]; cbn [expected_on marshal_len_fields]; cbv zeta; unfold AnySpec.conv4, conv16, raw4, raw16.
  - unfold fteid_marshal_len. intros [= <-]. bits. unfold bit. destruct (N.testbit (ft_flags f) 2), (N.testbit (ft_flags f) 3), (N.testbit (ft_flags f) 0), (N.testbit (ft_flags f) 1), (notnil (ft_v4 f)), (notnil (ft_v6 f)); lensx; reflexivity.
  - unfold fseid_marshal_len. intros [= <-]. unfold bit. bits. destruct (N.testbit (fs_flags f) 0), (N.testbit (fs_flags f) 1), (notnil (fs_v4 f)), (notnil (fs_v6 f)); lensx; reflexivity.
  - unfold ueip_marshal_len. intros [= <-]. unfold bit. bits. lensx. lia.
  - unfold altip_marshal_len. intros [= <-]. lensx. lia.
  - unfold srcip_marshal_len. intros [= <-]. unfold bit. bits. lensx. lia.
  - unfold ulip_marshal_len. intros [= <-]. unfold bit. bits. lensx. lia.
  - unfold mptcp_marshal_len. intros [= <-]. unfold bit. bits. lensx. lia.
  - unfold pmf_marshal_len. intros [= <-]. unfold bit. bits. lensx. lia.
  - unfold rpeer_marshal_len, rp_rest. set (fl := rg_flags f). assert (L : length (rp_addrs f) = len_if (bit fl 1) 4 + len_if (bit fl 0) 16).
    { unfold AnySpec.rp_addrs. fold fl. rewrite app_length. unfold AnySpec.raw4, raw16. destruct (bit fl 1), (bit fl 0); cbn [opts len_if]; rewrite ?fit_length; reflexivity. }
    bits. unfold bit in *. destruct (_ && (_ || negb _)) eqn:E1; [discriminate|]. destruct (N.testbit fl 4 && _) eqn:E2.
    + destruct (_ && (_ <? _)) eqn:E3; [|discriminate]. apply andb_prop in E2, E3. destruct E2 as [B4 BA], E3 as [B3 X]. apply Nat.ltb_lt in X. intros [= <-]. rewrite B4 in *. apply negb_true_iff in B3. rewrite B3 in *. cbn [negb]. rewrite !andb_false_r. cbn [orb] in E1. rewrite andb_true_r in E1.
      lensx. destruct (N.testbit fl 2); [|discriminate E1]. cbn [len_if]. lia.
    + destruct (_ && (_ =? 0)%N); [discriminate|]. intros [= <-]. lensx. rewrite L. destruct (N.testbit fl 4), (N.testbit fl 1), (N.testbit fl 0); try discriminate E2; cbn [andb negb len_if]; lia.
  - unfold mcast_marshal_len. destruct (bit (mc_flags f) 3); [intros [= <-]; lensx; lia|]. match goal with |- context [?a <? ?b] => destruct (Nat.ltb_spec a b) as [X|X] end; [discriminate|]. intros [= <-]. revert X. lensx. lia.
  - unfold volm_marshal_len. intros [= <-]. unfold bit. bits. lensx. lia.
  - unfold vol3_marshal_len. intros [= <-]. unfold bit. bits. lensx. lia.
  - unfold nue_marshal_len. intros [= <-]. unfold bit. bits. lensx. lia.
  - unfold delays_marshal_len. intros [= <-]. unfold bit. bits. lensx. lia.
  - unfold prate_marshal_len. destruct (_ || _); [|discriminate]. intros [= <-]. unfold bit. bits. lensx. lia.
  - unfold dlfl_marshal_len. destruct (_ || _); [|discriminate]. intros [= <-]. unfold bit. bits. lensx. lia.
  - unfold prstat_marshal_len. intros [= <-]. unfold bit. bits. lensx. destruct (N.testbit (ps_flags f) 0), (N.testbit (ps_flags f) 1), (N.testbit (ps_flags f) 2); reflexivity.
  - intros [= <-]. reflexivity.
  - unfold sdf_marshal_len. intros [= <-]. unfold bit. bits. lensx. lia.
  - unfold ohc_marshal_len. intros [= <-]. unfold bit. bits. lensx. destruct (N.testbit (oct5 (oh_desc f)) 6), (N.testbit (oct5 (oh_desc f)) 7); cbn [orb]; lensx; cbn [len_if]; lia.
  - unfold userid_marshal_len. destruct (_ && _); [|discriminate]. intros [= <-]. unfold bit. bits. lensx. rewrite ?str8_length. lia.
  - unfold henr_marshal_len. destruct (Nat.ltb_spec (length (he_name f) + length (he_val f)) (N.to_nat (he_namelen f) + N.to_nat (he_vallen f))); [discriminate|]. intros [= <-]. lensx. lia.
  - unfold redir_marshal_len. intros [= <-]. lensx. lia.
  - unfold macaddr_marshal_len. intros E. apply mac_walk_len in E. rewrite E. cbn [length]. lia.
  - unfold upri_marshal_len. intros E. match type of E with match ?w with _ => _ end = _ => assert (E' : length w = length w) by reflexivity; revert E E'; generalize w at 1 2 3 end.
    intros [|a r] E E'; [discriminate|]. injection E as <-. cbn [length] in *. rewrite E'. unfold bit. bits. lensx. lia.
  - unfold trace_marshal_len. destruct (_ && _); [|discriminate]. destruct (_ || _); [|discriminate]. intros [= <-]. lensx. lia.
  - unfold pfdc_marshal_len. destruct (Nat.ltb_spec (pfd_said f) (pfd_real f)) as [X|X]; [discriminate|]. intros E. assert (Oi : forall a b : list N, Ok a = Ok b -> a = b) by congruence. apply Oi in E. subst w. revert X. unfold pfd_said, pfd_real, pfd_lists, items_len. cbn [map list_sum fold_right]. unfold bit. bits. cbn [length]. repeat rewrite ?app_length, ?opts_length, ?be_length, ?fit_l, ?zeros_l, ?str16_length. unfold pfd_said, pfd_real, pfd_lists, items_len. cbn [map list_sum fold_right]. unfold bit. rewrite !len_if_plus. lia.
  - unfold macl_marshal_len. destruct (Nat.ltb_spec (N.to_nat (ml_n f)) (length (ml_macs f))) as [X|X]; [discriminate|]. intros E. assert (Oi : forall a b : list N, Ok a = Ok b -> a = b) by congruence. apply Oi in E. subst w. cbn [length]. rewrite !app_length, macs_length, !str8_length, zeros_l. lia.
Qed.
Print Assumptions C95_length.

(** * What goes wrong without an error *)
(** An IPv4 address in its 16-octet form (as net.ParseIP and net.IPv4 return it) in the IPv4 member: four types write its first four octets,
    that is 0.0.0.0; the others write the address. *)
Definition mapped (a b c d : N) : bslice := Some [0; 0; 0; 0; 0; 0; 0; 0; 0; 0; 255; 255; a; b; c; d]%N.
Theorem C95_mapped_refuted : forall a b c d,
  marshal_fields (F_ueip {| ue_flags := 2; ue_v4 := mapped a b c d; ue_v6 := None; ue_v6d := 0; ue_v6pl := 0 |}) = Ok [2; 0; 0; 0; 0]%N /\
  marshal_fields (F_ohc {| oh_desc := 0x400; oh_teid := 0; oh_v4 := mapped a b c d; oh_v6 := None; oh_port := 2152; oh_ctag := 0; oh_stag := 0 |}) = Ok [4; 0; 0; 0; 0; 0; 8; 104]%N /\
  marshal_fields (F_rpeer {| rg_flags := 2; rg_v4 := mapped a b c d; rg_v6 := None; rg_dilen := 0; rg_di := 0; rg_nilen := 0; rg_ni := [] |}) = Ok [2; 0; 0; 0; 0]%N /\
  marshal_fields (F_upri {| up_flags := 1; up_range := 0; up_v4 := mapped a b c d; up_v6 := None; up_ni := []; up_si := 0 |}) = Ok [1; 0; 0; 0; 0]%N /\
  (* the others *)
  marshal_fields (F_fteid {| ft_flags := 1; ft_teid := 7; ft_v4 := mapped a b c d; ft_v6 := None; ft_chid := 0 |}) = Ok [1; 0; 0; 0; 7; a; b; c; d]%N /\
  marshal_fields (F_fseid {| fs_flags := 2; fs_seid := 7; fs_v4 := mapped a b c d; fs_v6 := None |}) = Ok [2; 0; 0; 0; 0; 0; 0; 0; 7; a; b; c; d]%N /\
  marshal_fields (F_srcip {| si_flags := 2; si_v4 := mapped a b c d; si_v6 := None; si_mpl := 0 |}) = Ok [2; a; b; c; d]%N.
Proof. intros. repeat split. Qed.
Print Assumptions C95_mapped_refuted.
(** F-TEID: a flagged but nil IPv4 address is zeros out, so the IPv6 address takes its place and the room is filled with zeros at the end:
    a reader finds the first octets of the IPv6 address as the IPv4 address. *)
Theorem C95_fteid_shift_refuted : forall t v6 chid, length v6 = 16 ->
  let f := {| ft_flags := 3; ft_teid := t; ft_v4 := None; ft_v6 := Some v6; ft_chid := chid |} in
  marshal_fields (F_fteid f) = Ok (3%N :: be 4 t ++ v6 ++ zeros 4) /\
  forall w, marshal_fields (F_fteid f) = Ok w -> exists g, fteid_parse w = Ok g /\ ft_v4 g = Some (firstn 4 v6) /\ ft_v6 g = Some (skipn 4 v6 ++ zeros 4).
Proof.
  intros t v6 chid L f. assert (E : marshal_fields (F_fteid f) = Ok (3%N :: be 4 t ++ v6 ++ zeros 4)).
  { rewrite fields_any. cbn [expected_on f ft_flags ft_teid ft_v4 ft_v6 ft_chid notnil]. cbv zeta. unfold bit. cbn [N.testbit Pos.testbit andb negb len_if Nat.add]. unfold AnySpec.conv16. cbn [to16]. rewrite L. cbn [Nat.eqb octs]. rewrite (fit_full 0 v6 L). cbn [opts app]. reflexivity. }
  split; [exact E|]. intros w Hw. rewrite E in Hw. injection Hw as <-. do 16 (destruct v6 as [|? v6]; [discriminate L|]). destruct v6; [|discriminate L]. eexists. split; [reflexivity|]. split; reflexivity.
Qed.
Print Assumptions C95_fteid_shift_refuted.
(** Outer Header Creation with a tag: the port number is overwritten by the tag and the payload ends with left. *)
Theorem C95_ohc_port_refuted : forall v4 port tag, length v4 = 4 ->
  marshal_fields (F_ohc {| oh_desc := 0x4400; oh_teid := 0; oh_v4 := Some v4; oh_v6 := None; oh_port := port; oh_ctag := tag; oh_stag := 0 |}) = Ok (be 2 0x4400 ++ v4 ++ be 3 tag ++ [0; 0]%N).
Proof. intros v4 port tag L. rewrite fields_any. do 4 (destruct v4 as [|? v4]; [discriminate L|]). destruct v4; [reflexivity|discriminate L]. Qed.
Print Assumptions C95_ohc_port_refuted.

(** * Examples *)
(** an IMSI that is not of hexadecimal digits; a MAC list that says fewer than it has; a PLMN of two and three digits *)
Example C95_example : 
  marshal_fields (F_userid {| ui_flags := 1; ui_imsilen := 2; ui_imsi := [49; 120]; ui_imeilen := 0; ui_imei := []; ui_msisdnlen := 0; ui_msisdn := []; ui_nailen := 0; ui_nai := [] |})%N = Err EHex /\
  marshal_fields (F_macl {| ml_n := 0; ml_macs := [[1; 2; 3; 4; 5; 6]]; ml_ctlen := 0; ml_ctag := []; ml_stlen := 0; ml_stag := [] |})%N = Fault /\
  marshal_fields (F_macl {| ml_n := 1; ml_macs := [[1; 2; 3; 4; 5; 6]]; ml_ctlen := 2; ml_ctag := [8]; ml_stlen := 0; ml_stag := [] |})%N = Ok [1; 1; 2; 3; 4; 5; 6; 2; 8; 0; 0]%N /\
  panics (F_macl {| ml_n := 0; ml_macs := [[1; 2; 3; 4; 5; 6]]; ml_ctlen := 0; ml_ctag := []; ml_stlen := 0; ml_stag := [] |})%N = true.
Proof. repeat split. Qed.
Example C95_example_mac : let f := {| ma_flags := 3; ma_src := Some [1; 2; 3; 4; 5; 6]%N; ma_dst := Some [7; 8; 9; 10; 11; 12; 13]%N; ma_usrc := Some []; ma_udst := None |} in
  (forall a, In (true, a) (mac_members f) -> 6 <= length (octs a)) /\ marshal_fields (F_macaddr f) = Ok [3; 1; 2; 3; 4; 5; 6; 7; 8; 9; 10; 11; 12; 0; 0; 0; 0; 0; 0]%N.
Proof. split; [|reflexivity]. cbn. intros a H. repeat (destruct H as [H|H]; [injection H; intros; try discriminate; subst; cbn; lia|]). contradiction. Qed.
