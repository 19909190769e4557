(** Encoding after UnmarshalBinary on a used struct. *)
From Verif Require Import Base Bits Codec Codec2 Utils Fields1 Time Fields2 Fields3 FieldsProofs3b FieldsProofs3d Fields4 Access Reuse ReuseSpec FieldsProofs4d ReuseProofs ReuseProofs2.
Set Implicit Arguments.

Ltac enc := prj; unfold wrn, wrb, cpn, cpb, cp8s, cp16s, len_if, pick; bits;
  repeat match goal with |- context [N.testbit ?a ?i] => destruct (N.testbit a i); prj end; reflexivity.
Lemma fteid_same f x : fteid_marshal (kept_fteid f x) = fteid_marshal x.
Proof. unfold fteid_marshal, fteid_marshal_to, fteid_marshal_len, kept_fteid. enc. Qed.
Lemma ueip_same f x : ueip_marshal (kept_ueip f x) = ueip_marshal x.
Proof. unfold ueip_marshal, ueip_marshal_to, ueip_marshal_len, kept_ueip. enc. Qed.
Lemma srcip_same f x : srcip_marshal (kept_srcip f x) = srcip_marshal x.
Proof. unfold srcip_marshal, srcip_marshal_to, srcip_marshal_len, kept_srcip. enc. Qed.
Lemma ulip_same f x : ulip_marshal (kept_ulip f x) = ulip_marshal x.
Proof. unfold ulip_marshal, ulip_marshal_to, ulip_marshal_len, kept_ulip. enc. Qed.
Lemma mptcp_same f x : mptcp_marshal (kept_mptcp f x) = mptcp_marshal x.
Proof. unfold mptcp_marshal, mptcp_marshal_to, mptcp_marshal_len, kept_mptcp. enc. Qed.
Lemma rpeer_same f x : rpeer_marshal (kept_rpeer f x) = rpeer_marshal x.
Proof. unfold rpeer_marshal, rpeer_marshal_to, rpeer_marshal_len, kept_rpeer. enc. Qed.
Lemma volm_same f x : volm_marshal (kept_volm f x) = volm_marshal x.
Proof. unfold volm_marshal, volm_marshal_to, volm_marshal_len, kept_volm. enc. Qed.
Lemma vol3_same f x : vol3_marshal (kept_vol3 f x) = vol3_marshal x.
Proof. unfold vol3_marshal, vol3_marshal_to, vol3_marshal_len, kept_vol3. enc. Qed.
Lemma nue_same f x : nue_marshal (kept_nue f x) = nue_marshal x.
Proof. unfold nue_marshal, nue_marshal_to, nue_marshal_len, kept_nue. enc. Qed.
Lemma delays_same f x : delays_marshal (kept_delays f x) = delays_marshal x.
Proof. unfold delays_marshal, delays_marshal_to, delays_marshal_len, kept_delays. enc. Qed.
Lemma prate_same f x : prate_marshal (kept_prate f x) = prate_marshal x.
Proof. unfold prate_marshal, prate_marshal_to, prate_marshal_len, kept_prate. enc. Qed.
Lemma dlfl_same f x : dlfl_marshal (kept_dlfl f x) = dlfl_marshal x.
Proof. unfold dlfl_marshal, dlfl_marshal_to, dlfl_marshal_len, kept_dlfl. enc. Qed.
Lemma prstat_same f x : prstat_marshal (kept_prstat f x) = prstat_marshal x.
Proof. unfold prstat_marshal, prstat_marshal_to, prstat_marshal_len, kept_prstat. enc. Qed.
Lemma sdf_same f x : sdf_marshal (kept_sdf f x) = sdf_marshal x.
Proof. unfold sdf_marshal, sdf_marshal_to, sdf_marshal_len, kept_sdf. enc. Qed.
Lemma userid_same f x : userid_marshal (kept_userid f x) = userid_marshal x.
Proof. rewrite !userid_marshal_eq. unfold userid_pre, userid_marshal_len, kept_userid, bcd_octets. enc. Qed.
Lemma upri_same f x : octet (up_flags x) -> upri_marshal (kept_upri f x) = upri_marshal x.
Proof. intros H. unfold upri_marshal, upri_marshal_to, upri_marshal_len, kept_upri. prj. rewrite (teidri_bits H). enc. Qed.
Lemma upri_octet b x : bytes b -> upri_parse b = Ok x -> octet (up_flags x).
Proof.
  intros Hb. unfold upri_parse. destruct (_ <? _); [discriminate|]. destruct b as [|fl b]; [discriminate|]. pose proof (Forall_inv Hb) as Hf. change (index (fl :: b) 0) with (Ok fl). cbn [bind].
  remember (fl :: b) as c. intros H. apply bind_ok in H. destruct H as ([? ?] & _ & H). apply bind_ok in H. destruct H as ([? ?] & _ & H). apply bind_ok in H. destruct H as ([? ?] & _ & H).
  destruct (has6 fl).
  - apply bind_ok in H. destruct H as ([? ?] & _ & H). destruct (_ <? _); [discriminate|]. apply bind_ok in H. destruct H as (? & _ & H). injection H as <-. exact Hf.
  - apply bind_ok in H. destruct H as (? & _ & H). injection H as <-. exact Hf.
Qed.
Lemma redir_lens b x : redir_parse b = Ok x -> ri_olen x = ri_len x /\ ((ri_len x =? 0)%N = true -> ri_other x = []).
Proof.
  unfold redir_parse. change (1 + 2) with 3. destruct (_ <? _); [discriminate|]. destruct (index b 0); try discriminate. cbn [bind]. destruct (getr 2 b 1 3) as [n| | |]; try discriminate. cbn [bind].
  destruct (_ <? _); [discriminate|]. destruct (slice b 3 (3 + N.to_nat n)); try discriminate. cbn [bind]. destruct (n =? 0)%N eqn:E.
  - intros [= <-]. cbn. auto.
  - destruct (_ <? _); [discriminate|]. destruct (slice b _ _); try discriminate. cbn [bind]. intros [= <-]. cbn. split; [reflexivity|]. rewrite E. discriminate.
Qed.
Lemma copy_nothing b o s : o <= length b -> copy_range b o (o + 0) s = Ok b.
Proof.
  intros H. rewrite Nat.add_0_r, copy_range_ok by lia. rewrite Nat.sub_diag. cbn [firstn app length]. rewrite ?Nat.add_0_r. now rewrite firstn_skipn.
Qed.
Lemma redir_same b f x : redir_parse b = Ok x -> redir_marshal (kept_redir f x) = redir_marshal x.
Proof.
  intros H. destruct (redir_lens _ H) as [L E]. clear H. destruct x as [t n a m c]. cbn in L, E. subst m. unfold kept_redir. prj. unfold pick. destruct (n =? 0)%N eqn:Z; [|reflexivity]. cbn [negb].
  rewrite (E eq_refl). apply N.eqb_eq in Z. subst n. destruct f as [? ? ? ? o]. prj. destruct o as [|y o]; [reflexivity|].
  reflexivity.
Qed.

(** one address more than the count: MarshalTo runs past the end of its buffer *)
Lemma macl_marshal_fault f : N.to_nat (ml_n f) < length (ml_macs f) -> macl_marshal f = Fault.
Proof.
  destruct f as [n macs c ct s st]. unfold macl_marshal, macl_marshal_to, macl_marshal_len. cbn [ml_n ml_macs ml_ctlen ml_ctag ml_stlen ml_stag]. intros Ln.
  set (m := 2 + N.to_nat n * 6 + N.to_nat c + N.to_nat s).
  change (make (3 + N.to_nat n * 6 + N.to_nat c + N.to_nat s)) with ([0%N] ++ make m).
  change (length ([0%N] ++ make m) <? 1) with false. cbv iota. change (put ([0%N] ++ make m) 0 [n]) with (Ok ([n] ++ make m)). unfold bind at 1.
  set (b := [n] ++ make m). assert (Lb : length b = S m) by (unfold b, make; rewrite app_length, repeat_length; reflexivity). clearbody b.
  destruct (@cp_macs_inside macs b 1 ltac:(lia)) as [->|(b1 & -> & L1 & K1)]; [reflexivity|]. cbn [bind].
  destruct (@cp8s_inside true c ct b1 (1 + len_if true (6 * length macs)) ltac:(lia)) as [->|(b2 & -> & L2 & K2)]; [reflexivity|]. cbn [bind].
  destruct (@cp8s_inside true s st b2 (1 + len_if true (6 * length macs) + len_if true (1 + N.to_nat c)) ltac:(lia)) as [->|(b3 & -> & L3 & K3)]; [reflexivity|].
  exfalso. cbn [len_if] in *. unfold m in *. lia.
Qed.
Lemma rd_macs_length k b : forall o x o', rd_macs k b o = Ok (x, o') -> length x = k.
Proof.
  induction k as [|k IH]; intros o x o'.
  - cbn. intros [= <- _]. reflexivity.
  - cbn [rd_macs]. destruct (rd 6 b o) as [[y p]| | |]; try discriminate. cbn [bind].
    destruct (rd_macs k b p) as [[z q]| | |] eqn:E; try discriminate. cbn [bind]. intros [= <- _]. cbn. f_equal. exact (IH _ _ _ E).
Qed.
Lemma macl_count b x : macl_parse b = Ok x -> length (ml_macs x) = S (N.to_nat (ml_n x)).
Proof.
  unfold macl_parse. destruct (_ <? _); [discriminate|]. destruct (index b 0) as [n| | |]; try discriminate. cbn [bind]. destruct (rd_macs (S (N.to_nat n)) b 1) as [[l o]| | |] eqn:E; try discriminate.
  cbn [bind]. intros H. repeat match type of H with (if ?c then _ else _) = _ => destruct c; [discriminate|] | bind ?r _ = _ => destruct r; try discriminate; cbn [bind] in H end.
  injection H as <-. cbn [ml_macs ml_n]. exact (rd_macs_length _ _ _ E).
Qed.
Lemma macl_unmarshal_fault f b y : macl_unmarshal f b = Ok y -> macl_marshal y = Fault.
Proof.
  rewrite macl_kept. intros H. apply bind_ok in H. destruct H as (x & Hx & H). injection H as <-. apply macl_marshal_fault. unfold kept_macl. cbn [ml_n ml_macs]. rewrite app_length. apply macl_count in Hx. lia.
Qed.

(** on the zero struct *)
Ltac fresh0 := first [reflexivity | start; repeat (walk1; try reflexivity; pairs; prj); try reflexivity].
Lemma fteid_fresh b : fteid_unmarshal fteid0 b = fteid_parse b.
Proof. unfold fteid_unmarshal, fteid_parse, fteid0. fresh0. Qed.
Lemma fseid_fresh b : fseid_unmarshal fseid0 b = fseid_parse b.
Proof. unfold fseid_unmarshal, fseid_parse, fseid0. fresh0. Qed.
Lemma ueip_fresh b : ueip_unmarshal ueip0 b = ueip_parse b.
Proof. unfold ueip_unmarshal, ueip_parse, ueip0. fresh0. Qed.
Lemma altip_fresh b : altip_unmarshal altip0 b = altip_parse b.
Proof. unfold altip_unmarshal, altip_parse, altip0. fresh0. Qed.
Lemma srcip_fresh b : srcip_unmarshal srcip0 b = srcip_parse b.
Proof. unfold srcip_unmarshal, srcip_parse, srcip0. fresh0. Qed.
Lemma ulip_fresh b : ulip_unmarshal ulip0 b = ulip_parse b.
Proof. unfold ulip_unmarshal, ulip_parse, ulip0. fresh0. Qed.
Lemma mptcp_fresh b : mptcp_unmarshal mptcp0 b = mptcp_parse b.
Proof. unfold mptcp_unmarshal, mptcp_parse, mptcp0. fresh0. Qed.
Lemma rpeer_fresh b : rpeer_unmarshal rpeer0 b = rpeer_parse b.
Proof. unfold rpeer_unmarshal, rpeer_parse, rpeer0. fresh0. Qed.
Lemma mcast_fresh b : mcast_unmarshal mcast0 b = mcast_parse b.
Proof. unfold mcast_unmarshal, mcast_parse, mcast0. fresh0. Qed.
Lemma volm_fresh b : volm_unmarshal volm0 b = volm_parse b.
Proof. unfold volm_unmarshal, volm_parse, volm0. fresh0. Qed.
Lemma vol3_fresh b : vol3_unmarshal vol30 b = vol3_parse b.
Proof. unfold vol3_unmarshal, vol3_parse, vol30. fresh0. Qed.
Lemma nue_fresh b : nue_unmarshal nue0 b = nue_parse b.
Proof. unfold nue_unmarshal, nue_parse, nue0. fresh0. Qed.
Lemma delays_fresh b : delays_unmarshal delays0 b = delays_parse b.
Proof. unfold delays_unmarshal, delays_parse, delays0. fresh0. Qed.
Lemma prate_fresh b : prate_unmarshal prate0 b = prate_parse b.
Proof. unfold prate_unmarshal, prate_parse, prate0. fresh0. Qed.
Lemma dlfl_fresh b : dlfl_unmarshal dlfl0 b = dlfl_parse b.
Proof. unfold dlfl_unmarshal, dlfl_parse, dlfl0. fresh0. Qed.
Lemma prstat_fresh b : prstat_unmarshal prstat0 b = prstat_parse b.
Proof. unfold prstat_unmarshal, prstat_parse, prstat0. fresh0. Qed.
Lemma tag_fresh b : tag_unmarshal tag0 b = tag_parse b.
Proof. unfold tag_unmarshal, tag_parse, tag0. fresh0. Qed.
Lemma sdf_fresh b : sdf_unmarshal sdf0 b = sdf_parse b.
Proof. unfold sdf_unmarshal, sdf_parse, sdf0. fresh0. Qed.
Lemma userid_fresh b : userid_unmarshal userid0 b = userid_parse b.
Proof. unfold userid_unmarshal, userid_parse, userid0. fresh0. Qed.
Lemma redir_fresh b : redir_unmarshal redir0 b = redir_parse b.
Proof. unfold redir_unmarshal, redir_parse, redir0. fresh0. Qed.
Lemma macaddr_fresh b : macaddr_unmarshal macaddr0 b = macaddr_parse b.
Proof. unfold macaddr_unmarshal, macaddr_parse, macaddr0. fresh0. Qed.
Lemma pmf_fresh b : pmf_unmarshal pmf0 b = pmf_parse b.
Proof. unfold pmf_unmarshal, pmf_parse, pmf0. fresh0. Qed.
Lemma ohc_fresh b : ohc_unmarshal ohc0 b = ohc_parse b.
Proof. unfold ohc_unmarshal, ohc_parse, ohc0. fresh0. Qed.
Lemma upri_fresh b : upri_unmarshal upri0 b = upri_parse b.
Proof. unfold upri_unmarshal, upri_parse, upri0. fresh0. Qed.
Lemma skip_copy_nil n b o : copy_in None n b o = (o <- skip_nil n b o ;; Ok (None, o)).
Proof. unfold skip_nil, copy_in. destruct (_ <? _); [reflexivity|]. destruct (slice b o (o + N.to_nat n)); reflexivity. Qed.
Lemma trace_fresh b : trace_unmarshal trace0 b = trace_parse b.
Proof.
  unfold trace_unmarshal, trace_parse, trace0. prj. destruct (_ <? _); [reflexivity|]. destruct (slice b 0 3); try reflexivity. cbn [bind].
  destruct (decode_plmn a) as [[mcc mnc]| | |]; try reflexivity. cbn [bind]. destruct (slice b 3 6); try reflexivity. cbn [bind].
  destruct (rd1 b 6) as [[e o]| | |]; try reflexivity. cbn [bind]. rewrite skip_copy_nil. destruct (skip_nil e b o) as [o1| | |]; try reflexivity. cbn [bind].
  destruct (rd1 b o1) as [[d o2]| | |]; try reflexivity. cbn [bind]. destruct (rd1 b o2) as [[i o3]| | |]; try reflexivity. cbn [bind].
  rewrite skip_copy_nil. destruct (skip_nil i b o3) as [o4| | |]; try reflexivity. cbn [bind].
  destruct (rd1 b o4) as [[p o5]| | |]; try reflexivity. cbn [bind]. rewrite skip_copy_nil. destruct (skip_nil p b o5) as [o6| | |]; reflexivity.
Qed.
Lemma over_nil s : over_octs [] s = []. Proof. unfold over_octs. cbn. apply skipn_nil. Qed.
Lemma macl_fresh b : macl_unmarshal macl0 b = macl_parse b.
Proof.
  unfold macl_unmarshal, macl_parse, macl0. repeat (walk1; try reflexivity; pairs; prj). rewrite !over_nil. reflexivity.
Qed.
Lemma pfdc_fresh b : pfdc_unmarshal pfdc0 b = pfdc_parse b.
Proof.
  unfold pfdc_unmarshal, pfdc_parse, pfdc0. prj. destruct (_ <? _); [reflexivity|]. destruct (index b 0) as [fl| | |]; try reflexivity. cbn [bind].
  assert (A : forall c o, orold c (rd16old true 0 b o) (0%N, []) o = rd16s true c b o) by (intros c o; unfold orold; rewrite rd16old_zero; destruct c; reflexivity).
  rewrite !A.
  destruct (rd16s true (has1 fl) b 2) as [[[n1 s1] o1]| | |]; try reflexivity. cbn [bind]. rewrite A.
  destruct (rd16s true (has2 fl) b o1) as [[[n2 s2] o2]| | |]; try reflexivity. cbn [bind]. rewrite A.
  destruct (rd16s true (has3 fl) b o2) as [[[n3 s3] o3]| | |]; try reflexivity. cbn [bind]. rewrite A.
  destruct (rd16s true (has4 fl) b o3) as [[[n4 s4] o4]| | |]; try reflexivity. cbn [bind]. rewrite A.
  destruct (rd16s true (has5 fl) b o4) as [[[n5 s5] o5]| | |]; try reflexivity. cbn [bind].
  assert (B : forall c o, rd16list c 0 [] b o = ('(n, p, o) <- rd16s false c b o ;; r <- pfd_items p ;; Ok (n, r, o))).
  { intros c o. rewrite pfd_list0. destruct c; reflexivity. }
  rewrite B. destruct (rd16s false (has6 fl) b o5) as [[[n6 s6] o6]| | |]; try reflexivity. cbn [bind]. destruct (pfd_items s6); try reflexivity. cbn [bind].
  rewrite B. destruct (rd16s false (has7 fl) b o6) as [[[n7 s7] o7]| | |]; try reflexivity. cbn [bind]. destruct (pfd_items s7); try reflexivity. cbn [bind].
  rewrite B. destruct (rd16s false (has8 fl) b o7) as [[[n8 s8] o8]| | |]; try reflexivity. cbn [bind]. destruct (pfd_items s8); reflexivity.
Qed.
Lemma henr_fresh b : henr_unmarshal henr0 b = henr_parse b. Proof. reflexivity. Qed.

(** all types together *)
Lemma unmarshal_fresh k b : fparse k b = (x <- unmarshal (fzero k) b ;; Ok (VF x)).
Proof.
  destruct k; cbn [fparse fzero unmarshal]; unfold as_f; first [rewrite <- fteid_fresh | rewrite <- fseid_fresh | rewrite <- ueip_fresh | rewrite <- altip_fresh | rewrite <- srcip_fresh | rewrite <- ulip_fresh | rewrite <- mptcp_fresh | rewrite <- pmf_fresh | rewrite <- rpeer_fresh | rewrite <- mcast_fresh | rewrite <- volm_fresh | rewrite <- vol3_fresh | rewrite <- nue_fresh | rewrite <- delays_fresh | rewrite <- prate_fresh | rewrite <- dlfl_fresh | rewrite <- prstat_fresh | rewrite <- tag_fresh | rewrite <- sdf_fresh | rewrite <- ohc_fresh | rewrite <- userid_fresh | rewrite <- redir_fresh | rewrite <- macaddr_fresh | rewrite <- upri_fresh | rewrite <- trace_fresh | rewrite <- pfdc_fresh | rewrite <- macl_fresh | unfold henr_unmarshal];
    match goal with |- bind ?r _ = _ => destruct r; reflexivity end.
Qed.
Lemma unmarshal_kept f b : bytes b -> is_pfdc f = false -> unmarshal f b = (x <- unmarshal (zero_of f) b ;; Ok (kept b f x)).
Proof.
  intros Hb Hp. destruct f as [f|f|f|f|f|f|f|f|f|f|f|f|f|f|f|f|f|f|f|f|f|f|f|f|f|f|f|f]; try discriminate Hp; cbn [unmarshal zero_of].
  - rewrite fteid_fresh, (fteid_kept f). destruct (fteid_parse b); reflexivity.
  - rewrite fseid_fresh, (fseid_kept f). destruct (fseid_parse b); reflexivity.
  - rewrite ueip_fresh, (ueip_kept f). destruct (ueip_parse b); reflexivity.
  - rewrite altip_fresh, (altip_kept f). destruct (altip_parse b); reflexivity.
  - rewrite srcip_fresh, (srcip_kept f). destruct (srcip_parse b); reflexivity.
  - rewrite ulip_fresh, (ulip_kept f). destruct (ulip_parse b); reflexivity.
  - rewrite mptcp_fresh, (mptcp_kept f). destruct (mptcp_parse b); reflexivity.
  - rewrite pmf_fresh, (pmf_kept f). destruct (pmf_parse b); reflexivity.
  - rewrite rpeer_fresh, (rpeer_kept f). destruct (rpeer_parse b); reflexivity.
  - rewrite mcast_fresh, (mcast_kept f). destruct (mcast_parse b); reflexivity.
  - rewrite volm_fresh, (volm_kept f). destruct (volm_parse b); reflexivity.
  - rewrite vol3_fresh, (vol3_kept f). destruct (vol3_parse b); reflexivity.
  - rewrite nue_fresh, (nue_kept f). destruct (nue_parse b); reflexivity.
  - rewrite delays_fresh, (delays_kept f). destruct (delays_parse b); reflexivity.
  - rewrite prate_fresh, (prate_kept f). destruct (prate_parse b); reflexivity.
  - rewrite dlfl_fresh, (dlfl_kept f). destruct (dlfl_parse b); reflexivity.
  - rewrite prstat_fresh, (prstat_kept f). destruct (prstat_parse b); reflexivity.
  - rewrite tag_fresh, (tag_kept f). destruct (tag_parse b); reflexivity.
  - rewrite sdf_fresh, (sdf_kept f). destruct (sdf_parse b); reflexivity.
  - rewrite ohc_fresh, (ohc_kept f Hb). destruct (ohc_parse b); reflexivity.
  - rewrite userid_fresh, (userid_kept f). destruct (userid_parse b); reflexivity.
  - unfold henr_unmarshal. destruct (henr_parse b); reflexivity.
  - rewrite redir_fresh, (redir_kept f). destruct (redir_parse b); reflexivity.
  - rewrite macaddr_fresh, (macaddr_kept f). destruct (macaddr_parse b); reflexivity.
  - rewrite upri_fresh, (upri_kept f Hb). destruct (upri_parse b); reflexivity.
  - rewrite trace_fresh, (trace_kept f). destruct (trace_parse b); reflexivity.
  - rewrite macl_fresh, (macl_kept f). destruct (macl_parse b); reflexivity.
Qed.
Lemma unmarshal_type f b y : unmarshal f b = Ok y -> zero_of y = zero_of f.
Proof. destruct f; cbn [unmarshal zero_of]; intros H; apply bind_ok in H; destruct H as (? & _ & H); injection H as <-; reflexivity. Qed.
Lemma pick_pick {A} c (n o : A) : pick c n (pick c n o) = pick c n o. Proof. destruct c; reflexivity. Qed.
Lemma overwritten_length o n : length (overwritten o n) = length o.
Proof. unfold overwritten. rewrite firstn_length, app_length, skipn_length. lia. Qed.
Lemma overwritten_twice o n : overwritten (overwritten o n) n = overwritten o n.
Proof.
  rewrite <- !over_octs_overwritten. unfold over_octs. rewrite app_length, firstn_length, skipn_length.
  replace (Nat.min (length o) (length n) + (length o - length n)) with (length o) by lia. f_equal.
  destruct (Nat.le_gt_cases (length o) (length n)) as [L|L].
  - rewrite !skipn_all2; [reflexivity|lia|rewrite app_length, firstn_length, skipn_length; lia].
  - rewrite firstn_all2 by lia. apply skipn_app_exact. reflexivity.
Qed.
Lemma overwritten_slice_twice o n : overwritten_slice (overwritten_slice o n) n = overwritten_slice o n.
Proof. destruct o; cbn; [now rewrite overwritten_twice|reflexivity]. Qed.
Definition is_macl (f : fields) : bool := match f with F_macl _ => true | _ => false end.
Lemma kept_twice b f x : zero_of x = zero_of f -> is_macl f = false -> is_pfdc f = false -> kept b (kept b f x) x = kept b f x.
Proof.
  intros Hz Hm Hp. destruct f, x; try discriminate Hz; try reflexivity; try discriminate Hm; try discriminate Hp; cbn [kept]; f_equal;
  unfold kept_fteid, kept_fseid, kept_ueip, kept_altip, kept_srcip, kept_ulip, kept_mptcp, kept_pmf, kept_rpeer, kept_mcast, kept_volm, kept_vol3, kept_nue, kept_delays, kept_prate, kept_dlfl, kept_prstat, kept_tag, kept_sdf, kept_ohc, kept_userid, kept_redir, kept_macaddr, kept_upri, kept_trace; prj; rewrite ?pick_pick, ?overwritten_slice_twice; reflexivity.
Qed.
Lemma clean_same b f y : bytes b -> clean f = true -> unmarshal f b = Ok y -> exists x, unmarshal (zero_of f) b = Ok x /\ marshal_fields y = marshal_fields x.
Proof.
  intros Hb Hc H. rewrite unmarshal_kept in H; [|exact Hb|destruct f; (reflexivity || discriminate Hc)]. apply bind_ok in H. destruct H as (x & Ex & H). injection H as <-. exists x. split; [exact Ex|].
  destruct f as [f|f|f|f|f|f|f|f|f|f|f|f|f|f|f|f|f|f|f|f|f|f|f|f|f|f|f|f]; try discriminate Hc; cbn [unmarshal zero_of] in Ex; apply bind_ok in Ex; destruct Ex as (z & Ez & Ex); injection Ex as <-; cbn [kept marshal_fields].
  - apply fteid_same.
  - apply ueip_same.
  - apply srcip_same.
  - apply ulip_same.
  - apply mptcp_same.
  - apply rpeer_same.
  - apply volm_same.
  - apply vol3_same.
  - apply nue_same.
  - apply delays_same.
  - apply prate_same.
  - apply dlfl_same.
  - apply prstat_same.
  - apply sdf_same.
  - apply userid_same.
  - reflexivity.
  - rewrite redir_fresh in Ez. apply (redir_same _ f Ez).
  - rewrite upri_fresh in Ez. apply upri_same, (upri_octet Hb Ez).
  - rewrite (macl_unmarshal_fault _ _ Ez). rewrite macl_fresh in Ez. apply macl_marshal_fault. unfold kept_macl. cbn [ml_n ml_macs]. rewrite app_length. apply macl_count in Ez. lia.
Qed.
