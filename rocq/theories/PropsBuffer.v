(** C96: MarshalTo of the XxxFields structs into buffers of any contents and any size. *)
From Verif Require Import Base Bits Codec Codec2 Utils Fields1 Fields2 Fields3 Fields4 Access Reuse AnySpec AnyProofs PropsAny BufferProofs BufferProofs2.
Set Implicit Arguments.

(** * What is written does not depend on what the buffer holds *)
(** With two buffers of the same size the outcome is of the same kind; and if octets are written, each octet of the results is either the same in both
    or is the one that each buffer held before. *)
Theorem C96_contents : forall f b1 b2, length b1 = length b2 ->
  match marshal_to_fields f b1, marshal_to_fields f b2 with
  | Ok c1, Ok c2 => length c1 = length b1 /\ length c2 = length b2 /\
      forall i y1 y2, nth_error c1 i = Some y1 -> nth_error c2 i = Some y2 -> y1 = y2 \/ nth_error b1 i = Some y1 /\ nth_error b2 i = Some y2
  | Err e1, Err e2 => e1 = e2
  | Fault, Fault => True
  | _, _ => False
  end.
Proof.
  intros f b1 b2 L. destruct (@fields_steady f (length b1)) as [(w & Lw & H)|[(e & H)|H]].
  - pose proof (H b1 [] eq_refl) as H1. pose proof (H b2 [] (eq_sym L)) as H2. rewrite !app_nil_r in H1, H2. rewrite H1, H2. split; [apply over_length; exact Lw|]. split; [apply over_length; congruence|].
    clear H H1 H2. revert b1 b2 L Lw. induction w as [|m w IH]; intros [|x1 b1] [|x2 b2] L Lw; cbn [length] in *; try discriminate; intros i y1 y2.
    + destruct i; discriminate.
    + unfold over. cbn [combine map fst snd]. destruct i as [|i]; cbn [nth_error].
      * destruct m as [v|]; intros A B; injection A as <-; injection B as <-; [now left|right; split; reflexivity].
      * apply IH; lia.
  - rewrite !H by congruence. reflexivity.
  - rewrite !H by congruence. exact I.
Qed.
Print Assumptions C96_contents.
(** Octets beyond those of a buffer that is long enough are left alone, and do not matter. *)
Theorem C96_beyond : forall f b c r, marshal_to_fields f b = Ok c -> length c = length b /\ marshal_to_fields f (b ++ r) = Ok (c ++ r).
Proof.
  intros f b c r E. destruct (@fields_steady f (length b)) as [(w & Lw & H)|[(e & H)|H]].
  - pose proof (H b [] eq_refl) as H1. rewrite !app_nil_r in H1. assert (c = over w b) as -> by congruence. split; [apply over_length; exact Lw|]. now apply H.
  - rewrite H in E by reflexivity. discriminate.
  - rewrite H in E by reflexivity. discriminate.
Qed.
Print Assumptions C96_beyond.

(** * Buffers of MarshalLen octets *)
(** The octets where a new buffer of zeros and one of ones give the same are written, the others are left. *)
Definition pick (w0 w1 b : list N) : list N := map (fun p => let '(x, y, z) := p in if (x =? y)%N then x else z) (combine (combine w0 w1) b).
Lemma over_all z w n : length w = n -> over w (repeat z n) = map (fun m => match m with Some x => x | None => z end) w.
Proof. intros <-. induction w as [|m w IH]; [reflexivity|]. unfold over in *. cbn. f_equal. exact IH. Qed.
Theorem C96_exact : forall f b, length b = marshal_len_fields f ->
  marshal_to_fields f b = match expected_on 0 f, expected_on 1 f with
                          | Ok w0, Ok w1 => Ok (pick w0 w1 b)
                          | x, _ => x end.
Proof.
  intros f b L. rewrite <- !fields_on. destruct (@fields_steady f (length b)) as [(w & Lw & H)|[(e & H)|H]].
  - pose proof (fun c K => H c [] K) as G. assert (G' : forall c, length c = length b -> marshal_to_fields f c = Ok (over w c)) by (intros c K; specialize (G c K); now rewrite !app_nil_r in G).
    rewrite !G' by (rewrite ?repeat_length; congruence). cbv beta iota. apply (f_equal (@Ok (list N))). rewrite <- L, !over_all by exact Lw. clear - Lw. revert b Lw. induction w as [|m w IH]; intros [|x b] Lw; cbn [length] in *; try discriminate; [reflexivity|].
    unfold over, pick in *. cbn [combine map fst snd]. rewrite IH by lia. f_equal. destruct m as [v|]; [now rewrite N.eqb_refl|reflexivity].
  - rewrite !H by (rewrite ?repeat_length; congruence). reflexivity.
  - rewrite !H by (rewrite ?repeat_length; congruence). reflexivity.
Qed.
Print Assumptions C96_exact.
Lemma both f w : marshal_fields f = Ok w -> exists w1, expected_on 1 f = Ok w1.
Proof.
  rewrite fields_any, <- !fields_on. intros E. pose proof (C96_contents f (repeat 0%N (marshal_len_fields f)) (repeat 1%N (marshal_len_fields f))) as C. rewrite !repeat_length, E in C. specialize (C eq_refl).
  destruct (marshal_to_fields f (repeat 1%N _)); [eauto|contradiction..].
Qed.
(** Longer buffers: whenever Marshal succeeds, so does MarshalTo, with the same written octets, and the rest is untouched. *)
Theorem C96_longer : forall f w b, marshal_fields f = Ok w -> marshal_len_fields f <= length b ->
  exists c, marshal_to_fields f b = Ok c /\ length c = length b /\ skipn (marshal_len_fields f) c = skipn (marshal_len_fields f) b /\
            marshal_to_fields f (firstn (marshal_len_fields f) b) = Ok (firstn (marshal_len_fields f) c).
Proof.
  intros f w b E L. set (n := marshal_len_fields f) in *. assert (Ln : length (firstn n b) = n) by (rewrite firstn_length; lia).
  pose proof (C96_contents f (repeat 0%N n) (firstn n b)) as C. rewrite repeat_length, Ln in C. specialize (C eq_refl). rewrite fields_any, <- fields_on in E. fold n in E. rewrite E in C.
  destruct (marshal_to_fields f (firstn n b)) as [c| | |] eqn:M; try contradiction. destruct C as (_ & Lc & _). destruct (@C96_beyond f _ _ (skipn n b) M) as [_ K]. rewrite firstn_skipn in K.
  exists (c ++ skipn n b). split; [exact K|]. split; [rewrite app_length, skipn_length; lia|]. split.
  - rewrite skipn_app, Lc, Nat.sub_diag, (skipn_all2 c) by lia. reflexivity.
  - now rewrite firstn_app, Lc, Nat.sub_diag, firstn_O, app_nil_r, (firstn_all2 c) by lia.
Qed.
Print Assumptions C96_longer.

(** * Which structs fill their buffer *)
(** [filled f] says that each flagged address is of the right size, no string is shorter than its length member, and what MarshalLen counts is what is written. *)
Theorem C96_clean : forall f w, marshal_fields f = Ok w -> filled f = true -> forall b, length b = marshal_len_fields f -> marshal_to_fields f b = Ok w.
Proof.
  intros f w E F b L. destruct (both f E) as [w1 E1]. rewrite (@C96_exact f b L). pose proof E as E0. rewrite fields_any in E0. rewrite E0, E1. apply (@fields_told f _ _ E0 E1) in F. subst w1. cbv beta iota. apply (f_equal (@Ok (list N))).
  assert (K : length w = length b) by (rewrite L; now apply C95_length). clear - K. revert b K. induction w as [|x w IH]; intros [|y b] K; cbn in *; try discriminate; [reflexivity|]. unfold pick in *. cbn. rewrite N.eqb_refl. f_equal. apply IH. lia.
Qed.
Print Assumptions C96_clean.
(** Otherwise what the buffer held remains somewhere in the result. *)
Theorem C96_stale : forall f w, marshal_fields f = Ok w -> filled f = false ->
  exists i, i < marshal_len_fields f /\ forall b c, length b = marshal_len_fields f -> marshal_to_fields f b = Ok c -> nth_error c i = nth_error b i.
Proof.
  intros f w E F. destruct (both f E) as [w1 E1]. pose proof E as E0. rewrite fields_any in E0. pose proof (@fields_told f _ _ E0 E1) as T.
  assert (D : w <> w1) by (intros K; apply T in K; congruence).
  assert (Lw : length w = marshal_len_fields f) by (now apply C95_length).
  assert (Lw1 : length w1 = marshal_len_fields f).
  { rewrite <- fields_on in E1. destruct (@C96_beyond f _ _ [] E1) as [K _]. now rewrite repeat_length in K. }
  assert (X : exists i x y, nth_error w i = Some x /\ nth_error w1 i = Some y /\ (x =? y)%N = false).
  { assert (K : length w = length w1) by congruence. clear - D K. revert w1 D K. induction w as [|x w IH]; intros [|y w1] D K; try discriminate; [congruence|]. destruct (N.eqb_spec x y) as [<-|Q].
    - destruct (IH w1) as (i & a & b & A & B & C); [congruence|cbn in K; lia|]. exists (S i), a, b. auto.
    - exists 0, x, y. split; [reflexivity|]. split; [reflexivity|]. now apply N.eqb_neq. }
  destruct X as (i & x & y & A & B & C). exists i. split; [rewrite <- Lw; apply nth_error_Some; congruence|]. intros b c L M. rewrite (@C96_exact f b L), E0, E1 in M. assert (c = pick w w1 b) as -> by congruence.
  assert (Lb : length b = length w) by congruence. assert (L1 : length w1 = length w) by congruence. clear - A B C Lb L1. revert w w1 b A B Lb L1. induction i as [|i IH]; intros [|a w] [|a1 w1] [|z b] A B Lb L1; cbn in *; try discriminate.
  - injection A as ->. injection B as ->. now rewrite C.
  - apply IH; auto; lia.
Qed.
Print Assumptions C96_stale.
(** SDF Filter and PFD Contents: the spare octet is never written, so never overwritten. *)
Theorem C96_spare_refuted : forall f w b, (exists s, f = F_sdf s) \/ (exists s, f = F_pfdc s) -> marshal_fields f = Ok w -> marshal_len_fields f <= length b ->
  exists c, marshal_to_fields f b = Ok c /\ nth_error c 1 = nth_error b 1.
Proof.
  intros f w b K E L. pose proof (C95_length _ E) as Lw. destruct (C96_longer f b E L) as (c & M & Lc & _ & P). exists c. split; [exact M|]. set (n := marshal_len_fields f) in *.
  assert (Ln : length (firstn n b) = n) by (rewrite firstn_length; lia). rewrite (@C96_exact f (firstn n b) Ln) in P. destruct (both f E) as [w1 E1]. rewrite fields_any in E. rewrite E, E1 in P.
  assert (Q : pick w w1 (firstn n b) = firstn n c) by congruence. assert (exists a u v, w = a :: 0%N :: u /\ w1 = a :: 1%N :: v) as (a & u & v & -> & ->).
  { destruct K as [[s ->]|[s ->]]; cbn [expected_on] in E, E1; cbv zeta in E, E1; [|destruct (_ <? _) in *; try discriminate]; injection E as <-; injection E1 as <-; do 3 eexists; split; reflexivity. }
  cbn [length] in Lw. clearbody n. clear - Q Lc Lw. destruct n as [|[|n]], b as [|b0 [|b1 b]], c as [|c0 [|c1 c]]; try discriminate; try reflexivity.
  unfold pick in Q. cbn in Q. injection Q as _ <- _. reflexivity.
Qed.
Print Assumptions C96_spare_refuted.

(** * Short buffers *)
(** These check before every write, so they never panic, whatever the struct and the buffer. *)
Definition guarded (f : fields) : bool :=
  match f with
  | F_fteid _ | F_fseid _ | F_altip _ | F_ulip _ | F_mptcp _ | F_pmf _ | F_mcast _ | F_volm _ | F_vol3 _ | F_nue _ | F_delays _ | F_prstat _ => true
  | _ => false
  end.
Definition safe {A} (m : list N -> res A) : Prop := forall b, m b <> Fault.
Lemma safe_bind {A} (m : list N -> res (list N * nat)) (k : list N -> nat -> res A) : safe m -> (forall o, safe (fun b => k b o)) -> safe (fun b => '(b, o) <- m b ;; k b o).
Proof. intros Hm Hk b. specialize (Hm b). destruct (m b) as [[c o]| | |]; cbn [bind]; [apply (Hk o c)|discriminate|contradiction|discriminate]. Qed.
Lemma safe_wr c n s o : safe (fun b => wrb c n s b o).
Proof. intros b. unfold wrb. destruct c; [|discriminate]. destruct (Nat.ltb_spec (length b) (o + n)); [discriminate|]. unfold copy_range. destruct (Nat.leb_spec o (o + n)); [|lia]. destruct (Nat.leb_spec (o + n) (length b)); [|lia]. discriminate. Qed.
Lemma safe_wrn c n v o : safe (fun b => wrn c n v b o).
Proof. intros b. unfold wrn. destruct c; [|discriminate]. destruct (Nat.ltb_spec (length b) (o + n)); [discriminate|]. unfold put. rewrite be_length. destruct (Nat.leb_spec (o + n) (length b)); [|lia]. discriminate. Qed.
Lemma safe_put {A} n s o (k : list N -> res A) : o + length s <= n -> safe k -> safe (fun b => need n in b ;; b <- put b o s ;; k b).
Proof. intros H Hk b. destruct (Nat.ltb_spec (length b) n); [discriminate|]. unfold put. destruct (Nat.leb_spec (o + length s) (length b)); [|lia]. cbn [bind]. apply Hk. Qed.
Lemma safe_put1 n s o : o + length s <= n -> safe (fun b => need n in b ;; put b o s).
Proof. intros H b. destruct (Nat.ltb_spec (length b) n); [discriminate|]. unfold put. destruct (Nat.leb_spec (o + length s) (length b)); [|lia]. discriminate. Qed.
Lemma safe_ok {A} (k : list N -> A) : safe (fun b => Ok (k b)). Proof. intros b. discriminate. Qed.
Definition safe_from {A} n (m : list N -> res A) : Prop := forall b, n <= length b -> m b <> Fault.
Lemma safe_need {A} n (k : list N -> res A) : safe_from n k -> safe (fun b => need n in b ;; k b).
Proof. intros H b. destruct (Nat.ltb_spec (length b) n); [discriminate|]. now apply H. Qed.
Lemma sf_put {A} n s o (k : list N -> res A) : o + length s <= n -> safe_from n k -> safe_from n (fun b => b <- put b o s ;; k b).
Proof.
  intros H Hk b L. unfold put. destruct (Nat.leb_spec (o + length s) (length b)); [|lia]. cbn [bind]. apply Hk. rewrite !app_length, firstn_length, skipn_length. lia.
Qed.
Lemma sf_cpn {A} n m v o (k : list N -> nat -> res A) : o + m <= n -> safe_from n (fun b => k b (o + m)) -> safe_from n (fun b => '(b, o) <- cpn true m v b o ;; k b o).
Proof.
  intros H Hk b L. unfold cpn, put. rewrite be_length. destruct (Nat.leb_spec (o + m) (length b)); [|lia]. cbn [bind]. apply Hk. rewrite !app_length, firstn_length, skipn_length, be_length. lia.
Qed.
Lemma sf_any {A} n (k : list N -> res A) : safe k -> safe_from n k. Proof. intros H b _. apply H. Qed.
Ltac gd := cbv zeta; repeat first [apply safe_put1; [cbn; lia]|apply safe_put; [cbn; lia|]|apply safe_ok|apply safe_wr|apply safe_wrn|apply safe_bind; [|intros ?]|match goal with |- safe (fun b => if ?c then _ else _) => destruct c end].
Theorem C96_guarded : forall f, guarded f = true -> forall b, marshal_to_fields f b <> Fault.
Proof.
  intros f G. change (safe (marshal_to_fields f)). destruct f as [f|f|f|f|f|f|f|f|f|f|f|f|f|f|f|f|f|f|f|f|f|f|f|f|f|f|f|f]; try discriminate G; cbn [marshal_to_fields].
  - unfold fteid_marshal_to. gd.
  - unfold fseid_marshal_to. cbv zeta. apply safe_need, sf_put; [cbn; lia|]. apply sf_cpn; [lia|]. apply sf_any. gd.
  - unfold altip_marshal_to. gd.
  - unfold ulip_marshal_to. gd.
  - unfold mptcp_marshal_to. cbv zeta. apply safe_need, sf_put; [cbn; lia|]. apply sf_put; [cbn; lia|]. apply sf_put; [rewrite be_length; lia|]. apply sf_any. gd.
  - unfold pmf_marshal_to. gd.
  - unfold mcast_marshal_to. gd.
  - unfold volm_marshal_to. gd.
  - unfold vol3_marshal_to. gd.
  - unfold nue_marshal_to. gd.
  - unfold delays_marshal_to. gd.
  - unfold prstat_marshal_to. gd.
Qed.
Print Assumptions C96_guarded.

(** MAC Address checks the room, but reads 6 octets of each flagged address. *)
Lemma safe_mac c a o : (c = true -> 6 <= length (octs a)) -> safe (fun b => wrmac c a b o).
Proof.
  intros H b. unfold wrmac. destruct c; [|discriminate]. destruct (Nat.ltb_spec (length b) (o + 6)); [discriminate|]. specialize (H eq_refl). unfold slice. change (0 <=? 6) with true. cbn [andb]. destruct (Nat.leb_spec 6 (length (octs a))); [|lia]. cbn [bind].
  unfold copy_range. destruct (Nat.leb_spec o (o + 6)); [|lia]. destruct (Nat.leb_spec (o + 6) (length b)); [|lia]. cbn [andb bind]. discriminate.
Qed.
Theorem C96_guarded_mac : forall f, (forall a, In (true, a) (mac_members f) -> 6 <= length (octs a)) -> forall b, marshal_to_fields (F_macaddr f) b <> Fault.
Proof.
  intros f H. change (safe (macaddr_marshal_to f)). unfold macaddr_marshal_to. cbv zeta. bits. unfold bit in H. apply safe_put; [cbn; lia|].
  assert (K : forall c a o, In (c, a) (mac_members f) -> safe (fun b => wrmac c a b o)) by (intros c a o I; apply safe_mac; intros ->; now apply H).
  repeat (apply safe_bind; [apply K; unfold mac_members, bit; cbn; tauto|intros ?]). apply safe_ok.
Qed.
Print Assumptions C96_guarded_mac.
(** A struct that fills its MarshalLen octets is never written to a shorter buffer: the guarded types say so by an error. *)
Theorem C96_short : forall f w b, marshal_fields f = Ok w -> filled f = true -> length b < marshal_len_fields f ->
  (exists e, marshal_to_fields f b = Err e) \/ marshal_to_fields f b = Fault /\ guarded f = false.
Proof.
  intros f w b E F L. pose proof (C96_contents f b b eq_refl) as C. destruct (marshal_to_fields f b) as [c|e| |] eqn:M; [exfalso|eauto| |contradiction].
  - destruct (marshal_len_fields f - length b) as [|k] eqn:K; [lia|]. destruct (@C96_beyond f b c (repeat 0%N (S k)) M) as [Lc M0]. destruct (@C96_beyond f b c (repeat 1%N (S k)) M) as [_ M1].
    assert (Ln : forall z : N, length (b ++ repeat z (S k)) = marshal_len_fields f) by (intros z; rewrite app_length, repeat_length; lia).
    rewrite (@C96_clean f w E F _ (Ln 0%N)) in M0. rewrite (@C96_clean f w E F _ (Ln 1%N)) in M1. rewrite M0 in M1. assert (X : c ++ repeat 0%N (S k) = c ++ repeat 1%N (S k)) by congruence. apply app_inv_head in X. discriminate X.
  - right. split; [reflexivity|]. destruct (guarded f) eqn:G; [|reflexivity]. now apply (@C96_guarded f G) in M.
Qed.
Print Assumptions C96_short.
(** The others panic on some buffer that is too short, instead of the error. *)
Theorem C96_short_refuted : forall x y,
  marshal_to_fields (F_srcip {| si_flags := 4; si_v4 := None; si_v6 := None; si_mpl := 24 |})%N [x] = Fault /\
  marshal_to_fields (F_ueip {| ue_flags := 2; ue_v4 := Some [10; 0; 0; 1]; ue_v6 := None; ue_v6d := 0; ue_v6pl := 0 |})%N [x] = Fault /\
  marshal_to_fields (F_rpeer {| rg_flags := 2; rg_v4 := Some [10; 0; 0; 1]; rg_v6 := None; rg_dilen := 0; rg_di := 0; rg_nilen := 0; rg_ni := [] |})%N [x; y] = Fault /\
  marshal_to_fields (F_prate {| pr_flags := 1; pr_uunit := 0; pr_urate := 1; pr_dunit := 0; pr_drate := 0 |})%N [x; y] = Fault /\
  marshal_to_fields (F_dlfl {| dm_flags := 1; dm_ttc := 1; dm_sci := 0 |})%N [x; y] = Fault /\
  marshal_to_fields (F_tag {| tg_flags := 1; tg_pcp := 1; tg_dei := 0; tg_vid := 0 |})%N [x; y] = Fault /\
  marshal_to_fields (F_sdf {| sd_flags := 1; sd_fdlen := 0; sd_fd := []; sd_ttc := []; sd_spi := []; sd_fl := []; sd_fid := 0 |})%N [x; y] = Fault /\
  marshal_to_fields (F_ohc {| oh_desc := 0x400; oh_teid := 0; oh_v4 := Some [10; 0; 0; 1]; oh_v6 := None; oh_port := 2152; oh_ctag := 0; oh_stag := 0 |})%N [x; y] = Fault /\
  marshal_to_fields (F_userid {| ui_flags := 8; ui_imsilen := 0; ui_imsi := []; ui_imeilen := 0; ui_imei := []; ui_msisdnlen := 0; ui_msisdn := []; ui_nailen := 1; ui_nai := [97] |})%N [x] = Fault /\
  marshal_to_fields (F_henr {| he_type := 0; he_namelen := 1; he_name := [97]; he_vallen := 1; he_val := [98] |})%N [x; y] = Fault /\
  marshal_to_fields (F_redir {| ri_type := 0; ri_len := 0; ri_addr := []; ri_olen := 0; ri_other := [] |})%N [x] = Fault /\
  marshal_to_fields (F_upri {| up_flags := 1; up_range := 0; up_v4 := Some [10; 0; 0; 1]; up_v6 := None; up_ni := []; up_si := 0 |})%N [x; y] = Fault /\
  marshal_to_fields (F_trace {| ti_mcc := [49; 50; 51]; ti_mnc := [52; 53]; ti_id := [1; 2; 3]; ti_evlen := 1; ti_ev := Some [9]; ti_depth := 1; ti_iflen := 0; ti_ifs := None; ti_iplen := 0; ti_ip := None |})%N [x; y; x; y; x; y] = Fault /\
  marshal_to_fields (F_pfdc {| pc_flags := 1; pc_fdlen := 1; pc_fd := [97]; pc_urllen := 0; pc_url := []; pc_dnlen := 0; pc_dn := []; pc_cplen := 0; pc_cp := []; pc_dnplen := 0; pc_dnp := []; pc_afdlen := 0; pc_afd := []; pc_aurllen := 0; pc_aurl := []; pc_adnplen := 0; pc_adnp := [] |})%N [x; y] = Fault /\
  marshal_to_fields (F_macl {| ml_n := 1; ml_macs := [[1; 2; 3; 4; 5; 6]]; ml_ctlen := 0; ml_ctag := []; ml_stlen := 0; ml_stag := [] |})%N [x] = Fault.
Proof. intros x y. repeat split. Qed.
Print Assumptions C96_short_refuted.

(** * Examples *)
(** a Remote GTP-U Peer whose destination interface has a length of 3 leaves two octets of the buffer in the result *)
Example C96_example : let f := F_rpeer {| rg_flags := 6; rg_v4 := Some [10; 0; 0; 1]; rg_v6 := None; rg_dilen := 3; rg_di := 7; rg_nilen := 0; rg_ni := [] |}%N in
  marshal_fields f = Ok [6; 10; 0; 0; 1; 0; 3; 7; 0; 0]%N /\ filled f = false /\ marshal_len_fields f = 10 /\
  marshal_to_fields f (repeat 170%N 12) = Ok [6; 10; 0; 0; 1; 0; 3; 7; 170; 170; 170; 170]%N.
Proof. repeat split. Qed.
Example C96_example_clean : let f := F_fteid {| ft_flags := 1; ft_teid := 7; ft_v4 := Some [10; 0; 0; 1]; ft_v6 := None; ft_chid := 0 |}%N in
  marshal_fields f = Ok [1; 0; 0; 0; 7; 10; 0; 0; 1]%N /\ filled f = true /\ guarded f = true /\ marshal_to_fields f (repeat 170%N 9) = Ok [1; 0; 0; 0; 7; 10; 0; 0; 1]%N /\ marshal_to_fields f (repeat 170%N 8) = Err EUnexpectedEOF.
Proof. repeat split. Qed.
Example C96_example_spare : let f := F_sdf {| sd_flags := 2; sd_fdlen := 0; sd_fd := []; sd_ttc := [1; 2]; sd_spi := []; sd_fl := []; sd_fid := 0 |}%N in
  marshal_fields f = Ok [2; 0; 1; 2]%N /\ marshal_to_fields f [255; 255; 255; 255]%N = Ok [2; 255; 1; 2]%N.
Proof. repeat split. Qed.
