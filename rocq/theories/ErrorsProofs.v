(** Which errors the decoders and the accessors return. *)
From Verif Require Import Base IETypes IE Bits Spec IEProofs IEProofs2 Codec Codec2 Utils UtilsProofs Fields1 Time Fields2 Fields3 Fields4 Access AccTable AccRun AccProofs Errors.
Set Implicit Arguments.

Definition only {A} (P : err -> Prop) (r : res A) : Prop := forall e, r = Err e -> P e.
Section Only.
Variable P : err -> Prop.
Lemma only_ok A (a : A) : only P (Ok a). Proof. intros e H. discriminate. Qed.
Lemma only_fault A : only P (@Fault A). Proof. intros e H. discriminate. Qed.
Lemma only_fuel A : only P (@Fuel A). Proof. intros e H. discriminate. Qed.
Lemma only_err A e : P e -> only P (@Err A e). Proof. intros H e' [= <-]. exact H. Qed.
Lemma only_bind A B (r : res A) (k : A -> res B) : only P r -> (forall a, r = Ok a -> only P (k a)) -> only P (bind r k).
Proof. intros H K e E. destruct r as [a|e0| |]; cbn [bind] in E; try discriminate; [exact (K a eq_refl e E)|]. apply H. congruence. Qed.
Lemma only_if A (c : bool) (x y : res A) : only P x -> only P y -> only P (if c then x else y).
Proof. now destruct c. Qed.
Lemma only_slice b lo hi : only P (slice b lo hi).
Proof. unfold slice. apply only_if; [apply only_ok|apply only_fault]. Qed.
Lemma only_from b lo : only P (from b lo).
Proof. unfold from. apply only_if; [apply only_ok|apply only_fault]. Qed.
Lemma only_index b k : only P (index b k).
Proof. unfold index. destruct (nth_error b k); [apply only_ok|apply only_fault]. Qed.
Lemma only_getr k b lo hi : only P (getr k b lo hi).
Proof. unfold getr. apply only_bind; [apply only_slice|]. intros s _. unfold getn. apply only_if; [apply only_ok|apply only_fault]. Qed.
End Only.
Lemma only_mono A (P Q : err -> Prop) (r : res A) : only P r -> (forall e, P e -> Q e) -> only Q r.
Proof. intros H K e E. apply K, H, E. Qed.

(** ** the parsers of structured payloads: nothing but io.ErrUnexpectedEOF *)
Definition eof (e : err) : Prop := e = EUnexpectedEOF.
Ltac on1 :=
  match goal with
  | |- only _ (Ok _) => apply only_ok
  | |- only _ Fault => apply only_fault
  | |- only _ Fuel => apply only_fuel
  | |- only _ (Err _) => apply only_err; first [reflexivity | assumption]
  | |- only _ (slice _ _ _) => apply only_slice
  | |- only _ (from _ _) => apply only_from
  | |- only _ (index _ _) => apply only_index
  | |- only _ (getr _ _ _ _) => apply only_getr
  | |- only _ (bind _ _) => apply only_bind; [|intros ? _]
  | |- only _ (let '(_, _) := ?p in _) => destruct p
  | |- only _ (match ?x with _ => _ end) => destruct x
  end.
Ltac on := repeat (cbv zeta; on1).
Ltac stepw l := first [l | on1].
Ltac w l := repeat (cbv zeta; stepw l).
Lemma eof_rd n b o : only eof (rd n b o). Proof. unfold rd. on. Qed.
Lemma eof_rdf n b o : only eof (rdf n b o). Proof. unfold rdf. on. Qed.
Ltac l1 := first [apply eof_rd | apply eof_rdf].
Lemma eof_rdb c n b o d : only eof (rdb c n b o d). Proof. unfold rdb. w l1. Qed.
Lemma eof_rdn c n b o d : only eof (rdn c n b o d). Proof. unfold rdn. w l1. Qed.
Lemma eof_rds c n b o d : only eof (rds c n b o d). Proof. unfold rds. w l1. Qed.
Lemma eof_rdsf c n b o d : only eof (rdsf c n b o d). Proof. unfold rdsf. w l1. Qed.
Lemma eof_rdnf c n b o d : only eof (rdnf c n b o d). Proof. unfold rdnf. w l1. Qed.
Lemma eof_rd8s c b o : only eof (rd8s c b o). Proof. unfold rd8s. w l1. Qed.
Lemma eof_rate c b o : only eof (rd_rate c b o). Proof. unfold rd_rate. w l1. Qed.
Lemma eof_rd1 b o : only eof (rd1 b o). Proof. unfold rd1. w l1. Qed.
Lemma eof_skip n b o : only eof (skip_nil n b o). Proof. unfold skip_nil. w l1. Qed.
Lemma eof_rd16s s c b o : only eof (rd16s s c b o). Proof. unfold rd16s. w l1. Qed.
Lemma eof_items n p : forall o, only eof (pfd_items_from n p o).
Proof. induction n as [|n IH]; intros o; cbn [pfd_items_from]; w ltac:(apply IH). Qed.
Lemma eof_macs k b : forall o, only eof (rd_macs k b o).
Proof. induction k as [|k IH]; intros o; cbn [rd_macs]; w ltac:(first [apply eof_rd | apply IH]). Qed.
Ltac l2 := first [apply eof_rd | apply eof_rdf | apply eof_rdb | apply eof_rdn | apply eof_rds | apply eof_rdsf | apply eof_rdnf | apply eof_rd8s
                 | apply eof_rate | apply eof_rd1 | apply eof_skip | apply eof_rd16s | apply eof_items | apply eof_macs].
Lemma eof_fqdn_loop n b : forall o l, only eof (decode_fqdn_loop n b o l).
Proof. induction n as [|n IH]; intros o l; cbn [decode_fqdn_loop]; w ltac:(apply IH). Qed.
Lemma eof_fqdn b : only eof (decode_fqdn b). Proof. unfold decode_fqdn. w ltac:(apply eof_fqdn_loop). Qed.
Lemma eof_plmn b : only eof (decode_plmn b). Proof. unfold decode_plmn. w l1. Qed.
Lemma fparse_eof k b : only eof (fparse k b).
Proof.
  destruct k; cbn [fparse]; unfold as_f; apply only_bind; try (intros ? _; apply only_ok);
  match goal with
  | |- only _ (altip_parse _) => unfold altip_parse
  | |- only _ (tag_parse _) => unfold tag_parse
  | |- only _ (dlfl_parse _) => unfold dlfl_parse
  | |- only _ (fseid_parse _) => unfold fseid_parse
  | |- only _ (fteid_parse _) => unfold fteid_parse
  | |- only _ (henr_parse _) => unfold henr_parse
  | |- only _ (mcast_parse _) => unfold mcast_parse
  | |- only _ (macl_parse _) => unfold macl_parse
  | |- only _ (macaddr_parse _) => unfold macaddr_parse
  | |- only _ (mptcp_parse _) => unfold mptcp_parse
  | |- only _ (nue_parse _) => unfold nue_parse
  | |- only _ (ohc_parse _) => unfold ohc_parse
  | |- only _ (delays_parse _) => unfold delays_parse
  | |- only _ (prstat_parse _) => unfold prstat_parse
  | |- only _ (prate_parse _) => unfold prate_parse
  | |- only _ (pfdc_parse _) => unfold pfdc_parse, pfd_items
  | |- only _ (pmf_parse _) => unfold pmf_parse
  | |- only _ (redir_parse _) => unfold redir_parse
  | |- only _ (rpeer_parse _) => unfold rpeer_parse
  | |- only _ (sdf_parse _) => unfold sdf_parse
  | |- only _ (srcip_parse _) => unfold srcip_parse
  | |- only _ (vol3_parse _) => unfold vol3_parse
  | |- only _ (trace_parse _) => unfold trace_parse
  | |- only _ (ueip_parse _) => unfold ueip_parse
  | |- only _ (ulip_parse _) => unfold ulip_parse
  | |- only _ (userid_parse _) => unfold userid_parse
  | |- only _ (upri_parse _) => unfold upri_parse
  | |- only _ (volm_parse _) => unfold volm_parse
  end;
  w ltac:(first [l2 | apply eof_plmn]).
Qed.

(** ** decoding *)
Definition infix (x b : list N) : Prop := exists pre post, b = pre ++ x ++ post.
Lemma infix_refl b : infix b b. Proof. exists [], []. now rewrite app_nil_r. Qed.
Lemma infix_trans x y z : infix x y -> infix y z -> infix x z.
Proof. intros (p & q & ->) (p' & q' & ->). exists (p' ++ p), (q ++ q'). now rewrite !app_assoc. Qed.
Lemma infix_skip k b : infix (skipn k b) b.
Proof. exists (firstn k b), []. now rewrite app_nil_r, firstn_skipn. Qed.
Lemma infix_first k b : infix (firstn k b) b.
Proof. exists [], (skipn k b). cbn [app]. now rewrite firstn_skipn. Qed.
Lemma infix_nil b : infix [] b. Proof. exists [], b. reflexivity. Qed.
Lemma infix_slice b lo hi p : slice b lo hi = Ok p -> infix p b.
Proof. unfold slice. destruct (_ && _); [|discriminate]. intros [= <-]. eapply infix_trans; [apply infix_first|apply infix_skip]. Qed.
Lemma infix_from b lo p : from b lo = Ok p -> infix p b.
Proof. unfold from. destruct (_ <=? _); [|discriminate]. intros [= <-]. apply infix_skip. Qed.
Lemma infix_bytes x b : bytes b -> infix x b -> bytes x.
Proof. intros H (p & q & ->). apply Forall_app in H as [_ H]. now apply Forall_app in H as [H _]. Qed.
Lemma infix_short x b : infix x b -> short_vendor x -> short_vendor b.
Proof.
  intros (p & q & ->) (pre & t1 & t0 & l & e1 & e0 & post & -> & H). exists (p ++ pre), t1, t0, l, e1, e0, (post ++ q). split; [|exact H].
  now rewrite <- !app_assoc.
Qed.
Lemma infix_err x b e : infix x b -> dec_err x e -> dec_err b e.
Proof. intros I [H|[H S]]; [now left|right; split; [exact H|now apply (infix_short I)]]. Qed.

Section G.
Variable g : N -> bool.

Lemma short_here b t ln : bytes b -> 6 <= length b -> getr 2 b 0 2 = Ok t -> getr 2 b 2 4 = Ok ln -> vendor t = true -> N.to_nat ln < 2 -> short_vendor b.
Proof.
  intros B L G1 G2 V S. destruct b as [|b0 [|b1 [|b2 [|b3 [|b4 [|b5 r]]]]]]; cbn [length] in L; try lia.
  cbn in G1, G2. injection G1 as <-. injection G2 as <-.
  inversion B as [|? ? B0 B']; subst. inversion B' as [|? ? B1 B'']; subst. inversion B'' as [|? ? B2 B3']; subst. inversion B3' as [|? ? B3 _]; subst.
  unfold octet in *. unfold unbe in *. cbn [fold_left] in *.
  exists [], b0, b1, b3, b4, b5, r. rewrite vendor_iff in V by lia. apply N.leb_le in V. assert (b2 = 0)%N by lia. subst b2. repeat split; lia.
Qed.
Lemma unmarshal_only n : (forall i b, bytes b -> only (dec_err b) (unmarshal g n i b)) /\ (forall b, bytes b -> only (dec_err b) (parse_multi g n b)).
Proof.
  induction n as [|n [IU IP]]; [split; intros; apply only_fuel|]. split.
  - intros i b B. rewrite unmarshal_S. cbv zeta. destruct (Nat.ltb_spec (length b) 4) as [L|L]; [apply only_err; now left|].
    apply only_bind; [apply only_getr|]. intros t Et. apply only_bind; [apply only_getr|]. intros ln El.
    apply only_bind.
    + destruct (vendor t) eqn:V; [|apply only_ok]. destruct (Nat.ltb_spec (length b) 6) as [L6|L6]; [apply only_err; now left|].
      destruct (Nat.ltb_spec (N.to_nat ln) 2) as [S|S]; [|on]. apply only_err. right. split; [reflexivity|]. now apply (@short_here b t ln).
    + intros [[e o] f] _. destruct (length b <=? o); [apply only_ok|]. destruct (length b <? o + f); [apply only_err; now left|].
      apply only_bind; [apply only_slice|]. intros p Ep. destruct (g t); [|apply only_ok]. apply only_bind; [|intros; apply only_ok].
      apply infix_slice in Ep. apply (@only_mono _ (dec_err p)); [apply IP; now apply (@infix_bytes p b)|]. intros e'. now apply infix_err.
  - intros b B. rewrite parse_multi_S. destruct (length b =? 0); [apply only_ok|]. apply only_bind; [now apply IU|]. intros i _.
    apply only_bind; [apply only_from|]. intros b' E. apply infix_from in E. apply only_bind; [|intros; apply only_ok].
    apply (@only_mono _ (dec_err b')); [apply IP; now apply (@infix_bytes b' b)|]. intros e'. now apply infix_err.
Qed.
Lemma unmarshal_infix n i b j : unmarshal g n i b = Ok j -> infix (payload j) b \/ payload j = payload i.
Proof.
  destruct n; [discriminate|]. rewrite unmarshal_S. cbv zeta. destruct (length b <? 4); [discriminate|].
  destruct (getr 2 b 0 2) as [t| | |]; cbn [bind]; try discriminate. destruct (getr 2 b 2 4) as [l| | |]; cbn [bind]; try discriminate.
  match goal with |- bind ?x _ = _ -> _ => destruct x as [[[e o] f]| | |] end; cbn [bind]; try discriminate.
  destruct (length b <=? o); [intros [= <-]; now right|]. destruct (length b <? o + f); [discriminate|].
  destruct (slice b o (o + f)) as [p| | |] eqn:E; cbn [bind]; try discriminate. apply infix_slice in E. left.
  destruct (g t); [destruct (parse_multi g n p) as [cs| | |]; cbn [bind] in *; try discriminate|]; injection H as <-; exact E.
Qed.
Lemma parse_multi_infix n : forall b is x, parse_multi g n b = Ok is -> In x is -> infix (payload x) b.
Proof.
  induction n as [|n IH]; intros b is x; [discriminate|]. rewrite parse_multi_S. destruct (length b =? 0); [intros [= <-] []|].
  destruct (unmarshal g n zeroIE b) as [i| | |] eqn:E; cbn [bind]; try discriminate.
  destruct (from b (mlen g i)) as [b'| | |] eqn:F; cbn [bind]; try discriminate. apply infix_from in F.
  destruct (parse_multi g n b') as [r| | |] eqn:M; cbn [bind]; try discriminate. intros [= <-] [<-|I].
  - apply unmarshal_infix in E as [E| ->]; [exact E|apply infix_nil].
  - apply (@infix_trans _ b'); [|exact F]. now apply (IH b' r).
Qed.

Lemma parse_only b : bytes b -> only (dec_err b) (parse g b). Proof. apply unmarshal_only. Qed.
Lemma parseMulti_only b : bytes b -> only (dec_err b) (parseMultiIEs g b). Proof. apply unmarshal_only. Qed.
End G.
