(** Encoding and decoding of whole messages. *)
From Coq Require Import String Permutation.
From Verif Require Import Base Bits IE Spec IEProofs IEProofs2 Header HeaderSpec HeaderProofs Message MsgSpec MsgProofs.
Set Implicit Arguments.
Local Open Scope list_scope.

Section Codec.
Variable g : N -> bool.

(** ** decoding *)
Section Dec.
Variable k : kind.
Hypothesis C : consistent k = true.

Lemma message_of_nil h : message_of k h [] = zero_msg k h.
Proof. rewrite <- absorb_all_zero. apply absorb_all_nil. Qed.

Lemma replace_unrouted : k_mode k = IReplace -> forall is, filter (unrouted k) is = is.
Proof.
  intros M is. destruct (c_replace k C M) as [_ S]. induction is as [|i is IH]; cbn; [reflexivity|].
  unfold unrouted, route at 1. rewrite S. cbn. f_equal. exact IH.
Qed.

(** on any receiver of the right shape *)
Theorem msg_unmarshal_eq m0 b : shaped k m0 ->
  msg_unmarshal g k m0 b =
  bind (parse_header b) (fun h =>
  if length (h_payload h) <? 2 then Ok (with_h m0 h) else
  bind (parseMultiIEs g (h_payload h)) (fun is =>
  match k_mode k with
  | IReplace => Ok (mkM h [] (map Some is))
  | IAppend => Ok (absorb_all k is (with_h m0 h))
  end)).
Proof.
  intros Sh. unfold msg_unmarshal. destruct (parse_header b) as [h| | |]; try reflexivity. cbn [bind].
  destruct (length (h_payload h) <? 2); [reflexivity|].
  destruct (parseMultiIEs g (h_payload h)) as [is| | |]; try reflexivity. cbn [bind].
  destruct (k_mode k) eqn:M.
  - rewrite store_all_ok; [reflexivity|exact C|exact Sh].
  - destruct (c_replace k C M) as [F _]. unfold shaped in Sh. rewrite F in Sh.
    destruct (m_f m0); [reflexivity|discriminate].
Qed.

Theorem msg_parse_eq b :
  msg_parse g k b =
  bind (parse_header b) (fun h =>
  if length (h_payload h) <? 2 then Ok (message_of k h []) else
  bind (parseMultiIEs g (h_payload h)) (fun is => Ok (message_of k h is))).
Proof.
  unfold msg_parse. rewrite msg_unmarshal_eq by apply zero_shaped.
  destruct (parse_header b) as [h| | |]; try reflexivity. cbn [bind].
  rewrite message_of_nil. destruct (length (h_payload h) <? 2); [reflexivity|].
  destruct (parseMultiIEs g (h_payload h)) as [is| | |]; try reflexivity. cbn [bind].
  destruct (k_mode k) eqn:M.
  - f_equal. change (with_h (zero_msg k zero_header) h) with (zero_msg k h). apply absorb_all_zero.
  - f_equal. unfold message_of. rewrite replace_unrouted by exact M. destruct (c_replace k C M) as [F _].
    now rewrite F.
Qed.

Theorem msg_parse_returns b : bytes b -> returns (msg_parse g k b).
Proof.
  intros Hb. rewrite msg_parse_eq. destruct (parse_header_total Hb) as [(h & -> & W)|[-> _]]; cbn [bind].
  2:{ right. eauto. }
  destruct (length (h_payload h) <? 2); [left; eauto|].
  assert (Hp : bytes (h_payload h)) by (inversion W; assumption).
  destruct (parseMulti_returns g Hp) as [(is & ->)|(e & ->)]; cbn [bind]; [left|right]; eauto.
Qed.
(** exactly what is accepted, and what the result is *)
Theorem msg_parse_iff b m : bytes b ->
  (msg_parse g k b = Ok m <->
   exists h, hwire h b /\
     ((length (h_payload h) < 2 /\ m = message_of k h []) \/
      (2 <= length (h_payload h) /\ exists is, accepteds g is (h_payload h) /\ m = message_of k h is))).
Proof.
  intros Hb. rewrite msg_parse_eq. destruct (parse_header_total Hb) as [(h & E & W)|[E S]]; rewrite E; cbn [bind].
  - assert (Hp : bytes (h_payload h)) by (inversion W; assumption).
    destruct (Nat.ltb_spec (length (h_payload h)) 2) as [L|L].
    + split.
      * intros [= <-]. eauto.
      * intros (h' & W' & H). rewrite (hwire_inj W' W) in *. destruct H as [[_ ->]|[? _]]; [reflexivity|lia].
    + split.
      * destruct (parseMultiIEs g (h_payload h)) as [is| | |] eqn:P; cbn [bind]; try discriminate.
        intros [= <-]. exists h. split; [exact W|]. right. split; [exact L|]. exists is. split; [|reflexivity].
        now apply parseMulti_iff.
      * intros (h' & W' & H). rewrite (hwire_inj W' W) in *. destruct H as [[? _]|[_ (is & A & ->)]]; [lia|].
        apply parseMulti_iff in A; [|exact Hp]. now rewrite A.
  - split; [discriminate|]. intros (h & W & _). now apply hwire_long in W.
Qed.
End Dec.

(** ** encoding *)
Definition encs (is : list ie) : list N := concat (map (enc g) is).
Lemma encs_app a b : encs (a ++ b) = encs a ++ encs b.
Proof. unfold encs. now rewrite map_app, concat_app. Qed.
Definition lens (is : list ie) : nat := list_sum (map (mlen g) is).
Lemma encs_length is : length (encs is) = lens is.
Proof. unfold encs, lens. induction is as [|i is IH]; cbn; [reflexivity|]. now rewrite app_length, enc_length, IH. Qed.
Lemma lens_app a b : lens (a ++ b) = lens a + lens b.
Proof. unfold lens. now rewrite map_app, list_sum_app. Qed.

Lemma write_ie_ok d r i : mlen g i <= length r ->
  write_ie g (d ++ r, length d) i = Ok ((d ++ enc g i) ++ skipn (mlen g i) r, length (d ++ enc g i)).
Proof.
  intros H. unfold write_ie. rewrite from_app by reflexivity. cbn [bind].
  rewrite marshal_to_fits by exact H. cbn [bind]. rewrite firstn_app_exact by reflexivity.
  now rewrite app_length, enc_length, app_assoc.
Qed.
Lemma lens_cons i is : lens (i :: is) = mlen g i + lens is. Proof. reflexivity. Qed.
Lemma encs_cons i is : encs (i :: is) = enc g i ++ encs is. Proof. reflexivity. Qed.
Lemma write_all_ok is : forall d r, lens is <= length r ->
  write_all g (d ++ r, length d) (map Some is) = Ok ((d ++ encs is) ++ skipn (lens is) r, length (d ++ encs is)).
Proof.
  induction is as [|i is IH]; intros d r H; cbn [write_all map].
  - cbn. now rewrite app_nil_r.
  - rewrite lens_cons in H. rewrite write_ie_ok by lia. cbn [bind]. rewrite IH by (rewrite skipn_length; lia).
    rewrite skipn_skipn', lens_cons, encs_cons, <- !app_assoc. reflexivity.
Qed.
Lemma write_nil_ok l : forall d r, lens (present l) <= length r ->
  write_nil g (d ++ r, length d) l = Ok ((d ++ encs (present l)) ++ skipn (lens (present l)) r, length (d ++ encs (present l))).
Proof.
  induction l as [|[i|] l IH]; intros d r H; cbn [write_nil present].
  - cbn. now rewrite app_nil_r.
  - cbn [present] in H. rewrite lens_cons in H. rewrite write_ie_ok by lia. cbn [bind].
    rewrite IH by (rewrite skipn_length; lia).
    rewrite skipn_skipn', lens_cons, encs_cons, <- !app_assoc. reflexivity.
  - now apply IH.
Qed.
Lemma sum_len_nil_ok l : sum_len_nil g l = lens (present l).
Proof. induction l as [|[i|] l IH]; cbn [sum_len_nil present]; [reflexivity| |exact IH]. now rewrite IH, lens_cons. Qed.
Lemma sum_len_ok is : sum_len g (map Some is) = Ok (lens is).
Proof. induction is as [|i is IH]; cbn [sum_len map ie_len bind]; [reflexivity|]. now rewrite IH. Qed.
Lemma sum_len_fault pre post : sum_len g (map Some pre ++ None :: post) = Fault.
Proof. induction pre as [|i is IH]; cbn [sum_len map ie_len bind app]; [reflexivity|]. now rewrite IH. Qed.
Lemma field_len_ok v : no_nil v -> field_len g v = Ok (lens (field_ies v)).
Proof.
  destruct v as [[i|]|l]; cbn [field_len field_ies no_nil]; intros H; try reflexivity.
  - f_equal. unfold lens. cbn. lia.
  - rewrite H at 1. apply sum_len_ok.
Qed.
Lemma write_field_ok v d r : no_nil v -> lens (field_ies v) <= length r ->
  write_field g (d ++ r, length d) v =
  Ok ((d ++ encs (field_ies v)) ++ skipn (lens (field_ies v)) r, length (d ++ encs (field_ies v))).
Proof.
  destruct v as [[i|]|l]; cbn [write_field field_ies no_nil]; intros H L.
  - assert (E : lens [i] = mlen g i) by (unfold lens; cbn; lia). rewrite E in *.
    rewrite write_ie_ok by exact L. unfold encs. cbn. now rewrite app_nil_r.
  - cbn. now rewrite app_nil_r.
  - rewrite H at 1. now apply write_all_ok.
Qed.
Lemma fields_len_ok fs : Forall no_nil fs ->
  fields_len g fs (seq 0 (length fs)) = Ok (lens (concat (map field_ies fs))).
Proof.
  intros H.
  assert (G : forall pre, fields_len g (pre ++ fs) (seq (length pre) (length fs)) = Ok (lens (concat (map field_ies fs)))).
  { induction H as [|v fs Hv Hf IH]; intros pre; cbn [length seq fields_len map concat]; [reflexivity|].
    rewrite nth_error_app2, Nat.sub_diag by lia. cbn [nth_error]. rewrite field_len_ok by exact Hv. cbn [bind].
    specialize (IH (pre ++ [v])). rewrite app_length, <- app_assoc in IH. cbn [length app] in IH.
    replace (length pre + 1) with (S (length pre)) in IH by lia. rewrite IH. cbn [bind].
    now rewrite lens_app. }
  exact (G []).
Qed.
Lemma write_fields_ok fs : Forall no_nil fs -> forall d r, lens (concat (map field_ies fs)) <= length r ->
  let is := concat (map field_ies fs) in
  write_fields g (d ++ r, length d) fs (seq 0 (length fs)) = Ok ((d ++ encs is) ++ skipn (lens is) r, length (d ++ encs is)).
Proof.
  intros H.
  assert (G : forall pre d r, lens (concat (map field_ies fs)) <= length r ->
    write_fields g (d ++ r, length d) (pre ++ fs) (seq (length pre) (length fs)) =
    Ok ((d ++ encs (concat (map field_ies fs))) ++ skipn (lens (concat (map field_ies fs))) r,
        length (d ++ encs (concat (map field_ies fs))))).
  { induction H as [|v fs Hv Hf IH]; intros pre d r L; cbn [length seq write_fields map concat] in *.
    - cbn. now rewrite app_nil_r.
    - rewrite lens_app in L. rewrite nth_error_app2, Nat.sub_diag by lia. cbn [nth_error].
      rewrite write_field_ok by (auto; lia). cbn [bind].
      specialize (IH (pre ++ [v]) (d ++ encs (field_ies v)) (skipn (lens (field_ies v)) r)).
      replace ((pre ++ [v]) ++ fs) with (pre ++ v :: fs) in IH by (rewrite <- app_assoc; reflexivity).
      rewrite (app_length pre) in IH. cbn [length] in IH.
      replace (length pre + 1) with (S (length pre)) in IH by lia. rewrite IH by (rewrite skipn_length; lia).
      rewrite skipn_skipn', <- lens_app, encs_app, <- !app_assoc. reflexivity. }
  intros d r L. exact (G [] d r L).
Qed.

Section Enc.
Variable k : kind.
Hypothesis C : consistent k = true.
Lemma shaped_length m : shaped k m -> length (m_f m) = length (k_fields k).
Proof. unfold shaped. intros E. apply (f_equal (@length bool)) in E. now rewrite !map_length in E. Qed.

Definition hbase (h : header) : nat := if N.odd (h_flags h) then 16 else 8.
Lemma h_mlen_base h : h_mlen h = hbase h + length (h_payload h).
Proof. clear C. unfold h_mlen, hbase, has_seid. rewrite has1_odd. destruct (N.odd (h_flags h)); lia. Qed.

Theorem msg_len_ok m : shaped k m -> Forall no_nil (m_f m) ->
  msg_len g k m = Ok (hbase (m_h m) + lens (body_ies m)).
Proof.
  intros Sh Nn. unfold msg_len. rewrite (c_count k C), <- (shaped_length Sh).
  rewrite fields_len_ok by exact Nn. cbn [bind]. f_equal. rewrite h_mlen_base, sum_len_nil_ok.
  unfold body_ies. rewrite lens_app. lia.
Qed.

(** the header MarshalTo leaves in the message *)
Definition final_header (m : msg) : header := h_set_length (with_payload (m_h m) (encs (body_ies m))).

Theorem msg_marshal_to_ok m b : shaped k m -> Forall no_nil (m_f m) ->
  msg_marshal_to g k m b = bind (h_marshal_to (final_header m) b) (fun b' => Ok (b', with_h m (final_header m))).
Proof.
  intros Sh Nn. unfold msg_marshal_to.
  set (m0 := with_h m (with_payload (m_h m) [])).
  rewrite (@msg_len_ok m0) by assumption. cbn [bind].
  assert (B : body_ies m0 = body_ies m) by reflexivity.
  assert (HM : h_mlen (m_h m0) = hbase (m_h m0)) by (rewrite h_mlen_base; cbn; lia).
  rewrite HM, B. replace (hbase (m_h m0) + lens (body_ies m) - hbase (m_h m0)) with (lens (body_ies m)) by lia.
  set (L := lens (body_ies m)).
  assert (EL : L = lens (concat (map field_ies (m_f m))) + lens (present (m_ies m))).
  { unfold L, body_ies. now rewrite lens_app. }
  rewrite (c_write k C), <- (shaped_length Sh).
  change (m_f m0) with (m_f m). change (m_ies m0) with (m_ies m).
  pose proof (@write_fields_ok (m_f m) Nn [] (make L)) as W.
  cbn [app length] in W. unfold make in *. rewrite repeat_length in W. rewrite W by lia. cbn [bind].
  rewrite write_nil_ok by (rewrite skipn_length, repeat_length; lia).
  cbn [bind]. rewrite skipn_skipn', <- EL, skipn_all2 by (rewrite repeat_length; lia).
  rewrite app_nil_r, <- encs_app. reflexivity.
Qed.

Lemma final_header_mlen m : h_mlen (final_header m) = hbase (m_h m) + lens (body_ies m).
Proof. clear C. rewrite h_mlen_base. cbn. now rewrite encs_length. Qed.

Theorem msg_marshal_ok m : shaped k m -> Forall no_nil (m_f m) ->
  msg_marshal g k m = Ok (henc (final_header m), with_h m (final_header m)).
Proof.
  intros Sh Nn. unfold msg_marshal. rewrite msg_len_ok by assumption. cbn [bind].
  rewrite msg_marshal_to_ok by assumption.
  rewrite <- final_header_mlen. pose proof (h_marshal_ok (final_header m)) as E. unfold h_marshal in E.
  rewrite E. reflexivity.
Qed.
Theorem msg_marshal_to_short m b : shaped k m -> Forall no_nil (m_f m) ->
  length b < hbase (m_h m) + lens (body_ies m) -> msg_marshal_to g k m b = Fault.
Proof.
  intros Sh Nn L. rewrite msg_marshal_to_ok by assumption. rewrite h_marshal_to_short; [reflexivity|].
  now rewrite final_header_mlen.
Qed.
Theorem msg_marshal_to_fits m b : shaped k m -> Forall no_nil (m_f m) ->
  hbase (m_h m) + lens (body_ies m) <= length b ->
  msg_marshal_to g k m b =
    Ok (henc (final_header m) ++ skipn (hbase (m_h m) + lens (body_ies m)) b, with_h m (final_header m)).
Proof.
  intros Sh Nn L. rewrite msg_marshal_to_ok by assumption. rewrite h_marshal_to_fits by now rewrite final_header_mlen.
  now rewrite final_header_mlen.
Qed.
(** a nil inside a slice field panics *)
Lemma final_length m : h_length (final_header m) = ((N.of_nat (hbase (m_h m) + lens (body_ies m)) - 4) mod 65536)%N.
Proof. clear C.
  unfold final_header, h_set_length, hbase, has_seid. cbn [with_payload h_flags h_length h_payload].
  rewrite has1_odd. unfold u16, lenN. rewrite encs_length. destruct (N.odd (h_flags (m_h m))).
  - rewrite N.add_mod_idemp_l by discriminate. f_equal. lia.
  - f_equal. lia.
Qed.
End Enc.

(** ** round trips *)
Section Rt.
Variable k : kind.
Hypothesis C : consistent k = true.

Lemma filter_all {A} (p : A -> bool) l : Forall (fun x => p x = true) l -> filter p l = l.
Proof. clear C. induction 1 as [|x l H _ IH]; cbn; [reflexivity|]. now rewrite H, IH. Qed.
Lemma filter_none {A} (p : A -> bool) l : Forall (fun x => p x = false) l -> filter p l = [].
Proof. clear C. induction 1 as [|x l H _ IH]; cbn; [reflexivity|]. now rewrite H, IH. Qed.

Lemma belongs_route n i : belongs k n i = true <-> route k i = Some n.
Proof. clear C.
  unfold belongs. destruct (route k i) as [m|]; [|split; discriminate].
  destruct (Nat.eqb_spec m n); split; congruence.
Qed.
Lemma belongs_other n m i : belongs k n i = true -> m <> n -> belongs k m i = false.
Proof. clear C.
  intros B D. apply belongs_route in B. unfold belongs. rewrite B. now apply Nat.eqb_neq; auto.
Qed.
Lemma unrouted_belongs n i : unrouted k i = true -> belongs k n i = false.
Proof. clear C. unfold unrouted, belongs. destruct (route k i); [discriminate|reflexivity]. Qed.
Lemma belongs_unrouted n i : belongs k n i = true -> unrouted k i = false.
Proof. clear C. unfold unrouted, belongs. destruct (route k i); [reflexivity|discriminate]. Qed.

Lemma filter_belongs_fields fs : forall base,
  (forall n v, nth_error fs n = Some v -> Forall (fun i => belongs k (base + n) i = true) (field_ies v)) ->
  forall n, filter (belongs k n) (concat (map field_ies fs)) =
            if n <? base then [] else match nth_error fs (n - base) with Some v => field_ies v | None => [] end.
Proof. clear C.
  induction fs as [|v fs IH]; intros base H n; cbn [map concat].
  - destruct (n <? base); [reflexivity|]. now destruct (n - base).
  - rewrite filter_app. rewrite (IH (S base)).
    2:{ intros m w E. replace (S base + m) with (base + S m) by lia. apply (H (S m) w E). }
    pose proof (H 0 v eq_refl) as Hv. rewrite Nat.add_0_r in Hv.
    destruct (Nat.eq_dec n base) as [->|D].
    + rewrite filter_all by exact Hv. rewrite Nat.ltb_irrefl, Nat.sub_diag.
      destruct (Nat.ltb_spec base (S base)); [|lia]. cbn [nth_error]. apply app_nil_r.
    + rewrite filter_none.
      2:{ eapply Forall_impl; [|exact Hv]. intros i B. cbv beta in B. eapply belongs_other; [exact B|exact D]. }
      cbn [app]. destruct (Nat.ltb_spec n base).
      * destruct (Nat.ltb_spec n (S base)); [reflexivity|lia].
      * destruct (Nat.ltb_spec n (S base)); [lia|]. replace (n - base) with (S (n - S base)) by lia. reflexivity.
Qed.
Lemma filter_unrouted_fields fs base :
  (forall n v, nth_error fs n = Some v -> Forall (fun i => belongs k (base + n) i = true) (field_ies v)) ->
  filter (unrouted k) (concat (map field_ies fs)) = [].
Proof. clear C.
  revert base. induction fs as [|v fs IH]; intros base H; cbn [map concat]; [reflexivity|].
  rewrite filter_app, (IH (S base)).
  2:{ intros m w E. replace (S base + m) with (base + S m) by lia. apply (H (S m) w E). }
  rewrite app_nil_r. apply filter_none. eapply Forall_impl; [|apply (H 0 v eq_refl)].
  intros i. apply belongs_unrouted.
Qed.

Lemma fields_of_nth is fs : forall base n,
  nth_error (fields_of k is base fs) n = option_map (fun f => field_of k is (base + n) (snd f)) (nth_error fs n).
Proof. clear C.
  induction fs as [|[s b] fs IH]; intros base [|n]; cbn; auto.
  - now rewrite Nat.add_0_r.
  - rewrite IH. now rewrite Nat.add_succ_r.
Qed.

(** reading back the IEs of a well-typed message gives the message *)
Theorem message_of_body m h : typed k m ->
  message_of k h (body_ies m) = mkM h (m_f m) (map Some (present (m_ies m))).
Proof. clear C.
  intros (Sh & Nn & Ty & Un). unfold message_of. f_equal.
  - apply nth_ext'. intros n. rewrite fields_of_nth. cbn [plus].
    pose proof (@shaped_nth k m n Sh) as S.
    destruct (nth_error (k_fields k) n) as [[s b]|] eqn:F; cbn in *.
    + destruct (nth_error (m_f m) n) as [v|] eqn:V; [|discriminate].
      assert (E : filter (belongs k n) (body_ies m) = field_ies v).
      { unfold body_ies. rewrite filter_app, (@filter_belongs_fields _ 0) by exact Ty.
        cbn [Nat.ltb Nat.leb]. rewrite Nat.sub_0_r, V. rewrite (@filter_none _ (belongs k n) (present (m_ies m))).
        - apply app_nil_r.
        - eapply Forall_impl; [|exact Un]. intros i. apply unrouted_belongs. }
      unfold field_of. rewrite E. f_equal. injection S as <-.
      assert (NV : no_nil v) by (eapply Forall_forall; [exact Nn|eapply nth_error_In; eauto]).
      destruct v as [[i|]|l]; cbn in *; try reflexivity. now rewrite <- NV.
    + destruct (nth_error (m_f m) n); [discriminate|reflexivity].
  - f_equal. unfold body_ies. rewrite filter_app, (@filter_unrouted_fields _ 0) by exact Ty.
    cbn. now apply filter_all.
Qed.

Lemma filter_present_Some {A} (p : A -> bool) l : present (map Some (filter p l)) = filter p l.
Proof. clear C. apply present_map_Some. Qed.
Lemma last_opt_In {A} (l : list A) x : last_opt l = Some x -> In x l.
Proof. clear C.
  induction l as [|y l IH]; [discriminate|]. rewrite last_opt_cons. destruct (last_opt l).
  - intros [= <-]. right. now apply IH.
  - intros [= <-]. now left.
Qed.
(** what the decoder produces is well-typed *)
Theorem message_of_typed h is : typed k (message_of k h is).
Proof. clear C.
  assert (Sh : shaped k (message_of k h is)).
  { rewrite <- absorb_all_zero. apply absorb_all_shaped, zero_shaped. }
  split; [exact Sh|]. split; [|split].
  - apply Forall_forall. intros v I. apply In_nth_error in I. destruct I as [n E].
    cbn [message_of m_f] in E. rewrite fields_of_nth in E.
    destruct (nth_error (k_fields k) n) as [[s b]|]; [|discriminate]. injection E as <-.
    unfold field_of. destruct b; cbn; [|exact I]. now rewrite present_map_Some.
  - intros n v E. cbn [message_of m_f] in E. rewrite fields_of_nth in E.
    destruct (nth_error (k_fields k) n) as [[s b]|]; [|discriminate]. injection E as <-. cbn [plus snd].
    unfold field_of. destruct b; cbn [field_ies].
    + rewrite present_map_Some. apply Forall_forall. intros i I. now apply filter_In in I.
    + destruct (last_opt _) as [i|] eqn:L; [|constructor]. constructor; [|constructor].
      apply last_opt_In, filter_In in L. tauto.
  - cbn [message_of m_ies]. rewrite present_map_Some. apply Forall_forall. intros i I. now apply filter_In in I.
Qed.
Lemma message_of_body_In h is i : In i (body_ies (message_of k h is)) -> In i is.
Proof. clear C.
  unfold body_ies. cbn [message_of m_f m_ies]. rewrite present_map_Some, in_app_iff. intros [I|I].
  - apply in_concat in I. destruct I as (l & I & J). apply in_map_iff in I. destruct I as (v & <- & I).
    apply In_nth_error in I. destruct I as [n E]. rewrite fields_of_nth in E.
    destruct (nth_error (k_fields k) n) as [[s b]|]; [|discriminate]. injection E as <-. cbn [plus snd] in J.
    unfold field_of in J. destruct b; cbn [field_ies] in J.
    + rewrite present_map_Some in J. now apply filter_In in J.
    + destruct (last_opt _) as [j|] eqn:L; [|destruct J]. destruct J as [<-|[]].
      apply last_opt_In, filter_In in L. tauto.
  - now apply filter_In in I.
Qed.

Lemma encs_wires is : Forall (fun i => exists b, wire g i b) is -> wires g is (encs is).
Proof. clear C.
  intros H. apply concat_enc_wires. eapply Forall_impl; [|exact H]. intros i (b & W).
  now rewrite (wire_enc W).
Qed.

(** header fields fit their Go types *)
Definition h_ranges (h : header) : Prop := (h_flags h < 256 /\ h_type h < 256 /\ h_prio h < 256)%N.

(** C23 core: encode then decode *)
Theorem msg_marshal_parse m : typed k m -> h_ranges (m_h m) ->
  Forall (fun i => exists b, wire g i b) (body_ies m) ->
  exists b h', msg_marshal g k m = Ok (b, with_h m (final_header m)) /\
    msg_parse g k b = Ok (mkM h' (m_f m) (map Some (present (m_ies m)))) /\
    h' = hnorm (final_header m).
Proof.
  intros T (R1 & R2 & R3) W. pose proof T as (Sh & Nn & _).
  exists (henc (final_header m)), (hnorm (final_header m)). split; [now apply msg_marshal_ok|]. split; [|reflexivity].
  pose proof (encs_wires W) as WW.
  assert (HB : bytes (encs (body_ies m))) by (eapply wires_bytes; eauto).
  pose proof (hnorm_wire (final_header m) R1 R2 R3 HB) as HW.
  rewrite msg_parse_eq by exact C.
  assert (E : parse_header (henc (final_header m)) = Ok (hnorm (final_header m))).
  { apply parse_header_iff; [|exact HW]. eapply hwire_bytes; eauto. }
  rewrite E. cbn [bind].
  change (h_payload (hnorm (final_header m))) with (encs (body_ies m)).
  destruct (Nat.ltb_spec (length (encs (body_ies m))) 2) as [L|L].
  - assert (Z : body_ies m = []).
    { rewrite encs_length in L. destruct (body_ies m) as [|i is]; [reflexivity|].
      rewrite lens_cons in L. pose proof (mlen_ge4 g i). lia. }
    rewrite <- message_of_body by exact T. now rewrite Z.
  - rewrite (parseMulti_wires WW). cbn [bind]. now rewrite message_of_body.
Qed.

(** C22 core *)
Theorem msg_parse_marshal b h is : bytes b -> hwire h b -> wires g is (h_payload h) ->
  let m := message_of k h is in
  msg_parse g k b = Ok m /\
  exists b' m', msg_marshal g k m = Ok (b', with_h m (final_header m)) /\
    msg_parse g k b' = Ok m' /\ m_f m' = m_f m /\ m_ies m' = m_ies m /\
    h_flags (m_h m') = h_flags h /\ h_type (m_h m') = h_type h /\ h_seid (m_h m') = h_seid h /\
    h_seq (m_h m') = h_seq h /\ h_prio (m_h m') = h_prio h /\
    exists m'', msg_marshal g k m' = Ok (b', m'').
Proof.
  intros Hb HW WW m. split.
  - rewrite msg_parse_eq by exact C.
    assert (E : parse_header b = Ok h) by now apply parse_header_iff. rewrite E. cbn [bind].
    destruct (Nat.ltb_spec (length (h_payload h)) 2) as [L|L].
    + assert (is = []) as ->; [|reflexivity]. inversion WW as [|i c js cs Wi]; subst; [reflexivity|].
      pose proof (wire_length Wi) as WL. pose proof (mlen_ge4 g i).
      match goal with H : _ ++ _ = h_payload h |- _ => rewrite <- H, app_length in L end. lia.
    + now rewrite (parseMulti_wires WW).
  - assert (T : typed k m) by apply message_of_typed.
    assert (R : h_ranges h) by (inversion HW; subst; repeat split; assumption).
    assert (W : Forall (fun i => exists c, wire g i c) is).
    { clear - WW. induction WW; constructor; eauto. }
    assert (WB : Forall (fun i => exists c, wire g i c) (body_ies m)).
    { apply Forall_forall. intros i I. apply message_of_body_In in I. rewrite Forall_forall in W. auto. }
    destruct (@msg_marshal_parse m T R WB) as (b' & h' & E1 & E2 & ->).
    exists b'. eexists. split; [exact E1|]. split; [exact E2|]. cbn [m_f m_ies m_h].
    split; [reflexivity|]. split; [unfold m; cbn [message_of m_ies]; now rewrite present_map_Some|].
    cbn [hnorm h_flags h_type h_seid h_seq h_prio final_header h_set_length with_payload].
    change (m_h m) with h.
    split; [reflexivity|]. split; [reflexivity|].
    split; [|split; [|split; [reflexivity|]]].
    + inversion HW; subst; cbn [h_flags h_seid]; match goal with H : N.odd _ = _ |- _ => rewrite H end; try reflexivity; now apply u64_id.
    + inversion HW; subst; cbn [h_seq]; now apply N.mod_small.
    + pose proof T as (Sh & Nn & _).
      set (m' := mkM _ _ _).
      assert (B : body_ies m' = body_ies m).
      { unfold body_ies. subst m'. cbn [m_f m_ies]. now rewrite present_map_Some. }
      exists (with_h m' (final_header m')).
      assert (X : msg_marshal g k m' = Ok (henc (final_header m'), with_h m' (final_header m'))) by now apply msg_marshal_ok.
      rewrite X. clear X. enough (X : henc (final_header m') = b') by now rewrite X.
      rewrite (msg_marshal_ok C Sh Nn) in E1. injection E1 as <-.
      unfold final_header. rewrite B. subst m'. cbn [m_h with_payload]. unfold h_set_length, henc, has_seid.
      cbn [h_flags h_type h_length h_seid h_seq h_prio h_payload hnorm final_header with_payload h_set_length].
      change (m_h m) with h. rewrite has1_odd.
      rewrite <- (@be_cast 3 (2 ^ 24)%N (h_seq h mod 2 ^ 24)) by reflexivity.
      rewrite N.mod_mod by discriminate. rewrite (@be_cast 3 (2 ^ 24)%N) by reflexivity.
      destruct (N.odd (h_flags h)); [|reflexivity].
      unfold u64. now rewrite (@be_cast 8).
Qed.
End Rt.
End Codec.
