(** What UnmarshalBinary of a message leaves in its receiver, and what the receiver does afterwards. *)
From Coq Require Import String.
From Verif Require Import Codec.
From Verif Require Import Base Bits IETypes IE Spec IEProofs IEProofs2 Header HeaderSpec HeaderProofs Message MsgTables MsgSpec MsgProofs MsgProofs2 MsgProps MsgProps2 Failed FailedProofs.
Set Implicit Arguments.
Local Open Scope list_scope.

(** the receiver's IE fields have the shape of the Go struct *)
Definition p_shaped (k : kind) (p : pmsg) : Prop := map shape (p_f p) = map snd (k_fields k).

Section G.
Variable g : N -> bool.
Section K.
Variable k : kind.
Hypothesis C : consistent k = true.

(** the contents after the IEs [is] were stored *)
Definition stored (p : pmsg) (h : header) (is : list ie) : pmsg :=
  match k_mode k with IReplace => mkP (Some h) (p_f p) (map Some is) | IAppend => held (absorb_all k is (with_header p h)) end.
Lemma p_unmarshal_eq p b : p_shaped k p ->
  p_unmarshal g k p b =
  match parse_header b with
  | Fault => Fault | Fuel => Fuel
  | Err e => Ok (Some e, mkP None (p_f p) (p_ies p))
  | Ok h =>
    if length (h_payload h) <? 2 then Ok (None, mkP (Some h) (p_f p) (p_ies p)) else
    match parseMultiIEs g (h_payload h) with
    | Fault => Fault | Fuel => Fuel
    | Err e => Ok (Some e, mkP (Some h) (p_f p) (match k_mode k with IReplace => [] | IAppend => p_ies p end))
    | Ok is => Ok (None, stored p h is)
    end
  end.
Proof.
  intros Sh. unfold p_unmarshal, stored. destruct (parse_header b) as [h| | |]; trivial. cbn [p_f p_ies]. destruct (length (h_payload h) <? 2); trivial.
  destruct (parseMultiIEs g (h_payload h)) as [is| | |]; destruct (k_mode k); trivial.
  rewrite store_all_ok; [reflexivity|exact C|exact Sh].
Qed.
Lemma stored_shaped p h is : p_shaped k p -> p_shaped k (stored p h is).
Proof.
  intros Sh. unfold stored. destruct (k_mode k) eqn:M; [|exact Sh]. exact (@absorb_all_shaped k is (with_header p h) Sh).
Qed.
Lemma empty_shaped : p_shaped k (empty k).
Proof. exact (zero_shaped k zero_header). Qed.
Lemma p_unmarshal_shaped p b e q : p_shaped k p -> p_unmarshal g k p b = Ok (e, q) -> p_shaped k q.
Proof.
  intros Sh. rewrite p_unmarshal_eq by exact Sh. destruct (parse_header b) as [h|er| |]; try discriminate.
  - destruct (length (h_payload h) <? 2). { intros [= <- <-]. exact Sh. }
    destruct (parseMultiIEs g (h_payload h)) as [is|er| |]; try discriminate; intros [= <- <-]; [now apply stored_shaped|exact Sh].
  - intros [= <- <-]. exact Sh.
Qed.
(** it never panics *)
Theorem p_returns p b : bytes b -> p_shaped k p -> exists e q, p_unmarshal g k p b = Ok (e, q).
Proof.
  intros Hb Sh. rewrite p_unmarshal_eq by exact Sh. destruct (too_short_dec b) as [S|S].
  - assert (E : parse_header b = Err EUnexpectedEOF) by now apply h_unmarshal_short. rewrite E. eauto.
  - destruct (h_unmarshal_long zero_header Hb S) as (h & HW & _). assert (E : parse_header b = Ok h) by now apply parse_header_iff. rewrite E.
    destruct (length (h_payload h) <? 2); eauto. assert (Hp : bytes (h_payload h)) by (inversion HW; assumption).
    destruct (@parseMulti_returns g _ Hp) as [[is E2]|[e E2]]; rewrite E2; eauto.
Qed.
(** on success it is the decoder of Message.v, on failure that decoder fails with the same error *)
Theorem p_agrees p b : p_shaped k p ->
  msg_unmarshal g k (with_header p zero_header) b =
  match p_unmarshal g k p b with
  | Ok (None, q) => deref q (fun m => Ok m)
  | Ok (Some e, _) => Err e
  | Err e => Err e | Fault => Fault | Fuel => Fuel
  end.
Proof.
  intros Sh. rewrite p_unmarshal_eq by exact Sh. rewrite (@msg_unmarshal_eq g k C) by exact Sh.
  destruct (parse_header b) as [h| | |]; trivial. cbn [bind]. destruct (length (h_payload h) <? 2); trivial.
  destruct (parseMultiIEs g (h_payload h)) as [is| | |]; trivial. cbn [bind]. unfold stored, deref. destruct (k_mode k) eqn:M; cbn [held p_h with_header p_f p_ies].
  - reflexivity.
  - destruct (c_replace k C M) as [F _]. unfold p_shaped in Sh. rewrite F in Sh. destruct (p_f p); [reflexivity|discriminate].
Qed.
Theorem p_left_iff p b er q : bytes b -> p_shaped k p ->
  (p_unmarshal g k p b = Ok (Some er, q) <->
   (too_short b /\ er = EUnexpectedEOF /\ q = mkP None (p_f p) (p_ies p)) \/
   (exists h, hwire h b /\ 2 <= length (h_payload h) /\ parseMultiIEs g (h_payload h) = Err er /\
      q = mkP (Some h) (p_f p) (match k_mode k with IReplace => [] | IAppend => p_ies p end))).
Proof.
  intros Hb Sh. rewrite p_unmarshal_eq by exact Sh. destruct (too_short_dec b) as [S|S].
  - assert (E : parse_header b = Err EUnexpectedEOF) by now apply h_unmarshal_short. rewrite E. split.
    + intros [= <- <-]. now left.
    + intros [(_ & -> & ->)|(h & HW & _)]; [reflexivity|]. apply parse_header_iff in HW; [|exact Hb]. congruence.
  - destruct (h_unmarshal_long zero_header Hb S) as (h & HW & _). assert (E : parse_header b = Ok h) by now apply parse_header_iff. rewrite E. split.
    + destruct (Nat.ltb_spec (length (h_payload h)) 2) as [L|L]; [discriminate|]. destruct (parseMultiIEs g (h_payload h)) eqn:P; try discriminate. intros [= <- <-]. right. eauto 6.
    + intros [(X & _)|(h' & HW' & L & P & ->)]; [contradiction|]. apply parse_header_iff in HW'; [|exact Hb]. assert (h' = h) by congruence. subst h'.
      destruct (Nat.ltb_spec (length (h_payload h)) 2); [lia|]. now rewrite P.
Qed.
Theorem p_good_iff p b q : bytes b -> p_shaped k p ->
  (p_unmarshal g k p b = Ok (None, q) <->
   exists h, hwire h b /\ ((length (h_payload h) < 2 /\ q = mkP (Some h) (p_f p) (p_ies p)) \/
     (2 <= length (h_payload h) /\ exists is, accepteds g is (h_payload h) /\ q = stored p h is))).
Proof.
  intros Hb Sh. rewrite p_unmarshal_eq by exact Sh. destruct (too_short_dec b) as [S|S].
  - assert (E : parse_header b = Err EUnexpectedEOF) by now apply h_unmarshal_short. rewrite E. split; [discriminate|].
    intros (h & HW & _). apply parse_header_iff in HW; [|exact Hb]. congruence.
  - destruct (h_unmarshal_long zero_header Hb S) as (h & HW & _). assert (E : parse_header b = Ok h) by now apply parse_header_iff. rewrite E.
    assert (Hp : bytes (h_payload h)) by (inversion HW; assumption). split.
    + intros X. exists h. split; [exact HW|]. destruct (Nat.ltb_spec (length (h_payload h)) 2) as [L|L].
      * left. split; [exact L|]. congruence.
      * right. split; [exact L|]. destruct (parseMultiIEs g (h_payload h)) as [is| | |] eqn:P; try discriminate. exists is. split; [now apply parseMulti_iff|congruence].
    + intros (h' & HW' & D). apply parse_header_iff in HW'; [|exact Hb]. assert (h' = h) by congruence. subst h'.
      destruct D as [(L & ->)|(L & is & A & ->)]; destruct (Nat.ltb_spec (length (h_payload h)) 2); try lia; [reflexivity|]. apply parseMulti_iff in A; [|exact Hp]. now rewrite A.
Qed.
(** the header afterwards *)
Theorem p_header_iff p b e q : bytes b -> p_shaped k p -> p_unmarshal g k p b = Ok (e, q) ->
  (too_short b /\ p_h q = None) \/ (exists h, hwire h b /\ p_h q = Some h).
Proof.
  intros Hb Sh E. destruct e as [er|].
  - apply p_left_iff in E; trivial. destruct E as [(S & _ & ->)|(h & HW & _ & _ & ->)]; [now left|right; eauto].
  - apply p_good_iff in E; trivial. destruct E as (h & HW & [(_ & ->)|(_ & is & _ & ->)]); right; exists h; split; trivial. unfold stored. now destruct (k_mode k).
Qed.

(** ** one receiver, one datagram after another *)
(** the IEs a datagram contributes *)
Inductive gives (d : list N) : list ie -> Prop :=
| gives_short : too_short d -> gives d []
| gives_empty h : hwire h d -> length (h_payload h) < 2 -> gives d []
| gives_bad h : hwire h d -> 2 <= length (h_payload h) -> (forall is, ~ accepteds g is (h_payload h)) -> gives d []
| gives_good h is : hwire h d -> 2 <= length (h_payload h) -> accepteds g is (h_payload h) -> gives d is.
(** the header a datagram leaves *)
Inductive leaves (d : list N) : option header -> Prop :=
| leaves_none : too_short d -> leaves d None
| leaves_some h : hwire h d -> leaves d (Some h).
Lemma absorb_all_app a : forall b m, absorb_all k (a ++ b) m = absorb_all k b (absorb_all k a m).
Proof.
  induction a as [|i a IH]; intros b m. { now rewrite absorb_all_nil. }
  cbn [app]. rewrite absorb_all_cons, IH, (@absorb_all_cons k i a). reflexivity.
Qed.
Lemma p_step p b : k_mode k = IAppend -> bytes b -> p_shaped k p ->
  exists e q is, p_unmarshal g k p b = Ok (e, q) /\ p_shaped k q /\ leaves b (p_h q) /\ gives b is /\
    with_header q zero_header = absorb_all k is (with_header p zero_header).
Proof.
  intros M Hb Sh. destruct (p_returns Hb Sh) as (e & q & E). exists e, q.
  assert (Sq : p_shaped k q) by (eapply p_unmarshal_shaped; eauto).
  assert (L : leaves b (p_h q)).
  { destruct (p_header_iff Hb Sh E) as [(S & ->)|(h & HW & ->)]; now constructor. }
  destruct e as [er|].
  - exists []. pose proof E as E'. apply p_left_iff in E'; trivial. rewrite absorb_all_nil. rewrite M in E'. repeat (split; [assumption|]).
    destruct E' as [(S & _ & ->)|(h & HW & Ln & P & ->)]; (split; [|reflexivity]).
    + now constructor.
    + apply (@gives_bad b h); trivial. intros is A. apply parseMulti_iff in A; [congruence|]. inversion HW; assumption.
  - pose proof E as E'. apply p_good_iff in E'; trivial. destruct E' as (h & HW & [(Ln & ->)|(Ln & is & A & ->)]).
    + exists []. rewrite absorb_all_nil. repeat (split; [assumption|]). split; [|reflexivity]. now apply (@gives_empty b h).
    + exists is. repeat (split; [assumption|]). split; [now apply (@gives_good b h)|]. unfold stored. rewrite M. reflexivity.
Qed.
Theorem p_feed_exact ds : forall p, k_mode k = IAppend -> Forall bytes ds -> p_shaped k p ->
  exists q iss, p_feed g k p ds = Ok q /\ p_shaped k q /\ Forall2 gives ds iss /\
    (forall d, last_opt ds = Some d -> leaves d (p_h q)) /\
    with_header q zero_header = absorb_all k (concat iss) (with_header p zero_header).
Proof.
  induction ds as [|d ds IH]; intros p M Hd Sh.
  - exists p, []. cbn. rewrite absorb_all_nil. repeat split; auto. discriminate.
  - pose proof (Forall_inv Hd) as Hb. apply Forall_inv_tail in Hd.
    destruct (p_step M Hb Sh) as (e & q & is & E & Sq & L & G & W). destruct (IH q M Hd Sq) as (r & iss & E2 & Sr & Gs & Lr & Wr).
    exists r, (is :: iss). cbn [p_feed]. rewrite E. cbn [bind]. split; [exact E2|]. split; [exact Sr|]. split; [now constructor|]. split.
    + intros x X. destruct ds as [|d2 ds].
      * cbn in X. assert (x = d) by congruence. subst x. cbn in E2. assert (q = r) by congruence. now subst r.
      * apply Lr. exact X.
    + cbn [concat]. now rewrite absorb_all_app, <- W.
Qed.
(** from &X{} *)
Theorem p_feed_fresh ds : k_mode k = IAppend -> Forall bytes ds ->
  exists q iss, p_feed g k (empty k) ds = Ok q /\ Forall2 gives ds iss /\
    (forall d, last_opt ds = Some d -> leaves d (p_h q)) /\
    (forall h, with_header q h = message_of k h (concat iss)).
Proof.
  intros M Hd. destruct (@p_feed_exact ds (empty k) M Hd empty_shaped) as (q & iss & E & _ & G & L & W). exists q, iss. repeat (split; [assumption|]).
  intros h. change (with_header (empty k) zero_header) with (zero_msg k zero_header) in W. rewrite absorb_all_zero in W.
  unfold with_header, message_of in *. injection W as W1 W2. rewrite W1, W2. reflexivity.
Qed.

(** ** the peer's view of a receiver that is sent on after its body was rejected *)
Theorem p_stale p b er q : bytes b -> k_mode k = IAppend -> typed k (with_header p zero_header) ->
  Forall (fun i => exists e, wire g i e) (body_ies (with_header p zero_header)) ->
  ~ too_short b -> p_unmarshal g k p b = Ok (Some er, q) ->
  exists h out q' m, hwire h b /\ p_marshal g k q = Ok (out, q') /\ msg_parse g k out = Ok m /\
    msg_seq m = h_seq h /\ msg_type m = h_type h /\ h_flags (m_h m) = h_flags h /\ h_seid (m_h m) = h_seid h /\
    m_f m = p_f p /\ m_ies m = map Some (present (p_ies p)).
Proof.
  intros Hb M T W S E. assert (Sh : p_shaped k p) by exact (proj1 T). apply p_left_iff in E; trivial. rewrite M in E.
  destruct E as [(X & _)|(h & HW & L & P & ->)]; [contradiction|].
  assert (R : h_ranges h) by (inversion HW; subst; repeat split; assumption).
  destruct (@msg_marshal_parse g k C (with_header p h) T R W) as (out & h' & E1 & E2 & ->).
  exists h, out. do 2 eexists. split; [exact HW|]. unfold p_marshal, deref. cbn [p_h p_f p_ies]. change (with_header _ h) with (with_header p h).
  rewrite E1. cbn [bind]. split; [reflexivity|]. split; [exact E2|]. cbn.
  inversion HW as [fl tp ln sd sq pr body ? O ? ? Hsd Hsq ?|fl tp ln sq pr body ? O ? ? Hsq ?]; subst; cbn in *; rewrite ?O; repeat split; trivial.
  - now apply N.mod_small.
  - now apply N.mod_small.
  - now apply N.mod_small.
Qed.
End K.
End G.

(** ** methods of a receiver without a header *)
Theorem nil_methods g k p : p_h p = None ->
  p_len g k p = Fault /\ p_marshal g k p = Fault /\ p_set_length g k p = Fault /\ p_type p = Fault /\ p_seid p = Fault /\ p_seq p = Fault.
Proof. intros E. unfold p_len, p_marshal, p_set_length, p_type, p_seid, p_seq, deref. rewrite E. tauto. Qed.
Theorem header_methods g k p h : p_h p = Some h ->
  p_len g k p = msg_len g k (with_header p h) /\
  p_marshal g k p = (' r <- msg_marshal g k (with_header p h) ;; Ok (fst r, held (snd r))) /\
  p_set_length g k p = (m <- msg_set_length g k (with_header p h) ;; Ok (held m)) /\
  p_type p = Ok (h_type h) /\ p_seid p = Ok (msg_seid (with_header p h)) /\ p_seq p = Ok (h_seq h).
Proof.
  intros E. unfold p_len, p_marshal, p_set_length, p_type, p_seid, p_seq, deref. rewrite E. repeat split; trivial.
  destruct (msg_marshal g k (with_header p h)) as [[]| | |]; reflexivity.
Qed.

(** ** the relations are functions *)
Lemma gives_det g d is1 is2 : bytes d -> gives g d is1 -> gives g d is2 -> is1 = is2.
Proof.
  intros Hb. assert (U : forall h1 h2, hwire h1 d -> hwire h2 d -> h1 = h2).
  { intros h1 h2 A B. apply parse_header_iff in A, B; trivial. congruence. }
  assert (S : forall h, hwire h d -> too_short d -> False) by (intros h A; apply hwire_long in A; exact A).
  intros [A|h1 A1 A2|h1 A1 A2 A3|h1 l1 A1 A2 A3] [B|h2 B1 B2|h2 B1 B2 B3|h2 l2 B1 B2 B3]; trivial;
    try (exfalso; eapply S; eassumption); try (pose proof (U _ _ A1 B1); subst h2); try lia.
  - exfalso. eapply A3; eassumption.
  - exfalso. eapply B3; eassumption.
  - assert (Hp : bytes (h_payload h1)) by (inversion A1; assumption). apply parseMulti_iff in A3, B3; trivial. congruence.
Qed.
Lemma leaves_det d h1 h2 : bytes d -> leaves d h1 -> leaves d h2 -> h1 = h2.
Proof.
  intros Hb [A|h A] [B|h' B]; trivial; try (apply hwire_long in A || apply hwire_long in B; contradiction).
  apply parse_header_iff in A, B; trivial. congruence.
Qed.
Lemma generic_modes : forallb (fun k => match k_mode k with IReplace => String.eqb (k_name k) "Generic" | IAppend => negb (String.eqb (k_name k) "Generic") end) kinds = true.
Proof. vm_compute. reflexivity. Qed.
Lemma generic_mode k : In k kinds -> k_mode k = if String.eqb (k_name k) "Generic" then IReplace else IAppend.
Proof.
  intros I. pose proof (proj1 (forallb_forall _ _) generic_modes k I) as X. cbv beta in X. destruct (k_mode k), (String.eqb (k_name k) "Generic"); cbn in X; congruence.
Qed.
