(** C92: how much a datagram makes the decoder do. *)
From Verif Require Import Base Codec IETypes IE Spec IEProofs Header HeaderSpec HeaderProofs Message MsgSpec MsgTables MsgProps Cost CostProofs.
From Verif Require PropsHeader.
Local Open Scope list_scope.

(** the counting decoder is the decoder *)
Theorem C92_same g b : decoded (parse_c g b) = parse g b /\ decoded (parseMultiIEs_c g b) = parseMultiIEs g b.
Proof. split; [apply (proj1 (decoded_same g _))|apply (proj2 (decoded_same g _))]. Qed.
Print Assumptions C92_same.
(** at most one UnmarshalBinary for every four octets, and one more; at most one MarshalLen for every 16 pairs of octets;
    whether the octets are accepted or not *)
Theorem C92_bounds g b :
  4 * calls (parse_c g b) <= length b + 4 /\ 16 * visits (parse_c g b) <= length b * length b /\
  4 * calls (parseMultiIEs_c g b) <= length b + 4 /\ 16 * visits (parseMultiIEs_c g b) <= length b * length b.
Proof.
  destruct (proj1 (bounds g (S (S (length b)))) b) as (H1 & H2 & _). destruct (proj2 (bounds g (S (S (length b)))) b) as (H3 & H4 & _).
  repeat split; assumption.
Qed.
Print Assumptions C92_bounds.
(** what is decoded: an IE for every four octets at most, at every level taken together, and no more levels than IEs *)
Theorem C92_size g b i : parse g b = Ok i -> 4 * elements i <= length b /\ levels i <= elements i.
Proof.
  intros H. rewrite <- (proj1 (C92_same g b)) in H. destruct (proj1 (bounds g (S (S (length b)))) b) as (_ & _ & B).
  destruct (B i H) as (M & _ & E & _). split; [lia|apply levels_elements].
Qed.
Print Assumptions C92_size.
Theorem C92_list_size g b is : parseMultiIEs g b = Ok is -> 4 * list_sum (map elements is) <= length b.
Proof.
  intros H. rewrite <- (proj2 (C92_same g b)) in H. destruct (proj2 (bounds g (S (S (length b)))) b) as (_ & _ & B). apply (B is H).
Qed.
Print Assumptions C92_list_size.
(** the exact counts: one UnmarshalBinary for each IE made, and for each of them as many MarshalLen as it has enclosing IEs *)
Theorem C92_exact g b i : parse g b = Ok i -> calls (parse_c g b) = elements i /\ visits (parse_c g b) = depth_sum i.
Proof. intros H. rewrite <- (proj1 (C92_same g b)) in H. now apply (proj1 (exact g _)). Qed.
Print Assumptions C92_exact.
(** a message holds an IE for every four octets after its header at most *)
Definition weight (is : list ie) : nat := list_sum (map elements is).
Lemma weight_app a b : weight (a ++ b) = weight a + weight b.
Proof. unfold weight. now rewrite map_app, list_sum_app. Qed.
Lemma present_app {A} (a b : list (option A)) : present (a ++ b) = present a ++ present b.
Proof. induction a as [|[x|] a IH]; simpl; congruence. Qed.
Lemma weight_upd fs n v v' : nth_error fs n = Some v ->
  weight (concat (map field_ies (upd fs n v'))) + weight (field_ies v) = weight (concat (map field_ies fs)) + weight (field_ies v').
Proof.
  revert n. induction fs as [|f fs IH]; intros [|n]; cbn [upd map concat nth_error]; try discriminate; rewrite !weight_app; intros H.
  - injection H as ->. lia.
  - specialize (IH _ H). lia.
Qed.
Lemma store_weight cases m i m' : store cases m i = Ok m' -> weight (body_ies m') <= weight (body_ies m) + elements i.
Proof.
  unfold store, body_ies. destruct (Message.lookup (ty i) cases) as [[n|n]|].
  - destruct (nth_error (m_f m) n) as [[o|l]|] eqn:E; try discriminate. intros H. injection H as <-. cbn [m_f m_ies]. rewrite !weight_app.
    pose proof (weight_upd _ _ _ (FOne (Some i)) E) as W. change (weight (field_ies (FOne (Some i)))) with (elements i + 0) in W. lia.
  - destruct (nth_error (m_f m) n) as [[o|l]|] eqn:E; try discriminate. intros H. injection H as <-. cbn [m_f m_ies]. rewrite !weight_app.
    pose proof (weight_upd _ _ _ (FMany (l ++ [Some i])) E) as W. cbn [field_ies] in W. rewrite present_app, weight_app in W. change (weight (present [Some i])) with (elements i + 0) in W. lia.
  - intros H. injection H as <-. cbn [m_f m_ies]. rewrite present_app, !weight_app. change (weight (present [Some i])) with (elements i + 0). lia.
Qed.
Lemma store_all_weight cases is : forall m m', store_all cases m is = Ok m' -> weight (body_ies m') <= weight (body_ies m) + weight is.
Proof.
  induction is as [|i is IH]; intros m m' H; cbn in H; [injection H as <-; lia|]. apply bind_ok in H. destruct H as (m1 & H1 & H). apply IH in H. apply store_weight in H1.
  change (weight (i :: is)) with (elements i + weight is). lia.
Qed.
Lemma zero_weight k h : weight (body_ies (zero_msg k h)) = 0.
Proof. unfold zero_msg, body_ies. cbn [m_f m_ies present]. rewrite app_nil_r. induction (k_fields k) as [|[x []] l IH]; cbn; assumption || reflexivity. Qed.
Lemma present_some {A} (l : list A) : present (map Some l) = l.
Proof. induction l; cbn; congruence. Qed.
Theorem C92_message g b k m : bytes b -> parse_msg g b = Ok (k, m) -> 4 * weight (body_ies m) + 8 <= length b /\ 4 * weight (body_ies m) <= length (h_payload (m_h m)).
Proof.
  intros Hb H. unfold parse_msg, parse_message in H. destruct (length b <? 2); [discriminate|]. apply bind_ok in H. destruct H as (c & _ & H). cbv zeta in H.
  apply bind_ok in H. destruct H as (m1 & H & E). injection E as _ <-. revert H. generalize (match Message.lookup c dispatch with Some k0 => k0 | None => K_Generic end). intros k1 H.
  unfold msg_parse, msg_unmarshal in H. apply bind_ok in H. destruct H as (h & Hh & H).
  pose proof (proj1 (@PropsHeader.C16_exact b h Hb) Hh) as Hw.
  assert (L : length (h_payload h) + 8 <= length b) by (destruct Hw; cbn [h_payload]; rewrite !app_length, !be_length; cbn [length]; lia).
  destruct (length (h_payload h) <? 2).
  - injection H as <-. cbn [m_h]. match goal with |- context [weight (body_ies ?m)] => replace (weight (body_ies m)) with 0 by (symmetry; exact (zero_weight k1 zero_header)) end. lia.
  - apply bind_ok in H. destruct H as (is & P & H). apply C92_list_size in P. fold (weight is) in P.
    assert (Q : m_h m1 = h /\ weight (body_ies m1) <= weight is); [|destruct Q as [-> Q]; lia].
    destruct (k_mode k1).
    + split.
      * revert H. assert (S : forall is x y, store_all (k_switch k1) x is = Ok y -> m_h y = m_h x).
        { clear. induction is as [|i is IH]; intros x y H; cbn in H; [now injection H as <-|]. apply bind_ok in H. destruct H as (z & H1 & H). apply IH in H. rewrite H. clear - H1. unfold store in H1.
          destruct (Message.lookup (ty i) (k_switch k1)) as [[n|n]|]; [destruct (nth_error (m_f x) n) as [[?|?]|]; try discriminate| |]; try (destruct (nth_error (m_f x) n) as [[?|?]|]; try discriminate); injection H1 as <-; reflexivity. }
        intros H. apply S in H. exact H.
      * apply store_all_weight in H. pose proof (zero_weight k1 zero_header) as Z. match type of H with _ <= weight (body_ies ?m) + _ => replace (weight (body_ies m)) with 0 in H by (symmetry; exact Z) end. exact H.
    + injection H as <-. split; [reflexivity|]. pose proof (zero_weight k1 zero_header) as Z. unfold body_ies. cbn [m_f m_ies]. rewrite present_some, weight_app.
      unfold body_ies in Z. rewrite weight_app in Z. apply Nat.eq_add_0 in Z. destruct Z as [Z _].
      match goal with |- weight ?A + _ <= _ => replace (weight A) with 0 by (symmetry; exact Z) end. apply Nat.le_refl.
Qed.
Print Assumptions C92_message.

(** intended: decoding is linear in the size of the datagram.  A chain of nested groups needs a number of MarshalLen calls
    that grows with the square of the size, for every grouped type and up to the largest Length *)
Theorem C92_linear_refuted g t d : (t < 0x8000)%N -> g t = true -> (N.of_nat (4 * d) < 65536)%N ->
  exists b i, bytes b /\ length b = 4 * S d /\ parse g b = Ok i /\ calls (parse_c g b) = S d /\ 2 * visits (parse_c g b) = d * S d.
Proof.
  intros Ht G Hd. exists (chain_octets t (S d)), (chain_ie t d). split; [apply chain_bytes|]. split; [apply chain_length; exact g|].
  assert (P : parse g (chain_octets t (S d)) = Ok (chain_ie t d)).
  { apply parse_iff; [apply chain_bytes|]. exists (chain_octets t (S d)), []. split; [now rewrite app_nil_r|]. apply wire_accepted. now apply chain_wire. }
destruct (C92_exact _ _ _ P) as [-> ->]. split; [exact P|]. split; [apply chain_elements|apply chain_depth_sum]; exact g.
Qed.
Print Assumptions C92_linear_refuted.
(** Marshal calls MarshalLen at most (levels + 1) times for each IE of the tree, any IE value; the chain needs the square again *)
Theorem C92_marshal g i : marshal_visits g i <= elements i * S (levels i).
Proof. apply marshal_visits_le. Qed.
Print Assumptions C92_marshal.
Theorem C92_marshal_linear_refuted g t d : g t = true -> exists i, elements i = S d /\ 2 * marshal_visits g i = S d * (d + 2).
Proof. intros G. exists (chain_ie t d). split; [apply chain_elements; exact g|now apply chain_marshal]. Qed.
Print Assumptions C92_marshal_linear_refuted.

(** a chain of six Create PDR, each in the one before *)
Example C92_ex : (T_CreatePDR < 0x8000)%N /\ default_grouped T_CreatePDR = true /\ (N.of_nat (4 * 5) < 65536)%N.
Proof. repeat split; reflexivity. Qed.
Example C92_ex_three : exists i, parse default_grouped [0; 1; 0; 8; 0; 1; 0; 4; 0; 1; 0; 0]%N = Ok i /\ elements i = 3 /\ levels i = 3 /\
  calls (parse_c default_grouped [0; 1; 0; 8; 0; 1; 0; 4; 0; 1; 0; 0]%N) = 3 /\ visits (parse_c default_grouped [0; 1; 0; 8; 0; 1; 0; 4; 0; 1; 0; 0]%N) = 3.
Proof. eexists. split; [vm_compute; reflexivity|]. repeat split. Qed.
(** refused octets are counted too *)
Example C92_ex_refused : exists e, parse default_grouped [0; 1; 0; 9; 0; 1; 0; 5; 0; 1; 0; 9; 7]%N = Err e /\ calls (parse_c default_grouped [0; 1; 0; 9; 0; 1; 0; 5; 0; 1; 0; 9; 7]%N) = 3.
Proof. eexists. split; vm_compute; reflexivity. Qed.
