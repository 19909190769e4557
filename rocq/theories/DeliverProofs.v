(** Sender and receiver with different tables of grouped types. *)
From Coq Require Import Floats.SpecFloat.
From Verif Require Import Base IETypes IE Spec Bits Header HeaderSpec HeaderProofs IEProofs IEProofs2 IEProps Codec Codec2 Utils UtilsProofs Fields1
  Message MsgTables MsgSpec MsgProofs MsgProofs2 MsgProps
  Access AccTable AccRun AccProofs AccProofs2 AccProofs5 Flags FlagTable FlagRun New NewTable NewRun NewProofs NewProofs2 NewProofs3 NewProofs5.
Set Implicit Arguments.

(** what a receiver for whom g' tells the grouped types makes of the element i *)
Fixpoint seen (g' : N -> bool) (i : ie) : ie :=
  mkIE (ty i) (len i) (eid i) (payload i) (if g' (ty i) then map (seen g') (children i) else []).
(** the elements the receiver will decode: i and, inside an element of a type it takes for grouped, the children *)
Inductive reached (g' : N -> bool) (i : ie) : ie -> Prop :=
| reached_self : reached g' i i
| reached_child c j : g' (ty i) = true -> In c (children i) -> reached g' c j -> reached g' i j.
(** the receiver takes for grouped nothing that the sender does not *)
Definition understood (g g' : N -> bool) (i : ie) : Prop := forall j, reached g' i j -> g' (ty j) = true -> g (ty j) = true.

Lemma seen_ty g' i : ty (seen g' i) = ty i. Proof. now destruct i. Qed.
Lemma seen_len g' i : len (seen g' i) = len i. Proof. now destruct i. Qed.
Lemma seen_eid g' i : eid (seen g' i) = eid i. Proof. now destruct i. Qed.
Lemma seen_payload g' i : payload (seen g' i) = payload i. Proof. now destruct i. Qed.
Lemma seen_children g' i : children (seen g' i) = if g' (ty i) then map (seen g') (children i) else []. Proof. now destruct i. Qed.

Section Two.
Variable g g' : N -> bool.

Lemma understood_child i c : understood g g' i -> g' (ty i) = true -> In c (children i) -> understood g g' c.
Proof. intros U G I j R. apply U. now apply reached_child with c. Qed.
Lemma seen_wire i b : wire g i b -> understood g g' i -> wire g' (seen g' i) b.
Proof.
  apply (@wire_mut g (fun i b => understood g g' i -> wire g' (seen g' i) b) (fun is b => Forall (understood g g') is -> wires g' (map (seen g') is) b)).
  - intros t l e cs h body H1 H2 H3 H4 H5 H6 U. cbn [seen ty len eid payload children]. constructor; trivial.
    + intros G. rewrite G. apply H5; [exact (U _ (reached_self _ _) G)|]. apply Forall_forall. intros c I. now apply (@understood_child _ c U).
    + intros G. now rewrite G.
  - constructor.
  - intros i0 b0 is bs H1 H2 H3 H4 F. inversion F; subst. cbn [map]. constructor; auto.
Qed.
Lemma seen_wires is b : wires g is b -> Forall (understood g g') is -> wires g' (map (seen g') is) b.
Proof. induction 1; intros F; cbn [map]; [constructor|]. inversion F; subst. constructor; auto. now apply seen_wire. Qed.
(** with the same table nothing changes *)
Lemma seen_self i b : wire g i b -> seen g i = i.
Proof.
  apply (@wire_mut g (fun i b => seen g i = i) (fun is b => map (seen g) is = is)).
  - intros t l e cs h body H1 H2 H3 H4 H5 H6. cbn [seen ty len eid payload children]. destruct (g t); [now rewrite H5|now rewrite H6].
  - reflexivity.
  - intros i0 b0 is bs H1 H2 H3 H4. cbn [map]. congruence.
Qed.

(** ** messages *)
Definition seen_field (v : fval) : fval :=
  match v with FOne o => FOne (option_map (seen g') o) | FMany l => FMany (map (option_map (seen g')) l) end.
Lemma filter_seen p is : (forall i, p (seen g' i) = p i) -> filter p (map (seen g') is) = map (seen g') (filter p is).
Proof. intros H. induction is as [|i is IH]; cbn; [reflexivity|]. rewrite H, IH. now destruct (p i). Qed.
Lemma belongs_seen k n i : belongs k n (seen g' i) = belongs k n i.
Proof. unfold belongs, route. now rewrite seen_ty. Qed.
Lemma unrouted_seen k i : unrouted k (seen g' i) = unrouted k i.
Proof. unfold unrouted, route. now rewrite seen_ty. Qed.
Lemma last_opt_map {A B} (f : A -> B) l : last_opt (map f l) = option_map f (last_opt l).
Proof. induction l as [|x l IH]; [reflexivity|]. destruct l; [reflexivity|]. exact IH. Qed.
Lemma fields_seen k is fs : forall n, fields_of k (map (seen g') is) n fs = map seen_field (fields_of k is n fs).
Proof.
  induction fs as [|[s b] fs IH]; intros n; [reflexivity|]. cbn [fields_of map]. rewrite IH. f_equal. unfold field_of.
  rewrite filter_seen by apply belongs_seen. destruct b; cbn [seen_field]; [|now rewrite last_opt_map]. now rewrite !map_map.
Qed.
Lemma message_of_seen k h is : message_of k h (map (seen g') is) =
  mkM h (map seen_field (m_f (message_of k h is))) (map (option_map (seen g')) (m_ies (message_of k h is))).
Proof. unfold message_of. cbn [m_f m_ies]. rewrite fields_seen, filter_seen by apply unrouted_seen. now rewrite !map_map. Qed.

Theorem deliver k m : In k kinds -> kind_of (h_type (m_h m)) = k -> typed k m -> h_ranges (m_h m) ->
  Forall (fun i => (exists b, wire g i b) /\ understood g g' i) (body_ies m) ->
  exists b m1, msg_marshal g k m = Ok (b, m1) /\
    parse_msg g' b = Ok (k, mkM (hnorm (final_header g m)) (map seen_field (m_f m)) (map Some (map (seen g') (present (m_ies m))))).
Proof.
  intros I K T (R1 & R2 & R3) W. pose proof (@kind_consistent k I) as C. pose proof T as (Sh & Nn & _).
  exists (henc (final_header g m)), (with_h m (final_header g m)). split; [now apply msg_marshal_ok|].
  assert (W1 : Forall (fun i => exists b, wire g i b) (body_ies m)) by (eapply Forall_impl; [|exact W]; intros ? []; assumption).
  assert (W2 : Forall (understood g g') (body_ies m)) by (eapply Forall_impl; [|exact W]; intros ? []; assumption).
  pose proof (@encs_wires g _ W1) as WW. assert (HB : bytes (encs g (body_ies m))) by (eapply wires_bytes; eauto).
  pose proof (hnorm_wire (final_header g m) R1 R2 R3 HB) as HW.
  apply parse_msg_iff; [eapply hwire_bytes; eauto|]. exists (hnorm (final_header g m)). split; [exact HW|].
  split; [symmetry; exact K|].
  change (h_payload (hnorm (final_header g m))) with (encs g (body_ies m)).
  assert (E : mkM (hnorm (final_header g m)) (map seen_field (m_f m)) (map Some (map (seen g') (present (m_ies m)))) =
    message_of k (hnorm (final_header g m)) (map (seen g') (body_ies m))).
  { rewrite message_of_seen, message_of_body by exact T. cbn [m_f m_ies]. now rewrite !map_map. }
  rewrite E. destruct (Nat.lt_ge_cases (length (encs g (body_ies m))) 2) as [L|L].
  - left. split; [exact L|].
    assert (Z : body_ies m = []).
    { rewrite encs_length in L. destruct (body_ies m) as [|i is]; [reflexivity|]. rewrite lens_cons in L. pose proof (mlen_ge4 g i). lia. }
    now rewrite Z.
  - right. split; [exact L|]. exists (map (seen g') (body_ies m)). split; [|reflexivity]. apply wires_accepteds. now apply seen_wires.
Qed.
End Two.
