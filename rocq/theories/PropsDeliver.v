(** C97: a message from a sender to a receiver that do not agree on which types are grouped (SetIsGroupedFun is called in each process by itself).
    [seen g' i] (DeliverProofs.v) is the element i as a receiver with the table g' holds it: the same type, length, enterprise id and octets; child elements where g' says
    grouped, none elsewhere.  [understood g g' i]: no element the receiver decodes in i is grouped for the receiver only; [understood_inside] (DeliverProofs2.v) is the same for
    every element in i, however deep.  [built]: made by the constructors of package ie, groups from built elements.  [says g beyond i a v]: v is what accessor a returns for a value
    element i, or for the first element of a type it looks for inside a group, and so on down. *)
From Coq Require Import Floats.SpecFloat String.
From Verif Require Import Base IETypes IE Spec Header HeaderSpec HeaderProofs IEProofs IEProofs2 IEProps Codec Message MsgTables MsgSpec MsgProofs MsgProofs2 MsgProps
  Access AccTable AccRun AccProofs AccProofs5 Flags FlagTable FlagRun New NewTable NewRun NewProofs NewProofs2 NewProofs3 NewProofs5 DeliverProofs DeliverProofs2.
Local Open Scope list_scope.

(** any message value with its elements in the fields for their types *)
Theorem C97_message g g' k m : In k kinds -> kind_of (h_type (m_h m)) = k -> typed k m -> h_ranges (m_h m) ->
  Forall (fun i => (exists b, wire g i b) /\ understood g g' i) (body_ies m) ->
  exists b m1 m', msg_marshal g k m = Ok (b, m1) /\ parse_msg g' b = Ok (k, m') /\
    m_f m' = map (seen_field g') (m_f m) /\ m_ies m' = map Some (map (seen g') (present (m_ies m))) /\
    m_h m' = hnorm (final_header g m).
Proof.
  intros I K T R W. destruct (@deliver g g' k m I K T R W) as (b & m1 & E1 & E2).
  exists b, m1. eexists. split; [exact E1|]. split; [exact E2|]. auto.
Qed.
Print Assumptions C97_message.
(** every message constructor and argument list *)
Theorem C97_constructed g g' k a params ies : In k kinds -> kind_of (h_type (ctor_header k a)) = k ->
  (a_type a < 256 -> a_fo a < 256 -> a_mp a < 256 -> a_pri a < 256 -> a_seid a < 2 ^ 64 -> a_seq a < 2 ^ 24 ->
  well_given k params ies ->
  Forall (fun i => (exists b, wire g i b) /\ understood g g' i) (present params ++ present ies) ->
  exists m b m1 m',
    msg_new g k a params ies = Ok m /\ msg_marshal g k m = Ok (b, m1) /\ parse_msg g' b = Ok (k, m') /\
    m_f m' = map (seen_field g') (m_f m) /\ m_ies m' = map Some (map (seen g') (present (m_ies m))) /\
    h_flags (m_h m') = h_flags (m_h m) /\ h_type (m_h m') = h_type (m_h m) /\ h_length (m_h m') = h_length (m_h m) /\
    h_seid (m_h m') = h_seid (m_h m) /\ h_seq (m_h m') = h_seq (m_h m) /\ h_prio (m_h m') = h_prio (m_h m))%N.
Proof.
  intros IK K R1 R2 R3 R4 R5 R6 WG W.
  assert (W1 : Forall (fun i => exists b, wire g i b) (present params ++ present ies)) by (eapply Forall_impl; [|exact W]; intros ? []; assumption).
  destruct (@constructor_roundtrip_gen g k a params ies IK K R1 R2 R3 R4 R5 R6 WG W1) as (m & b & m1 & m' & E1 & E2 & E3 & F1 & F2 & HH).
  pose proof (@kind_consistent k IK) as C. destruct (@new_typed g k C a params ies WG) as (m0 & E0 & T & Hm & Sel). assert (m0 = m) by congruence. subst m0.
  assert (R : h_ranges (m_h m)). { rewrite Hm. apply (ctor_header_ranges k a); auto. now apply kind_code. }
  assert (KK : kind_of (h_type (m_h m)) = k) by (rewrite Hm; exact K).
  assert (WB : Forall (fun i => (exists b, wire g i b) /\ understood g g' i) (body_ies m)).
  { apply Forall_app in W. destruct W as [W3 W4]. apply Forall_forall. intros i Ii.
    rewrite Forall_forall in W3, W4. destruct (k_ctor k).
    - destruct Sel as [S1 S2]. unfold body_ies in Ii. rewrite S1, S2 in Ii. apply in_app_iff in Ii.
      destruct Ii as [Ii|Ii]; [|auto]. apply W3. clear - Ii.
      induction params as [|[p|] ps IH]; cbn in *; auto. destruct Ii as [->|Ii]; auto.
    - destruct Sel as [S1 S2]. unfold body_ies in Ii. rewrite S1, S2 in Ii. apply W4. eapply message_of_body_In. exact Ii. }
  destruct (@deliver g g' k m IK KK T R WB) as (b' & m1' & E2' & E3').
  assert (WB1 : Forall (fun i => exists b, wire g i b) (body_ies m)) by (eapply Forall_impl; [|exact WB]; intros ? []; assumption).
  destruct (@marshal_parse_msg g k m IK KK T R WB1) as (b2 & m2 & m3 & G1 & G2 & _ & _ & G3).
  assert (b' = b) by congruence. assert (b2 = b) by congruence. subst b' b2. assert (m3 = m') by congruence. subst m3.
  exists m, b, m1. eexists. split; [exact E1|]. split; [exact E2|]. split; [exact E3'|]. cbn [m_f m_ies m_h]. split; [reflexivity|]. split; [reflexivity|].
  rewrite <- G3. exact HH.
Qed.
Print Assumptions C97_constructed.
(** whatever the receiver's table: it accepts the message exactly when it can read the octets after the header as elements, and holds those *)
Theorem C97_exact g k m : In k kinds -> kind_of (h_type (m_h m)) = k -> typed k m -> h_ranges (m_h m) -> Forall (fun i => exists b, wire g i b) (body_ies m) ->
  exists b m1 w h, msg_marshal g k m = Ok (b, m1) /\ wires g (body_ies m) w /\ h_type h = h_type (m_h m) /\
    forall g' k' m', parse_msg g' b = Ok (k', m') <-> k' = k /\ exists is, accepteds g' is w /\ m' = message_of k h is.
Proof.
  intros I K T (R1 & R2 & R3) W. pose proof (@kind_consistent k I) as C. pose proof T as (Sh & Nn & _).
  exists (henc (final_header g m)), (with_h m (final_header g m)), (encs g (body_ies m)), (hnorm (final_header g m)).
  split; [now apply msg_marshal_ok|]. pose proof (@encs_wires g _ W) as WW. split; [exact WW|]. split; [reflexivity|].
  assert (HB : bytes (encs g (body_ies m))) by (eapply wires_bytes; eauto).
  pose proof (hnorm_wire (final_header g m) R1 R2 R3 HB) as HW. intros g' k' m'.
  assert (KK : kind_of (h_type (hnorm (final_header g m))) = k) by exact K.
  assert (P : h_payload (hnorm (final_header g m)) = encs g (body_ies m)) by reflexivity.
  assert (Z : length (encs g (body_ies m)) < 2 -> encs g (body_ies m) = []).
  { rewrite encs_length. destruct (body_ies m) as [|i is]; [reflexivity|]. rewrite lens_cons. pose proof (mlen_ge4 g i). lia. }
  rewrite parse_msg_iff by (eapply hwire_bytes; eauto). split.
  - intros (h & HW' & -> & H). assert (h = hnorm (final_header g m)).
    { pose proof (hwire_bytes HW) as Hb. apply parse_header_iff in HW, HW'; trivial. congruence. }
    subst h. rewrite KK in *. split; [reflexivity|]. rewrite P in H. destruct H as [[L ->]|[L H]]; [|exact H].
    exists []. split; [rewrite (Z L); constructor|reflexivity].
  - intros (-> & is & A & ->). exists (hnorm (final_header g m)). split; [exact HW|]. split; [now rewrite KK|]. rewrite P.
    destruct (Nat.lt_ge_cases (length (encs g (body_ies m))) 2) as [L|L]; [left|right; eauto]. split; [exact L|].
    rewrite (Z L) in A. inversion A as [|i b is' rest Ai As Ei Eb]; [reflexivity|]. exfalso.
    pose proof (accepted_nonempty Ai). apply (f_equal (@length N)) in Eb. rewrite app_length in Eb. cbn in Eb. lia.
Qed.
Print Assumptions C97_exact.
(** the same table on both sides *)
Theorem C97_same g i b : wire g i b -> seen g i = i /\ understood g g i.
Proof. intros W. split; [exact (seen_self W)|]. now intros j _. Qed.
Print Assumptions C97_same.

(** the receiver's accessors and flag methods on what it holds, and on the sender's own value *)
Theorem C97_accessors g' a i : access g' a (seen g' i) = access g' a i.
Proof. apply access_seen. Qed.
Print Assumptions C97_accessors.
Theorem C97_flags g' f i : flag_run g' f (seen g' i) = flag_run g' f i.
Proof. apply flag_seen. Qed.
Print Assumptions C97_flags.

(** elements made by the constructors can be sent *)
Theorem C97_built g g' beyond i : built g beyond i -> understood_inside g g' i -> (exists b, wire g i b) /\ understood g g' i.
Proof. intros B U. split; [eexists; exact (built_wire B)|]. now apply understood_reached. Qed.
Print Assumptions C97_built.
(** a value element: every accessor that gives the sender a value, and every flag method, gives the receiver the same *)
Theorem C97_values g g' beyond c s a i : calls g beyond c s a (Ok (Some i)) -> is_group s = false -> g (ty i) = g' (ty i) ->
  (forall b v, access g b i = Ok v -> (forall l, v <> VIEs l) -> access g' b (seen g' i) = Ok v) /\
  (forall f, flag_run g' f (seen g' i) = flag_run g f i).
Proof.
  intros C S G. destruct (calls_new C S) as (t & p & T & Bp & Ei). assert (Ty : ty i = t) by now rewrite Ei.
  assert (V : In (ty i) value_types). { rewrite Ty. apply value_type with c; [exact T|]. destruct C as [C _]. now rewrite C. }
  split.
  - intros b v E N. rewrite access_seen. apply access_agree with g; trivial. intros [l El]. exact (N l El).
  - intros f. now apply flag_agree.
Qed.
Print Assumptions C97_values.
(** a group: the accessor of the same name gives the elements it was built from, as seen *)
Theorem C97_groups g g' beyond c s a i t : calls g beyond c s a (Ok (Some i)) -> is_group s = true -> con_type c = Some t -> g (ty i) = true ->
  built g beyond i -> understood_inside g g' i -> access g' (con_reader c) (seen g' i) = Ok (VIEs (map (seen g') (somes (group_args s a)))).
Proof. intros C S T G B U. exact (@group_seen g g' beyond c s a i t C S T G B U). Qed.
Print Assumptions C97_groups.
(** and a value at any depth *)
Theorem C97_depth g g' beyond i a v : built g beyond i -> understood_inside g g' i -> says g beyond i a v -> access g' a (seen g' i) = Ok v.
Proof. intros B U S. exact (says_seen S B U). Qed.
Print Assumptions C97_depth.

(** NewCreatePDR(NewPDRID(1), NewPDI(NewSourceInterface(1))), inside a Session Establishment Request, to a receiver that knows CreatePDR but not PDI as a group *)
Definition pdr_id : ie := new 56 [0; 1]%N.
Definition src_if : ie := new 20 [1]%N.
Definition a_pdi : ie := mkIE 2 5 0 [0; 20; 0; 1; 1]%N [src_if].
Definition a_pdr : ie := mkIE 1 15 0 [0; 56; 0; 2; 0; 1; 0; 2; 0; 5; 0; 20; 0; 1; 1]%N [pdr_id; a_pdi].
Definition only_pdr (t : N) : bool := (t =? 1)%N.
Definition and_pdr_id (t : N) : bool := default_grouped t || (t =? 56)%N.
Lemma pdr_inside j : inside a_pdr j -> j = a_pdr \/ j = pdr_id \/ j = a_pdi \/ j = src_if.
Proof.
  intros H. inversion H as [|c j' _ I R]; [now left|]. subst. right. destruct I as [<-|[<-|[]]].
  - inversion R as [|c j' _ I R']; [now left|destruct I].
  - right. inversion R as [|c j' _ I R']; [now left|]. right. destruct I as [<-|[]]. inversion R' as [|c j'' _ I R'']; [reflexivity|destruct I].
Qed.
Example C97_sample beyond : built default_grouped beyond a_pdr /\ understood_inside default_grouped only_pdr a_pdr /\
  says default_grouped beyond a_pdr A_PDRID (VN 1) /\ says default_grouped beyond a_pdr A_SourceInterface (VN 1) /\
  seen only_pdr a_pdr = mkIE 1 15 0 [0; 56; 0; 2; 0; 1; 0; 2; 0; 5; 0; 20; 0; 1; 1]%N [pdr_id; mkIE 2 5 0 [0; 20; 0; 1; 1]%N []] /\
  access only_pdr A_SourceInterface (seen only_pdr a_pdr) = Ok (VN 1).
Proof.
  assert (B1 : built default_grouped beyond pdr_id) by (apply (@built_value default_grouped beyond N_PDRID (SUint 2) 1%N); [now split|reflexivity|exact I|reflexivity|reflexivity]).
  assert (B2 : built default_grouped beyond src_if) by (apply (@built_value default_grouped beyond N_SourceInterface (SUint 1) 1%N); [now split|reflexivity|exact I|reflexivity|reflexivity]).
  assert (B3 : built default_grouped beyond a_pdi).
  { apply (@built_group default_grouped beyond N_PDI SGroup [Some src_if]); try reflexivity; [split; [reflexivity|vm_compute; reflexivity]|]. now intros x [<-|[]]. }
  split; [|split; [|split; [|split; [|split; [vm_compute; reflexivity|vm_compute; reflexivity]]]]].
  - apply (@built_group default_grouped beyond N_CreatePDR SGroup [Some pdr_id; None; Some a_pdi]); try reflexivity; [split; [reflexivity|vm_compute; reflexivity]|]. now intros x [<-|[<-|[]]].
  - intros j R G. apply pdr_inside in R. destruct R as [->|[->|[->| ->]]]; try discriminate G. reflexivity.
  - eapply says_group; [reflexivity|reflexivity|]. apply (@says_value default_grouped beyond N_PDRID (SUint 2) 1%N); [now split|reflexivity|reflexivity|vm_compute; reflexivity|now intros []].
  - eapply says_group; [reflexivity|reflexivity|]. eapply says_group; [reflexivity|reflexivity|].
    apply (@says_value default_grouped beyond N_SourceInterface (SUint 1) 1%N); [now split|reflexivity|reflexivity|vm_compute; reflexivity|now intros []].
Qed.
Example C97_sample_message : exists m b m1 m', msg_new default_grouped K_SessionEstablishmentRequest (mkA 0 0 0 5 7 0) [] [Some a_pdr] = Ok m /\
  msg_marshal default_grouped K_SessionEstablishmentRequest m = Ok (b, m1) /\ parse_msg only_pdr b = Ok (K_SessionEstablishmentRequest, m') /\
  body_ies m' = [seen only_pdr a_pdr] /\ h_seid (m_h m') = 5%N.
Proof. do 4 eexists. split; [vm_compute; reflexivity|]. split; [vm_compute; reflexivity|]. split; [vm_compute; reflexivity|]. split; vm_compute; reflexivity. Qed.
(** without the condition it fails: a receiver that takes PDR ID for a group as well refuses the whole message, and so loses the elements around it *)
Theorem C97_more_refuted : exists g g' k m b m1 e, In k kinds /\ typed k m /\ Forall (fun i => exists w, wire g i w) (body_ies m) /\
  (forall t, g t = true -> g' t = true) /\ msg_marshal g k m = Ok (b, m1) /\ (exists r, parse_msg g b = Ok r) /\ parse_msg g' b = Err e.
Proof.
  destruct C97_sample_message as (m & b & m1 & m' & E1 & E2 & _).
  exists default_grouped, and_pdr_id, K_SessionEstablishmentRequest, m, b, m1, EUnexpectedEOF.
  assert (W : exists w, wire default_grouped a_pdr w) by (eexists; exact (built_wire (proj1 (C97_sample (fun _ => 0%N))))).
  split; [unfold kinds, dispatch; cbn; tauto|].
  assert (M : m = mkM (m_h m) (m_f (message_of K_SessionEstablishmentRequest (m_h m) [a_pdr])) (m_ies (message_of K_SessionEstablishmentRequest (m_h m) [a_pdr]))).
  { vm_compute in E1. injection E1 as <-. vm_compute. reflexivity. }
  assert (M' : m = message_of K_SessionEstablishmentRequest (m_h m) [a_pdr]) by (rewrite M at 1; reflexivity).
  split; [rewrite M'; apply message_of_typed|]. split; [rewrite M'; vm_compute; constructor; [exact W|constructor]|].
  split; [intros t H; unfold and_pdr_id; now rewrite H|]. split; [exact E2|].
  vm_compute in E1. injection E1 as <-. vm_compute in E2. injection E2 as <- _. split; [eexists|]; vm_compute; reflexivity.
Qed.
Print Assumptions C97_more_refuted.
