(** C108: the order of the elements in a message and in a group, repeated elements and elements of unknown types. *)
From Coq Require Import String Permutation.
From Verif Require Import Base IETypes IE Spec IEProofs IEProofs2 Header HeaderSpec HeaderProofs Message MsgTables MsgSpec MsgProofs MsgProofs2 MsgProps.
From Verif Require Import Access AccTable AccRun AccProofs AccProofs2 AccProofs5 PropsMsg PropsAcc.
Set Implicit Arguments.
Open Scope nat_scope.
Open Scope list_scope.

(** the elements of type t, in order *)
Definition of_type (t : N) (is : list ie) : list ie := filter (fun i => N.eqb (ty i) t) is.
(** two sequences with the same elements in which those of one type are in the same order *)
Definition same_by_type (is js : list ie) : Prop := forall t, of_type t is = of_type t js.

Local Lemma filter_filter {A} (p q : A -> bool) l : filter p (filter q l) = filter (fun x => q x && p x)%bool l.
Proof. induction l as [|x l IH]; cbn; [reflexivity|]. destruct (q x) eqn:Q; cbn; [destruct (p x); now rewrite IH|exact IH]. Qed.
Lemma same_by_type_permutation is : forall js, same_by_type is js -> Permutation is js.
Proof.
  induction is as [|i is IH]; intros js H.
  - destruct js as [|j js]; [constructor|]. specialize (H (ty j)). unfold of_type in H. cbn in H. rewrite N.eqb_refl in H. discriminate H.
  - pose proof (H (ty i)) as K. unfold of_type in K. cbn [filter] in K. rewrite N.eqb_refl in K.
    assert (I : exists l r, js = l ++ i :: r /\ of_type (ty i) l = []).
    { clear - K. induction js as [|j js IH]; [discriminate K|]. cbn [filter] in K. destruct (N.eqb (ty j) (ty i)) eqn:E.
      - injection K as <- _. exists [], js. now split.
      - destruct (IH K) as (l & r & -> & L). exists (j :: l), r. split; [reflexivity|]. unfold of_type. cbn [filter]. now rewrite E. }
    destruct I as (l & r & -> & L). apply Permutation_cons_app, IH. intros t. specialize (H t). unfold of_type in *. rewrite filter_app in *. cbn [filter] in H.
    destruct (N.eqb_spec (ty i) t) as [E|_]; [|exact H]. rewrite <- E in H |- *. rewrite L in H |- *. cbn [app] in H |- *. now injection H.
Qed.

(** every field of a message is filled by the elements of one type *)
Definition target (a : act) : nat := match a with ASet n | AApp n => n end.
Local Lemma lookup_In {A} t (l : list (N * A)) a : Message.lookup t l = Some a -> In (t, a) l.
Proof. induction l as [|[u x] l IH]; cbn; [discriminate|]. destruct (N.eqb_spec t u) as [->|]; [intros [= ->]; now left|right; auto]. Qed.
Local Lemma one_type k : In k kinds -> NoDup (map (fun x => target (snd x)) (k_switch k)).
Proof.
  intros I. assert (H : Forall (fun k => nodup Nat.eq_dec (map (fun x => target (snd x)) (k_switch k)) = map (fun x => target (snd x)) (k_switch k)) kinds).
  { unfold kinds. repeat constructor; vm_compute; reflexivity. }
  rewrite Forall_forall in H. rewrite <- (H k I). apply NoDup_nodup.
Qed.
Theorem C108_one_type : forall k n t u, In k kinds -> (forall i, ty i = t -> belongs k n i = true) -> (forall i, ty i = u -> belongs k n i = true) -> t = u.
Proof.
  assert (X : forall k n t, (forall i, ty i = t -> belongs k n i = true) -> exists a, In (t, a) (k_switch k) /\ target a = n).
  { intros k n t H. specialize (H (mkIE t 0 0 [] []) eq_refl). unfold belongs, route in H. cbn [ty] in H. destruct (Message.lookup t (k_switch k)) as [a|] eqn:E; [|discriminate H].
    exists a. split; [now apply lookup_In|]. destruct a; now apply Nat.eqb_eq in H. }
  intros k n t u I H1 H2. apply X in H1 as (a & I1 & T1). apply X in H2 as (b & I2 & T2). pose proof (one_type I) as N.
  clear - N I1 I2 T1 T2. induction (k_switch k) as [|[x c] l IH]; [contradiction|]. cbn in N. inversion N as [|? ? N1 N2]; subst.
  assert (Y : forall y d, In (y, d) l -> target d <> target c).
  { intros y d J E. apply N1. rewrite <- E. apply (in_map (fun x => target (snd x)) l (y, d) J). }
  destruct I1 as [[= -> ->]|I1], I2 as [[= -> ->]|I2]; try reflexivity.
  - now apply Y in I2.
  - apply Y in I1. congruence.
  - now apply IH.
Qed.
Print Assumptions C108_one_type.

Local Lemma belongs_filter k n is js : In k kinds -> (forall t, (exists a, In (t, a) (k_switch k)) -> of_type t is = of_type t js) -> filter (belongs k n) is = filter (belongs k n) js.
Proof.
  intros I H. destruct (existsb (belongs k n) (is ++ js)) eqn:E.
  - apply existsb_exists in E as (x & _ & B).
    assert (B' : forall i, ty i = ty x -> belongs k n i = true) by (intros i T; unfold belongs, route in *; now rewrite T).
    assert (F : forall l, filter (belongs k n) l = of_type (ty x) l).
    { intros l. unfold of_type. apply filter_ext. intros i. destruct (N.eqb_spec (ty i) (ty x)) as [T|T]; [now apply B'|].
      destruct (belongs k n i) eqn:D; [|reflexivity]. contradiction T. apply (@C108_one_type k n _ _ I); [|exact B'].
      intros j Tj. unfold belongs, route in *. now rewrite Tj. }
    rewrite !F. apply H. unfold belongs, route in B. destruct (Message.lookup (ty x) (k_switch k)) as [a|] eqn:L; [|discriminate B]. exists a. now apply lookup_In.
  - assert (Z : forall x, In x (is ++ js) -> belongs k n x = false).
    { intros x J. destruct (belongs k n x) eqn:B; [|reflexivity]. rewrite <- E. symmetry. apply existsb_exists. now exists x. }
    assert (F : forall l, (forall x, In x l -> belongs k n x = false) -> filter (belongs k n) l = []).
    { induction l as [|y l IH]; intros V; [reflexivity|]. cbn. rewrite V by now left. apply IH. intros. apply V. now right. }
    rewrite !F; [reflexivity| |]; intros x J; apply Z, in_or_app; auto.
Qed.
Local Lemma fields_of_same k is js fs : In k kinds -> (forall t, (exists a, In (t, a) (k_switch k)) -> of_type t is = of_type t js) -> forall n, fields_of k is n fs = fields_of k js n fs.
Proof. intros I H. induction fs as [|[f m] fs IH]; intros n; cbn [fields_of]; [reflexivity|]. rewrite IH. unfold field_of. now rewrite (@belongs_filter k n is js I H). Qed.

(** Two datagrams whose headers have the same message type, and whose bodies have, for each type this message knows, the same
    elements in the same order: both are accepted, as the same message, with the same fields. In particular elements of other
    types may stand anywhere between, before or behind them. *)
Theorem C108_fields : forall g b c hb hc is js, bytes b -> bytes c -> hwire hb b -> hwire hc c -> h_type hb = h_type hc ->
  wires g is (h_payload hb) -> wires g js (h_payload hc) ->
  (forall t, (exists a, In (t, a) (k_switch (kind_of (h_type hb)))) -> of_type t is = of_type t js) ->
  exists k m m', parse_msg g b = Ok (k, m) /\ parse_msg g c = Ok (k, m') /\ m_f m = m_f m' /\
    m_ies m = map Some (filter (unrouted k) is) /\ m_ies m' = map Some (filter (unrouted k) js).
Proof.
  intros g b c hb hc is js Bb Bc Hb Hc T Wi Wj S.
  destruct (@C22_exact g b hb is Bb Hb Wi) as (k & m & _ & _ & _ & -> & -> & P & _). destruct (@C22_exact g c hc js Bc Hc Wj) as (k' & m' & _ & _ & _ & -> & -> & P' & _).
  rewrite <- T in P'. exists (kind_of (h_type hb)). do 2 eexists. split; [exact P|]. split; [exact P'|]. cbn [message_of m_f m_ies]. split; [|now split].
  apply fields_of_same; [apply kind_of_in|exact S].
Qed.
Print Assumptions C108_fields.
(** The order of elements of different types: the same message, up to the order of the elements it does not know. *)
Theorem C108_order : forall g b c hb hc is js, bytes b -> bytes c -> hwire hb b -> hwire hc c -> h_type hb = h_type hc ->
  wires g is (h_payload hb) -> wires g js (h_payload hc) -> same_by_type is js ->
  exists k m m', parse_msg g b = Ok (k, m) /\ parse_msg g c = Ok (k, m') /\ m_f m = m_f m' /\ Permutation (m_ies m) (m_ies m') /\
    (Forall (fun i => unrouted k i = false) is -> m_ies m = m_ies m').
Proof.
  intros g b c hb hc is js Bb Bc Hb Hc T Wi Wj S.
  destruct (@C108_fields g b c hb hc is js Bb Bc Hb Hc T Wi Wj (fun t _ => S t)) as (k & m & m' & P & P' & F & I & I'). exists k, m, m'. repeat (split; [assumption|]).
  pose proof (same_by_type_permutation S) as Q. rewrite I, I'. split.
  - apply Permutation_map. clear - Q. induction Q; cbn; repeat match goal with |- context [unrouted ?a ?b] => destruct (unrouted a b) end; eauto using Permutation. 
  - intros A. assert (Z : forall l, Forall (fun i => unrouted k i = false) l -> filter (unrouted k) l = []).
    { induction l as [|x l IH]; intros V; [reflexivity|]. inversion V; subst. cbn. rewrite H1. now apply IH. }
    rewrite !Z; [reflexivity| |exact A]. rewrite Forall_forall in *. intros x J. apply A. now apply (Permutation_in x (Permutation_sym Q)).
Qed.
Print Assumptions C108_order.

(** A group: an accessor that looks for children of one type gives the same for two groups whose children of that type agree. *)
Theorem C108_group : forall g a i j c t b is js v, ty i = ty j -> wires g is (payload i) -> wires g js (payload j) -> look a (ty i) = Via c [t] b ->
  of_type t is = of_type t js -> (access g a i = Ok v <-> access g a j = Ok v).
Proof.
  intros g a i j c t b is js v T Wi Wj L S. rewrite (@C39_of_children g a i c [t] b is v Wi L). rewrite T in L. rewrite (@C39_of_children g a j c [t] b js v Wj L).
  assert (F : forall l, find (fun x => memb (ty x) [t]) l = hd_error (of_type t l)).
  { induction l as [|x l IH]; [reflexivity|]. unfold of_type. cbn [find filter memb existsb]. rewrite Bool.orb_false_r. destruct (N.eqb (ty x) t); [reflexivity|exact IH]. }
  rewrite !F, S. reflexivity.
Qed.
Print Assumptions C108_group.
(** ** repeated elements *)
(** In a message, of several elements for a field that holds one the last is kept; *)
Theorem C108_last : forall g b h is n f t, bytes b -> hwire h b -> wires g is (h_payload h) -> nth_error (k_fields (kind_of (h_type h))) n = Some (f, false) ->
  (forall i, ty i = t -> belongs (kind_of (h_type h)) n i = true) ->
  exists m, parse_msg g b = Ok (kind_of (h_type h), m) /\ nth_error (m_f m) n = Some (FOne (last_opt (of_type t is))).
Proof.
  intros g b h is n f t B H W F R. destruct (@C22_exact g b h is B H W) as (k & m & _ & _ & _ & -> & -> & P & _). eexists. split; [exact P|].
  rewrite (@C21_field_contents _ h is n f false F). do 3 f_equal. unfold of_type. apply filter_ext. intros i. destruct (N.eqb_spec (ty i) t) as [T|T]; [now apply R|].
  destruct (belongs (kind_of (h_type h)) n i) eqn:D; [|reflexivity]. contradiction T. apply (@C108_one_type _ n _ _ (kind_of_in (h_type h))); [|exact R].
  intros j Tj. unfold belongs, route in *. now rewrite Tj.
Qed.
Print Assumptions C108_last.
(** in a group, of several children of the type an accessor looks for the first is read. *)
Theorem C108_first : forall g a i c t b is v, wires g is (payload i) -> look a (ty i) = Via c [t] b ->
  (access g a i = Ok v <-> exists x r, of_type t is = x :: r /\ access g b x = Ok v).
Proof.
  intros g a i c t b is v W L. rewrite (@C39_of_children g a i c [t] b is v W L).
  assert (F : forall l, find (fun x => memb (ty x) [t]) l = hd_error (of_type t l)).
  { induction l as [|x l IH]; [reflexivity|]. unfold of_type. cbn [find filter memb existsb]. rewrite Bool.orb_false_r. destruct (N.eqb (ty x) t); [reflexivity|exact IH]. }
  rewrite F. destruct (of_type t is) as [|x r]; cbn [hd_error]; split.
  - intros (y & E & _). discriminate E.
  - intros (y & r & E & _). discriminate E.
  - intros (y & E & H). injection E as <-. now exists x, r.
  - intros (y & r' & E & H). injection E as <- <-. now exists x.
Qed.
Print Assumptions C108_first.
(** ** which accessors look for one type *)
Definition two_types : list (acc * N) :=
  [(A_FTEID, 2); (A_NetworkInstance, 2); (A_FARID, 165); (A_FARID, 169); (A_Priority, 165); (A_Priority, 169); (A_URRID, 165); (A_URRID, 169); (A_Weight, 165); (A_Weight, 169)]%N.
Theorem C108_which : forall a t, match look a t with Via _ [_] _ => True | Via _ _ _ | ViaOwn _ _ _ => In (a, t) two_types | _ => True end.
Proof.
  assert (H : cases_ok (fun a t x => match x with Via _ [_] _ => true | Via _ _ _ | ViaOwn _ _ _ => existsb (fun '(b, u) => N.eqb (acc_id a) (acc_id b) && N.eqb t u)%bool two_types | _ => true end)
                       (fun _ x => match x with Via _ [_] _ => true | Via _ _ _ | ViaOwn _ _ _ => false | _ => true end) = true) by (vm_compute; reflexivity).
  assert (M : forall a t, existsb (fun '(b, u) => N.eqb (acc_id a) (acc_id b) && N.eqb t u)%bool two_types = true -> In (a, t) two_types).
  { intros a t K. apply existsb_exists in K as ([b u] & I & K). apply andb_prop in K as [K1 K2]. apply N.eqb_eq in K1, K2. apply acc_id_inj in K1. now subst. }
  intros a t. destruct (cases_ok_ok _ _ H a t) as [K|[_ K]]; destruct (look a t) as [l|c ts b|c ts b|c f|c d]; trivial; try discriminate K.
  - destruct ts as [|u [|w ts]]; trivial; now apply M.
  - now apply M.
  - destruct ts as [|u [|w ts]]; trivial; discriminate K.
Qed.
Print Assumptions C108_which.
(** with two types the first child of either is read, and then the order matters: an F-TEID (21) and Redundant Transmission
    Parameters (255), which hold another one, in a PDI (2) *)
Theorem C108_two_types_refuted : exists g i j is js v w, ty i = T_PDI /\ ty j = T_PDI /\ wires g is (payload i) /\ wires g js (payload j) /\ same_by_type is js /\
  access g A_FTEID i = Ok v /\ access g A_FTEID j = Ok w /\ v <> w.
Proof.
  pose (p := [1; 0; 0; 0; 1; 127; 0; 0; 1]%N). pose (q := [0; 21; 0; 9; 1; 0; 0; 0; 2; 127; 0; 0; 1]%N).
  pose (e := fun t p => be 2 t ++ be 2 (lenN p) ++ p). pose (x := new T_FTEID p). pose (y := new T_RedundantTransmissionParameters q).
  pose (G := fun _ : N => false).
  assert (X : wire G x (e T_FTEID p)) by (apply new_wire; [reflexivity|reflexivity|repeat constructor; reflexivity|reflexivity]).
  assert (Y : wire G y (e T_RedundantTransmissionParameters q)) by (apply new_wire; [reflexivity|reflexivity|repeat constructor; reflexivity|reflexivity]).
  exists G, (new T_PDI (e T_FTEID p ++ e T_RedundantTransmissionParameters q ++ [])), (new T_PDI (e T_RedundantTransmissionParameters q ++ e T_FTEID p ++ [])), [x; y], [y; x].
  do 2 eexists. split; [reflexivity|]. split; [reflexivity|]. split; [repeat (constructor; try assumption)|]. split; [repeat (constructor; try assumption)|].
  split. { intros t. unfold of_type. cbn [filter]. destruct (N.eqb_spec (ty x) t) as [E|E], (N.eqb_spec (ty y) t) as [F|F]; try reflexivity. rewrite <- E in F. discriminate F. }
  split; [vm_compute; reflexivity|]. split; [vm_compute; reflexivity|]. intros E. discriminate E.
Qed.
Print Assumptions C108_two_types_refuted.
(** a Heartbeat Request with a Recovery Time Stamp (96), an unknown element (500) and another time stamp, and one with the
    last of them only: the fields agree *)
Example C108_ex_heartbeat : exists k m m',
  parse_msg default_grouped [32; 1; 0; 25; 0; 0; 1; 0; 0; 96; 0; 4; 0; 0; 0; 1; 1; 244; 0; 1; 9; 0; 96; 0; 4; 0; 0; 0; 2]%N = Ok (k, m) /\
  parse_msg default_grouped [32; 1; 0; 12; 0; 0; 1; 0; 0; 96; 0; 4; 0; 0; 0; 2]%N = Ok (k, m') /\ m_f m = m_f m' /\
  m_f m = [FOne (Some (new 96 [0; 0; 0; 2]%N)); FOne None] /\ m_ies m = [Some (new 500 [9]%N)].
Proof. do 3 eexists. split; [vm_compute; reflexivity|]. split; [vm_compute; reflexivity|]. split; [vm_compute; reflexivity|]. split; vm_compute; reflexivity. Qed.
Example C108_ex_which : look A_PDRID T_CreatePDR = Via A_CreatePDR [T_PDRID] A_PDRID.
Proof. reflexivity. Qed.
