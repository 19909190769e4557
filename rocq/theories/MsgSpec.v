(** Specification of message contents, independent of the loops in Message.v: which IEs a message
    value carries, and where a list of IEs read from the wire belongs. *)
From Coq Require Import String.
From Verif Require Import Base IE Header Message.
Set Implicit Arguments.
Local Open Scope list_scope.

Fixpoint present {A} (l : list (option A)) : list A :=
  match l with [] => [] | None :: r => present r | Some a :: r => a :: present r end.
(** the IEs in a field, in order *)
Definition field_ies (v : fval) : list ie :=
  match v with FOne None => [] | FOne (Some i) => [i] | FMany l => present l end.
(** the IEs of a message: named fields in struct order, then IEs *)
Definition body_ies (m : msg) : list ie := concat (map field_ies (m_f m)) ++ present (m_ies m).

(** the field that IE i belongs to according to the decoder's switch, if any *)
Definition route (k : kind) (i : ie) : option nat :=
  match lookup (ty i) (k_switch k) with Some (ASet n) | Some (AApp n) => Some n | None => None end.
Definition belongs (k : kind) (n : nat) (i : ie) : bool :=
  match route k i with Some m => m =? n | None => false end.
Definition unrouted (k : kind) (i : ie) : bool := match route k i with Some _ => false | None => true end.

Fixpoint last_opt {A} (l : list A) : option A :=
  match l with [] => None | [x] => Some x | _ :: r => last_opt r end.
(** the contents of field n once the IEs is have been read: a slice field gets every IE that belongs
    there, in wire order; a single field gets the last one. *)
Definition field_of (k : kind) (is : list ie) (n : nat) (multi : bool) : fval :=
  if multi then FMany (map Some (filter (belongs k n) is))
  else FOne (last_opt (filter (belongs k n) is)).
Fixpoint fields_of (k : kind) (is : list ie) (n : nat) (fs : list (string * bool)) : list fval :=
  match fs with [] => [] | (_, multi) :: r => field_of k is n multi :: fields_of k is (S n) r end.
(** the whole message *)
Definition message_of (k : kind) (h : header) (is : list ie) : msg :=
  mkM h (fields_of k is 0 (k_fields k)) (map Some (filter (unrouted k) is)).

(** A message value of the right Go type. *)
Definition shape (v : fval) : bool := match v with FOne _ => false | FMany _ => true end.
Definition shaped (k : kind) (m : msg) : Prop := map shape (m_f m) = map snd (k_fields k).
(** No nil inside a slice field. *)
Definition no_nil (v : fval) : Prop := match v with FOne _ => True | FMany l => l = map Some (present l) end.
(** Every IE sits in the field for its type. *)
Definition typed (k : kind) (m : msg) : Prop :=
  shaped k m /\ Forall no_nil (m_f m) /\
  (forall n v, nth_error (m_f m) n = Some v -> Forall (fun i => belongs k n i = true) (field_ies v)) /\
  Forall (fun i => unrouted k i = true) (present (m_ies m)).

(** Agreement between the functions of one message file. *)
Definition act_ok (fs : list (string * bool)) (a : act) : bool :=
  match a with
  | ASet n => match nth_error fs n with Some (_, false) => true | _ => false end
  | AApp n => match nth_error fs n with Some (_, true) => true | _ => false end
  end.
Definition list_nat_eqb (a b : list nat) : bool := if list_eq_dec Nat.eq_dec a b then true else false.
Definition act_eq_dec (a b : act) : {a = b} + {a <> b}.
Proof. decide equality; apply Nat.eq_dec. Defined.
Definition case_eq_dec (a b : N * act) : {a = b} + {a <> b}.
Proof. decide equality; [apply act_eq_dec|apply N.eq_dec]. Defined.
Definition consistent (k : kind) : bool :=
  let order := seq 0 (length (k_fields k)) in
  list_nat_eqb (k_write k) order && list_nat_eqb (k_count k) order &&
  (match k_setlen k with None => true | Some o => list_nat_eqb o order end) &&
  forallb (fun c => act_ok (k_fields k) (snd c)) (k_switch k) &&
  (if list_eq_dec N.eq_dec (map fst (k_switch k)) (nodup N.eq_dec (map fst (k_switch k))) then true else false) &&
  (* every field can be filled by the decoder *)
  forallb (fun n => existsb (fun c => match snd c with ASet m | AApp m => m =? n end) (k_switch k)) order &&
  (match k_mode k with IAppend => true | IReplace => match k_fields k with [] => true | _ => false end end) &&
  (match k_mode k with IAppend => true | IReplace => match k_switch k with [] => true | _ => false end end) &&
  (match k_ctor k with
   | CSwitch cases => if list_eq_dec case_eq_dec cases (k_switch k) then true else false
   | CFields fs => list_nat_eqb fs order && forallb (fun f => negb (snd f)) (k_fields k)
   end).
