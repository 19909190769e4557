(** Every method leaves a struct of its type: each assignment stores a value of the type of the member. *)
From Coq Require Import String.
From Verif Require Import Base Bits Codec Codec2 Utils Fields1 Time Fields2 Fields3 Fields4 Access Reuse Go GoFields GoRep GoProofs GoTo GoMeta.
Set Implicit Arguments.
Open Scope string_scope.
Open Scope list_scope.
Open Scope nat_scope.

(** the types of members: numbers, slices, slices of fixed storage that are only copied into, strings, lists, times *)
Inductive mty := TN | TB | TC | TS | TL | TT.
Definition mty_eqb (a b : mty) : bool :=
  match a, b with TN, TN | TB, TB | TC, TC | TS, TS | TL, TL | TT, TT => true | _, _ => false end.
Definition of_mty (t : mty) (v : gval) : bool :=
  match t, v with TN, GN _ | TB, GB _ | TC, GB (Some _) | TS, GS _ | TL, GL _ | TT, GT _ => true | _, _ => false end.
(** the type of the values of an expression, as far as its outermost operation tells *)
Definition tyof (e : exp) : option mty :=
  match e with
  | ENum _ | EU _ _ | EIdx _ _ | EBE _ _ | EAnd _ _ | EOr _ _ | EShr _ _ | EShl _ _ _ | ESince _ => Some TN
  | ESlice _ _ _ | EFrom _ _ | EBytes _ | ETo4 _ | ETo16 _ | EMake _ | EToBcd _ | EToPlmn _ _ => Some TB
  | EStr _ | EFromBcd _ => Some TS
  | EApp _ _ => Some TL
  | ENtp _ => Some TT
  | _ => None
  end.
Definition sig := list (string * mty).
Fixpoint find (x : string) (K : sig) : option mty :=
  match K with [] => None | (y, t) :: K => if String.eqb x y then Some t else find x K end.
Fixpoint fits (K : sig) (F : store) : bool :=
  match K, F with
  | [], [] => true
  | (x, t) :: K, (y, v) :: F => String.eqb x y && of_mty t v && fits K F
  | _, _ => false
  end.
Definition has_ty (K : sig) (x : string) (o : option mty) : bool :=
  match find x K, o with Some t, Some u => mty_eqb t u | _, _ => false end.
Fixpoint typed (K : sig) (c : stmt) : bool :=
  match c with
  | SSeq a b => typed K a && typed K b
  | SBlock a | SIf _ a | SLoop a | SRange _ _ a => typed K a
  | SSet x e => has_ty K x (tyof e)
  | SPlmn x y _ => has_ty K x (Some TS) && has_ty K y (Some TS)
  | SCopyF x _ => has_ty K x (Some TB) || has_ty K x (Some TC)
  | _ => true
  end.

Lemma mty_eqb_eq a b : mty_eqb a b = true -> a = b.
Proof. now destruct a, b. Qed.
Lemma has_ty_find K x t : has_ty K x (Some t) = true -> find x K = Some t.
Proof. unfold has_ty. destruct (find x K); [|discriminate]. intros H. now apply mty_eqb_eq in H; subst. Qed.
Lemma tyof_eval s e t v : tyof e = Some t -> eval s e = Ok v -> of_mty t v = true.
Proof.
  intros T E. destruct e; cbn [tyof] in T; try discriminate T; injection T as <-; cbn [eval] in E;
    repeat (apply bind_ok in E; destruct E as (? & ? & E)); try (injection E as <-; reflexivity);
    repeat match type of E with match ?v with _ => _ end = _ => destruct v; try discriminate E end; injection E as <-; reflexivity.
Qed.
Lemma fits_upd K F x t v : fits K F = true -> find x K = Some t -> of_mty t v = true -> fits K (upd x v F) = true.
Proof.
  revert F. induction K as [|[y u] K IH]; intros [|[z w] F] H E T; cbn [fits find upd] in *; try discriminate.
  apply andb_prop in H as [H H3]. apply andb_prop in H as [H1 H2]. apply String.eqb_eq in H1. subst z.
  destruct (String.eqb_spec x y) as [->|Nx].
  - injection E as <-. cbn [fits]. now rewrite String.eqb_refl, T, H3.
  - cbn [fits]. rewrite String.eqb_refl, H2. cbn [andb]. auto.
Qed.
Lemma fits_look K F x t : fits K F = true -> find x K = Some t -> exists v, look x F = Some v /\ of_mty t v = true.
Proof.
  revert F. induction K as [|[y u] K IH]; intros [|[z w] F] H E; cbn [fits find look] in *; try discriminate.
  apply andb_prop in H as [H H3]. apply andb_prop in H as [H1 H2]. apply String.eqb_eq in H1. subst z.
  destruct (String.eqb_spec x y) as [->|Nx]; [injection E as <-; eauto|eauto].
Qed.

Lemma typed_keeps K n c s : typed K c = true -> fits K (flds s) = true -> fits K (flds (at_end (exec n c s))) = true.
Proof.
  revert s. refine (@run_inv (typed K) (fun s t => fits K (flds s) = true -> fits K (flds t) = true) _ _ _ _ _ _ _ _ _ n c); auto.
  - intros s s' E _. now rewrite E.
  - cbn [typed]. intros a b H. now apply andb_prop.
  - intros m d s H. destruct d; try exact I; cbn [exec typed] in *; intros Hf.
    + destruct (eval s e) as [v| | |] eqn:E; cbn [fails at_end]; auto. unfold has_ty in H. destruct (find x K) as [t|] eqn:Hx; [|discriminate H].
      destruct (tyof e) as [u|] eqn:Ht; [|discriminate H]. apply mty_eqb_eq in H. subst u.
      destruct (look x (flds s)); cbn [at_end]; auto. unfold setf. cbn [flds]. eapply fits_upd; eauto. eapply tyof_eval; eauto.
    + match goal with |- context [fails _ ?r _] => destruct r as [[p q]| | |] end; cbn [fails at_end]; auto.
      apply andb_prop in H as [H1 H2]. apply has_ty_find in H1, H2. unfold setf. cbn [flds]. eapply fits_upd; eauto. eapply fits_upd; eauto.
    + match goal with |- context [fails _ ?r _] => destruct r as [p| | |] end; cbn [fails at_end]; auto.
      destruct (look x (flds s)) as [[| |d| | | |]|] eqn:L; cbn [at_end]; auto. unfold setf. cbn [flds].
      apply orb_prop in H as [H|H]; apply has_ty_find in H; (eapply fits_upd; [exact Hf|exact H|]).
      * reflexivity.
      * destruct (@fits_look K (flds s) x TC Hf H) as (v & L' & T). rewrite L in L'. injection L' as <-. destruct d; [|discriminate T]. reflexivity.
    + prims; auto.
    + prims; auto.
    + prims; auto.
Qed.
