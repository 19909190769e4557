(** What a method cannot change: read off its text, for every way it may end. *)
From Coq Require Import String.
From Verif Require Import Base Bits Codec Codec2 Utils Fields1 Time Fields2 Fields3 Fields4 Access Reuse Go GoFields GoProofs GoTo.
Set Implicit Arguments.
Open Scope string_scope.
Open Scope list_scope.
Open Scope nat_scope.

(** the state in which a statement ends, whichever way *)
Definition at_end (o : out) : state := match o with Next s => s | Brk s => s | Done s _ => s end.
(** no assignment to a member of the struct; no write to the argument *)
Fixpoint no_set (c : stmt) : bool :=
  match c with
  | SSeq a b => no_set a && no_set b
  | SBlock a | SIf _ a | SLoop a | SRange _ _ a => no_set a
  | SSet _ _ | SPlmn _ _ _ | SCopyF _ _ => false
  | _ => true
  end.
Fixpoint no_put (c : stmt) : bool :=
  match c with
  | SSeq a b => no_put a && no_put b
  | SBlock a | SIf _ a | SLoop a | SRange _ _ a => no_put a
  | SPutB _ _ | SPut _ _ _ _ | SCopyB _ _ _ => false
  | _ => true
  end.

Lemma exec_loop n a s : exec n (SLoop a) s = loop n n a s.
Proof.
  cbn [exec]. match goal with |- ?f n s = _ => enough (E : forall k s, f k s = loop n k a s) by apply E end.
  induction k as [|k IH]; intros s'; cbn [loop]; [reflexivity|]. destruct (exec n a s'); auto.
Qed.
Lemma exec_range n x y a s : exec n (SRange x y a) s = match look y (flds s) with Some (GL l) => range n x a l s | _ => Done s Fault end.
Proof.
  cbn [exec]. destruct (look y (flds s)) as [[]|]; try reflexivity.
  match goal with |- ?f l s = _ => enough (E : forall l s, f l s = range n x a l s) by apply E end.
  clear. induction l as [|p l IH]; intros s; cbn [range]; [reflexivity|]. destruct (exec n a (setv x (GS p) s)); auto.
Qed.

Section Inv.
Variable ok : stmt -> bool.
Variable R : state -> state -> Prop.
Hypothesis refl : forall s, R s s.
Hypothesis trans : forall s t u, R s t -> R t u -> R s u.
Hypothesis same : forall s s', flds s = flds s' -> buf s = buf s' -> R s s'.
Hypothesis ok_seq : forall a b, ok (SSeq a b) = true -> ok a = true /\ ok b = true.
Hypothesis ok_block : forall a, ok (SBlock a) = true -> ok a = true.
Hypothesis ok_if : forall t a, ok (SIf t a) = true -> ok a = true.
Hypothesis ok_loop : forall a, ok (SLoop a) = true -> ok a = true.
Hypothesis ok_range : forall x y a, ok (SRange x y a) = true -> ok a = true.
Hypothesis prim : forall n c s, ok c = true ->
  match c with SSet _ _ | SPlmn _ _ _ | SCopyF _ _ | SPutB _ _ | SPut _ _ _ _ | SCopyB _ _ _ => R s (at_end (exec n c s)) | _ => True end.
Lemma run_inv n c : forall s, ok c = true -> R s (at_end (exec n c s)).
Proof.
  induction c as [|a IHa b IHb|a IH|x e|x e|x y e|x e|i e|k lo hi e|k x e|lo hi e|t a IH|a IH|x y a IH| |e|]; intros s H;
    try exact (prim n s H); try apply refl.
  - destruct (ok_seq H) as [Ha Hb]. cbn [exec]. specialize (IHa s Ha). destruct (exec n a s) as [s'|s'|s' r]; cbn [at_end] in *; try exact IHa.
    exact (trans IHa (IHb s' Hb)).
  - cbn [exec]. specialize (IH s (ok_block H)). destruct (exec n a s) as [s'|s'|s' r]; cbn [within at_end] in *; try exact IH;
      (eapply trans; [exact IH|apply same; reflexivity]).
  - cbn [exec]. destruct (eval s e); cbn [fails at_end]; try apply refl. apply same; reflexivity.
  - cbn [exec]. match goal with |- R s (at_end (fails s ?r _)) => destruct r end; cbn [fails at_end]; try apply refl. apply same; reflexivity.
  - cbn [exec]. destruct (test s t) as [[]| | |]; cbn [fails at_end]; try apply refl. exact (IH s (ok_if H)).
  - rewrite exec_loop. apply ok_loop in H. enough (G : forall k s, R s (at_end (loop n k a s))) by apply G. clear s.
    induction k as [|k IHk]; intros s; cbn [loop]; [apply refl|]. specialize (IH s H).
    destruct (exec n a s) as [s'|s'|s' r]; cbn [at_end] in *; try exact IH. exact (trans IH (IHk s')).
  - rewrite exec_range. destruct (look y (flds s)) as [[]|]; try apply refl. apply ok_range in H.
    revert s. induction l as [|p l IHl]; intros s; cbn [range]; [apply refl|]. specialize (IH (setv x (GS p) s) H).
    assert (H0 : R s (setv x (GS p) s)) by (apply same; reflexivity).
    destruct (exec n a (setv x (GS p) s)) as [s'|s'|s' r]; cbn [at_end] in *.
    + exact (trans H0 (trans IH (IHl s'))).
    + exact (trans H0 IH).
    + exact (trans H0 IH).
  - cbn [exec]. destruct (eval s e); apply refl.
Qed.
End Inv.

Ltac prims := match goal with |- context [fails _ ?r _] => destruct r as [?| | |] end; cbn [fails at_end flds buf]; try reflexivity.
(** no_set: the struct is the same at the end *)
Lemma no_set_keeps n c s : no_set c = true -> flds (at_end (exec n c s)) = flds s.
Proof.
  intros H. symmetry. revert H. revert s. refine (@run_inv no_set (fun s t => flds s = flds t) _ _ _ _ _ _ _ _ _ n c); try easy.
  - congruence.
  - cbn [no_set]. intros a b H. now apply andb_prop.
  - intros m d s H. destruct d; try exact I; try discriminate H; cbn [exec]; prims.
Qed.
(** no_put: the argument is the same at the end *)
Lemma no_put_keeps n c s : no_put c = true -> buf (at_end (exec n c s)) = buf s.
Proof.
  intros H. symmetry. revert H. revert s. refine (@run_inv no_put (fun s t => buf s = buf t) _ _ _ _ _ _ _ _ _ n c); try easy.
  - congruence.
  - cbn [no_put]. intros a b H. now apply andb_prop.
  - intros m d s H. destruct d; try exact I; try discriminate H; cbn [exec]; prims.
    + destruct (look x (flds s)); reflexivity.
    + match goal with p : (list N * list N)%type |- _ => destruct p end. reflexivity.
    + destruct (look x (flds s)) as [[]|]; reflexivity.
Qed.
(** the length of the argument never changes *)
Lemma buf_length n c s : List.length (buf (at_end (exec n c s))) = List.length (buf s).
Proof.
  symmetry. generalize (eq_refl true). change (true = true) with ((fun _ : stmt => true) c = true).
  revert s. refine (@run_inv (fun _ => true) (fun s t => List.length (buf s) = List.length (buf t)) _ _ _ _ _ _ _ _ _ n c); try easy.
  - congruence.
  - congruence.
  - intros m d s _. destruct d; try exact I; cbn [exec].
    + prims. destruct (look x (flds s)); reflexivity.
    + prims. match goal with p : (list N * list N)%type |- _ => destruct p end. reflexivity.
    + prims. destruct (look x (flds s)) as [[]|]; reflexivity.
    + match goal with |- context [fails _ ?r _] => destruct r as [b'| | |] eqn:E end; try reflexivity.
      apply bind_ok in E. destruct E as (v & _ & E). apply bind_ok in E. destruct E as (y & _ & E). apply bind_ok in E. destruct E as (w & _ & E).
      apply bind_ok in E. destruct E as (j & _ & E). exact (put_keep _ _ _ E).
    + match goal with |- context [fails _ ?r _] => destruct r as [b'| | |] eqn:E end; try reflexivity.
      repeat (apply bind_ok in E; destruct E as (? & _ & E)). destruct (_ <? _); [discriminate E|]. exact (put_keep _ _ _ E).
    + match goal with |- context [fails _ ?r _] => destruct r as [b'| | |] eqn:E end; try reflexivity.
      repeat (apply bind_ok in E; destruct E as (? & _ & E)). exact (copy_keep _ _ _ _ E).
Qed.
(** the same for a method *)
Lemma call_end n c F b : fst (call n c F b) = at_end (exec n c (St F [] b)).
Proof. unfold call. now destruct (exec n c (St F [] b)). Qed.
Lemma go_un_no_put k : no_put (go_un k) = true. Proof. now destruct k. Qed.
Lemma go_to_no_set k : no_set (go_to k) = true. Proof. now destruct k. Qed.
Lemma go_len_pure k : no_set (go_len k) = true /\ no_put (go_len k) = true. Proof. now destruct k. Qed.
