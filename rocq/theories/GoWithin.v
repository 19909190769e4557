(** A check on the text of a method: every write to a slice of the argument comes after a comparison of its end with len(b).  A method that passes never writes
    past the length of its argument, however large the capacity (C111, PropsGoOver.v). *)
From Coq Require Import String.
From Verif Require Import Base Codec Utils Time Fields2 Fields3 Access Reuse Go GoProofs GoMeta GoOver.
Set Implicit Arguments.
Open Scope string_scope.
Open Scope list_scope.
Open Scope nat_scope.

Definition exp_dec (a b : exp) : {a = b} + {a <> b}.
Proof. decide equality; first [apply string_dec | apply N.eq_dec | apply Nat.eq_dec]. Defined.
(** does not mention the argument *)
Fixpoint pure (e : exp) : bool :=
  match e with
  | EBuf => false
  | ELen a | EToInt a | EU _ a | EBE _ a | EShr a _ | EShl _ a _ | EStr a | EBytes a | ETo4 a | ETo16 a | EFromBcd a | EToBcd a | ENtp a | ESince a => pure a
  | EAdd a b | ESub a b | EMul a b | EIdx a b | EFrom a b | EAnd a b | EOr a b | EApp a b | EToPlmn a b => pure a && pure b
  | ESlice a b c => pure a && pure b && pure c
  | _ => true
  end.
Fixpoint mentions (x : string) (e : exp) : bool :=
  match e with
  | EVar y => String.eqb x y
  | ELen a | EToInt a | EU _ a | EBE _ a | EShr a _ | EShl _ a _ | EStr a | EBytes a | ETo4 a | ETo16 a | EFromBcd a | EToBcd a | ENtp a | ESince a => mentions x a
  | EAdd a b | ESub a b | EMul a b | EIdx a b | EFrom a b | EAnd a b | EOr a b | EApp a b | EToPlmn a b => mentions x a || mentions x b
  | ESlice a b c => mentions x a || mentions x b || mentions x c
  | _ => false
  end.
Definition memE (e : exp) (l : list exp) : bool := existsb (fun f => if exp_dec e f then true else false) l.
(** [known] holds expressions that are at most len(b) *)
Definition covered (known : list exp) (e : exp) : bool :=
  memE e known || match e with EInt k => existsb (fun f => match f with EInt m => k <=? m | _ => false end) known | _ => false end.
(** if l < e { return io.ErrUnexpectedEOF } *)
Definition check_of (t : cond) (a : stmt) : option exp :=
  match t, a with CLt (EVar x) e, SEof => if String.eqb x "l" && pure e then Some e else None | _, _ => None end.
Fixpoint chk (known : list exp) (c : stmt) : option (list exp) :=
  match c with
  | SSkip | SEof | SRet _ | SBreak | SPutB _ _ => Some known
  | SSeq a b => match chk known a with Some k => chk k b | None => None end
  | SLet x e => if String.eqb x "l" then None else Some (filter (fun f => negb (mentions x f)) known)
  | SPut _ _ hi _ | SCopyB _ hi _ => if covered known hi then Some known else None
  | SIf t a =>
      match check_of t a with
      | Some e => Some (e :: known)
      | None => match chk known a with Some k => Some (filter (fun f => memE f k) known) | None => None end
      end
  | _ => None
  end.
Definition checked (c : stmt) : bool :=
  match c with SSeq (SLet x (ELen EBuf)) c => String.eqb x "l" && match chk [] c with Some _ => true | None => false end | _ => false end.

(** * It is enough *)
Lemma look_upd_other x y v s : x <> y -> look x (upd y v s) = look x s.
Proof.
  intros N. induction s as [|[z w] s IH]; cbn [upd look].
  - destruct (String.eqb_spec x y); [contradiction|reflexivity].
  - destruct (String.eqb_spec y z) as [->|Z]; cbn [look].
    + destruct (String.eqb_spec x z); [contradiction|reflexivity].
    + destruct (String.eqb_spec x z); [reflexivity|exact IH].
Qed.
Lemma look_upd_same x v s : look x (upd x v s) = Some v.
Proof. induction s as [|[z w] s IH]; cbn [upd look]; [now rewrite String.eqb_refl|]. destruct (String.eqb_spec x z) as [->|Z]; cbn [look]; [now rewrite String.eqb_refl|]. destruct (String.eqb_spec x z); [contradiction|exact IH]. Qed.
Ltac bools := repeat match goal with
  | H : _ && _ = true |- _ => apply andb_prop in H as [? ?]
  | H : _ || _ = false |- _ => apply Bool.orb_false_elim in H as [? ?] end.
Lemma eval_pure e : forall s s', pure e = true -> flds s = flds s' -> vars s = vars s' -> eval s e = eval s' e.
Proof.
  induction e; intros s s' P F V; cbn [pure] in P; bools; cbn [eval]; try reflexivity; try discriminate; try congruence;
    rewrite ?(IHe s s'), ?(IHe1 s s'), ?(IHe2 s s'), ?(IHe3 s s') by assumption; reflexivity.
Qed.
Lemma eval_set x v e : forall s, mentions x e = false -> eval (setv x v s) e = eval s e.
Proof.
  induction e; intros s P; cbn [mentions] in P; bools; cbn [eval]; try reflexivity; rewrite ?(IHe s), ?(IHe1 s), ?(IHe2 s), ?(IHe3 s) by assumption; try reflexivity.
  cbn [setv vars]. rewrite look_upd_other; [reflexivity|]. intros ->. now rewrite String.eqb_refl in P.
Qed.
Lemma memE_in e l : memE e l = true -> In e l.
Proof. unfold memE. intros H. apply existsb_exists in H as (f & I & D). destruct (exp_dec e f); [now subst|discriminate]. Qed.
Lemma put_inside b i s b' L : put b i s = Ok b' -> i + List.length s <= L -> L <= List.length b -> skipn L b' = skipn L b /\ List.length b' = List.length b.
Proof.
  unfold put. destruct (Nat.leb_spec (i + List.length s) (List.length b)) as [H|H]; [|discriminate]. intros [= <-] I J. split; [|rewrite !app_length, firstn_length, skipn_length; lia].
  rewrite app_assoc, skipn_app. rewrite app_length, firstn_length, Nat.min_l by lia.
  rewrite (skipn_all2 (firstn i b ++ s)) by (rewrite app_length, firstn_length; lia). cbn [app]. rewrite skipn_skipn'. f_equal. lia.
Qed.
Lemma copy_inside b i j s b' L : copy_range b i j s = Ok b' -> j <= L -> L <= List.length b -> skipn L b' = skipn L b /\ List.length b' = List.length b.
Proof.
  unfold copy_range. destruct (Nat.leb_spec i j) as [H|H]; [|discriminate]. destruct (Nat.leb_spec j (List.length b)) as [K|K]; [|discriminate]. cbn [andb]. cbv zeta. intros E I J.
  apply (@put_inside b i (firstn (j - i) s)); try assumption; [|rewrite firstn_length; lia]. unfold put.
  destruct (Nat.leb_spec (i + List.length (firstn (j - i) s)) (List.length b)) as [Q|Q]; [exact E|rewrite firstn_length in Q; lia].
Qed.
Lemma put_be_inside k b i j x b' L : put_be k b i j x = Ok b' -> j <= L -> L <= List.length b -> skipn L b' = skipn L b /\ List.length b' = List.length b.
Proof.
  unfold put_be, slice. destruct (Nat.leb_spec i j) as [H|H]; [|discriminate]. destruct (Nat.leb_spec j (List.length b)) as [K|K]; [|discriminate]. cbn [andb bind]. rewrite firstn_length, skipn_length.
  destruct (Nat.ltb_spec (Nat.min (j - i) (List.length b - i)) k); [discriminate|]. intros E I J. apply (@put_inside b i (be k x)); try assumption. rewrite be_length. lia.
Qed.
Section Within.
Variables (n L : nat).
Definition fact (s : state) (e : exp) : Prop := pure e = true /\ exists h, eval s e = Ok (GI h) /\ h <= L.
Definition inv (known : list exp) (s : state) : Prop := look "l" (vars s) = Some (GI L) /\ Forall (fact s) known.
Definition kept (s t : state) : Prop := skipn L (buf t) = skipn L (buf s) /\ List.length (buf t) = List.length (buf s).
Lemma inv_buf k s b : inv k s -> inv k (setb b s).
Proof.
  intros [I J]. split; [exact I|]. eapply Forall_impl; [|exact J]. intros e (P & h & E & H). split; [exact P|]. exists h. split; [|exact H].
  rewrite <- E. apply eval_pure; [exact P|reflexivity|reflexivity].
Qed.
Lemma view_eval s e : pure e = true -> eval (view L s) e = eval s e.
Proof. intros P. now apply eval_pure. Qed.
Lemma covered_le k s e v h : inv k s -> covered k e = true -> eval (view L s) e = Ok v -> int v = Ok h -> h <= L.
Proof.
  intros [_ J] C E H. rewrite Forall_forall in J. unfold covered in C. apply Bool.orb_prop in C as [C|C].
  - apply memE_in in C. destruct (J _ C) as (P & h' & E' & B). rewrite view_eval in E by exact P. rewrite E in E'. injection E' as ->. cbn in H. injection H as <-. exact B.
  - destruct e; try discriminate C. apply existsb_exists in C as (f & I & D). destruct f; try discriminate D. apply Nat.leb_le in D. destruct (J _ I) as (_ & h' & E' & B).
    cbn in E, E'. injection E' as <-. injection E as <-. cbn in H. injection H as <-. lia.
Qed.
Lemma kept_refl s : kept s s. Proof. now split. Qed.
Lemma kept_trans s t u : kept s t -> kept t u -> kept s u. Proof. intros [A B] [C D]. split; congruence. Qed.
Lemma leaves (A : Type) s (r : res A) (f : A -> out) known : inv known s ->
  (forall a, r = Ok a -> kept s (at_end (f a)) /\ match f a with Next u => inv known u | _ => True end) ->
  kept s (at_end (fails s r f)) /\ match fails s r f with Next u => inv known u | _ => True end.
Proof. intros I H. destruct r; cbn [fails at_end]; [now apply H|..]; (split; [apply kept_refl|exact Logic.I]). Qed.
Theorem chk_sound c : forall known known' s, chk known c = Some known' -> inv known s -> L <= List.length (buf s) ->
  kept s (at_end (xexec n L c s)) /\ match xexec n L c s with Next u => inv known' u | _ => True end.
Proof.
  induction c as [|a IHa b IHb|a IH|x e|x e|x y e|x e|i e|k lo hi e|k x e|lo hi e|t a IH|a IH|x y a IH| |e|]; intros known known' s C I B; try discriminate C; cbn [chk] in C.
  - injection C as <-. cbn. split; [apply kept_refl|exact I].
  - destruct (chk known a) as [k|] eqn:Ca; [|discriminate]. destruct (IHa known k s Ca I B) as [K1 N1]. cbn [xexec].
    destruct (xexec n L a s) as [u|u|u r]; cbn [at_end] in *; try (split; [exact K1|exact Logic.I]).
    destruct (IHb k known' u C N1 ltac:(destruct K1; lia)) as [K2 N2]. split; [exact (kept_trans K1 K2)|exact N2].
  - destruct (String.eqb_spec x "l") as [->|N]; [discriminate|]. injection C as <-. cbn [xexec]. destruct I as [I J].
    destruct (eval (view L s) e); cbn [fails at_end]; try (split; [apply kept_refl|exact Logic.I]). split; [now split|]. split.
    + cbn [setv vars]. rewrite look_upd_other by congruence. exact I.
    + apply Forall_forall. intros f H. apply filter_In in H as [H M]. rewrite Forall_forall in J. destruct (J _ H) as (P & h & E & Le). split; [exact P|]. exists h. split; [|exact Le].
      rewrite eval_set; [exact E|]. now destruct (mentions x f).
  - injection C as <-. cbn [xexec]. apply leaves; [exact I|]. intros b E.
    apply bind_ok in E as (v & _ & E). apply bind_ok in E as (z & _ & E). apply bind_ok in E as (w & _ & E). apply bind_ok in E as (j & _ & E).
    destruct (Nat.ltb_spec j L); [|discriminate]. split; [|now apply inv_buf]. apply (@put_inside _ _ _ _ L E); [cbn [List.length]; lia|exact B].
  - destruct (covered known hi) eqn:Cv; [|discriminate]. injection C as <-. cbn [xexec]. apply leaves; [exact I|]. intros b E.
    apply bind_ok in E as (v & _ & E). apply bind_ok in E as (z & _ & E). apply bind_ok in E as (w & Ew & E). apply bind_ok in E as (j & Ej & E). apply bind_ok in E as (v3 & _ & E).
    apply bind_ok in E as (y & _ & E). pose proof (@covered_le known s hi w j I Cv Ew Ej). split; [|now apply inv_buf]. now apply (@put_be_inside _ _ _ _ _ _ L E).
  - destruct (covered known hi) eqn:Cv; [|discriminate]. injection C as <-. cbn [xexec]. apply leaves; [exact I|]. intros b E.
    apply bind_ok in E as (v & _ & E). apply bind_ok in E as (z & _ & E). apply bind_ok in E as (w & Ew & E). apply bind_ok in E as (j & Ej & E). apply bind_ok in E as (v3 & _ & E).
    apply bind_ok in E as (y & _ & E). pose proof (@covered_le known s hi w j I Cv Ew Ej). split; [|now apply inv_buf]. now apply (@copy_inside _ _ _ _ _ L E).
  - destruct (check_of t a) as [e|] eqn:K.
    + injection C as <-. unfold check_of in K. destruct t as [e1 e2| | | | | | | |]; try discriminate K. destruct e1; try discriminate K. destruct a; try discriminate K.
      destruct (String.eqb_spec x "l") as [->|N]; [|discriminate K]. destruct (pure e2) eqn:P; [|discriminate K]. injection K as <-. cbn [xexec test eval view vars].
      destruct I as [I J]. rewrite I. cbn [of_look bind int]. change (St (flds s) (vars s) (firstn L (buf s))) with (view L s). rewrite view_eval by exact P.
      destruct (eval s e2) as [v| | |] eqn:E; cbn [bind fails at_end]; try (split; [apply kept_refl|exact Logic.I]).
      destruct (int v) as [h| | |] eqn:H; cbn [bind fails at_end]; try (split; [apply kept_refl|exact Logic.I]).
      destruct (Nat.ltb_spec L h); cbn [xexec at_end]; (split; [apply kept_refl|]); [exact Logic.I|]. split; [exact I|]. constructor; [|exact J]. split; [exact P|]. exists h.
      split; [|assumption]. destruct v; try discriminate H. cbn in H. now injection H as ->.
    + destruct (chk known a) as [k|] eqn:Ca; [|discriminate]. injection C as <-. cbn [xexec]. destruct (test (view L s) t) as [[]| | |]; cbn [fails at_end]; try (split; [apply kept_refl|exact Logic.I]).
      * destruct (IH known k s Ca I B) as [K1 N1]. split; [exact K1|]. destruct (xexec n L a s) as [u|u|u r]; try exact Logic.I. destruct N1 as [N1 N2]. split; [exact N1|].
        apply Forall_forall. intros f H. apply filter_In in H as [_ H]. apply memE_in in H. rewrite Forall_forall in N2. now apply N2.
      * split; [apply kept_refl|]. destruct I as [I J]. split; [exact I|]. apply Forall_forall. intros f H. apply filter_In in H as [H _]. rewrite Forall_forall in J. now apply J.
  - injection C as <-. cbn. split; [apply kept_refl|exact Logic.I].
  - injection C as <-. cbn [xexec]. destruct (eval (view L s) e); cbn; (split; [apply kept_refl|exact Logic.I]).
  - injection C as <-. cbn. split; [apply kept_refl|exact Logic.I].
Qed.
Theorem checked_sound c F M : checked c = true -> L <= List.length M -> skipn L (buf (fst (xcall n L c F M))) = skipn L M.
Proof.
  intros C B. unfold checked in C. destruct c as [|a b| | | | | | | | | | | | | | |]; try discriminate C. destruct a; try discriminate C. destruct e; try discriminate C. destruct e; try discriminate C.
  apply andb_prop in C as [X C]. apply String.eqb_eq in X. subst x. destruct (chk [] b) as [k|] eqn:K; [|discriminate C].
  unfold xcall. cbn [xexec eval view buf oct octs bind fails]. unfold octs. rewrite firstn_length, Nat.min_l by exact B.
  destruct (@chk_sound b [] k (setv "l" (GI L) (St F [] M)) K) as [[H _] _]; [split; [reflexivity|constructor]|exact B|].
  destruct (xexec n L b (setv "l" (GI L) (St F [] M))); exact H.
Qed.
End Within.
