(** The methods MarshalTo of the XxxFields structs: wherever the length of the argument decides whether the call goes on, all octets written so far are in front of all that
    can still be written.  A check on the text, and what follows for calls that fail or panic half way (C113, PropsGoFront.v). *)
From Coq Require Import String.
From Verif Require Import Base Codec Utils Time Fields2 Fields3 Access Reuse Go GoProofs GoMeta GoOver GoWithin GoBound.
Set Implicit Arguments.
Open Scope string_scope.
Open Scope list_scope.
Open Scope nat_scope.

(** a variable known to hold a number *)
Definition env := option (string * nat).
(** a sum as its parts that are not numbers, and a number *)
Fixpoint parts (en : env) (e : exp) : list exp * nat :=
  match e with
  | EInt k => ([], k)
  | EAdd a b => (fst (parts en a) ++ fst (parts en b), snd (parts en a) + snd (parts en b))
  | EVar x => match en with Some (y, k) => if String.eqb x y then ([], k) else ([e], 0) | None => ([e], 0) end
  | _ => ([e], 0)
  end.
(** [a] is a beginning of [b] *)
Fixpoint begins (a b : list exp) : bool :=
  match a, b with
  | [], _ => true
  | x :: a, y :: b => (if exp_dec x y then true else false) && begins a b
  | _, _ => false
  end.
Definition sum (n : env) (e : exp) : bool := match e with EAdd _ _ => true | _ => match fst (parts n e) with [] => true | _ => false end end.
(** a <= b, seen from the text *)
Definition le_exp (n : env) (a b : exp) : bool :=
  begins (fst (parts n a)) (fst (parts n b)) && (snd (parts n a) <=? snd (parts n b)) && (sum n b || match fst (parts n a) with [] => false | _ => true end).
Fixpoint ends (c : stmt) : bool :=
  match c with SRet _ | SEof => true | SSeq a b => ends a || ends b | SBlock a => ends a | _ => false end.
(** what is known at a point of the text *)
Definition place := option exp.
Record known := Kn {
  lb : place;  (* all further writes are at this place or behind it; None: there are none *)
  ub : place;  (* nothing has been written at or behind this place; None: the length of the argument does not matter any more *)
  en : env }.
Definition before (n : env) (p : place) (e : exp) : bool := match p with Some f => le_exp n f e | None => false end.
Definition free (x : string) (p : place) : bool := match p with Some f => negb (mentions x f) | None => true end.
Definition keep (x : string) (p : place) : place := if free x p then p else None.
Definition join (a b : place) : place := match a, b with Some f, Some g => if exp_dec f g then Some f else None | _, _ => None end.
Definition only_var (p : place) : place := match p with Some (EVar x) => Some (EVar x) | _ => None end.
Definition forget (x : string) (n : env) : env := match n with Some (y, k) => if String.eqb x y then None else n | None => None end.
Definition env_dec (a b : env) : {a = b} + {a <> b}.
Proof. decide equality. decide equality; [apply Nat.eq_dec|apply string_dec]. Defined.
Definition step (x : string) (e : exp) (n : env) (p : place) : place := if clean e && before n p e then Some (EVar x) else keep x p.
Definition learn (x : string) (e : exp) (n : env) : env := if clean e then match parts n e with ([], k) => Some (x, k) | _ => forget x n end else forget x n.
(** the same, but with its members computed first: the check takes far longer without *)
Definition seal (A : Type) (k : known) (f : known -> A) : A :=
  match k with Kn l u e =>
    match l with
    | Some x => match u with
                | Some y => match e with Some (z, m) => f (Kn (Some x) (Some y) (Some (z, m))) | None => f (Kn (Some x) (Some y) None) end
                | None => match e with Some (z, m) => f (Kn (Some x) None (Some (z, m))) | None => f (Kn (Some x) None None) end end
    | None => match u with
              | Some y => match e with Some (z, m) => f (Kn None (Some y) (Some (z, m))) | None => f (Kn None (Some y) None) end
              | None => match e with Some (z, m) => f (Kn None None (Some (z, m))) | None => f (Kn None None None) end end
    end end.
Lemma seal_eq (A : Type) k (f : known -> A) : seal k f = f k.
Proof. now destruct k as [[] [] [[]|]]. Qed.
Fixpoint front (k : known) (c : stmt) : option known :=
  match c with
  | SSkip | SEof | SRet _ => Some k
  | SSeq a b => match front k a with Some k => seal k (fun k => front k b) | None => None end
  | SBlock a => match front k a with Some k' => Some (Kn (only_var (join (lb k) (lb k'))) (only_var (join (ub k) (ub k'))) None) | None => None end
  | SLet x e => Some (Kn (step x e (en k) (lb k)) (step x e (en k) (ub k)) (learn x e (en k)))
  | SPutB i e => if clean i && before (en k) (lb k) i && before (en k) (ub k) i then Some (Kn (Some i) (Some (EAdd i (EInt 1))) (en k)) else None
  | SPut _ lo hi _ | SCopyB lo hi _ =>
      if clean lo && clean hi && before (en k) (lb k) lo then Some (Kn (Some lo) (if before (en k) (ub k) hi then Some hi else None) (en k)) else None
  | SPutV _ x _ => Some (Kn (keep x (lb k)) (keep x (ub k)) (forget x (en k)))
  | SIf t a =>
      match check_of t a with
      | Some _ => match lb k with Some f => if before (en k) (ub k) f then Some k else None | None => None end
      | None => match front k a with
                | Some k' => Some (if ends a then k else Kn (join (lb k) (lb k')) (join (ub k) (ub k')) (if env_dec (en k) (en k') then en k else None))
                | None => None end
      end
  | SRange x _ a =>
      if free x (lb k) && free x (ub k) then
        match front (Kn (lb k) (ub k) None) a with
        | Some k' => match join (lb k) (lb k'), join (ub k) (ub k') with Some f, Some g => Some (Kn (Some f) (Some g) None) | _, _ => None end
        | None => None end
      else None
  | _ => None
  end.
Definition ordered (c : stmt) : bool := match front (Kn (Some (EInt 0)) (Some (EInt 0)) None) c with Some _ => true | None => false end.




(** * Sums *)
Definition holds (n : env) (s : state) : Prop := match n with Some (x, k) => x <> "l" /\ look x (vars s) = Some (GI k) | None => True end.
Fixpoint vals (s : state) (l : list exp) : option nat :=
  match l with [] => Some 0 | e :: l => match eval s e, vals s l with Ok (GI v), Some k => Some (v + k) | _, _ => None end end.
Lemma vals_app s a : forall b x y, vals s a = Some x -> vals s b = Some y -> vals s (a ++ b) = Some (x + y).
Proof.
  induction a as [|e a IH]; intros b x y A B; cbn [vals app] in *; [now injection A as <-|]. destruct (eval s e) as [[v| | | | | |]| | |]; try discriminate.
  destruct (vals s a) as [k|]; [|discriminate]. injection A as <-. rewrite (IH b k y eq_refl B). f_equal. lia.
Qed.
Lemma parts_sound n s e : holds n s -> forall v, eval s e = Ok (GI v) -> exists k, vals s (fst (parts n e)) = Some k /\ v = k + snd (parts n e).
Proof.
  intros HN.
  assert (D : forall e0 v, eval s e0 = Ok (GI v) -> exists k, vals s [e0] = Some k /\ v = k + 0) by (intros e0 v E; cbn [vals]; rewrite E; exists (v + 0); split; [reflexivity|lia]).
  induction e; intros v E; cbn [parts fst snd]; try (now apply D).
  - cbn in E. injection E as <-. exists 0. now split.
  - destruct n as [[y k]|]; [|now apply D]. destruct (String.eqb_spec x y) as [->|]; [|now apply D]. destruct HN as [_ HN]. cbn [eval] in E. rewrite HN in E. injection E as <-. exists 0. now split.
  - cbn [eval] in E. apply bind_ok in E as (w1 & E1 & E). apply bind_ok in E as (x1 & X1 & E). apply bind_ok in E as (w2 & E2 & E). apply bind_ok in E as (x2 & X2 & E). injection E as <-.
    destruct w1; try discriminate X1. destruct w2; try discriminate X2. injection X1 as <-. injection X2 as <-.
    destruct (IHe1 _ E1) as (k1 & K1 & ->), (IHe2 _ E2) as (k2 & K2 & ->). exists (k1 + k2). split; [now apply vals_app|lia].
Qed.
Lemma sum_int n s e v : holds n s -> sum n e = true -> eval s e = Ok v -> exists z, v = GI z.
Proof.
  intros HN S E. destruct e; try discriminate S.
  - cbn in E. injection E as <-. now eexists.
  - unfold sum in S. cbn [parts] in S. destruct n as [[y k]|]; [|discriminate S]. destruct (String.eqb_spec x y) as [->|]; [|discriminate S]. destruct HN as [_ HN]. cbn [eval] in E. rewrite HN in E. injection E as <-. now eexists.
  - cbn [eval] in E. apply bind_ok in E as (w1 & _ & E). apply bind_ok in E as (x1 & _ & E). apply bind_ok in E as (w2 & _ & E). apply bind_ok in E as (x2 & _ & E). injection E as <-. now eexists.
Qed.
Lemma single n e : sum n e = false -> fst (parts n e) = [e].
Proof. destruct e; cbn [sum parts fst]; try reflexivity; try discriminate. destruct n as [[y k]|]; [|reflexivity]. destruct (String.eqb x y); [discriminate|reflexivity]. Qed.
Lemma begins_vals s a : forall b x y, begins a b = true -> vals s a = Some x -> vals s b = Some y -> x <= y.
Proof.
  induction a as [|e a IH]; intros [|f b] x y B A C; cbn [begins vals] in *; try discriminate; [injection A as <-; lia|injection A as <-; lia|].
  destruct (exp_dec e f) as [<-|]; [|discriminate]. destruct (eval s e) as [[v| | | | | |]| | |]; try discriminate. destruct (vals s a) as [i|]; [|discriminate]. destruct (vals s b) as [j|] eqn:J; [|discriminate].
  injection A as <-. injection C as <-. specialize (IH b i j B eq_refl J). lia.
Qed.
Lemma le_exp_sound n s a b x y : holds n s -> le_exp n a b = true -> eval s a = Ok (GI x) -> eval s b = Ok (GI y) -> x <= y.
Proof.
  unfold le_exp. intros HN H A B. apply andb_prop in H as [H _]. apply andb_prop in H as [H K]. apply Nat.leb_le in K.
  destruct (@parts_sound n s a HN _ A) as (i & I & ->), (@parts_sound n s b HN _ B) as (j & J & ->). pose proof (@begins_vals s _ _ i j H I J). lia.
Qed.
Lemma le_exp_int n s a b x v : holds n s -> le_exp n a b = true -> eval s a = Ok (GI x) -> eval s b = Ok v -> exists z, v = GI z.
Proof.
  unfold le_exp. intros HN H A B. apply andb_prop in H as [H K]. apply andb_prop in H as [H _]. destruct (sum n b) eqn:S; [now apply (@sum_int n s b v)|]. cbn [orb] in K.
  destruct (@parts_sound n s a HN _ A) as (i & I & _). rewrite (@single n b S) in H. destruct (fst (parts n a)) as [|e l]; [discriminate|]. cbn [begins] in H. destruct (exp_dec e b) as [->|]; [|discriminate].
  cbn [vals] in I. rewrite B in I. destruct v; try discriminate I. now eexists.
Qed.

(** * The names of the variables *)
Definition more (a b : store) : Prop := exists k, map fst b = map fst a ++ k.
Lemma more_refl a : more a a. Proof. exists []. now rewrite app_nil_r. Qed.
Lemma more_trans a b c : more a b -> more b c -> more a c.
Proof. intros [k K] [l J]. exists (k ++ l). now rewrite J, K, app_assoc. Qed.
Lemma more_upd x v a : more a (upd x v a).
Proof.
  induction a as [|[y w] a [k K]]; cbn [upd]; [exists [x]; reflexivity|]. destruct (String.eqb x y); [apply (more_refl ((y, w) :: a))|]. exists k. cbn. now rewrite K.
Qed.
Lemma more_cut a b : more a b -> map fst (cut a b) = map fst a.
Proof. revert b. induction a as [|x a IH]; intros b [k K]; [now destruct b|]. destruct b as [|y b]; [discriminate|]. cbn in *. injection K as E K. rewrite E, IH; [reflexivity|]. now exists k. Qed.
Lemma look_cut x a b v : more a b -> look x a = Some v -> look x (cut a b) = look x b.
Proof.
  revert b. induction a as [|[y w] a IH]; intros b [k K] E; [discriminate|]. destruct b as [|[z u] b]; [discriminate|]. cbn in K. injection K as Z K. subst z. cbn [cut look] in *.
  destruct (String.eqb x y); [reflexivity|]. apply IH; [now exists k|exact E].
Qed.
Lemma names n L c : forall s, more (vars s) (vars (at_end (xexec n L c s))).
Proof.
  induction c as [|a IHa b IHb|a IH|x e|x e|x y e|x e|i e|k lo hi e|k x e|lo hi e|t a IH|a IH|x y a IH| |e|]; intros s; cbn [xexec]; try apply more_refl.
  - pose proof (IHa s) as A. destruct (xexec n L a s) as [u|u|u r]; cbn [at_end] in *; [exact (more_trans A (IHb u))|exact A|exact A].
  - pose proof (IH s) as A. destruct (xexec n L a s) as [u|u|u r]; cbn [at_end within leave vars] in *; [exists []; rewrite app_nil_r; now apply more_cut|exists []; rewrite app_nil_r; now apply more_cut|exact A].
  - destruct (eval _ _); cbn; try apply more_refl. apply more_upd.
  - destruct (eval _ _); cbn; try apply more_refl. destruct (look x (flds s)); apply more_refl.
  - destruct (v <- eval _ _ ;; p <- oct v ;; decode_plmn p) as [[]| | |]; apply more_refl.
  - destruct (v <- eval _ _ ;; oct v); try apply more_refl. cbn. destruct (look x (flds s)) as [[]|]; apply more_refl.
  - match goal with |- context [fails s ?r _] => destruct r end; apply more_refl.
  - match goal with |- context [fails s ?r _] => destruct r end; apply more_refl.
  - match goal with |- context [fails s ?r _] => destruct r end; cbn; try apply more_refl. apply more_upd.
  - match goal with |- context [fails s ?r _] => destruct r end; apply more_refl.
  - destruct (test _ _) as [[]| | |]; cbn [fails at_end]; try apply more_refl. apply IH.
  - generalize n at 2. intros k. revert s. induction k as [|k IHk]; intros s; [apply more_refl|]. pose proof (IH s) as A.
    destruct (xexec n L a s) as [u|u|u r]; cbn [at_end] in *; [exact (more_trans A (IHk u))|exact A|exact A].
  - destruct (look y (flds s)) as [[]|]; try apply more_refl. revert s. induction l as [|p l IHl]; intros s; [apply more_refl|]. pose proof (IH (setv x (GS p) s)) as A.
    pose proof (more_trans (more_upd x (GS p) (vars s)) A) as B. destruct (xexec n L a (setv x (GS p) s)) as [u|u|u r]; cbn [at_end] in *; [exact (more_trans B (IHl u))|exact B|exact B].
  - destruct (eval _ _); apply more_refl.
Qed.
Lemma ends_next n L c : ends c = true -> forall s u, xexec n L c s <> Next u.
Proof.
  induction c; intros E s u; try discriminate E; cbn [ends] in E; cbn [xexec]; try discriminate.
  - apply Bool.orb_prop in E as [E|E].
    + specialize (IHc1 E s). destruct (xexec n L c1 s) as [v|v|v r]; [exfalso; now apply (IHc1 v)|discriminate|discriminate].
    + destruct (xexec n L c1 s) as [v|v|v r]; [now apply IHc2|discriminate|discriminate].
  - specialize (IHc E s). destruct (xexec n L c s) as [v|v|v r]; [exfalso; now apply (IHc v)|discriminate|discriminate].
  - destruct (eval _ _); discriminate.
Qed.

(** * What comes later *)
Section Front.
Variables (n L : nat).
(** the first q octets are before the place *)
Definition below (fr : place) (q : nat) (s : state) : Prop := match fr with Some f => clean f = true /\ exists v, eval s f = Ok (GI v) /\ q <= v | None => True end.
Definition under (k : known) (q : nat) (s : state) : Prop := below (lb k) q s /\ holds (en k) s.
Lemma clean_pure e : clean e = true -> pure e = true. Proof. unfold clean. intros H. now apply andb_prop in H. Qed.
Lemma clean_view k e s : clean e = true -> eval (view k s) e = eval s e. Proof. intros C. apply eval_pure; [now apply clean_pure|reflexivity|reflexivity]. Qed.
Lemma clean_setb e b s : clean e = true -> eval (setb b s) e = eval s e. Proof. intros C. apply eval_pure; [now apply clean_pure|reflexivity|reflexivity]. Qed.
Lemma before_le m fr e q s v : holds m s -> before m fr e = true -> below fr q s -> eval s e = Ok (GI v) -> q <= v.
Proof. destruct fr as [f|]; [|discriminate]. cbn. intros HN H (_ & w & E & Q) V. pose proof (@le_exp_sound m s f e w v HN H E V). lia. Qed.
Lemma below_join fr f q s : below fr q s -> below (join fr f) q s.
Proof. destruct fr as [a|], f as [b|]; cbn; try (intros; exact I). destruct (exp_dec a b); cbn; auto. Qed.
Lemma below_join' fr f q s : below f q s -> below (join fr f) q s.
Proof. destruct fr as [a|], f as [b|]; cbn; try (intros; exact I). destruct (exp_dec a b) as [->|]; cbn; auto. Qed.
Lemma below_free fr q s x v : free x fr = true -> below fr q s -> below fr q (setv x v s).
Proof. destruct fr as [f|]; [|trivial]. cbn. intros F (P & w & E & Q). split; [exact P|]. exists w. split; [|exact Q]. rewrite eval_set; [exact E|]. now destruct (mentions x f). Qed.
Lemma below_keep fr q s x v : below fr q s -> below (keep x fr) q (setv x v s).
Proof. intros B. unfold keep. destruct (free x fr) eqn:F; [now apply below_free|exact I]. Qed.
Lemma eval_var_set x v s : eval (setv x v s) (EVar x) = Ok v.
Proof. cbn [eval setv vars]. now rewrite look_upd_same. Qed.
Lemma look_upd_other' x y v a : x <> y -> look x (upd y v a) = look x a.
Proof.
  intros N. induction a as [|[z w] a IH]; cbn [upd look].
  - destruct (String.eqb_spec x y); [contradiction|reflexivity].
  - destruct (String.eqb_spec y z) as [->|]; cbn [look].
    + destruct (String.eqb_spec x z); [contradiction|reflexivity].
    + destruct (String.eqb x z); [reflexivity|exact IH].
Qed.
Lemma holds_forget m x v s : holds m s -> holds (forget x m) (setv x v s).
Proof.
  destruct m as [[y k]|]; [|trivial]. intros [N E]. cbn [forget]. destruct (String.eqb_spec x y) as [->|D]; [exact I|]. split; [exact N|]. cbn [setv vars]. rewrite look_upd_other'; [exact E|congruence].
Qed.
Lemma holds_learn m x e v s : (clean e = true -> x <> "l") -> holds m s -> eval (view L s) e = Ok v -> holds (learn x e m) (setv x v s).
Proof.
  intros N HN E. unfold learn. destruct (clean e) eqn:C; [|now apply holds_forget]. rewrite (@clean_view L e s C) in E. destruct (parts m e) as [[|a l] k] eqn:P; [|now apply holds_forget].
  assert (exists z, v = GI z) as [z ->].
  { apply (@sum_int m s e v HN); [|exact E]. unfold sum. destruct e; try reflexivity; rewrite P; reflexivity. }
  split; [now apply N|]. cbn [setv vars]. rewrite look_upd_same. destruct (@parts_sound m s e HN _ E) as (i & I & ->). rewrite P in I |- *. cbn in I |- *. injection I as <-. reflexivity.
Qed.
Lemma below_step m fr q s x e v : (clean e = true -> x <> "l") -> holds m s -> below fr q s -> eval (view L s) e = Ok v -> below (step x e m fr) q (setv x v s).
Proof.
  intros N HN B V. unfold step. destruct (clean e && before m fr e) eqn:K; [|now apply below_keep]. apply andb_prop in K as [K1 K2]. rewrite clean_view in V by exact K1.
  destruct fr as [f|]; [|discriminate K2]. destruct B as (P & w & W & Q). destruct (@le_exp_int m s f e w v HN K2 W V) as [z ->].
  split; [unfold clean; cbn [pure mentions]; destruct (String.eqb_spec "l" x); [exfalso; apply (N K1); congruence|reflexivity]|].
  exists z. rewrite eval_var_set. split; [reflexivity|]. pose proof (@le_exp_sound m s f e w z HN K2 W V). lia.
Qed.
Lemma below_block fr f q s u : more (vars s) (vars u) -> below fr q s -> below f q u -> below (only_var (join fr f)) q (leave s u).
Proof.
  intros Nm B A. destruct (join fr f) as [g|] eqn:J; [|exact I]. destruct g; try exact I. cbn [only_var].
  pose proof (@below_join' fr f q u A) as J1. pose proof (@below_join fr f q s B) as J2. rewrite J in J1, J2. destruct J1 as (Cl & v & V & Q), J2 as (_ & w & W & _). split; [exact Cl|]. exists v.
  split; [|exact Q]. cbn [eval leave vars] in *. destruct (look x (vars s)) as [z|] eqn:Z; [|discriminate W]. rewrite (@look_cut x _ _ z Nm Z). exact V.
Qed.
Lemma int_inv v k : int v = Ok k -> v = GI k. Proof. destruct v; try discriminate. cbn. now intros [= ->]. Qed.
Lemma put_front a i s a' q : put a i s = Ok a' -> q <= i -> firstn q a' = firstn q a.
Proof.
  intros E Q. unfold put in E. destruct (Nat.leb_spec (i + List.length s) (List.length a)) as [H|H]; [|discriminate]. injection E as <-.
  rewrite firstn_app, firstn_firstn, firstn_length, Nat.min_l by lia. replace (q - Nat.min i (List.length a)) with 0 by lia. now rewrite firstn_O, app_nil_r.
Qed.
Lemma copy_put a i j s a' : copy_range a i j s = Ok a' -> put a i (firstn (j - i) s) = Ok a' /\ i <= j /\ j <= List.length a /\ i + List.length (firstn (j - i) s) <= j.
Proof.
  unfold copy_range. destruct (Nat.leb_spec i j) as [H|H]; [|discriminate]. destruct (Nat.leb_spec j (List.length a)) as [K|K]; [|discriminate]. cbn [andb]. cbv zeta. intros E.
  assert (Q : i + List.length (firstn (j - i) s) <= j) by (rewrite firstn_length; lia). split; [|auto]. unfold put. destruct (Nat.leb_spec (i + List.length (firstn (j - i) s)) (List.length a)); [exact E|lia].
Qed.
Lemma put_be_put k a i j x a' : put_be k a i j x = Ok a' -> put a i (be k x) = Ok a' /\ i <= j /\ j <= List.length a /\ i + List.length (be k x) <= j.
Proof.
  unfold put_be, slice. destruct (Nat.leb_spec i j) as [H|H]; [|discriminate]. destruct (Nat.leb_spec j (List.length a)) as [K|K]; [|discriminate]. cbn [andb bind]. rewrite firstn_length, skipn_length.
  destruct (Nat.ltb_spec (Nat.min (j - i) (List.length a - i)) k); [discriminate|]. intros E. rewrite be_length. repeat split; try assumption; lia.
Qed.
Lemma let_l x e : plain (SLet x e) = true -> clean e = true -> x <> "l".
Proof. cbn [plain]. intros P C ->. rewrite String.eqb_refl in P. destruct e; try discriminate P. destruct e; try discriminate P. discriminate C. Qed.
Definition after (k : known) (q : nat) (s : state) (o : out) : Prop :=
  firstn q (buf (at_end o)) = firstn q (buf s) /\ match o with Next u => under k q u | Brk _ => False | Done _ _ => True end.
Lemma after_done k q s r : after k q s (Done s r). Proof. now split. Qed.
Lemma after_fails (A : Type) fr q s (r : res A) k : (forall a, r = Ok a -> after fr q s (k a)) -> after fr q s (fails s r k).
Proof. destruct r; intros H; [now apply H|apply after_done..]. Qed.
(** nothing before the place is written any more; in [None], nothing at all *)
Theorem later c : forall k k' q s, plain c = true -> front k c = Some k' -> under k q s -> after k' q s (xexec n L c s).
Proof.
  induction c as [|a IHa b IHb|a IH|x e|x e|x y e|x e|i e|w lo hi e|w x e|lo hi e|t a IH|a IH|x y a IH| |e|]; intros k k' q s P C B; try discriminate C; try discriminate P; cbn [front] in C; cbn [xexec].
  - injection C as <-. now split.
  - destruct (front k a) as [f|] eqn:Ca; [|discriminate]. rewrite seal_eq in C. cbn [plain] in P. apply andb_prop in P as [Pa Pb]. destruct (IHa k f q s Pa Ca B) as [A1 A2].
    destruct (xexec n L a s) as [u|u|u r]; cbn [at_end] in *; [|contradiction|now split]. destruct (IHb f k' q u Pb C A2) as [B1 B2]. split; [congruence|exact B2].
  - destruct (front k a) as [f|] eqn:Ca; [|discriminate]. injection C as <-. pose proof (names n L a s) as Nm. destruct (IH k f q s P Ca B) as [A1 A2].
    destruct (xexec n L a s) as [u|u|u r]; cbn [within at_end leave buf] in *; [|contradiction|now split]. split; [exact A1|]. split; [|exact I]. cbn [lb]. apply below_block; [exact Nm|exact (proj1 B)|exact (proj1 A2)].
  - injection C as <-. apply after_fails. intros v V. split; [reflexivity|]. destruct B as [B HN]. pose proof (@let_l x e P) as N. split; [now apply below_step|now apply holds_learn].
  - destruct (clean i && before (en k) (lb k) i && before (en k) (ub k) i) eqn:K; [|discriminate]. injection C as <-. apply andb_prop in K as [K _]. apply andb_prop in K as [K1 K2].
    rewrite (@clean_view L i s K1). apply after_fails. intros b E. destruct B as [B HN].
    apply bind_ok in E as (v & _ & E). apply bind_ok in E as (z & _ & E). apply bind_ok in E as (w & W & E). apply bind_ok in E as (j & J & E). apply int_inv in J. subst w.
    destruct (j <? L); [|discriminate]. pose proof (@before_le (en k) (lb k) i q s j HN K2 B W) as Q. split; [exact (@put_front _ _ _ _ q E Q)|]. split; [|exact HN]. split; [exact K1|]. exists j.
    split; [|lia]. now rewrite (@clean_setb i b s K1).
  - destruct (clean lo && clean hi && before (en k) (lb k) lo) eqn:K; [|discriminate]. injection C as <-. apply andb_prop in K as [K K2]. apply andb_prop in K as [K0 K1].
    rewrite (@clean_view L lo s K0), (@clean_view L hi s K1). apply after_fails. intros b E. destruct B as [B HN].
    apply bind_ok in E as (v & V & E). apply bind_ok in E as (i & I & E). apply bind_ok in E as (z & W & E). apply bind_ok in E as (j & J & E). apply int_inv in I, J. subst v z.
    apply bind_ok in E as (? & _ & E). apply bind_ok in E as (? & _ & E). apply put_be_put in E as (E & E1 & _). pose proof (@before_le (en k) (lb k) lo q s i HN K2 B V) as Q.
    split; [exact (@put_front _ _ _ _ q E Q)|]. split; [|exact HN]. split; [exact K0|]. exists i. split; [|lia]. now rewrite (@clean_setb lo b s K0).
  - injection C as <-. apply after_fails. intros p _. split; [reflexivity|]. split; [apply below_keep; exact (proj1 B)|apply holds_forget; exact (proj2 B)].
  - destruct (clean lo && clean hi && before (en k) (lb k) lo) eqn:K; [|discriminate]. injection C as <-. apply andb_prop in K as [K K2]. apply andb_prop in K as [K0 K1].
    rewrite (@clean_view L lo s K0), (@clean_view L hi s K1). apply after_fails. intros b E. destruct B as [B HN].
    apply bind_ok in E as (v & V & E). apply bind_ok in E as (i & I & E). apply bind_ok in E as (z & W & E). apply bind_ok in E as (j & J & E). apply int_inv in I, J. subst v z.
    apply bind_ok in E as (? & _ & E). apply bind_ok in E as (? & _ & E). apply copy_put in E as (E & E1 & _). pose proof (@before_le (en k) (lb k) lo q s i HN K2 B V) as Q.
    split; [exact (@put_front _ _ _ _ q E Q)|]. split; [|exact HN]. split; [exact K0|]. exists i. split; [|lia]. now rewrite (@clean_setb lo b s K0).
  - apply after_fails. intros x _. cbn [plain] in P. destruct (check_of t a) as [e|] eqn:K.
    + assert (k' = k) as -> by (destruct (lb k) as [f|]; [|discriminate]; destruct (before (en k) (ub k) f); [|discriminate]; now injection C as <-).
      destruct x; [|now split]. unfold check_of in K. destruct t as [e1 ?| | | | | | | |]; try discriminate K. destruct e1; try discriminate K. destruct a; try discriminate K. apply after_done.
    + apply andb_prop in P as [_ Pa]. destruct (front k a) as [f|] eqn:Ca; [|discriminate]. injection C as <-. destruct x.
      * destruct (IH k f q s Pa Ca B) as [A1 A2]. split; [exact A1|]. pose proof (@ends_next n L a) as En. destruct (ends a).
        -- specialize (En eq_refl s). destruct (xexec n L a s) as [u|u|u r]; [now destruct (En u)|exact A2|exact I].
        -- destruct (xexec n L a s); [|exact A2|exact I]. destruct A2 as [A2 A3]. split; [now apply below_join'|]. cbn [en]. destruct (env_dec (en k) (en f)) as [->|]; [exact A3|exact I].
      * split; [reflexivity|]. destruct (ends a); [exact B|]. destruct B as [B HN]. split; [now apply below_join|]. cbn [en]. destruct (env_dec _ _); [exact HN|exact I].
  - cbn [plain] in P. apply andb_prop in P as [_ Pa]. destruct (free x (lb k) && free x (ub k)) eqn:Fx; [|discriminate]. apply andb_prop in Fx as [Fx _].
    destruct (front (Kn (lb k) (ub k) None) a) as [f|] eqn:Ca; [|discriminate].
    destruct (join (lb k) (lb f)) as [g|] eqn:J; [|discriminate]. destruct (join (ub k) (ub f)) as [h|] eqn:J2; [|discriminate]. injection C as <-.
    assert (lb k = Some g /\ lb f = Some g) as [Lk Lf] by (destruct (lb k) as [u|], (lb f) as [v|]; try discriminate J; cbn in J; destruct (exp_dec u v) as [->|]; [|discriminate J]; injection J as ->; now split).
    rewrite Lk in *. destruct B as [B _]. rewrite Lk in B.
    destruct (look y (flds s)) as [[]|]; try apply after_done. revert s B. induction l as [|p l IHl]; intros s B; [split; [reflexivity|split; [exact B|exact I]]|].
    destruct (IH _ f q (setv x (GS p) s) Pa Ca (conj (@below_free (Some g) q s x (GS p) Fx B) I)) as [A1 A2].
    destruct (xexec n L a (setv x (GS p) s)) as [u|u|u r]; cbn [at_end] in *; [|contradiction|now split]. destruct A2 as [A2 _]. rewrite Lf in A2. destruct (IHl u A2) as [B1 B2]. split; [rewrite B1; exact A1|exact B2].
  - injection C as <-. apply after_fails. intros v _. apply after_done.
  - injection C as <-. apply after_done.
Qed.
End Front.

(** * A call that stops half way *)
Section Stop.
Variables (n L H : nat) (M : list N).
Hypothesis LH : L <= H.
Hypothesis MH : List.length M = H.
Definition tied (s s1 : state) : Prop := @three L H 0 None s s1 s1.
Lemma tied_run c s s1 : plain c = true -> tied s s1 ->
  match xexec n L c s with Next u => exists u1, xexec n H c s1 = Next u1 /\ tied u u1 | _ => True end.
Proof.
  intros P T. pose proof (@runs n L H 0 LH None c P s s1 s1 T) as R. destruct (xexec n L c s); trivial. cbn [along] in R. destruct R as (u1 & u2 & E1 & E2 & U).
  rewrite E1 in E2. injection E2 as <-. now exists u1.
Qed.
Definition unwritten (fr : place) (s : state) : Prop := match fr with Some f => clean f = true /\ exists v, eval s f = Ok (GI v) /\ skipn v (buf s) = skipn v M | None => True end.
(** what is known is so *)
Record good (k : known) (s : state) : Prop := { g_l : below (lb k) 0 s; g_u : unwritten (ub k) s; g_e : holds (en k) s }.
Definition stopped (k : known) (t : state) (o : out) : Prop :=
  exists q, skipn q (buf t) = skipn q M /\ firstn q (buf (at_end o)) = firstn q (buf t) /\ match o with Next u => under k q u | Brk _ => False | Done _ _ => True end.
Definition okay (k : known) (o o1 : out) : Prop := match o with Done t _ => stopped k t o1 | Next u => good k u | Brk _ => False end.
Lemma holds_tied m s s1 : tied s s1 -> holds m s -> holds m s1.
Proof. destruct m as [[x k]|]; [|trivial]. intros T [N E]. split; [exact N|]. rewrite <- E. symmetry. exact (@vrel_look L H x _ _ (t_v1 T) N). Qed.
(** a run that stops where the length matters *)
Lemma from_here c k k' q s s1 : plain c = true -> front k c = Some k' -> tied s s1 -> skipn q (buf s) = skipn q M -> under k q s1 -> stopped k' s (xexec n H c s1).
Proof.
  intros P C T Q U. destruct (@later n H c k k' q s1 P C U) as [A B]. exists q. split; [exact Q|]. split; [rewrite A; now rewrite (t_b1 T)|]. destruct (xexec n H c s1); trivial.
Qed.
(** a run that stops where the other stops *)
Lemma same_stop k s s1 r : tied s s1 -> stopped k s (Done s1 r).
Proof. intros T. exists H. cbn [at_end]. rewrite (t_b1 T). split; [|now split]. rewrite !skipn_all2; [reflexivity|lia|rewrite <- (t_b1 T), (t_h T); lia]. Qed.
Lemma okay_same (A : Type) kk s s1 (r : res A) k k1 : tied s s1 -> (forall a, r = Ok a -> okay kk (k a) (k1 a)) -> okay kk (fails s r k) (fails s1 r k1).
Proof. intros T K. destruct r; [now apply K|now apply same_stop..]. Qed.
Lemma unwritten_join fr f s : unwritten fr s -> unwritten (join fr f) s.
Proof. destruct fr as [a|], f as [b|]; cbn; try (intros; exact I). destruct (exp_dec a b); cbn; auto. Qed.
Lemma unwritten_join' fr f s : unwritten f s -> unwritten (join fr f) s.
Proof. destruct fr as [a|], f as [b|]; cbn; try (intros; exact I). destruct (exp_dec a b) as [->|]; cbn; auto. Qed.
Lemma unwritten_free fr s x v : free x fr = true -> unwritten fr s -> unwritten fr (setv x v s).
Proof. destruct fr as [f|]; [|trivial]. cbn. intros F (P & w & E & Q). split; [exact P|]. exists w. split; [|exact Q]. rewrite eval_set; [exact E|]. now destruct (mentions x f). Qed.
Lemma unwritten_keep fr s x v : unwritten fr s -> unwritten (keep x fr) (setv x v s).
Proof. intros B. unfold keep. destruct (free x fr) eqn:F; [now apply unwritten_free|exact I]. Qed.
Lemma skipn_later (a b : list N) v w : skipn v a = skipn v b -> v <= w -> skipn w a = skipn w b.
Proof. intros E Q. replace w with (v + (w - v)) by lia. rewrite <- !skipn_skipn'. now rewrite E. Qed.
Lemma unwritten_step m fr s x e v : (clean e = true -> x <> "l") -> holds m s -> unwritten fr s -> eval (view L s) e = Ok v -> unwritten (step x e m fr) (setv x v s).
Proof.
  intros N HN B V. unfold step. destruct (clean e && before m fr e) eqn:K; [|now apply unwritten_keep]. apply andb_prop in K as [K1 K2]. rewrite clean_view in V by exact K1.
  destruct fr as [f|]; [|discriminate K2]. destruct B as (P & w & W & Q). destruct (@le_exp_int m s f e w v HN K2 W V) as [z ->].
  split; [unfold clean; cbn [pure mentions]; destruct (String.eqb_spec "l" x); [exfalso; apply (N K1); congruence|reflexivity]|].
  exists z. rewrite eval_var_set. split; [reflexivity|]. pose proof (@le_exp_sound m s f e w z HN K2 W V). now apply (@skipn_later _ _ w).
Qed.
Lemma unwritten_block fr f s u : more (vars s) (vars u) -> unwritten fr s -> unwritten f u -> unwritten (only_var (join fr f)) (leave s u).
Proof.
  intros Nm B A. destruct (join fr f) as [g|] eqn:J; [|exact I]. destruct g; try exact I. cbn [only_var].
  pose proof (@unwritten_join' fr f u A) as J1. pose proof (@unwritten_join fr f s B) as J2. rewrite J in J1, J2. destruct J1 as (Cl & v & V & Q), J2 as (_ & w & W & _). split; [exact Cl|]. exists v.
  split; [|exact Q]. cbn [eval leave vars] in *. destruct (look x (vars s)) as [z|] eqn:Z; [|discriminate W]. rewrite (@look_cut x _ _ z Nm Z). exact V.
Qed.
Lemma written m fr f' s b i x hi : holds m s -> before m fr f' = true -> unwritten fr s -> put (buf s) i x = Ok b -> i + List.length x <= hi -> hi <= List.length (buf s) ->
  clean f' = true -> eval s f' = Ok (GI hi) -> unwritten (Some f') (setb b s).
Proof.
  intros HN Bf U E Q1 Q2 C F. split; [exact C|]. exists hi. split; [now rewrite (@clean_setb f' b s C)|].
  destruct (@put_inside _ _ _ _ hi E Q1 Q2) as [S _]. cbn [setb buf]. rewrite S. destruct fr as [f|]; [|discriminate Bf]. destruct U as (P & v & W & K). cbn in Bf.
  pose proof (@le_exp_sound m s f f' v hi HN Bf W F). now apply (@skipn_later _ _ v).
Qed.
Lemma below_0 fr q s : below fr q s -> below fr 0 s.
Proof. destruct fr as [f|]; [|trivial]. intros (C & v & V & _). split; [exact C|]. exists v. split; [exact V|lia]. Qed.
Lemma stopped_join k f t o : (forall q u, o = Next u -> under f q u -> under k q u) -> stopped f t o -> stopped k t o.
Proof. intros K (q & A & B & C). exists q. split; [exact A|]. split; [exact B|]. destruct o; trivial. now apply K. Qed.
(** the first places that are not written *)
Lemma at_place f s s1 : tied s s1 -> unwritten (Some f) s -> exists q, skipn q (buf s) = skipn q M /\ below (Some f) q s1 /\ eval s f = Ok (GI q).
Proof.
  intros T (C & v & V & S). exists v. split; [exact S|]. split; [|exact V]. split; [exact C|]. exists v. split; [|lia]. rewrite <- V. symmetry. exact (@eval_vrel L H f s s1 C (t_f1 T) (t_v1 T)).
Qed.
Theorem stops_in_front c : forall k k' s s1, plain c = true -> front k c = Some k' -> tied s s1 -> good k s -> okay k' (xexec n L c s) (xexec n H c s1).
Proof.
  induction c as [|a IHa b IHb|a IH|x e|x e|x y e|x e|i e|w lo hi e|w x e|lo hi e|t a IH|a IH|x y a IH| |e|]; intros k k' s s1 P C T U; try discriminate C; try discriminate P.
  - cbn in C. injection C as <-. exact U.
  - cbn [front] in C. destruct (front k a) as [f|] eqn:Ca; [|discriminate]. rewrite seal_eq in C. cbn [plain] in P. apply andb_prop in P as [Pa Pb]. pose proof (IHa k f s s1 Pa Ca T U) as A.
    pose proof (@tied_run a s s1 Pa T) as R. cbn [xexec]. destruct (xexec n L a s) as [u|u|u r]; cbn [okay] in A |- *; [|contradiction|].
    + destruct R as (u1 & -> & Tu). now apply IHb with (k := f).
    + destruct A as (q & Q1 & Q2 & Q3). destruct (xexec n H a s1) as [v|v|v r']; cbn [at_end] in *.
      * destruct (@later n H b f k' q v Pb C Q3) as [A B]. exists q. split; [exact Q1|]. split; [congruence|]. destruct (xexec n H b v); trivial.
      * contradiction.
      * exists q. cbn. auto.
  - cbn [front] in C. destruct (front k a) as [f|] eqn:Ca; [|discriminate]. injection C as <-. cbn [plain] in P. pose proof (IH k f s s1 P Ca T U) as A.
    pose proof (names n L a s) as Nm. pose proof (names n H a s1) as Nm1. cbn [xexec]. destruct (xexec n L a s) as [u|u|u r]; cbn [okay within] in A |- *; [|contradiction|].
    + split; cbn [lb ub en]; [apply below_block; [exact Nm|exact (g_l U)|exact (g_l A)]|apply unwritten_block; [exact Nm|exact (g_u U)|exact (g_u A)]|exact I].
    + destruct A as (q & Q1 & Q2 & Q3). exists q. split; [exact Q1|]. destruct (xexec n H a s1) as [v|v|v r']; cbn [at_end within leave buf] in *; (split; [exact Q2|]); trivial.
      split; [|exact I]. cbn [lb]. destruct Q3 as [Q3 _]. destruct (join (lb k) (lb f)) as [g|] eqn:J; [|exact I]. destruct g; try exact I. cbn [only_var].
      pose proof (@below_join' (lb k) (lb f) q v Q3) as J1. pose proof (@below_join (lb k) (lb f) 0 s (g_l U)) as J2. rewrite J in J1, J2.
      destruct J1 as (Cl & v' & V & Q), J2 as (Cl2 & w & W & _). split; [exact Cl|]. exists v'. split; [|exact Q]. rewrite (@eval_vrel L H (EVar x) s s1 Cl2 (t_f1 T) (t_v1 T)) in W. cbn [eval leave vars] in *.
      destruct (look x (vars s1)) as [z|] eqn:Z; [|discriminate W]. rewrite (@look_cut x _ _ z Nm1 Z). exact V.
  - cbn [front] in C. injection C as <-. pose proof (@let_l x e P) as N.
    assert (G : forall v, eval (view L s) e = Ok v -> good (Kn (step x e (en k) (lb k)) (step x e (en k) (ub k)) (learn x e (en k))) (setv x v s)).
    { intros v V. destruct U as [U1 U2 U3]. split; cbn [lb ub en]; [now apply (@below_step L)|now apply unwritten_step|now apply (@holds_learn L)]. }
    cbn [plain] in P. cbn [xexec]. destruct (String.eqb_spec x "l") as [->|].
    + destruct e; try discriminate P. destruct e; try discriminate P. cbn [eval view buf bind] in G |- *. cbn [fails okay]. apply G. reflexivity.
    + destruct (@views L H 0 None s s1 s1 e T P) as [E1 _]. rewrite <- E1. apply okay_same; [exact T|]. intros v V. now apply G.
  - pose proof C as C0. cbn [front] in C. destruct (clean i && before (en k) (lb k) i && before (en k) (ub k) i) eqn:K; [|discriminate]. injection C as <-. apply andb_prop in K as [K K3]. apply andb_prop in K as [K1 K2].
    pose proof U as [U1 U2 U3]. destruct (ub k) as [f|] eqn:Uk; [|discriminate K3]. destruct (@at_place f s s1 T U2) as (q & Q1 & Q2 & Q3).
    assert (HERE : stopped (Kn (Some i) (Some (EAdd i (EInt 1))) (en k)) s (xexec n H (SPutB i e) s1)).
    { apply (@from_here (SPutB i e) (Kn (Some f) (Some f) (en k)) _ q s s1 P); [|exact T|exact Q1|split; [exact Q2|exact (@holds_tied _ _ _ T U3)]]. cbn [front lb ub en]. rewrite K1, K3. reflexivity. }
    cbn [xexec] in HERE |- *. match goal with |- okay _ (fails _ ?r _) _ => destruct r as [b| | |] eqn:E end; cbn [fails okay]; try exact HERE. clear HERE.
    rewrite (@clean_view L i s K1) in E. apply bind_ok in E as (v & _ & E). apply bind_ok in E as (z & _ & E). apply bind_ok in E as (w & W & E). apply bind_ok in E as (j & J & E). apply int_inv in J. subst w.
    destruct (Nat.ltb_spec j L) as [jL|]; [|discriminate]. pose proof (@le_exp_sound (en k) s f i q j U3 K3 Q3 W) as Qj. pose proof (t_h T) as TH.
    split; cbn [lb ub en]; [split; [exact K1|exists j; split; [now rewrite (@clean_setb i b s K1)|lia]]| |exact U3].
    assert (Ci : clean (EAdd i (EInt 1)) = true) by (unfold clean in *; cbn [pure mentions]; now rewrite Bool.andb_true_r, Bool.orb_false_r).
    assert (Ei : eval s (EAdd i (EInt 1)) = Ok (GI (j + 1))) by (cbn [eval]; rewrite W; reflexivity).
    split; [exact Ci|]. exists (j + 1). split; [now rewrite (@clean_setb _ b s Ci)|].
    destruct (@put_inside _ _ _ _ (j + 1) E ltac:(cbn; lia) ltac:(lia)) as [S _]. cbn [setb buf]. rewrite S. apply (@skipn_later _ _ q); [exact Q1|lia].
  - cbn [front] in C. destruct (clean lo && clean hi && before (en k) (lb k) lo) eqn:K; [|discriminate]. injection C as <-.
    apply andb_prop in K as [K K2]. apply andb_prop in K as [K0 K1]. cbn [plain] in P. apply andb_prop in P as [_ P]. cbn [xexec].
    destruct (@views L H 0 None s s1 s1 lo T K0) as [E1 _], (@views L H 0 None s s1 s1 hi T K1) as [E2 _], (@views L H 0 None s s1 s1 e T P) as [E3 _]. rewrite <- E1, <- E2, <- E3, <- (t_b1 T).
    apply okay_same; [exact T|]. clear E1 E2 E3. intros b E. rewrite (@clean_view L lo s K0), (@clean_view L hi s K1) in E. destruct U as [U1 U2 U3].
    apply bind_ok in E as (v & V & E). apply bind_ok in E as (i & I & E). apply bind_ok in E as (z & W & E). apply bind_ok in E as (j & J & E). apply int_inv in I, J. subst v z.
    apply bind_ok in E as (? & _ & E). apply bind_ok in E as (? & _ & E). apply put_be_put in E as (E & E1 & E2 & E3). cbn [okay].
    split; cbn [lb ub en]; [split; [exact K0|exists i; split; [now rewrite (@clean_setb lo b s K0)|lia]]| |exact U3].
    destruct (before (en k) (ub k) hi) eqn:Kh; [|exact Logic.I]. eapply (@written (en k) (ub k) hi s b i _ j); eassumption.
  - cbn [front] in C. injection C as <-. cbn [plain] in P.
    assert (G : forall v, good (Kn (keep x (lb k)) (keep x (ub k)) (forget x (en k))) (setv x v s)).
    { intros v. destruct U as [U1 U2 U3]. split; cbn [lb ub en]; [now apply below_keep|now apply unwritten_keep|now apply holds_forget]. }
    apply andb_prop in P as [Px P]. apply Bool.negb_true_iff, String.eqb_neq in Px. cbn [xexec]. destruct (@views L H 0 None s s1 s1 e T P) as [E1 _].
    rewrite <- E1, <- (@vrel_look L H x _ _ (t_v1 T) Px). apply okay_same; [exact T|]. intros p _. apply G.
  - cbn [front] in C. destruct (clean lo && clean hi && before (en k) (lb k) lo) eqn:K; [|discriminate]. injection C as <-.
    apply andb_prop in K as [K K2]. apply andb_prop in K as [K0 K1]. cbn [plain] in P. apply andb_prop in P as [_ P]. cbn [xexec].
    destruct (@views L H 0 None s s1 s1 lo T K0) as [E1 _], (@views L H 0 None s s1 s1 hi T K1) as [E2 _], (@views L H 0 None s s1 s1 e T P) as [E3 _]. rewrite <- E1, <- E2, <- E3, <- (t_b1 T).
    apply okay_same; [exact T|]. clear E1 E2 E3. intros b E. rewrite (@clean_view L lo s K0), (@clean_view L hi s K1) in E. destruct U as [U1 U2 U3].
    apply bind_ok in E as (v & V & E). apply bind_ok in E as (i & I & E). apply bind_ok in E as (z & W & E). apply bind_ok in E as (j & J & E). apply int_inv in I, J. subst v z.
    apply bind_ok in E as (? & _ & E). apply bind_ok in E as (? & _ & E). apply copy_put in E as (E & E1 & E2 & E3). cbn [okay].
    split; cbn [lb ub en]; [split; [exact K0|exists i; split; [now rewrite (@clean_setb lo b s K0)|lia]]| |exact U3].
    destruct (before (en k) (ub k) hi) eqn:Kh; [|exact Logic.I]. eapply (@written (en k) (ub k) hi s b i _ j); eassumption.
  - pose proof C as C0. pose proof P as P0. cbn [front plain] in C, P. destruct (check_of t a) as [e|] eqn:K.
    + destruct (lb k) as [g|] eqn:Lk; [|discriminate]. destruct (before (en k) (ub k) g) eqn:Bf; [|discriminate]. injection C as <-. destruct (ub k) as [f|] eqn:Uk; [|discriminate Bf].
      pose proof U as [U1 U2 U3]. rewrite Uk in U2. rewrite Lk in U1. destruct (@at_place f s s1 T U2) as (q & Q1 & Q2 & Q3). destruct U1 as (Cg & w & W & _).
      pose proof (@le_exp_sound (en k) s f g q w U3 Bf Q3 W) as Qw.
      assert (HERE : stopped k s (xexec n H (SIf t a) s1)).
      { apply (@from_here _ k k q s s1 P0 C0 T Q1). split; [|exact (@holds_tied _ _ _ T U3)]. rewrite Lk. split; [exact Cg|]. exists w. split; [|exact Qw]. rewrite <- W. symmetry. exact (@eval_vrel L H g s s1 Cg (t_f1 T) (t_v1 T)). }
      unfold check_of in K. destruct t as [e1 ?| | | | | | | |]; try discriminate K. destruct e1; try discriminate K. destruct a; try discriminate K.
      cbn [xexec] in HERE |- *. match goal with |- okay _ (fails _ ?r _) _ => destruct r as [[]| | |] end; cbn [fails okay]; [exact HERE|exact U|exact HERE..].
    + clear C0 P0. destruct (front k a) as [f|] eqn:Ca; [|discriminate]. injection C as <-. apply andb_prop in P as [Pt Pa]. cbn [xexec].
      destruct (@views_c L H 0 None s s1 s1 t T Pt) as [E1 _]. rewrite <- E1. apply okay_same; [exact T|]. intros [] _.
      * pose proof (IH k f s s1 Pa Ca T U) as A. pose proof (@ends_next n L a) as En. pose proof (@ends_next n H a) as En1. destruct (xexec n L a s) as [u|u|u r] eqn:Eu; cbn [okay] in A |- *; [|contradiction|].
        -- destruct (ends a); [exfalso; exact (En eq_refl s u Eu)|]. destruct A as [A1 A2 A3]. split; cbn [lb ub en]; [now apply below_join'|now apply unwritten_join'|destruct (env_dec (en k) (en f)) as [->|]; [exact A3|exact I]].
        -- revert A. apply stopped_join. intros q u1 E [B1 B2]. destruct (ends a); [exfalso; exact (En1 eq_refl s1 u1 E)|]. split; cbn [lb en]; [now apply below_join'|destruct (env_dec (en k) (en f)) as [->|]; [exact B2|exact I]].
      * cbn [okay]. destruct (ends a); [exact U|]. destruct U as [U1 U2 U3]. split; cbn [lb ub en]; [now apply below_join|now apply unwritten_join|destruct (env_dec _ _); [exact U3|exact I]].
  - cbn [front plain] in C, P. apply andb_prop in P as [Px Pa]. apply Bool.negb_true_iff, String.eqb_neq in Px. cbn [xexec].
    destruct (free x (lb k) && free x (ub k)) eqn:Fx; [|discriminate]. apply andb_prop in Fx as [Fx Fu]. destruct (front (Kn (lb k) (ub k) None) a) as [f|] eqn:Ca; [|discriminate].
    destruct (join (lb k) (lb f)) as [g|] eqn:J; [|discriminate]. destruct (join (ub k) (ub f)) as [h|] eqn:J2; [|discriminate]. injection C as <-.
    assert (lb k = Some g /\ lb f = Some g) as [Lk Lf] by (destruct (lb k) as [u|], (lb f) as [v|]; try discriminate J; cbn in J; destruct (exp_dec u v) as [->|]; [|discriminate J]; injection J as ->; now split).
    assert (ub k = Some h /\ ub f = Some h) as [Uk Uf] by (destruct (ub k) as [u|], (ub f) as [v|]; try discriminate J2; cbn in J2; destruct (exp_dec u v) as [->|]; [|discriminate J2]; injection J2 as ->; now split).
    rewrite Lk, Uk in *. rewrite <- (t_f1 T). destruct (look y (flds s)) as [[]|]; try (now apply same_stop).
    assert (U' : good (Kn (Some g) (Some h) None) s) by (destruct U as [U1 U2 U3]; split; cbn [lb ub en]; [now rewrite Lk in U1|now rewrite Uk in U2|exact I]). clear U. revert s s1 T U'. induction l as [|p l IHl]; intros s s1 T U; [exact U|].
    assert (T' : tied (setv x (GS p) s) (setv x (GS p) s1)) by (now apply three_set).
    assert (U' : good (Kn (Some g) (Some h) None) (setv x (GS p) s)) by (destruct U as [U1 U2 U3]; split; cbn [lb ub en] in *; [now apply below_free|now apply unwritten_free|exact I]).
    pose proof (IH _ f _ _ Pa Ca T' U') as A. pose proof (@tied_run a _ _ Pa T') as R. destruct (xexec n L a (setv x (GS p) s)) as [u|u|u r]; cbn [okay] in A |- *; [|contradiction|].
    + destruct R as (u1 & -> & Tu). apply IHl; [exact Tu|]. destruct A as [A1 A2 A3]. split; cbn [lb ub en]; [now rewrite Lf in A1|now rewrite Uf in A2|exact I].
    + destruct A as (q & Q1 & Q2 & Q3). destruct (xexec n H a (setv x (GS p) s1)) as [v|v|v r']; cbn [at_end] in *; [|contradiction|exists q; split; [exact Q1|split; [exact Q2|exact I]]].
      destruct Q3 as [Q3 _]. rewrite Lf in Q3. clear - Q1 Q2 Q3 Ca Fx Lf Pa. assert (G : firstn q (buf v) = firstn q (buf u)) by exact Q2. clear Q2. revert v Q3 G.
      induction l as [|p' l IHl]; intros v Q3 G; [exists q; split; [exact Q1|split; [exact G|split; [exact Q3|exact I]]]|].
      destruct (@later n H a _ f q (setv x (GS p') v) Pa Ca (conj (@below_free (Some g) q v x (GS p') Fx Q3) I)) as [A B].
      destruct (xexec n H a (setv x (GS p') v)) as [w|w|w r']; cbn [at_end] in *; [destruct B as [B _]; rewrite Lf in B; apply IHl; [exact B|rewrite A; exact G]|contradiction|].
      exists q. cbn [at_end]. split; [exact Q1|]. split; [rewrite A; exact G|exact I].
  - cbn [front plain] in C, P. injection C as <-. cbn [xexec]. destruct (@views L H 0 None s s1 s1 e T P) as [E1 _]. rewrite <- E1. apply okay_same; [exact T|]. intros v _. now apply same_stop.
  - cbn [front] in C. injection C as <-. cbn [xexec]. now apply same_stop.
Qed.
Theorem ordered_sound c F : plain c = true -> ordered c = true -> ends c = true ->
  exists q, buf (fst (xcall n L c F M)) = firstn q (buf (fst (xcall n H c F M))) ++ skipn q M.
Proof.
  intros P O En. unfold ordered in O. match type of O with match ?r with _ => _ end = _ => destruct r as [k|] eqn:C; [|discriminate] end.
  assert (T : tied (St F [] M) (St F [] M)) by (constructor; cbn; auto; [constructor|now split]).
  assert (U : good (Kn (Some (EInt 0)) (Some (EInt 0)) None) (St F [] M)) by (split; cbn [lb ub en]; [split; [reflexivity|exists 0; now split]|split; [reflexivity|exists 0; now split]|exact I]).
  pose proof (@stops_in_front c _ k _ _ P C T U) as S. unfold xcall. destruct (xexec n L c (St F [] M)) as [u|u|u r] eqn:E; cbn [okay] in S.
  - exfalso. exact (@ends_next n L c En _ _ E).
  - contradiction.
  - destruct S as (q & Q1 & Q2 & _). exists q. cbn [fst]. rewrite <- (firstn_skipn q (buf u)) at 1. rewrite Q1, <- Q2. destruct (xexec n H c (St F [] M)); reflexivity.
Qed.
End Stop.
