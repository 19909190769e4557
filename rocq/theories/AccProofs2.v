(** Termination of the accessors and the equation each of them satisfies. *)
From Verif Require Import Base IETypes IE IEProofs IEProofs2 Codec Access AccTable AccRun AccProofs.
Set Implicit Arguments.

(** ** checking a fact about every case of every accessor *)
Definition cases_ok (P : acc -> N -> action acc -> bool) (Q : acc -> action acc -> bool) : bool :=
  forallb (fun a => forallb (fun '(ts, x) => forallb (fun t => P a t x) ts) (cases (acc_def a)) && Q a (dflt (acc_def a))) all_accs.
Lemma lookup_cases {A} (cs : list (list N * action A)) d t :
  (exists ts, In (ts, lookup cs d t) cs /\ In t ts) \/ (lookup cs d t = d /\ forall ts x, In (ts, x) cs -> ~ In t ts).
Proof.
  induction cs as [|[ts x] r IH]; [right; split; [reflexivity|contradiction]|]. cbn [lookup]. destruct (memb t ts) eqn:M.
  - left. exists ts. split; [now left|now apply memb_spec].
  - destruct IH as [(ts' & I & T)|[E N]].
    + left. exists ts'. split; [now right|assumption].
    + right. split; [assumption|]. intros ts' x' [[= <- <-]|I]; [|now apply (N ts' x')]. intros T. apply memb_spec in T. congruence.
Qed.
Lemma cases_ok_ok P Q : cases_ok P Q = true -> forall a t, P a t (look a t) = true \/ (look a t = dflt (acc_def a) /\ Q a (look a t) = true).
Proof.
  intros H a t. apply (@acc_check (fun a => forallb (fun '(ts, x) => forallb (fun t => P a t x) ts) (cases (acc_def a)) && Q a (dflt (acc_def a)))) with (a := a) in H.
  apply andb_prop in H as [H1 H2]. unfold look. destruct (lookup_cases (cases (acc_def a)) (dflt (acc_def a)) t) as [(ts & I & T)|[E _]].
  - left. rewrite forallb_forall in H1. apply H1 in I. cbn beta iota in I. rewrite forallb_forall in I. now apply I.
  - right. rewrite E. split; [reflexivity|assumption].
Qed.

(** ** nested calls on the same IE are at most four deep *)
Fixpoint sdep (n : nat) (a : acc) (t : N) : bool :=
  match n with
  | O => false
  | S n => match look a t with
           | Leaf _ => true
           | Via c _ _ | ViaOwn c _ _ | Then c _ => sdep n c t
           | OrElse c d => sdep n c t && sdep n d t
           end
  end.
Lemma sdep_class n : forall a t, sdep n a t = sdep n a (tclass t).
Proof.
  induction n; intros a t; [reflexivity|]. cbn [sdep]. rewrite (look_class a t), (look_class a (tclass t)).
  replace (tclass (tclass t)) with (tclass t) by (unfold tclass; lia).
  destruct (look a (tclass t)); try reflexivity; try apply IHn. now rewrite (IHn c), (IHn d).
Qed.
Lemma sdep4 : forall a t, sdep 4 a t = true.
Proof. apply check2_ok; [apply sdep_class|]. vm_compute. reflexivity. Qed.

(** ** the group whose children are searched is always the payload of the IE at hand *)
Definition kids (c : acc) (t : N) : bool :=
  match guards (acc_def c), look c t with
  | [], Leaf LChildren => true
  | [GType t'], Leaf LChildren => (t =? t')%N
  | _, _ => false
  end.
Lemma via_kids : forall a t, match look a t with Via c _ _ | ViaOwn c _ _ => kids c t = true | _ => True end.
Proof.
  assert (H : cases_ok (fun _ t x => match x with Via c _ _ | ViaOwn c _ _ => kids c t | _ => true end)
                       (fun _ x => match x with Via _ _ _ | ViaOwn _ _ _ => false | _ => true end) = true) by (vm_compute; reflexivity).
  intros a t. destruct (cases_ok_ok _ _ H a t) as [K|[_ K]]; destruct (look a t); trivial; discriminate.
Qed.

Section G.
Variable g : N -> bool.

Lemma run_S n a i : run g (S n) a i =
  (_ <- check (guards (acc_def a)) i ;;
   match look a (ty i) with
   | Leaf l => leaf_run g l i
   | Via c ts b => v <- run g n c i ;; match v with VIEs l => search (fun x => memb (ty x) ts) (fun x => run g n b x) l | _ => Fault end
   | ViaOwn c ts b => v <- run g n c i ;; match v with VIEs l => search (fun x => memb (ty i) ts) (fun x => run g n b x) l | _ => Fault end
   | Then c f => v <- run g n c i ;; post_run f i v
   | OrElse c d => v <- run g n c i ;; match v with VS [] => run g n d i | VS _ => Ok v | _ => Fault end
   end).
Proof. reflexivity. Qed.

Lemma check_nofuel gs i : nofuel (check gs i).
Proof. induction gs as [|[n|t] r IH]; cbn [check]; [discriminate| |]; match goal with |- nofuel (if ?c then _ else _) => destruct c end; trivial; discriminate. Qed.

Lemma run_kids n c i : kids c (ty i) = true -> run g (S n) c i = as_ies (parseMultiIEs g (payload i)).
Proof.
  intros K. rewrite run_S. unfold kids in K. destruct (guards (acc_def c)) as [|[m|t] [|? ?]]; try discriminate;
  destruct (look c (ty i)) as [[]| | | |]; try discriminate; cbn [check bind]; [reflexivity|]. rewrite K. reflexivity.
Qed.

Lemma search_nofuel p f l : (forall x, In x l -> nofuel (f x)) -> nofuel (search p f l).
Proof. intros H. induction l as [|x r IH]; cbn [search]; [discriminate|]. destruct (p x); [apply H; now left|]. apply IH. intros y I. apply H. now right. Qed.

Lemma run_nofuel n : forall k a i, bytes (payload i) -> sdep k a (ty i) = true -> k + 4 * length (payload i) <= n -> nofuel (run g n a i).
Proof.
  induction n as [|n IH]; intros k a i Hb D L; [destruct k; [discriminate D|lia]|].
  rewrite run_S. apply nofuel_bind; [apply check_nofuel|]. intros _ _. destruct k; [discriminate D|]. cbn [sdep] in D. pose proof (via_kids a (ty i)) as K.
  destruct (look a (ty i)) as [l|c ts b|c ts b|c f|c d].
  - now apply leaf_nofuel.
  - destruct n as [|n]; [destruct k; [discriminate D|lia]|]. rewrite (@run_kids _ _ _ K). unfold as_ies.
    apply nofuel_bind; [apply nofuel_bind; [now apply nofuel_returns, parseMulti_returns|discriminate]|]. intros v E.
    destruct (parseMultiIEs g (payload i)) as [is| | |] eqn:P; cbn in E; try discriminate. assert (v = VIEs is) as -> by congruence.
    apply search_nofuel. intros x I. destruct (@parsed_child g _ _ _ Hb P I) as (_ & Bx & Lx). apply (IH 4); [assumption|apply sdep4|lia].
  - destruct n as [|n]; [destruct k; [discriminate D|lia]|]. rewrite (@run_kids _ _ _ K). unfold as_ies.
    apply nofuel_bind; [apply nofuel_bind; [now apply nofuel_returns, parseMulti_returns|discriminate]|]. intros v E.
    destruct (parseMultiIEs g (payload i)) as [is| | |] eqn:P; cbn in E; try discriminate. assert (v = VIEs is) as -> by congruence.
    apply search_nofuel. intros x I. destruct (@parsed_child g _ _ _ Hb P I) as (_ & Bx & Lx). apply (IH 4); [assumption|apply sdep4|lia].
  - apply nofuel_bind; [apply (IH k); [assumption..|lia]|]. intros v _. now apply post_nofuel.
  - apply andb_prop in D as [D1 D2]. apply nofuel_bind; [apply (IH k); [assumption..|lia]|]. intros v _.
    destruct v; try discriminate. destruct s; [|discriminate]. apply (IH k); [assumption..|lia].
Qed.

Lemma bind_mono {A B} (r r' : res A) (k k' : A -> res B) : (nofuel r -> r' = r) -> (forall a, nofuel (k a) -> k' a = k a) -> nofuel (bind r k) -> bind r' k' = bind r k.
Proof. intros H1 H2 N. destruct r; cbn in *; rewrite H1 by (unfold nofuel in *; congruence); cbn; auto. Qed.
Lemma search_mono p f f' l : (forall x, nofuel (f x) -> f' x = f x) -> nofuel (search p f l) -> search p f' l = search p f l.
Proof. intros H. induction l as [|x r IH]; cbn [search]; [reflexivity|]. destruct (p x); auto. Qed.
Lemma run_mono n : forall m a i, n <= m -> nofuel (run g n a i) -> run g m a i = run g n a i.
Proof.
  induction n as [|n IH]; intros m a i L NF; [now contradiction NF|]. destruct m as [|m]; [lia|]. assert (L' : n <= m) by lia. clear L.
  rewrite run_S in *. rewrite run_S. revert NF. apply bind_mono; [reflexivity|]. intros _. destruct (look a (ty i)) as [l|c ts b|c ts b|c f|c d]; [reflexivity| | | |].
  - apply bind_mono; [now apply IH|]. intros [] ; try reflexivity. apply search_mono. intros x. now apply IH.
  - apply bind_mono; [now apply IH|]. intros [] ; try reflexivity. apply search_mono. intros x. now apply IH.
  - apply bind_mono; [now apply IH|]. reflexivity.
  - apply bind_mono; [now apply IH|]. intros []; try reflexivity. destruct s; [now apply IH|reflexivity].
Qed.
(** more fuel than [access] gives makes no difference *)
Theorem run_enough n a i : bytes (payload i) -> 4 + 4 * length (payload i) <= n -> run g n a i = access g a i.
Proof.
  intros Hb L. unfold access. apply run_mono; [lia|]. apply (@run_nofuel _ 4); [assumption|apply sdep4|lia].
Qed.

Lemma search_ext p p' f f' l : (forall x, In x l -> p x = p' x /\ f x = f' x) -> search p f l = search p' f' l.
Proof.
  intros H. induction l as [|x r IH]; cbn [search]; [reflexivity|]. destruct (H x (or_introl eq_refl)) as [-> ->].
  rewrite IH; [reflexivity|]. intros y I. apply H. now right.
Qed.

(** the equation of every accessor *)
Theorem access_eq a i : bytes (payload i) -> access g a i =
  (_ <- check (guards (acc_def a)) i ;;
   match look a (ty i) with
   | Leaf l => leaf_run g l i
   | Via c ts b => is <- parseMultiIEs g (payload i) ;; search (fun x => memb (ty x) ts) (access g b) is
   | ViaOwn c ts b => is <- parseMultiIEs g (payload i) ;; search (fun x => memb (ty i) ts) (access g b) is
   | Then c f => v <- access g c i ;; post_run f i v
   | OrElse c d => v <- access g c i ;; match v with VS [] => access g d i | VS _ => Ok v | _ => Fault end
   end).
Proof.
  intros Hb. rewrite <- (@run_enough (8 + 4 * length (payload i))) by (assumption || lia).
  change (8 + 4 * length (payload i)) with (S (S (6 + 4 * length (payload i)))). rewrite run_S.
  destruct (check (guards (acc_def a)) i); [|reflexivity..]. cbn [bind]. pose proof (via_kids a (ty i)) as K.
  destruct (look a (ty i)) as [l|c ts b|c ts b|c f|c d].
  - reflexivity.
  - rewrite (@run_kids _ _ _ K). unfold as_ies. destruct (parseMultiIEs g (payload i)) as [is| | |] eqn:P; [|reflexivity..]. cbn [bind].
    apply search_ext. intros x I. split; [reflexivity|]. destruct (@parsed_child g _ _ _ Hb P I) as (_ & Bx & Lx). apply run_enough; [assumption|lia].
  - rewrite (@run_kids _ _ _ K). unfold as_ies. destruct (parseMultiIEs g (payload i)) as [is| | |] eqn:P; [|reflexivity..]. cbn [bind].
    apply search_ext. intros x I. split; [reflexivity|]. destruct (@parsed_child g _ _ _ Hb P I) as (_ & Bx & Lx). apply run_enough; [assumption|lia].
  - rewrite run_enough by (assumption || lia). reflexivity.
  - rewrite !run_enough by (assumption || lia). reflexivity.
Qed.
End G.
