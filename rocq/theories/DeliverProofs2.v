(** What the receiver's accessors return. *)
From Coq Require Import Floats.SpecFloat.
From Verif Require Import Base IETypes IE Spec Bits IEProofs IEProofs2 IEProps Codec Access AccTable AccRun AccProofs AccProofs2 AccProofs5 Flags FlagTable FlagRun New NewTable NewRun NewProofs NewProofs2 NewProofs3 NewProofs5 FlagProofs DeliverProofs.
Set Implicit Arguments.

(** ** the types of the elements built from values rather than from other elements *)
Definition value_types : list N := Eval vm_compute in
  nodup N.eq_dec (flat_map (fun c => match con_type c with Some t => if is_group (con_shape c) then [] else [t] | None => [] end) all_cons).
Lemma value_type c t : con_type c = Some t -> is_group (con_shape c) = false -> In t value_types.
Proof. intros T G. apply memb_spec. revert T G. destruct c; intros [= <-] G; try discriminate G; vm_compute; reflexivity. Qed.
Definition not_kids (c : acc) (t : N) : bool := match look c t with Leaf LChildren => false | _ => true end.
Definition plain (x : action acc) (t : N) : bool :=
  match x with Leaf _ => true | Via _ _ _ | ViaOwn _ _ _ => false | Then c _ => not_kids c t | OrElse c d => not_kids c t && not_kids d t end.
(** on such a type no accessor looks at children, except to return them all *)
Lemma plain_values a t : In t value_types -> plain (look a t) t = true.
Proof.
  assert (H : cases_ok (fun _ t x => match x with Leaf _ => true | _ => if memb t value_types then plain x t else true end)
     (fun _ x => match x with Leaf _ => true | _ => forallb (plain x) value_types end) = true) by (vm_compute; reflexivity).
  intros I. destruct (cases_ok_ok _ _ H a t) as [K|[_ K]]; destruct (look a t) as [l|c ts x|c ts x|c f|c d]; try reflexivity.
  1-4: rewrite (proj2 (memb_spec t value_types) I) in K; exact K.
  all: rewrite forallb_forall in K; now apply K.
Qed.

Fixpoint body_plain (b : fbody) (t : N) : bool :=
  match b with BVal a _ | BOct a _ _ _ | BFld a _ | BOhc a _ => not_kids a t | BLen _ b => body_plain b t | _ => true end.
Definition no_acc (b : fbody) : bool := match b with BFalse | BPay _ _ _ | BPayAndNot _ _ _ _ | BTop _ _ => true | _ => false end.
Lemma plain_flags f t : In t value_types -> body_plain (fbody_at f t) t = true.
Proof.
  assert (H : forallb (fun f => forallb (fun '(ts, b) => no_acc b || forallb (fun t => if memb t value_types then body_plain b t else true) ts) (fcases (flag_def f)) && (no_acc (fdflt (flag_def f)) || forallb (body_plain (fdflt (flag_def f))) value_types)) all_flags = true)
    by (vm_compute; reflexivity).
  intros I. apply flag_check with (f := f) in H. apply andb_prop in H as [H1 H2]. unfold fbody_at.
  assert (N : forall b, no_acc b = true -> body_plain b t = true) by (intros []; try discriminate; reflexivity).
  induction (fcases (flag_def f)) as [|[ts b] r IH]; cbn [flookup forallb] in *.
  - apply orb_prop in H2 as [H2|H2]; [now apply N|]. rewrite forallb_forall in H2. now apply H2.
  - apply andb_prop in H1 as [H0 H1]. destruct (memb t ts) eqn:M; [|now apply IH].
    apply orb_prop in H0 as [H0|H0]; [now apply N|]. rewrite forallb_forall in H0. specialize (H0 t (proj1 (memb_spec _ _) M)).
    now rewrite (proj2 (memb_spec t value_types) I) in H0.
Qed.

Section Two.
Variable g g' : N -> bool.

Lemma leaf_agree l i : g (ty i) = g' (ty i) -> l <> LChildren -> leaf_run g l i = leaf_run g' l i.
Proof. intros G L. destruct l; cbn [leaf_run]; unfold suggested_count, value_as_uint, value_as_string; rewrite ?G; try reflexivity. now elim L. Qed.
Lemma not_kids_look c t : not_kids c t = true -> look c t <> Leaf LChildren.
Proof. unfold not_kids. intros H E. rewrite E in H. discriminate. Qed.
Lemma run_agree n : forall a i, g (ty i) = g' (ty i) -> In (ty i) value_types -> look a (ty i) <> Leaf LChildren -> run g n a i = run g' n a i.
Proof.
  induction n as [|n IH]; intros a i G I L; [reflexivity|]. rewrite !run_S. pose proof (@plain_values a _ I) as P.
  destruct (check _ i); [|reflexivity..]. cbn [bind]. destruct (look a (ty i)) as [l|c ts x|c ts x|c f|c d] eqn:E; cbn [plain] in P; try discriminate P.
  - apply leaf_agree; [exact G|]. now intros ->.
  - rewrite (IH c i G I (not_kids_look _ _ P)). reflexivity.
  - apply andb_prop in P as [P1 P2]. rewrite (IH c i G I (not_kids_look _ _ P1)), (IH d i G I (not_kids_look _ _ P2)). reflexivity.
Qed.
Definition is_ies (v : val) : Prop := exists l, v = VIEs l.
Lemma kids_ies a i v : look a (ty i) = Leaf LChildren -> access g a i = Ok v -> is_ies v.
Proof.
  intros L. unfold access. rewrite Nat.mul_comm. cbn [Nat.mul Nat.add]. rewrite run_S, L. intros E. apply bind_ok in E as (u & _ & E). cbn [leaf_run] in E.
  unfold as_ies in E. apply bind_ok in E as (l & _ & E). injection E as <-. now exists l.
Qed.
Lemma access_agree a i v : g (ty i) = g' (ty i) -> In (ty i) value_types -> access g a i = Ok v -> ~ is_ies v -> access g' a i = Ok v.
Proof.
  intros G I E V. rewrite <- E. symmetry. unfold access. apply run_agree; trivial. intros L. apply V. now apply kids_ies with a i.
Qed.
Lemma access_seen a i : access g' a (seen g' i) = access g' a i.
Proof. apply access_same; auto using seen_ty, seen_payload, seen_len. Qed.

Lemma fcheck_same gs i j : ty i = ty j -> payload i = payload j -> fcheck gs i = fcheck gs j.
Proof. intros T P. induction gs as [|[n|t] r IH]; cbn [fcheck]; [reflexivity| |]; now rewrite ?T, ?P, IH. Qed.
Lemma fbody_same b i j : (forall a, access g' a i = access g' a j) -> payload i = payload j -> fbody_run g' b i = fbody_run g' b j.
Proof. intros A P. induction b; cbn [fbody_run]; rewrite ?A, ?P, ?IHb; reflexivity. Qed.
Lemma flag_seen f i : flag_run g' f (seen g' i) = flag_run g' f i.
Proof.
  unfold flag_run, fdef_run. rewrite (fcheck_same _ (seen g' i) i (seen_ty _ _) (seen_payload _ _)), seen_ty.
  destruct (fcheck _ i); [|reflexivity]. apply fbody_same; [intros; apply access_seen|apply seen_payload].
Qed.
Lemma fbody_agree b i : g (ty i) = g' (ty i) -> In (ty i) value_types -> body_plain b (ty i) = true -> fbody_run g b i = fbody_run g' b i.
Proof.
  intros G I. induction b; cbn [body_plain fbody_run]; intros P; try reflexivity.
  1-4: unfold access; now rewrite (@run_agree _ a i G I (not_kids_look _ _ P)).
  now rewrite IHb.
Qed.
Lemma flag_agree f i : g (ty i) = g' (ty i) -> In (ty i) value_types -> flag_run g' f (seen g' i) = flag_run g f i.
Proof.
  intros G I. rewrite flag_seen. unfold flag_run, fdef_run. destruct (fcheck _ i); [|reflexivity].
  symmetry. apply fbody_agree; trivial. now apply plain_flags.
Qed.

(** ** elements made by the constructors, one inside the other *)
Variable beyond : spec_float -> N.
Inductive built : ie -> Prop :=
| built_value c s a i : calls g beyond c s a (Ok (Some i)) -> is_group s = false -> arg_ok s a -> g (ty i) = false -> (lenN (payload i) < 65536)%N -> built i
| built_group c s a i : calls g beyond c s a (Ok (Some i)) -> is_group s = true -> g (ty i) = true -> (ty i < 0x8000)%N ->
    (forall x, In x (somes (group_args s a)) -> built x) -> (lenN (payload i) < 65536)%N -> built i.
Lemma built_wire i : built i -> wire g i (be 2 (ty i) ++ be 2 (lenN (payload i)) ++ payload i).
Proof.
  induction 1 as [c s a i C S A G L|c s a i C S G R F IH L]; [now apply made_wire with beyond c s a|].
  apply (@made_group_wire g beyond c s a); trivial. apply Forall_forall. intros x I. eexists. now apply IH.
Qed.
Lemma group_children c s a i : calls g beyond c s a (Ok (Some i)) -> is_group s = true -> children i = somes (group_args s a).
Proof. intros C S. pose proof (made_group C S) as M. apply group_payload in M. now destruct M as (_ & E & _). Qed.
(** the receiver takes for grouped nothing that the sender does not, at any depth *)
Definition inside : ie -> ie -> Prop := reached (fun _ => true).
Definition understood_inside (i : ie) : Prop := forall j, inside i j -> g' (ty j) = true -> g (ty j) = true.
Lemma reached_inside i j : reached g' i j -> inside i j.
Proof. induction 1; [apply reached_self|]. now apply reached_child with c. Qed.
Lemma understood_reached i : understood_inside i -> understood g g' i.
Proof. intros U j R. apply U. now apply reached_inside. Qed.
Lemma inside_child i c : understood_inside i -> In c (children i) -> understood_inside c.
Proof. intros U I j R. apply U. now apply reached_child with c. Qed.

(** what an element says: a value element the values of its accessors, a group what its elements say *)
Inductive says : ie -> acc -> val -> Prop :=
| says_value c s a i b v : calls g beyond c s a (Ok (Some i)) -> is_group s = false -> g (ty i) = false ->
    access g b i = Ok v -> ~ is_ies v -> says i b v
| says_group i b c ts b' x v : look b (ty i) = Via c ts b' -> first_of ts (children i) = Some x -> says x b' v -> says i b v.
Lemma built_payload i : built i -> g (ty i) = true -> wires g (children i) (payload i).
Proof. intros B G. apply built_wire in B. inversion B as [t l e cs h body H1 H2 H3 H4 H5 E]. subst i. now apply H4. Qed.
Lemma first_seen ts is : first_of ts (map (seen g') is) = option_map (seen g') (first_of ts is).
Proof. unfold first_of. induction is as [|i is IH]; cbn [map find]; [reflexivity|]. rewrite seen_ty. now destruct (memb (ty i) ts). Qed.
Lemma built_child i x : built i -> In x (children i) -> built x /\ g (ty i) = true.
Proof.
  intros B I. destruct B as [c s a i C S A G L|c s a i C S G R F L].
  - destruct (calls_new C S) as (t & p & _ & _ & ->). destruct I.
  - split; [|exact G]. apply F. now rewrite <- (group_children C S).
Qed.
Lemma says_seen i b v : says i b v -> built i -> understood_inside i -> access g' b (seen g' i) = Ok v.
Proof.
  induction 1 as [c s a i b v C S G E V|i b c ts b' x v L F Sx IH]; intros B U; rewrite access_seen.
  - destruct (calls_new C S) as (t & p & T & Bp & Ei). assert (Ty : ty i = t) by now rewrite Ei. apply access_agree; trivial.
    + rewrite G. destruct (g' (ty i)) eqn:G'; [|reflexivity]. rewrite <- G. exact (U i (reached_self _ _) G').
    + rewrite Ty. apply value_type with c; [exact T|]. destruct C as [C _]. now rewrite C.
  - pose proof (find_some _ _ F) as [I _]. destruct (built_child _ B I) as [Bx G].
    pose proof (built_payload B G) as W.
    assert (W' : wires g' (map (seen g') (children i)) (payload i)).
    { apply (seen_wires W). apply Forall_forall. intros y Iy. apply understood_reached. now apply inside_child with i. }
    apply (proj2 (@access_wires_ok g' b i c ts b' _ v W' L)). exists (seen g' x). rewrite first_seen, F. split; [reflexivity|].
    apply IH; [exact Bx|]. now apply inside_child with i.
Qed.
Lemma group_seen c s a i t : calls g beyond c s a (Ok (Some i)) -> is_group s = true -> con_type c = Some t -> g (ty i) = true -> built i -> understood_inside i ->
  access g' (con_reader c) (seen g' i) = Ok (VIEs (map (seen g') (somes (group_args s a)))).
Proof.
  intros C S T G B U. rewrite access_seen, <- (group_children C S).
  assert (W : wires g' (map (seen g') (children i)) (payload i)).
  { apply (seen_wires (built_payload B G)). apply Forall_forall. intros y Iy. apply understood_reached. now apply inside_child with i. }
  assert (R : con_shape c = s) by apply C. assert (K : c <> N_NetworkInstanceFQDN) by (intros ->; subst s; discriminate S).
  assert (Ty : ty i = t).
  { destruct (group_payload _ _ _ (made_group C S)) as (-> & _). pose proof (con_typed c) as CT. rewrite R, T in CT. destruct CT as [_ CT]. unfold group_type. rewrite T.
    destruct s; try discriminate S; try reflexivity; discriminate (CT eq_refl). }
  rewrite (@con_access g' c t i T K Ty).
  - assert (E : con_leaf c = LChildren). { rewrite con_leaf_shape; [rewrite R; destruct s; try discriminate S; reflexivity|]. intros [<-|[<-|[<-|[]]]]; subst s; discriminate S. }
    rewrite E. cbn [leaf_run]. now rewrite (parseMulti_wires W).
  - pose proof (con_min_shape c) as M. rewrite R in M. destruct s; try discriminate S; cbn in M; lia.
Qed.
End Two.
