(** What the bool methods compute. *)
From Verif Require Import Base IETypes IE Bits Codec Fields1 Time IEProofs Access AccTable AccRun AccProofs AccProofs2 AccProofs3 AccProofs4 AccProofs5 Flags FlagTable FlagRun.
Set Implicit Arguments.

(** ** exhaustive checks over the methods *)
Lemma flag_nth f : nth_error all_flags (N.to_nat (flag_id f)) = Some f.
Proof. destruct f; reflexivity. Qed.
Lemma all_flags_all f : In f all_flags.
Proof. eapply nth_error_In. apply flag_nth. Qed.
Lemma flag_id_inj a b : flag_id a = flag_id b -> a = b.
Proof. intros E. pose proof (flag_nth a) as H. rewrite E, flag_nth in H. congruence. Qed.
Lemma flag_check (p : flag -> bool) : forallb p all_flags = true -> forall f, p f = true.
Proof. intros H f. rewrite forallb_forall in H. apply H, all_flags_all. Qed.
Definition flag2 (p : flag -> N -> bool) : bool := forallb (fun f => forallb (p f) (upto 401)) all_flags.
Lemma flag2_ok p : (forall f t, p f t = p f (tclass t)) -> flag2 p = true -> forall f t, p f t = true.
Proof.
  intros C H f t. pose proof (@flag_check (fun f => forallb (p f) (upto 401)) H f) as K. cbn beta in K. rewrite C. rewrite forallb_forall in K. apply K.
  apply upto_In. unfold tclass, tops. lia.
Qed.

(** ** bits *)
Lemma hasn_testbit b x : (1 <= b <= 8)%N -> hasn b x = N.testbit x (b - 1).
Proof.
  intros L. assert (D : b = 1%N \/ b = 2%N \/ b = 3%N \/ b = 4%N \/ b = 5%N \/ b = 6%N \/ b = 7%N \/ b = 8%N) by lia.
  repeat destruct D as [D|D]; rewrite D; cbn [hasn]; [apply has1_testbit|apply has2_testbit|apply has3_testbit|apply has4_testbit|apply has5_testbit|apply has6_testbit|apply has7_testbit|apply has8_testbit].
Qed.
Lemma index_nth (b : list N) k : k < length b -> index b k = Ok (nth k b 0%N).
Proof. intros L. unfold index. now rewrite (nth_error_nth' b 0%N L). Qed.
Lemma fcheck_spec gs i : fcheck gs i = negb (gmiss gs (ty i)) && (glen gs <=? length (payload i)).
Proof.
  induction gs as [|[n|t] r IH]; cbn [fcheck gmiss existsb glen fold_right]; [reflexivity| |].
  - fold (gmiss r (ty i)) (glen r). destruct (Nat.ltb_spec (length (payload i)) n).
    + symmetry. apply andb_false_iff. right. apply Nat.leb_gt. lia.
    + rewrite IH. cbn [orb]. f_equal. destruct (Nat.leb_spec (glen r) (length (payload i))), (Nat.leb_spec (Nat.max n (glen r)) (length (payload i))); trivial; lia.
  - fold (gmiss r (ty i)) (glen r). destruct (ty i =? t)%N; cbn [negb orb andb]; [exact IH|reflexivity].
Qed.
Lemma check_spec gs i : gmiss gs (ty i) = false -> check gs i = if length (payload i) <? glen gs then Err EUnexpectedEOF else Ok tt.
Proof.
  induction gs as [|[n|t] r IH]; cbn [check gmiss existsb glen fold_right]; intros G; [reflexivity| |].
  - fold (gmiss r (ty i)) (glen r) in *. rewrite (IH G).
    destruct (Nat.ltb_spec (length (payload i)) n), (Nat.ltb_spec (length (payload i)) (glen r)), (Nat.ltb_spec (length (payload i)) (Nat.max n (glen r))); trivial; lia.
  - fold (gmiss r (ty i)) (glen r) in *. apply orb_false_iff in G as [G1 G2]. rewrite G1. now apply IH.
Qed.

(** ** what the method does at an IE of a given type *)
Inductive fl :=
| KFalse                       (* returns false *)
| KBit (m k : nat) (b : N)     (* bit b of octet k of the payload, false if the payload is shorter than m *)
| KVia (ts : list N)           (* the flag of the first child of one of these types *)
| KOther.
Definition acc_kind (a : acc) (t : N) (k : leaf -> fl) : fl :=
  if gmiss (guards (acc_def a)) t then KFalse else
  match look a t with
  | Leaf LInvalid | Leaf (LFail _) => KFalse
  | Leaf l => k l
  | Via _ ts b => if (acc_id a =? acc_id b)%N then KVia ts else KOther
  | _ => KOther
  end.
Definition fbody_at (f : flag) (t : N) : fbody := flookup (fcases (flag_def f)) (fdflt (flag_def f)) t.
Definition kbit (m k : nat) (b : N) : fl := if (k <? m) && (1 <=? b)%N && (b <=? 8)%N then KBit m k b else KOther.
Definition flag_kind (f : flag) (t : N) : fl :=
  let gs := fguards (flag_def f) in
  if gmiss gs t then KFalse else
  match fbody_at f t with
  | BFalse => KFalse
  | BPay m k b => kbit (Nat.max (glen gs) m) k b
  | BVal a b => acc_kind a t (fun l => match l with LUint 1 => kbit (Nat.max (glen gs) (Nat.max (glen (guards (acc_def a))) 1)) 0 b | _ => KOther end)
  | BOct a m k b => acc_kind a t (fun l => match l with
      | LApplyAction => kbit (Nat.max (glen gs) (Nat.max (glen (guards (acc_def a))) (Nat.max 1 m))) k b
      | LPayload => kbit (Nat.max (glen gs) (Nat.max (glen (guards (acc_def a))) m)) k b
      | _ => KOther end)
  | _ => KOther
  end.

Lemma u8_inv (l : leaf) (x r : fl) : match l with LUint 1 => x | _ => KOther end = r -> r <> KOther -> l = LUint 1 /\ x = r.
Proof. intros E N. destruct l; try (now elim N). destruct k as [|[|k]]; try (now elim N). now split. Qed.

Section G.
Variable g : N -> bool.
Ltac nleb := match goal with
  | |- context [?a <=? ?b] => destruct (Nat.leb_spec a b); try lia
  | |- context [?a <? ?b] => destruct (Nat.ltb_spec a b); try lia end.
Ltac fin := repeat (cbn [bind on_ok as_n]; first [reflexivity | nleb | rewrite index_nth by lia | rewrite hasn_testbit by assumption]).
Lemma kbit_inv m k b m' k' b' : kbit m k b = KBit m' k' b' -> m = m' /\ k = k' /\ b = b' /\ k' < m' /\ (1 <= b' <= 8)%N.
Proof.
  unfold kbit. destruct (Nat.ltb_spec k m); [|discriminate]. destruct (N.leb_spec 1 b); [|discriminate]. destruct (N.leb_spec b 8); [|discriminate]. cbn [andb]. intros [= <- <- <-]. repeat split; trivial.
Qed.
Lemma kbit_not m k b : kbit m k b <> KFalse /\ forall ts, kbit m k b <> KVia ts.
Proof. unfold kbit. destruct (_ && _); split; discriminate. Qed.
Lemma uint1 i : bytes (payload i) -> g (ty i) = false -> value_as_uint g 1 i = if length (payload i) <? 1 then Err EUnexpectedEOF else Ok (nth 0 (payload i) 0%N).
Proof.
  intros Hb G. unfold value_as_uint. rewrite G. nleb; [reflexivity|]. destruct (payload i) as [|x r]; [cbn in *; lia|]. unfold getr. rewrite slice_ok by (cbn; lia). reflexivity.
Qed.

(** the method calls ValueAsUint8, which refuses grouped types *)
Definition uses_value (f : flag) (t : N) : bool := match fbody_at f t with BVal _ _ => true | _ => false end.
Lemma uint1_grouped i : g (ty i) = true -> value_as_uint g 1 i = Err (EInvalidTypeT (ty i)).
Proof. intros G. unfold value_as_uint. now rewrite G. Qed.
Theorem flag_bit_any f i m k b : bytes (payload i) -> flag_kind f (ty i) = KBit m k b ->
  flag_run g f i = Ok (if (uses_value f (ty i) && g (ty i)) || (length (payload i) <? m) then false else N.testbit (nth k (payload i) 0%N) (b - 1)).
Proof.
  intros Hb K. unfold flag_run, fdef_run, uses_value. rewrite fcheck_spec. unfold flag_kind in K. destruct (gmiss (fguards (flag_def f)) (ty i)); [discriminate K|]. cbn [negb andb].
  fold (fbody_at f (ty i)). destruct (fbody_at f (ty i)) as [|m0 k0 b0|m0 k0 b0 c0|m0 w|a b0|a m0 k0 b0|a b0|a p|m0 b0]; try discriminate K; cbn [fbody_run andb orb].
  - apply kbit_inv in K as (<- & <- & <- & L & B). fin.
  - unfold acc_kind in K. destruct (gmiss (guards (acc_def a)) (ty i)) eqn:Ga; [discriminate K|]. rewrite access_eq by assumption. rewrite check_spec by assumption.
    destruct (look a (ty i)) as [l|c ts x|c ts x|c p|c d]; try discriminate K; [|destruct (_ =? _)%N; discriminate K].
    assert (E : l = LUint 1 /\ kbit (Nat.max (glen (fguards (flag_def f))) (Nat.max (glen (guards (acc_def a))) 1)) 0 b0 = KBit m k b)
      by (apply u8_inv; [destruct l; trivial; discriminate K|discriminate]).
    clear K. destruct E as [-> K]. cbn [leaf_run]. apply kbit_inv in K as (<- & <- & <- & L & B). destruct (g (ty i)) eqn:G; cbn [orb].
    + rewrite uint1_grouped by assumption. fin.
    + rewrite uint1 by assumption. fin.
  - unfold acc_kind in K. destruct (gmiss (guards (acc_def a)) (ty i)) eqn:Ga; [discriminate K|]. rewrite access_eq by assumption. rewrite check_spec by assumption.
    destruct (look a (ty i)) as [l|c ts x|c ts x|c p|c d]; try discriminate K; [|destruct (_ =? _)%N; discriminate K].
    destruct l; try discriminate K; cbn [leaf_run]; apply kbit_inv in K as (<- & <- & <- & L & B); fin.
Qed.
Theorem flag_bit f i m k b : bytes (payload i) -> g (ty i) = false -> flag_kind f (ty i) = KBit m k b ->
  flag_run g f i = Ok (if length (payload i) <? m then false else N.testbit (nth k (payload i) 0%N) (b - 1)).
Proof. intros Hb G K. rewrite (flag_bit_any _ _ Hb K), G, andb_false_r. reflexivity. Qed.
Lemma acc_kind_false a i k : (forall l, k l <> KFalse) -> bytes (payload i) -> acc_kind a (ty i) k = KFalse -> exists e, access g a i = Err e.
Proof.
  intros Hk Hb K. unfold acc_kind in K. rewrite access_eq by assumption. destruct (gmiss (guards (acc_def a)) (ty i)) eqn:Ga.
  - destruct (@check_gmiss _ _ Ga) as [e ->]. now exists e.
  - rewrite check_spec by assumption. destruct (_ <? _); [now exists EUnexpectedEOF|]. cbn [bind].
    destruct (look a (ty i)) as [l|c ts x|c ts x|c p|c d]; try discriminate K; [|destruct (_ =? _)%N; discriminate K].
    destruct l; try (now elim (Hk _ K)); cbn [leaf_run]; eauto.
Qed.
Theorem flag_false f i : bytes (payload i) -> flag_kind f (ty i) = KFalse -> flag_run g f i = Ok false.
Proof.
  intros Hb K. unfold flag_run, fdef_run. rewrite fcheck_spec. unfold flag_kind in K. destruct (gmiss (fguards (flag_def f)) (ty i)); [reflexivity|]. cbn [negb andb].
  destruct (_ <=? _); [|reflexivity]. fold (fbody_at f (ty i)). destruct (fbody_at f (ty i)) as [|m0 k0 b0|m0 k0 b0 c0|m0 w|a b0|a m0 k0 b0|a b0|a p|m0 b0]; try discriminate K; cbn [fbody_run].
  - reflexivity.
  - now elim (proj1 (kbit_not _ _ _) K).
  - apply acc_kind_false in K as [e ->]; [reflexivity| |assumption]. intros l. destruct l; try discriminate. destruct k as [|[|k]]; try discriminate. apply kbit_not.
  - apply acc_kind_false in K as [e ->]; [reflexivity| |assumption]. intros l. destruct l; try discriminate; apply kbit_not.
Qed.
End G.

(** ** no type code above 400 is mentioned in the bool methods *)
Fixpoint fbelow (cs : list (list N * fbody)) : bool :=
  match cs with [] => true | (ts, _) :: r => forallb (fun t => N.ltb t tops) ts && fbelow r end.
Definition gbelow (gs : list guard) : bool := forallb (fun x => match x with GType t' => N.ltb t' tops | GLen _ => true end) gs.
Lemma all_fbelow : forall f, fbelow (fcases (flag_def f)) && gbelow (fguards (flag_def f)) = true.
Proof. apply flag_check. vm_compute. reflexivity. Qed.
Lemma memb_class t ts : forallb (fun t => N.ltb t tops) ts = true -> memb t ts = memb (tclass t) ts.
Proof.
  intros B. unfold tclass. destruct (N.le_gt_cases t tops); [now rewrite N.min_l by assumption|]. rewrite N.min_r by lia. rewrite !memb_above by (assumption || lia). reflexivity.
Qed.
Lemma flookup_class cs d t : fbelow cs = true -> flookup cs d t = flookup cs d (tclass t).
Proof.
  induction cs as [|[ts b] r IH]; cbn [fbelow flookup]; intros B; [reflexivity|]. apply andb_prop in B as [B1 B2]. rewrite <- (memb_class t ts B1). now rewrite (IH B2).
Qed.
Lemma fbody_class f t : fbody_at f t = fbody_at f (tclass t).
Proof. unfold fbody_at. pose proof (all_fbelow f) as B. apply andb_prop in B as [B _]. now apply flookup_class. Qed.
Lemma fmiss_class f t : gmiss (fguards (flag_def f)) t = gmiss (fguards (flag_def f)) (tclass t).
Proof.
  pose proof (all_fbelow f) as B. apply andb_prop in B as [_ B]. unfold gmiss. induction (fguards (flag_def f)) as [|[n|t'] r IH]; [reflexivity|exact (IH B)|]. cbn [gbelow forallb existsb] in *.
  apply andb_prop in B as [H1 H2]. rewrite (IH H2). f_equal. f_equal. apply N.ltb_lt in H1. unfold tclass.
  destruct (N.eqb_spec t t'), (N.eqb_spec (N.min t tops) t'); trivial; lia.
Qed.
Lemma flag_kind_class f t : flag_kind f t = flag_kind f (tclass t).
Proof.
  unfold flag_kind. rewrite (fmiss_class f t), (fbody_class f t). destruct (gmiss _ _); [reflexivity|]. destruct (fbody_at f (tclass t)); try reflexivity; unfold acc_kind;
    now rewrite (gmiss_class a t), (look_class a t).
Qed.

(** ** flags of children *)
Definition fbody_eqb (x y : fbody) : bool :=
  match x, y with
  | BVal a b, BVal a' b' => (acc_id a =? acc_id a')%N && (b =? b')%N
  | BOct a m k b, BOct a' m' k' b' => (acc_id a =? acc_id a')%N && (m =? m') && (k =? k') && (b =? b')%N
  | _, _ => false
  end.
Lemma fbody_eqb_ok x y : fbody_eqb x y = true -> x = y.
Proof.
  destruct x, y; cbn [fbody_eqb]; try discriminate; intros E; repeat (apply andb_prop in E as [E ?]);
    repeat match goal with H : (_ =? _)%N = true |- _ => apply N.eqb_eq in H | H : (_ =? _) = true |- _ => apply Nat.eqb_eq in H end;
    repeat match goal with H : acc_id _ = acc_id _ |- _ => apply acc_id_inj in H end; now subst.
Qed.
Definition via_fine (f : flag) (t : N) : bool :=
  match flag_kind f t with
  | KVia ts => (glen (fguards (flag_def f)) =? 0) && match fbody_at f t with BVal a _ | BOct a _ _ _ => least a <=? 4 | _ => false end && (forallb (fun t' => negb (gmiss (fguards (flag_def f)) t') && fbody_eqb (fbody_at f t') (fbody_at f t)) ts)
  | _ => true
  end.
Lemma via_fines : forall f t, via_fine f t = true.
Proof.
  apply flag2_ok; [|vm_compute; reflexivity]. intros f t. unfold via_fine. rewrite (flag_kind_class f t). destruct (flag_kind f (tclass t)); trivial.
  now rewrite (fbody_class f t).
Qed.
Section V.
Variable g : N -> bool.
Definition children_of (i : ie) : list ie := match parseMultiIEs g (payload i) with Ok l => l | _ => [] end.
Lemma short_payload i n : bytes (payload i) -> length (payload i) < n -> n <= 4 -> children_of i = [].
Proof.
  intros Hb L N. unfold children_of. destruct (payload i) as [|a [|b [|c [|d r]]]] eqn:E; try (cbn in L; lia); reflexivity.
Qed.
Theorem flag_via f i ts : bytes (payload i) -> flag_kind f (ty i) = KVia ts ->
  flag_run g f i = match first_of ts (children_of i) with Some x => flag_run g f x | None => Ok false end.
Proof.
  intros Hb K. pose proof (via_fines f (ty i)) as V. unfold via_fine in V. rewrite K in V. apply andb_prop in V as [V V2]. apply andb_prop in V as [V1 VL]. apply Nat.eqb_eq in V1.
  assert (C : forall x, first_of ts (children_of i) = Some x -> fbody_at f (ty x) = fbody_at f (ty i) /\ flag_run g f x = fbody_run g (fbody_at f (ty i)) x).
  { intros x F. apply find_some in F as [_ F]. apply memb_spec in F. rewrite forallb_forall in V2. specialize (V2 _ F). apply andb_prop in V2 as [V2 V3]. apply fbody_eqb_ok in V3.
    split; [assumption|]. unfold flag_run, fdef_run. rewrite fcheck_spec, V1. fold (fbody_at f (ty x)). rewrite V3. now destruct (gmiss _ (ty x)). }
  unfold flag_run at 1, fdef_run. rewrite fcheck_spec, V1. cbn [Nat.leb]. rewrite andb_true_r. fold (fbody_at f (ty i)). clear V1 V2. unfold flag_kind in K.
  destruct (gmiss (fguards (flag_def f)) (ty i)); [discriminate K|]. cbn [negb].
  assert (A : forall a k, (least a <=? 4) = true -> acc_kind a (ty i) k = KVia ts -> (forall l, k l <> KVia ts) ->
     access g a i = Err EUnexpectedEOF /\ children_of i = [] \/ access g a i = (_ <- parseMultiIEs g (payload i) ;; match first_of ts (children_of i) with Some x => access g a x | None => Err EIENotFound end)).
  { intros a k L4 E N. apply Nat.leb_le in L4. unfold acc_kind in E. destruct (gmiss (guards (acc_def a)) (ty i)); [discriminate E|]. destruct (look a (ty i)) as [l|c ts' x|c ts' x|c p|c d] eqn:L; try discriminate E.
    - exfalso. destruct l; try discriminate E; now apply (N _ E).
    - destruct (N.eqb_spec (acc_id a) (acc_id x)) as [Ei|]; [|discriminate E]. apply acc_id_inj in Ei. subst x. assert (ts' = ts) as -> by congruence.
      rewrite (@access_via g _ _ _ _ _ Hb L). destruct (Nat.ltb_spec (length (payload i)) (least a)) as [S|S].
      + left. split; [reflexivity|]. apply (@short_payload i (least a)); trivial.
      + right. unfold children_of. destruct (parseMultiIEs g (payload i)); reflexivity. }
  destruct (fbody_at f (ty i)) as [|m0 k0 b0|m0 k0 b0 c0|m0 w|a b0|a m0 k0 b0|a b0|a p|m0 b0]; try discriminate K.
  - now elim (proj2 (kbit_not _ _ _) _ K).
  - apply A in K; [|assumption|intros l; destruct l; try discriminate; destruct k as [|[|k]]; try discriminate; apply kbit_not]. cbn [fbody_run].
    destruct K as [[-> ->]| ->]; [reflexivity|]. destruct (parseMulti_returns g Hb) as [[l0 P]|[e P]]; rewrite P; cbn [bind]; [|unfold children_of; now rewrite P].
    destruct (first_of ts (children_of i)) as [x|]; [|reflexivity]. destruct (C _ eq_refl) as [_ ->]. reflexivity.
  - apply A in K; [|assumption|intros l; destruct l; try discriminate; apply kbit_not]. cbn [fbody_run].
    destruct K as [[-> ->]| ->]; [reflexivity|]. destruct (parseMulti_returns g Hb) as [[l0 P]|[e P]]; rewrite P; cbn [bind]; [|unfold children_of; now rewrite P].
    destruct (first_of ts (children_of i)) as [x|]; [|reflexivity]. destruct (C _ eq_refl) as [_ ->]. reflexivity.
Qed.
End V.
