(** The bool methods compared with the layout of the specification. *)
From Verif Require Import Base IETypes IE Bits Codec Fields1 Time IEProofs Access AccTable AccRun AccProofs AccProofs2 AccProofs3 AccProofs4 AccProofs5 Flags FlagTable FlagRun FlagProofs FlagSpec.
Set Implicit Arguments.

Definition child_for (f : flag) (t : N) : option N :=
  match find (fun '(c, _, l) => (t =? c)%N && match position layout f l with Some _ => true | None => false end) inside with
  | Some (_, c, _) => Some c
  | None => None
  end.
Definition specialb (f : flag) (t : N) : bool := existsb (fun '(t', fs) => (t =? t')%N && existsb (fun f' => (flag_id f =? flag_id f')%N) fs) special.
Definition expected (f : flag) (t : N) : fl :=
  match position layout f t with
  | Some (k, b) => KBit (Nat.max (S k) (shortest t)) k b
  | None =>
      match position swapped f t with
      | Some (k, b) => KBit (S k) k (3 - b)
      | None => match child_for f t with
                | Some c => KVia [c]
                | None => if specialb f t then KOther else KFalse
                end
      end
  end.
Definition fl_eqb (x y : fl) : bool :=
  match x, y with
  | KFalse, KFalse | KOther, KOther => true
  | KBit m k b, KBit m' k' b' => (m =? m') && (k =? k') && (b =? b')%N
  | KVia ts, KVia ts' => if list_eq_dec N.eq_dec ts ts' then true else false
  | _, _ => false
  end.
Lemma fl_eqb_ok x y : fl_eqb x y = true -> x = y.
Proof.
  destruct x, y; cbn [fl_eqb]; try discriminate; trivial.
  - intros E. apply andb_prop in E as [E E3]. apply andb_prop in E as [E1 E2]. apply Nat.eqb_eq in E1, E2. apply N.eqb_eq in E3. congruence.
  - destruct (list_eq_dec N.eq_dec ts ts0); [congruence|discriminate].
Qed.
Lemma eqb_class t t' : (t' < tops)%N -> (t =? t')%N = (tclass t =? t')%N.
Proof. intros L. unfold tclass. destruct (N.eqb_spec t t'), (N.eqb_spec (N.min t tops) t'); trivial; lia. Qed.
Lemma position_class tab f t : forallb (fun x => N.ltb (fst x) tops) tab = true -> position tab f t = position tab f (tclass t).
Proof.
  induction tab as [|[t' l] r IH]; cbn [forallb fst position]; intros B; [reflexivity|]. apply andb_prop in B as [B1 B2]. apply N.ltb_lt in B1. rewrite (eqb_class t B1), (IH B2). reflexivity.
Qed.
Lemma expected_class f t : expected f t = expected f (tclass t).
Proof.
  unfold expected. rewrite <- !position_class by (vm_compute; reflexivity).
  assert (S : shortest t = shortest (tclass t)) by (unfold shortest; rewrite <- !eqb_class by (vm_compute; reflexivity); reflexivity). rewrite <- S. clear S.
  assert (C : child_for f t = child_for f (tclass t)).
  { unfold child_for. f_equal. assert (B : forallb (fun x => N.ltb (fst (fst x)) tops) inside = true) by (vm_compute; reflexivity).
    induction inside as [|[[c d] l] r IH]; [reflexivity|]. cbn [forallb fst find] in *. apply andb_prop in B as [B1 B2]. apply N.ltb_lt in B1. rewrite <- (eqb_class t B1).
    destruct (_ && _); [reflexivity|]. now apply IH. }
  rewrite <- C. clear C.
  assert (P : specialb f t = specialb f (tclass t)).
  { unfold specialb. assert (B : forallb (fun x => N.ltb (fst x) tops) special = true) by (vm_compute; reflexivity).
    induction special as [|[t' fs] r IH]; [reflexivity|]. cbn [forallb fst existsb] in *. apply andb_prop in B as [B1 B2]. apply N.ltb_lt in B1. now rewrite <- (eqb_class t B1), (IH B2). }
  rewrite <- P. reflexivity.
Qed.
Lemma kinds f t : flag_kind f t = expected f t.
Proof.
  apply fl_eqb_ok. revert f t. apply flag2_ok.
  - intros f t. now rewrite (flag_kind_class f t), (expected_class f t).
  - vm_compute. reflexivity.
Qed.

Section G.
Variable g : N -> bool.
Theorem layout_bit f i k b : bytes (payload i) -> g (ty i) = false -> position layout f (ty i) = Some (k, b) ->
  flag_run g f i = Ok (if length (payload i) <? Nat.max (S k) (shortest (ty i)) then false else N.testbit (nth k (payload i) 0%N) (b - 1)).
Proof. intros Hb G P. apply flag_bit; trivial. rewrite kinds. unfold expected. now rewrite P. Qed.
Theorem swapped_bit f i k b : bytes (payload i) -> g (ty i) = false -> position swapped f (ty i) = Some (k, b) ->
  flag_run g f i = Ok (if length (payload i) <? S k then false else N.testbit (nth k (payload i) 0%N) (2 - b)).
Proof.
  intros Hb G P. replace (2 - b)%N with (3 - b - 1)%N by lia. apply flag_bit; trivial. rewrite kinds. unfold expected.
  assert (N : position layout f (ty i) = None); [|now rewrite N, P]. clear Hb G. unfold swapped in P. cbn [position] in P.
  destruct (N.eqb_spec (ty i) T_DLFlowLevelMarking) as [->|_]; [reflexivity|]. destruct (N.eqb_spec (ty i) T_IPVersion) as [->|_]; [reflexivity|discriminate].
Qed.
Theorem inside_flag f i c l : bytes (payload i) -> In (ty i, c, l) inside -> position layout f l <> None ->
  flag_run g f i = match first_of [c] (children_of g i) with Some x => flag_run g f x | None => Ok false end.
Proof.
  intros Hb I P. apply flag_via; [assumption|]. rewrite kinds.
  assert (H : forallb (fun '(t, c, l) => forallb (fun f => match position layout f l with None => true | Some _ => fl_eqb (expected f t) (KVia [c]) end) all_flags) inside = true)
    by (vm_compute; reflexivity).
  rewrite forallb_forall in H. specialize (H _ I). cbn beta iota in H. apply flag_check with (f := f) in H. destruct (position layout f l); [|now elim P]. now apply fl_eqb_ok.
Qed.
Theorem other_flag f i : bytes (payload i) -> position layout f (ty i) = None -> position swapped f (ty i) = None ->
  (forall c l, In (ty i, c, l) inside -> position layout f l = None) -> (forall fs, In (ty i, fs) special -> ~ In f fs) -> flag_run g f i = Ok false.
Proof.
  intros Hb P1 P2 P3 P4. apply flag_false; [assumption|]. rewrite kinds. unfold expected. rewrite P1, P2.
  assert (C : child_for f (ty i) = None).
  { unfold child_for. destruct (find _ inside) as [[[c d] l]|] eqn:F; [|reflexivity]. exfalso. apply find_some in F as [I F]. apply andb_prop in F as [F1 F2]. apply N.eqb_eq in F1. subst c.
    specialize (P3 _ _ I). rewrite P3 in F2. discriminate. }
  rewrite C. destruct (specialb f (ty i)) eqn:S; [|reflexivity]. exfalso. unfold specialb in S. apply existsb_exists in S as ([t' fs] & I & S). apply andb_prop in S as [S1 S2].
  apply N.eqb_eq in S1. subst t'. apply (P4 _ I). apply existsb_exists in S2 as (f' & I' & E). apply N.eqb_eq in E. apply flag_id_inj in E as ->. assumption.
Qed.
End G.
