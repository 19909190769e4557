(** MarshalTo of the structs with lists: MAC Addresses Detected and Removed, PFD Contents. *)
From Coq Require Import String.
From Verif Require Import Base Bits Codec Codec2 Utils Fields1 Time Fields2 Fields3 Fields4 Access Reuse Go GoFields GoRep GoProofs GoTo.
Set Implicit Arguments.
Open Scope string_scope.
Open Scope list_scope.
Open Scope nat_scope.

Ltac run := cbn [exec fails within eval test bind of_look look upd setf setv setb leave cut flds vars buf int num oct has octs range String.eqb Ascii.eqb Bool.eqb].

(** for _, mac := range f.MACAddresses *)
Definition mac_write : stmt := SSeq (SCopyB (EVar "offset") (EAdd (EVar "offset") (EInt 6)) (EVar "mac")) (SLet "offset" (EAdd (EVar "offset") (EInt 6))).
Lemma mac_range n F L l : forall b o M, (M = [] \/ exists v, M = [("mac", v)]) ->
  match cp_macs l b o with
  | Ok (b', o') => exists M', range n "mac" mac_write l (St F (("l", L) :: ("offset", GI o) :: M) b) = Next (St F (("l", L) :: ("offset", GI o') :: M') b')
  | Err e => exists s, range n "mac" mac_write l (St F (("l", L) :: ("offset", GI o) :: M) b) = Done s (Err e)
  | Fault => exists s, range n "mac" mac_write l (St F (("l", L) :: ("offset", GI o) :: M) b) = Done s Fault
  | Fuel => exists s, range n "mac" mac_write l (St F (("l", L) :: ("offset", GI o) :: M) b) = Done s Fuel
  end.
Proof.
  induction l as [|m l IH]; intros b o M HM; cbn [cp_macs]; [exists M; reflexivity|].
  assert (E : exec n mac_write (setv "mac" (GS m) (St F (("l", L) :: ("offset", GI o) :: M) b))
    = match copy_range b o (o + 6) m with Ok b' => Next (St F [("l", L); ("offset", GI (o + 6)); ("mac", GS m)] b')
      | Err e => Done (setv "mac" (GS m) (St F (("l", L) :: ("offset", GI o) :: M) b)) (Err e)
      | Fault => Done (setv "mac" (GS m) (St F (("l", L) :: ("offset", GI o) :: M) b)) Fault
      | Fuel => Done (setv "mac" (GS m) (St F (("l", L) :: ("offset", GI o) :: M) b)) Fuel end).
  { unfold mac_write. destruct HM as [->|[v ->]]; run; destruct (copy_range b o (o + 6) m); reflexivity. }
  cbn [range]. rewrite E. clear E. destruct (copy_range b o (o + 6) m) as [b'| | |]; cbn [bind]; try (eexists; reflexivity).
  apply IH. apply or_intror. eexists; reflexivity.
Qed.
Lemma mac_block n F L l b o : look "MACAddresses" F = Some (GL l) ->
  sim (wO (St F [("l", L); ("offset", GI o)] b)) (whole (exec n (SSeq (SBlock (SRange "mac" "MACAddresses" mac_write)) SSkip) (St F [("l", L); ("offset", GI o)] b))) (cp_macs l b o).
Proof.
  intros H. rewrite ex_block, ex_range. cbn [flds]. rewrite H.
  pose proof (@mac_range n F L l b o [] (or_introl eq_refl)) as R.
  destruct (cp_macs l b o) as [[b' o']| | |]; destruct R as [M R]; rewrite R; reflexivity || exact I.
Qed.

Lemma to_MACAddressesDetected n b f : to_agrees (call n go_to_MACAddressesDetected (rep_macl f) b) (macl_marshal_to f b).
Proof.
  unfold go_to_MACAddressesDetected, rep_macl, macl_marshal_to. startT. fold mac_write.
  lazymatch goal with |- to_agrees (fin (exec ?n (SSeq ?a ?c) ?s)) (bind ?r ?k) => refine (@to_bind _ (wO s) n a c s r k _ _) end.
  - apply mac_block. reflexivity.
  - intros [b' o'] _. normTL. preT.
Qed.
Lemma to_MACAddressesRemoved n b f : to_agrees (call n go_to_MACAddressesRemoved (rep_macl f) b) (macl_marshal_to f b).
Proof.
  unfold go_to_MACAddressesRemoved, rep_macl, macl_marshal_to. startT. fold mac_write.
  lazymatch goal with |- to_agrees (fin (exec ?n (SSeq ?a ?c) ?s)) (bind ?r ?k) => refine (@to_bind _ (wO s) n a c s r k _ _) end.
  - apply mac_block. reflexivity.
  - intros [b' o'] _. normTL. preT.
Qed.

(** for _, a := range f.x, the strings of a list of PFD Contents *)
Definition item_write : stmt :=
  SBlock (SSeq (SLet "l2" (ELen (EBytes (EVar "a"))))
  (SSeq (SPut 2 (EVar "offset") (EAdd (EVar "offset") (EInt 2)) (EU 16 (EVar "l2")))
  (SSeq (SCopyB (EAdd (EVar "offset") (EInt 2)) (EAdd (EAdd (EVar "offset") (EInt 2)) (EVar "l2")) (EVar "a"))
  (SLet "offset" (EAdd (EVar "offset") (EAdd (EInt 2) (EVar "l2"))))))).
Lemma be_16 x : be 2 (wrap 16 x) = be 2 x.
Proof. change (wrap 16 x) with (x mod 65536)%N. now apply be_cast. Qed.
Lemma item_range n F L l : forall b o M, (M = [] \/ exists v, M = [("a", v)]) ->
  match cp_items l b o with
  | Ok (b', o') => exists M', range n "a" item_write l (St F (("l", L) :: ("offset", GI o) :: M) b) = Next (St F (("l", L) :: ("offset", GI o') :: M') b')
  | Err e => exists s, range n "a" item_write l (St F (("l", L) :: ("offset", GI o) :: M) b) = Done s (Err e)
  | Fault => exists s, range n "a" item_write l (St F (("l", L) :: ("offset", GI o) :: M) b) = Done s Fault
  | Fuel => exists s, range n "a" item_write l (St F (("l", L) :: ("offset", GI o) :: M) b) = Done s Fuel
  end.
Proof.
  induction l as [|m l IH]; intros b o M HM; cbn [cp_items]; [exists M; reflexivity|].
  assert (E : match (b' <- put b o (be 2 (lenN m)) ;; copy_range b' (o + 2) (o + 2 + Datatypes.length m) m) with
      | Ok b' => exec n item_write (setv "a" (GS m) (St F (("l", L) :: ("offset", GI o) :: M) b)) = Next (St F [("l", L); ("offset", GI (o + (2 + Datatypes.length m))); ("a", GS m)] b')
      | Err e => exists s, exec n item_write (setv "a" (GS m) (St F (("l", L) :: ("offset", GI o) :: M) b)) = Done s (Err e)
      | Fault => exists s, exec n item_write (setv "a" (GS m) (St F (("l", L) :: ("offset", GI o) :: M) b)) = Done s Fault
      | Fuel => exists s, exec n item_write (setv "a" (GS m) (St F (("l", L) :: ("offset", GI o) :: M) b)) = Done s Fuel end).
  { unfold item_write, lenN. destruct HM as [->|[v ->]]; run; rewrite !put_be_eq, be_16 by lia; destruct (put b o _) as [b1| | |]; run; try (eexists; reflexivity);
      destruct (copy_range b1 (o + 2) _ m) as [b2| | |]; run; try reflexivity; eexists; reflexivity. }
  cbn [range]. destruct (put b o (be 2 (lenN m))) as [b1| | |]; cbn [bind] in E |- *; try (destruct E as [s ->]; eexists; reflexivity).
  destruct (copy_range b1 (o + 2) (o + 2 + Datatypes.length m) m) as [b2| | |]; cbn [bind] in E |- *; [|destruct E as [s ->]; eexists; reflexivity ..].
  rewrite E. apply IH. apply or_intror. eexists; reflexivity.
Qed.
Definition list_write k y x : stmt :=
  SIf (CHas k (EFld "Flags"))
  (SSeq (SPut 2 (EVar "offset") (EAdd (EVar "offset") (EInt 2)) (EFld y))
  (SSeq (SLet "offset" (EAdd (EVar "offset") (EInt 2)))
  (SBlock (SRange "a" x item_write)))).
Lemma list_block n F L k y x fl m l b o : look "Flags" F = Some (GN fl) -> look y F = Some (GN m) -> look x F = Some (GL l) ->
  sim (wO (St F [("l", L); ("offset", GI o)] b)) (whole (exec n (SSeq (list_write k y x) SSkip) (St F [("l", L); ("offset", GI o)] b))) (cp16l (Go.has k fl) m l b o).
Proof.
  intros H1 H2 H3. unfold list_write, whole, cp16l. rewrite ex_if. cbn [test eval flds of_look]. rewrite H1. cbn [of_look bind num fails].
  destruct (Go.has k fl); [|reflexivity].
  rewrite ex_seq, ex_put. cbn [eval flds vars look String.eqb Ascii.eqb Bool.eqb of_look bind int]. rewrite H2. cbn [of_look bind num buf]. rewrite put_be_eq by reflexivity.
  destruct (put b o (be 2 m)) as [b1|e| |]; cbn [bind fails sim]; try exact I; try reflexivity.
  rewrite ex_seq, ex_let. cbn [eval flds vars look String.eqb Ascii.eqb Bool.eqb of_look bind int fails setv setb upd buf].
  change (exec n (SSeq ?a SSkip) ?s) with (whole (exec n (SSeq a SSkip) s)).
  rewrite ex_block, ex_range. unfold setv, setb. cbn [flds vars buf upd String.eqb Ascii.eqb Bool.eqb]. rewrite H3.
  pose proof (@item_range n F L l b1 (o + 2) [] (or_introl eq_refl)) as R.
  destruct (cp_items l b1 (o + 2)) as [[b' o']| | |]; destruct R as [M R]; rewrite R; reflexivity || exact I.
Qed.
Ltac lstT := lazymatch goal with
  | |- to_agrees (fin (exec ?n (SSeq ?a ?c) ?s)) (bind ?r ?k) =>
      refine (@to_bind _ (wO s) n a c s r k _ _);
      [apply list_block; reflexivity|intros [? ?] _; normTL; preT]
  end.
Lemma to_PFDContents n b f : to_agrees (call n go_to_PFDContents (rep_pfdc f) b) (pfdc_marshal_to f b).
Proof.
  unfold go_to_PFDContents, rep_pfdc, pfdc_marshal_to. startT.
  blkT wO. blkT wO. blkT wO. blkT wO. blkT wO.
  lstT. lstT. lstT.
Qed.
