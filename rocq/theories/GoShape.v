(** The struct left by UnmarshalBinary, whichever way it ends, is a struct of the type. *)
From Coq Require Import String.
From Verif Require Import Base Bits Codec Codec2 Utils Fields1 Time Fields2 Fields3 Fields4 Access Reuse Go GoFields GoRep GoProofs GoTo GoMeta GoType.
Set Implicit Arguments.
Open Scope string_scope.
Open Scope list_scope.
Open Scope nat_scope.

(** the members of the type and their types, read off a new struct *)
Definition mty_of (v : gval) : mty := match v with GN _ | GI _ | GNil => TN | GB None => TB | GB (Some _) => TC | GS _ => TS | GL _ => TL | GT _ => TT end.
Definition ksig (k : fkind) : sig := match rep k (fzero k) with Some F => map (fun p => (fst p, mty_of (snd p))) F | None => [] end.
Lemma rep_fits k f F : rep k f = Some F -> fits (ksig k) F = true.
Proof. intros E. destruct k, f; try discriminate E; injection E as <-; reflexivity. Qed.
Lemma go_un_typed k : typed (ksig k) (go_un k) = true.
Proof. destruct k; reflexivity. Qed.
Lemma fits_cons x t K F : fits ((x, t) :: K) F = true -> exists v G, F = (x, v) :: G /\ of_mty t v = true /\ fits K G = true.
Proof.
  destruct F as [|[y v] G]; [discriminate|]. cbn [fits]. intros H. apply andb_prop in H as [H H3]. apply andb_prop in H as [H1 H2].
  apply String.eqb_eq in H1. subst y. eauto.
Qed.
Lemma fits_nil F : fits [] F = true -> F = [].
Proof. now destruct F. Qed.
Ltac unfit H :=
  match type of H with
  | fits [] _ = true => apply fits_nil in H; subst
  | fits (_ :: _) _ = true =>
      let v := fresh "v" in let G := fresh "G" in let T := fresh "T" in let R := fresh "R" in
      apply fits_cons in H; destruct H as (v & G & -> & T & R); destruct v; try discriminate T; unfit R
  end.
Lemma fits_rep k F : fits (ksig k) F = true -> exists g, rep k g = Some F.
Proof.
  intros H. destruct k; match type of H with fits ?K F = true => let K' := eval vm_compute in K in change (fits K' F = true) in H end; unfit H;
  repeat match goal with T : of_mty TC (GB ?b) = true |- _ => is_var b; destruct b; [|discriminate T] end.
  all: match goal with |- exists g, rep ?k g = _ => let z := eval cbv [fzero] in (fzero k) in
         match z with ?w _ => unshelve eexists; [apply w; econstructor|] end end.
  all: try (cbn [rep]; match goal with |- Some (?r _) = _ => unfold r; reflexivity end).
Qed.
Theorem left_shape k f F b n : rep k f = Some F -> exists g, rep k g = Some (flds (fst (call n (go_un k) F b))).
Proof. intros E. apply fits_rep. rewrite call_end. apply typed_keeps; [apply go_un_typed|]. cbn [flds]. eapply rep_fits; eauto. Qed.

(** the number of octets below which UnmarshalBinary gives up at once *)
Definition least (k : fkind) : nat :=
  match k with
  | K_DLFlowLevelMarking | K_FTEID | K_MACAddressesDetected | K_MACAddressesRemoved | K_NumberOfUEIPAddresses | K_PMFAddressInformation | K_PacketDelayThresholds | K_QoSMonitoringMeasurement | K_UEIPAddress | K_UELinkSpecificIPAddress | K_UserID => 1
  | K_CTAG | K_RedirectInformation | K_SDFFilter | K_STAG => 3
  | K_MPTCPAddressInformation => 4
  | K_TraceInformation => 6
  | K_FSEID => 9
 | _ => 2
  end.
Lemma short_gen n m c F b : List.length b < m ->
  call n (SSeq (SLet "l" (ELen EBuf)) (SSeq (SIf (CLt (EVar "l") (EInt m)) SEof) c)) F b = (St F [("l", GI (List.length b))] b, Err EUnexpectedEOF).
Proof.
  intros L. apply Nat.ltb_lt in L. unfold call. cbn -[Nat.ltb]. rewrite L. reflexivity.
Qed.
Theorem left_short k F b n : List.length b < least k -> call n (go_un k) F b = (St F [("l", GI (List.length b))] b, Err EUnexpectedEOF).
Proof. intros L. destruct k; cbn [least] in L; cbn [go_un]; match goal with |- call _ ?c _ _ = _ => unfold c end; apply short_gen; exact L. Qed.

(** no assignment to the member x *)
Fixpoint spares (x : string) (c : stmt) : bool :=
  match c with
  | SSeq a b => spares x a && spares x b
  | SBlock a | SIf _ a | SLoop a | SRange _ _ a => spares x a
  | SSet y _ | SCopyF y _ => negb (String.eqb x y)
  | SPlmn y z _ => negb (String.eqb x y) && negb (String.eqb x z)
  | _ => true
  end.
Lemma look_other x y v F : String.eqb x y = false -> look x (upd y v F) = look x F.
Proof.
  intros H. induction F as [|[z w] F IH]; cbn [upd look]; [now rewrite H|].
  destruct (String.eqb_spec y z) as [->|]; cbn [look]; [now rewrite H|]. destruct (String.eqb x z); auto.
Qed.
Lemma look_self x v F : look x (upd x v F) = Some v.
Proof. induction F as [|[z w] F IH]; cbn [upd look]; [now rewrite String.eqb_refl|]. destruct (String.eqb_spec x z) as [->|E]; cbn [look]; [now rewrite String.eqb_refl|]. apply String.eqb_neq in E. now rewrite E. Qed.
Lemma spares_keeps x n c s : spares x c = true -> look x (flds (at_end (exec n c s))) = look x (flds s).
Proof.
  intros H. symmetry. revert H. revert s. refine (@run_inv (spares x) (fun s t => look x (flds s) = look x (flds t)) _ _ _ _ _ _ _ _ _ n c); auto.
  - congruence.
  - intros s s' E _. now rewrite E.
  - cbn [spares]. intros a b H. now apply andb_prop.
  - intros m d s H. destruct d; try exact I; cbn [exec spares] in *.
    + apply Bool.negb_true_iff in H. prims. destruct (look x0 (flds s)); cbn [at_end]; [|reflexivity]. unfold setf. cbn [flds]. now rewrite look_other.
    + apply andb_prop in H as [H1 H2]. apply Bool.negb_true_iff in H1, H2. prims. match goal with p : (list N * list N)%type |- _ => destruct p end.
      unfold setf. cbn [at_end flds]. now rewrite !look_other.
    + apply Bool.negb_true_iff in H. prims. destruct (look x0 (flds s)) as [[]|]; cbn [at_end]; try reflexivity. unfold setf. cbn [flds]. now rewrite look_other.
    + prims.
    + prims.
    + prims.
Qed.
Lemma first_gen n m x e c F b v w : m <= List.length b -> look x F = Some w -> eval (St F [("l", GI (List.length b))] b) e = Ok v -> spares x c = true ->
  look x (flds (fst (call n (SSeq (SLet "l" (ELen EBuf)) (SSeq (SIf (CLt (EVar "l") (EInt m)) SEof) (SSeq (SSet x e) c))) F b))) = Some v.
Proof.
  intros L Hx He Hc. rewrite call_end. assert (G : (List.length b <? m) = false) by (apply Nat.ltb_ge; exact L).
  set (c0 := SSeq (SSet x e) c).
  assert (E : exec n (SSeq (SLet "l" (ELen EBuf)) (SSeq (SIf (CLt (EVar "l") (EInt m)) SEof) c0)) (St F [] b) = exec n c0 (St F [("l", GI (List.length b))] b)).
  { cbn -[Nat.ltb c0]. now rewrite G. }
  rewrite E. unfold c0. cbn [exec]. rewrite He. cbn [fails flds]. rewrite Hx. rewrite spares_keeps by exact Hc. apply look_self.
Qed.
(** the member assigned first and its value *)
Definition first_member (k : fkind) (b : list N) : string * N :=
  match k with
  | K_HeaderEnrichment => ("HeaderType", hd 0%N b)
  | K_MACAddressesDetected | K_MACAddressesRemoved => ("NumberOfMACAddresses", hd 0%N b)
  | K_OuterHeaderCreation => ("OuterHeaderCreationDescription", (256 * hd 0 b + hd 0 (tl b))%N)
  | K_RedirectInformation => ("RedirectAddressType", hd 0%N b)
  | _ => ("Flags", hd 0%N b)
  end.
Theorem left_first k f F b n : k <> K_TraceInformation -> rep k f = Some F -> least k <= List.length b ->
  look (fst (first_member k b)) (flds (fst (call n (go_un k) F b))) = Some (GN (snd (first_member k b))).
Proof.
  intros K E L. destruct k; try congruence; destruct f; try discriminate E; injection E as <-; cbn [first_member fst snd go_un least] in *;
    match goal with |- context [call _ ?c _ _] => unfold c end;
    (eapply first_gen; [exact L|reflexivity| |reflexivity]); destruct b as [|x [|y b]]; cbn [List.length] in L; try lia; try reflexivity.
  unfold eval, getn, slice. cbn -[N.mul N.add]. unfold unbe. cbn -[N.mul N.add]. do 2 f_equal. lia.
Qed.
