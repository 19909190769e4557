(** What the accessor named after a constructor returns on an element the constructor made. *)
From Coq Require Import Floats.SpecFloat String.
From Verif Require Import Base IETypes IENames IE Spec Bits IEProofs IEProofs2 IEProps Codec Codec2 Utils UtilsProofs Time TimeProofs Fields1 Fields2 Fields3 Fields4 Access AccTable AccRun AccProofs New NewTable NewRun NewProofs.
Set Implicit Arguments.

(** * The table of constructors *)
Definition is_group (s : shape) : bool := match s with SGroup | SGroup1 | SGroup2 | SGroupT | SGroupT1 => true | _ => false end.
Definition takes_type (s : shape) : bool := match s with SGroupT | SGroupT1 => true | _ => false end.
Lemma con_typed c : (con_type c = None <-> takes_type (con_shape c) = true).
Proof. destruct c; vm_compute; split; intros; (discriminate || reflexivity). Qed.
Lemma con_type_range c t : con_type c = Some t -> (0 < t < 0x8000)%N.
Proof. destruct c; intros [= <-]; split; reflexivity. Qed.
Lemma con_grouped c t : con_type c = Some t -> default_grouped t = is_group (con_shape c).
Proof. destruct c; intros [= <-]; reflexivity. Qed.
Definition misnamed (c : con) : bool :=
  match c with
  | N_NetworkInstanceFQDN | N_NodeIDHeuristic | N_RedundantTransmissionParametersInPDI | N_RedundantTransmissionParametersInFAR => true
  | _ => false
  end.
Fixpoint assoc_in (t : N) (s : string) (l : list (N * string)) : bool :=
  match l with [] => false | (t', s') :: r => if (t =? t')%N then if String.eqb s s' then true else assoc_in t s r else assoc_in t s r end.
Lemma assoc_in_in t s l : assoc_in t s l = true -> In (t, s) l.
Proof.
  induction l as [|[t' s'] r IH]; [discriminate|]. cbn [assoc_in]. destruct (N.eqb_spec t t') as [->|]; [|right; auto].
  destruct (String.eqb_spec s s') as [->|]; [now left|right; auto].
Qed.
Definition drop3 (s : string) : string := match s with String _ (String _ (String _ r)) => r | _ => s end.
Lemma con_named c t : con_type c = Some t -> misnamed c = false -> exists s, con_name c = append "New" s /\ In (t, s) ie_type_names.
Proof.
  intros E M. exists (drop3 (con_name c)). split; [destruct c; reflexivity|]. apply assoc_in_in. destruct c; try discriminate M; try discriminate E; injection E as <-; vm_compute; reflexivity.
Qed.

(** * Running an accessor on a new element *)
Definition guard_ok (t : N) (n : nat) (x : guard) : bool := match x with GType t' => (t =? t')%N | GLen m => m <=? n end.
Lemma check_ok gs i : forallb (guard_ok (ty i) (length (payload i))) gs = true -> check gs i = Ok tt.
Proof.
  induction gs as [|x gs IH]; [reflexivity|]. cbn [forallb check]. intros H. apply andb_prop in H. destruct H as [H1 H2]. destruct x; cbn [guard_ok] in H1.
  - apply Nat.leb_le in H1. apply Nat.ltb_ge in H1. rewrite H1. auto.
  - rewrite H1. cbn [negb]. auto.
Qed.
Lemma access_leaf g a i l : look a (ty i) = Leaf l -> forallb (guard_ok (ty i) (length (payload i))) (guards (acc_def a)) = true -> access g a i = leaf_run g l i.
Proof. intros L G. unfold access. cbn [Nat.mul Nat.add run]. rewrite (check_ok _ _ G). cbn [bind]. unfold look in L. now rewrite L. Qed.

(** what each reader does with an element of the constructor's own type *)
Definition shape_leaf (s : shape) : leaf :=
  match s with
  | SGroup | SGroup1 | SGroup2 | SGroupT | SGroupT1 => LChildren
  | SUint k => LUint k
  | SMask _ | SInts _ | SOcts _ | SAccessAvailability | SDroppedDL | SIPVersion => LUint 1
  | SString => LString | SFQDN => LFQDN
  | STime => LTime | STimer => LTimer | SSecs32 => LSecs32 | SSecs16 => LSecs16 | SMillis => LMillis32 | S50ms => LOctet50ms | SNanos => LNanos64
  | SFields k => LFields k
  | SAuri => LAuri | SSuggestedCount => LSuggestedCount | SFailedRuleID => LFailedRuleID | SNFInstanceID => LNFInstanceID | SNodeID | SNodeIDHeuristic => LNodeID
  | SSNSSAI => LSNSSAI | STSNBridgeID => LTSNBridgeID
  | SOctets | SDownlinkData | SFlowInformation | SForwardingPolicy | SFQCSID | SRates | SMultiplier | SOuterHeaderRemoval | STimeQuotaMechanism | SPoolIdentity | SUPFeatures => LPayload
  end.
Definition con_leaf (c : con) : leaf :=
  match c with
  | N_ApplyAction => LApplyAction
  | N_PagingPolicyIndicator => LPPIndicator
  | N_TGPPInterfaceType => LTGPPInterface
  | _ => shape_leaf (con_shape c)
  end.
(** the least payload the reader's guards let pass *)
Definition con_min (c : con) : nat :=
  fold_right (fun x n => match x with GLen m => Nat.max m n | GType _ => n end) 0 (guards (acc_def (con_reader c))).
Lemma guards_min (gs : list guard) t n : forallb (fun x => match x with GType t' => (t =? t')%N | GLen _ => true end) gs = true ->
  fold_right (fun x n => match x with GLen m => Nat.max m n | GType _ => n end) 0 gs <= n -> forallb (guard_ok t n) gs = true.
Proof.
  induction gs as [|x gs IH]; [reflexivity|]. cbn [forallb fold_right]. intros H L. apply andb_prop in H. destruct H as [H1 H2]. destruct x; cbn [guard_ok].
  - rewrite IH; [|exact H2|lia]. rewrite Bool.andb_true_r. apply Nat.leb_le. lia.
  - rewrite H1. cbn [andb]. apply IH; trivial.
Qed.
Lemma con_look c t : con_type c = Some t -> c <> N_NetworkInstanceFQDN -> look (con_reader c) t = Leaf (con_leaf c) /\
  forallb (fun x => match x with GType t' => (t =? t')%N | GLen _ => true end) (guards (acc_def (con_reader c))) = true.
Proof. destruct c; intros [= <-] K; try (now elim K); split; vm_compute; reflexivity. Qed.
Lemma con_access g c t i : con_type c = Some t -> c <> N_NetworkInstanceFQDN -> ty i = t -> con_min c <= length (payload i) -> access g (con_reader c) i = leaf_run g (con_leaf c) i.
Proof.
  intros T K <- L. destruct (con_look T K) as [E G]. apply access_leaf; [exact E|]. now apply guards_min.
Qed.

(** * The value that comes back *)
Section Read.
Variable g : N -> bool.
Variable beyond : spec_float -> N.
Variable c : con.
(** the constructors other than those of groups build New(T, p) *)
Lemma calls_new s a i : calls g beyond c s a (Ok (Some i)) -> is_group s = false -> exists t p, con_type c = Some t /\ build beyond s a = Ok (Some p) /\ i = new t p.
Proof.
  intros [S M] G. assert (T : exists t, con_type c = Some t).
  { destruct (con_type c) as [t|] eqn:E; [eauto|]. apply con_typed in E. subst s. unfold is_group, takes_type in *. destruct (con_shape c); discriminate. }
  destruct T as [t T]. rewrite T in M. exists t.
  assert (X : make_ie g beyond t s a = (p <- build beyond s a ;; Ok (option_map (new t) p))) by (destruct s; try discriminate G; reflexivity).
  rewrite X in M. apply bind_ok in M. destruct M as [[p|] [B E]]; [|discriminate]. injection E as <-. eauto.
Qed.
Lemma calls_read s a i p : calls g beyond c s a (Ok (Some i)) -> is_group s = false -> c <> N_NetworkInstanceFQDN -> build beyond s a = Ok (Some p) ->
  con_min c <= length p -> payload i = p /\ access g (con_reader c) i = leaf_run g (con_leaf c) i.
Proof.
  intros C G K B L. destruct (calls_new C G) as (t & p' & T & B' & ->). assert (p' = p) by congruence. subst p'. split; [reflexivity|]. now apply con_access with t.
Qed.
End Read.
