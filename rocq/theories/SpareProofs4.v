(** Spare capacity: which accessors look past the length of a payload. *)
From Verif Require Import Base IETypes IE Bits Header IEProofs IEProofs2 Codec Codec2 Utils UtilsProofs Fields1 Time Fields2 Fields3 Fields4 Access AccTable AccRun
  AccProofs AccProofs2 AccProofs3 AccProofs4 Spare SpareProofs SpareProofs2 SpareProofs3.
Set Implicit Arguments.

Definition post_tight (f : post) (m : nat) : bool :=
  match f with
  | PU40 lo hi => hi <=? m
  | PSD => 4 <=? m
  | _ => true
  end.
Fixpoint tight (n : nat) (a : acc) (t : N) : bool :=
  match n with
  | O => false
  | S n =>
      gmiss (guards (acc_def a)) t ||
      match look a t with
      | Leaf l => leaf_tight (glen (guards (acc_def a))) l
      | Via c ts b => tight n c t && forallb (tight n b) ts
      | ViaOwn c ts b => tight n c t && negb (memb t ts)
      | Then c f => tight n c t && post_tight f (minlen c)
      | OrElse c d => tight n c t && tight n d t
      end
  end.
Section G.
Variable g : N -> bool.
Lemma post_tight_eq f i r v m : post_tight f m = true -> (forall b, plain v = VB b -> m <= length b) -> out (cpost_run f (i, r) v) = post_run f i (plain v).
Proof.
  intros T Hm. assert (D : out (w <- post_run f i (plain v) ;; Ok (CV w)) = post_run f i (plain v)) by apply out_cv.
  destruct f; cbn [cpost_run post_tight] in *; try exact D; destruct v as [v|b q|l]; try exact D; cbn [plain post_run fst snd].
  - apply Nat.leb_le in T. specialize (Hm _ eq_refl). rewrite slice_app by lia. unfold out. now destruct (slice _ _ _).
  - destruct (Nat.ltb_spec (length b) 1); [reflexivity|]. destruct (index b 0) as [n|? | |]; try reflexivity. cbn [bind].
    destruct (Nat.ltb_spec (length b) (N.to_nat n + 1)); [reflexivity|]. now rewrite slice_app, out_cv by lia.
  - destruct (Nat.ltb_spec (length b) 2); [reflexivity|]. rewrite getr_app by lia. destruct (getr 2 b 0 2) as [n|? | |]; try reflexivity. cbn [bind].
    destruct (Nat.ltb_spec (length b) (N.to_nat n + 2)); [reflexivity|]. now rewrite slice_app, out_cv by lia.
  - apply Nat.leb_le in T. specialize (Hm _ eq_refl). rewrite slice_app by lia. unfold out. now destruct (slice _ _ _).
  - destruct v; try exact D. now rewrite cdecode_fqdn_eq, out_cv.
Qed.
Lemma search_tight p q f k (l : list cie) : (forall y, p y = q (fst y)) -> (forall y, In y l -> q (fst y) = true -> out (f y) = k (fst y)) ->
  out (csearch p f l) = search q k (map fst l).
Proof.
  intros Hp Hf. induction l as [|x l IH]; cbn [csearch search map]; [reflexivity|]. rewrite Hp. destruct (q (fst x)) eqn:Q; [apply Hf; [now left|assumption]|].
  apply IH. intros y I. apply Hf. now right.
Qed.
Theorem tight_eq k : forall a n x, tight k a (ty (fst x)) = true -> out (crun g n a x) = run g n a (fst x).
Proof.
  induction k as [|k IH]; intros a n x T; [discriminate|]. destruct n as [|n]; [reflexivity|]. cbn [crun]. rewrite run_S. cbv zeta. cbn [tight] in T.
  apply orb_prop in T as [T|T]; [destruct (check_gmiss _ _ T) as [e ->]; reflexivity|].
  destruct (check _ _) as [[]|e| |] eqn:C; try reflexivity. apply check_glen in C. cbn [bind]. change (lookup (cases (acc_def a)) (dflt (acc_def a)) (ty (fst x))) with (look a (ty (fst x))).
  destruct (look a (ty (fst x))) as [l|c ts b|c ts b|c f|c d].
  - destruct x as [i r]. now apply (@leaf_tight_eq g _ l i r T).
  - apply andb_prop in T as [T1 T2]. rewrite <- (IH c n x T1). unfold out at 2. destruct (crun g n c x) as [v|e| |] eqn:Cv; try reflexivity. cbn [bind].
    apply crun_clean in Cv. destruct v as [v|? ?|l]; cbn [plain]; [destruct v; try reflexivity; destruct Cv|reflexivity|].
    apply search_tight; [reflexivity|]. intros y _ Q. apply IH. rewrite forallb_forall in T2. apply T2. now apply memb_spec.
  - apply andb_prop in T as [T1 T2]. rewrite <- (IH c n x T1). unfold out at 2. destruct (crun g n c x) as [v|e| |] eqn:Cv; try reflexivity. cbn [bind].
    apply crun_clean in Cv. destruct v as [v|? ?|l]; cbn [plain]; [destruct v; try reflexivity; destruct Cv|reflexivity|].
    apply search_tight; [reflexivity|]. intros y _ Q. rewrite Q in T2. discriminate.
  - apply andb_prop in T as [T1 T2]. pose proof (IH c n x T1) as E. rewrite <- E. unfold out at 2. destruct (crun g n c x) as [v|e| |] eqn:Cv; try reflexivity. cbn [bind].
    destruct x as [i r]. apply post_tight_eq with (m := minlen c); [assumption|]. intros b P. unfold out in E. cbn [bind] in E. rewrite P in E. symmetry in E. now apply run_min in E.
  - apply andb_prop in T as [T1 T2]. rewrite <- (IH c n x T1). unfold out at 2. destruct (crun g n c x) as [v|e| |] eqn:Cv; try reflexivity. cbn [bind].
    destruct (plain v) eqn:Ev; try reflexivity. destruct s; [now apply IH|]. unfold out. cbn [bind]. now rewrite Ev.
Qed.
End G.

Lemma tight_class n : forall a t, tight n a t = tight n a (tclass t).
Proof.
  induction n; intros a t; [reflexivity|]. cbn [tight]. rewrite (gmiss_class a t), (look_class a t). f_equal.
  destruct (look a (tclass t)) as [l|c ts b|c ts b|c f|c d] eqn:L; try reflexivity.
  - now rewrite (IHn c).
  - apply viaown_below in L. rewrite (IHn c). f_equal. f_equal. unfold tclass. destruct (N.le_gt_cases t tops); [now rewrite N.min_l by assumption|].
    rewrite N.min_r by lia. rewrite !memb_above by (assumption || lia). reflexivity.
  - now rewrite (IHn c).
  - now rewrite (IHn c), (IHn d).
Qed.
(** the accessors that read past the end, with the IE types at which they can *)
Definition over_table : list (acc * list N) := [
  (A_FlowDescription, [T_ApplicationDetectionInformation; T_FlowInformation]);
  (A_PFDContents, [T_ApplicationIDsPFDs; T_PFDContext; T_PFDContents]);
  (A_SDFFilter, [T_CreatePDR; T_PDI; T_SDFFilter; T_EthernetPacketFilter]);
  (A_SubsequentTimeQuota, [T_CreateURR; T_UpdateURR; T_SubsequentTimeQuota; T_AdditionalMonitoringTime])].
Definition can_overread (a : acc) (t : N) : Prop := exists ts, In (a, ts) over_table /\ In t ts.
Definition can_overreadb (a : acc) (t : N) : bool := existsb (fun '(b, ts) => (acc_id a =? acc_id b)%N && memb t ts) over_table.
Lemma can_overreadb_ok a t : can_overreadb a t = true <-> can_overread a t.
Proof.
  unfold can_overreadb, can_overread. rewrite existsb_exists. split.
  - intros ([b ts] & I & E). apply andb_prop in E as [E1 E2]. apply N.eqb_eq in E1. apply acc_id_inj in E1 as ->. exists ts. split; [assumption|now apply memb_spec].
  - intros (ts & I & T). exists (a, ts). split; [assumption|]. cbn beta iota. rewrite N.eqb_refl. now apply memb_spec.
Qed.
Lemma tight_leaf n a t l : look a t = Leaf l -> leaf_tight (glen (guards (acc_def a))) l = true -> tight (S n) a t = true.
Proof. intros E T. cbn [tight]. rewrite E, T. apply orb_true_r. Qed.
Lemma tight8 : forall a t, tight 8 a t || can_overreadb a t = true.
Proof.
  assert (B : forallb (fun '(_, ts) => forallb (fun t => N.ltb t tops) ts) over_table = true) by (vm_compute; reflexivity).
  assert (C : forall a t, can_overreadb a t = can_overreadb a (tclass t)).
  { intros a t. unfold can_overreadb. induction over_table as [|[b ts] r IH]; [reflexivity|]. cbn [forallb existsb] in *. apply andb_prop in B as [B1 B2].
    rewrite (IH B2). f_equal. f_equal. unfold tclass. destruct (N.le_gt_cases t tops); [now rewrite N.min_l by assumption|].
    rewrite N.min_r by lia. rewrite !memb_above by (assumption || lia). reflexivity. }
  assert (H : cases_ok (fun a t _ => tight 8 a t || can_overreadb a t)
    (fun a x => if match x with Leaf l => leaf_tight (glen (guards (acc_def a))) l | _ => false end then true else forallb (fun t => tight 8 a t || can_overreadb a t) (upto 401)) = true) by (vm_compute; reflexivity).
  intros a t. destruct (cases_ok_ok _ _ H a t) as [K|[D K]]; [exact K|].
  destruct (match look a t with Leaf l => _ | _ => _ end) eqn:T.
  - destruct (look a t) as [l| | | |] eqn:L; try discriminate. now rewrite (tight_leaf 7 a t L T).
  - rewrite (tight_class 8 a t), (C a t). rewrite forallb_forall in K. apply K, upto_In. unfold tclass, tops. lia.
Qed.
Theorem caccess_same g a i r : ~ can_overread a (ty i) -> caccess g a (i, r) = access g a i.
Proof.
  intros H. unfold caccess, access. apply (@tight_eq g 8 a _ (i, r)). cbn [fst]. rewrite <- can_overreadb_ok in H.
  pose proof (tight8 a (ty i)) as T. apply orb_prop in T as [T|T]; [exact T|now contradiction H].
Qed.
Theorem caccess_keeps g a i r : access g a i <> Fault -> caccess g a (i, r) = access g a i.
Proof. intros H. destruct (@run_keeps g (4 * S (length (payload i))) a (i, r)) as [X|X]; [now elim H|exact X]. Qed.
