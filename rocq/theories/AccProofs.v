(** Generic facts about the accessors: types, fuel, and the equation of each accessor. *)
From Verif Require Import Base IETypes IE Bits Spec IEProofs IEProofs2 Header Codec Utils UtilsProofs Codec2 Fields1 Time Fields2 Fields3 Fields4
  FieldsSpec3 FieldsProofs1 FieldsProofs1b FieldsProofs1c FieldsProofs1d FieldsProofs2 FieldsSpec4 FieldsProofs3 FieldsProofs3b FieldsProofs3c FieldsProofs3d
  FieldsProofs4 FieldsProofs4b FieldsProofs4c FieldsProofs4d Access AccTable AccRun.
Set Implicit Arguments.

Definition look (a : acc) (t : N) : action acc := lookup (cases (acc_def a)) (dflt (acc_def a)) t.

(** * Checking a fact about every accessor and every type *)
Lemma acc_nth a : nth_error all_accs (N.to_nat (acc_id a)) = Some a.
Proof. destruct a; reflexivity. Qed.
Lemma all_accs_all a : In a all_accs.
Proof. eapply nth_error_In. apply acc_nth. Qed.
Lemma acc_id_inj a b : acc_id a = acc_id b -> a = b.
Proof. intros E. pose proof (acc_nth a) as H. rewrite E, acc_nth in H. congruence. Qed.
Lemma acc_check (f : acc -> bool) : forallb f all_accs = true -> forall a, f a = true.
Proof. intros H a. rewrite forallb_forall in H. apply H, all_accs_all. Qed.

(** no type code above 400 is mentioned in the accessors *)
Definition tops : N := 400.
Definition tclass (t : N) : N := N.min t tops.
Fixpoint below {A} (cs : list (list N * action A)) : bool :=
  match cs with [] => true | (ts, _) :: r => forallb (fun t => N.ltb t tops) ts && below r end.
Lemma all_below : forall a, below (cases (acc_def a)) = true.
Proof. apply acc_check. vm_compute. reflexivity. Qed.
Lemma memb_spec t ts : memb t ts = true <-> In t ts.
Proof.
  unfold memb. rewrite existsb_exists. split.
  - intros (x & H & E). apply N.eqb_eq in E. congruence.
  - intros H. exists t. now rewrite N.eqb_refl.
Qed.
Lemma memb_above t ts : forallb (fun t => N.ltb t tops) ts = true -> (tops <= t)%N -> memb t ts = false.
Proof.
  intros F L. destruct (memb t ts) eqn:M; [|reflexivity]. apply memb_spec in M. rewrite forallb_forall in F. apply F in M.
  apply N.ltb_lt in M. lia.
Qed.
Lemma lookup_class {A} (cs : list (list N * action A)) d t : below cs = true -> lookup cs d t = lookup cs d (tclass t).
Proof.
  intros B. unfold tclass. destruct (N.le_gt_cases t tops) as [L|L]; [rewrite N.min_l by assumption; reflexivity|].
  rewrite N.min_r by lia. induction cs as [|[ts a] r IH]; [reflexivity|]. cbn in B. apply andb_prop in B as [B1 B2]. cbn [lookup].
  rewrite !memb_above by (assumption || lia). now apply IH.
Qed.
Lemma look_class a t : look a t = look a (tclass t).
Proof. apply lookup_class, all_below. Qed.

Fixpoint upto (n : nat) : list N := match n with O => [] | S n => N.of_nat n :: upto n end.
Lemma upto_In n t : (t < N.of_nat n)%N -> In t (upto n).
Proof. induction n; intros H; [lia|]. cbn [upto]. destruct (N.eq_dec t (N.of_nat n)); [left; congruence|right; apply IHn; lia]. Qed.
Definition check2 (f : acc -> N -> bool) : bool := forallb (fun a => forallb (f a) (upto 401)) all_accs.
Lemma check2_ok f : (forall a t, f a t = f a (tclass t)) -> check2 f = true -> forall a t, f a t = true.
Proof.
  intros C H a t. unfold check2 in H. apply (acc_check _ H a) || idtac.
  pose proof (@acc_check (fun a => forallb (f a) (upto 401)) H a) as K. cbn beta in K. rewrite C. rewrite forallb_forall in K. apply K.
  apply upto_In. unfold tclass, tops. lia.
Qed.

(** * Decoding the children *)
Section G.
Variable g : N -> bool.

Lemma accepteds_child is b : accepteds g is b -> bytes b -> forall x, In x is ->
  (ty x < 65536)%N /\ bytes (payload x) /\ length (payload x) + 4 <= length b.
Proof.
  induction 1 as [|i w is rest A _ IH]; intros Hb x; [contradiction|]. apply Forall_app in Hb as [Hw Hr]. intros [<-|I].
  - assert (H : (ty i < 65536)%N /\ bytes (payload i) /\ length (payload i) + 4 <= length w).
    { destruct A as [t l e cs h body rest' WH B _ _ _|t l e h WH]; cbn [ty payload].
      - pose proof (wire_header_nonempty WH). split; [exact (wire_header_ty WH)|]. split; [exact B|]. rewrite app_length. lia.
      - pose proof (wire_header_nonempty WH). split; [exact (wire_header_ty WH)|]. split; [constructor|]. cbn. lia. }
    rewrite app_length. intuition lia.
  - destruct (IH Hr x I) as (? & ? & ?). rewrite app_length. intuition lia.
Qed.
Lemma parsed_child b is x : bytes b -> parseMultiIEs g b = Ok is -> In x is ->
  (ty x < 65536)%N /\ bytes (payload x) /\ length (payload x) + 4 <= length b.
Proof. intros Hb E I. apply (@parseMulti_iff g b is Hb) in E. now apply (accepteds_child E Hb). Qed.

(** * Leaves do not run out of fuel *)
Definition nofuel {A} (r : res A) : Prop := r <> Fuel.
Lemma nofuel_bind {A B} (r : res A) (k : A -> res B) : nofuel r -> (forall a, r = Ok a -> nofuel (k a)) -> nofuel (bind r k).
Proof. unfold nofuel. destruct r; cbn; intros H1 H2; try discriminate; [now apply H2|congruence]. Qed.
Lemma nofuel_returns {A} (r : res A) : returns r -> nofuel r.
Proof. intros [[a ->]|[e ->]]; discriminate. Qed.
Lemma nofuel_or {A} (r : res A) : r = Fault \/ returns r -> nofuel r.
Proof. intros [->|H]; [discriminate|now apply nofuel_returns]. Qed.
Lemma index_nofuel b k : nofuel (index b k).
Proof. unfold index. destruct (nth_error b k); discriminate. Qed.
Lemma slice_nofuel b lo hi : nofuel (slice b lo hi).
Proof. unfold slice. destruct (_ && _); discriminate. Qed.
Lemma from_nofuel b lo : nofuel (from b lo).
Proof. unfold from. destruct (_ <=? _); discriminate. Qed.
Lemma getr_nofuel k b lo hi : nofuel (getr k b lo hi).
Proof. unfold getr. apply nofuel_bind; [apply slice_nofuel|]. intros a _. unfold getn. destruct (_ <=? _); discriminate. Qed.
Lemma rd_nofuel n b o : nofuel (rd n b o).
Proof. apply nofuel_returns, rd_returns. Qed.
Ltac nf := repeat (match goal with
  | |- nofuel (bind _ _) => apply nofuel_bind; [|intros ? _]
  | |- nofuel (index _ _) => apply index_nofuel
  | |- nofuel (slice _ _ _) => apply slice_nofuel
  | |- nofuel (from _ _) => apply from_nofuel
  | |- nofuel (getr _ _ _ _) => apply getr_nofuel
  | |- nofuel (rd _ _ _) => apply rd_nofuel
  | |- nofuel (rdb _ _ _ _ _) => unfold rdb
  | |- nofuel (rdn _ _ _ _ _) => unfold rdn
  | |- nofuel (rds _ _ _ _ _) => unfold rds
  | |- nofuel (Ok _) => discriminate
  | |- nofuel (Err _) => discriminate
  | |- nofuel Fault => discriminate
  | |- nofuel (let '(_, _) := ?p in _) => destruct p
  | |- nofuel (if ?c then _ else _) => destruct c
  | |- nofuel (match ?x with _ => _ end) => destruct x
  end; cbv zeta).
Lemma fparse_nofuel k b : bytes b -> nofuel (fparse k b).
Proof.
  intros Hb. destruct k; cbn [fparse]; unfold as_f; (apply nofuel_bind; [|discriminate]).
  all: try (apply nofuel_returns; first [apply altip_total|apply tag_total|apply dlfl_total|apply fseid_total|apply fteid_total|apply henr_total
    |apply mcast_total|apply macaddr_total|apply mptcp_total|apply nue_total|apply delays_total|apply prstat_total|apply prate_total|apply pmf_total
    |apply redir_total|apply vol3_total|apply ueip_total|apply ulip_total|apply userid_total|apply volm_total]; fail).
  1,2: destruct (macl_parse_else Hb) as [[f ->]|[->| ->]]; discriminate.
  - intros F. apply (nofuel_returns (@ohc_returns b Hb ltac:(congruence)) F).
  - destruct (pfdc_parse_cases Hb) as [->|[->|[f ->]]]; discriminate.
  - unfold rpeer_parse. nf.
  - intros F. apply (nofuel_returns (@sdf_returns b Hb ltac:(congruence)) F).
  - unfold srcip_parse. nf.
  - intros F. apply (nofuel_returns (@trace_returns b Hb ltac:(congruence)) F).
  - intros F. apply (nofuel_returns (@upri_returns b Hb ltac:(congruence)) F).
Qed.
Lemma fqdn_nofuel b : bytes b -> nofuel (decode_fqdn b).
Proof. intros Hb. destruct (decode_fqdn_returns Hb) as [s ->]. discriminate. Qed.
Lemma bytes_skipn n (b : list N) : bytes b -> bytes (skipn n b).
Proof. intros H. rewrite <- (firstn_skipn n b) in H. now apply Forall_app in H. Qed.
Lemma leaf_nofuel l i : bytes (payload i) -> nofuel (leaf_run g l i).
Proof.
  intros Hb. destruct l; cbn [leaf_run]; unfold as_n, as_s, as_b, as_d, as_t, as_ies, as_node; try discriminate.
  - unfold value_as_uint. nf.
  - unfold value_as_string. nf.
  - nf. now apply fqdn_nofuel.
  - unfold timestamp_value. nf.
  - nf. now apply nofuel_returns, parseMulti_returns.
  - now apply fparse_nofuel.
  - nf.
  - nf.
  - nf.
  - nf.
  - unfold timer_body. nf.
  - nf.
  - nf.
  - nf.
  - unfold suggested_count, value_as_uint. nf.
  - nf.
  - unfold failed_rule_id. nf.
  - nf.
  - unfold flow_description. nf.
  - unfold node_id_type. nf.
  - unfold node_address, node_id_type. nf.
  - unfold csids, node_id_type. nf.
  - nf.
  - nf.
  - unfold node_body. apply nofuel_bind; [|discriminate]. apply nofuel_bind; [nf|]. intros t _. apply nofuel_bind; [nf|]. intros q E.
    repeat match goal with |- nofuel (if ?c then _ else _) => destruct c end; try discriminate.
    apply nofuel_bind; [|discriminate]. apply fqdn_nofuel. unfold from in E. destruct (_ <=? _); [|discriminate]. apply (bytes_skipn 1) in Hb. assert (q = skipn 1 (payload i)) as -> by congruence. exact Hb.
  - nf.
  - nf.
  - nf.
  - nf.
  - unfold tsn_bridge_id. nf.
Qed.
Lemma post_nofuel f i v : bytes (payload i) -> nofuel (post_run f i v).
Proof.
  intros Hb. destruct f, v; cbn [post_run]; unfold as_n, as_s; try discriminate; nf; try (now apply fqdn_nofuel).
  all: cbn [fparse]; unfold as_f; apply nofuel_bind; [apply nofuel_returns, tag_total|discriminate].
Qed.
End G.
