(** Which accessors can panic. *)
From Verif Require Import Base IETypes IE Bits Header IEProofs IEProofs2 Codec Codec2 Utils UtilsProofs Fields1 Time Fields2 Fields3 Fields4
  FieldsProofs1 FieldsProofs1b FieldsProofs1c FieldsProofs1d FieldsProofs2 FieldsProofs3 FieldsProofs3b FieldsProofs3c FieldsProofs3d
  Access AccTable AccRun AccProofs AccProofs2 AccProofs3.
Set Implicit Arguments.

Lemma fparse_safe k b : fsafe k = true -> returns (fparse k b).
Proof.
  intros S. destruct k; try discriminate S; cbn [fparse]; unfold as_f; (apply returns_bind; [|intros ? _; apply returns_ok]).
  all: first [apply altip_total|apply tag_total|apply dlfl_total|apply fseid_total|apply fteid_total|apply henr_total
    |apply mcast_total|apply macaddr_total|apply mptcp_total|apply nue_total|apply delays_total|apply prstat_total|apply prate_total|apply pmf_total
    |apply redir_total|apply vol3_total|apply ueip_total|apply ulip_total|apply userid_total|apply volm_total].
Qed.
Lemma index_returns (b : list N) k : k < length b -> exists x, index b k = Ok x.
Proof. intros L. unfold index. destruct (nth_error b k) eqn:E; [eauto|]. apply nth_error_None in E. lia. Qed.
Lemma slice_returns (b : list N) lo hi : lo <= hi <= length b -> exists x, slice b lo hi = Ok x /\ length x = hi - lo.
Proof. intros L. exists (firstn (hi - lo) (skipn lo b)). split; [apply slice_ok; lia|]. rewrite firstn_length, skipn_length. lia. Qed.
Lemma slice_len (b : list N) lo hi x : slice b lo hi = Ok x -> length x = hi - lo.
Proof. unfold slice. destruct (Nat.leb_spec lo hi); [|discriminate]. destruct (Nat.leb_spec hi (length b)); [|discriminate]. cbn [andb]. intros E. assert (x = firstn (hi - lo) (skipn lo b)) as -> by congruence. rewrite firstn_length, skipn_length. lia. Qed.
Ltac lf := cbn [bind]; repeat (match goal with
  | |- returns (Ok _) => apply returns_ok
  | |- returns (Err _) => apply returns_err
  | |- context [index ?b ?k] => let x := fresh "x" in let E := fresh "E" in destruct (@index_returns b k) as [x E]; [lia|rewrite E; clear E]
  | |- context [getr ?k ?b ?lo ?hi] => let x := fresh "x" in let E := fresh "E" in destruct (@getr_returns k b lo hi) as [x E]; [lia|lia|lia|rewrite E; clear E]
  | |- context [slice ?b ?lo ?hi] => let x := fresh "x" in let E := fresh "E" in destruct (@slice_returns b lo hi) as (x & E & _); [lia|rewrite E; clear E]
  | |- context [if ?a <? ?b then _ else _] => destruct (Nat.ltb_spec a b)
  | |- context [if ?a =? ?b then _ else _] => destruct (Nat.eqb_spec a b)
  | |- returns (if ?c then _ else _) => destruct c
  | |- returns (bind (if ?c then _ else _) _) => destruct c
  end; cbn [bind]).

Ltac vbinv := match goal with H : VB ?x = VB ?b |- _ => assert (b = x) by congruence; clear H; subst b end.

Section G.
Variable g : N -> bool.
Lemma leaf_safe_ok m l i : leaf_safe m l = true -> m <= length (payload i) -> bytes (payload i) -> returns (leaf_run g l i).
Proof.
  intros S L Hb. destruct l; cbn [leaf_safe leaf_run] in *; unfold as_n, as_s, as_b, as_d, as_t, as_ies, as_node; try discriminate S;
    try (apply Nat.leb_le in S); try apply returns_ok; try apply returns_err.
  - apply returns_bind; [apply value_as_uint_returns|intros ? _; apply returns_ok].
  - unfold value_as_string. lf.
  - destruct (g (ty i)); [lf|]. destruct (decode_fqdn_returns Hb) as [s ->]. lf.
  - unfold timestamp_value. lf.
  - apply returns_bind; [now apply parseMulti_returns|intros ? _; apply returns_ok].
  - now apply fparse_safe.
  - lf.
  - lf.
  - lf.
  - lf.
  - unfold timer_body. lf.
  - lf.
  - lf.
  - lf.
  - lf.
  - unfold failed_rule_id. lf.
  - lf.
  - unfold node_id_type. lf.
  - unfold node_address, node_id_type. lf.
  - lf.
  - lf.
  - unfold node_body. lf. unfold from. destruct (Nat.leb_spec 1 (length (payload i))); [|lia]. cbn [bind].
    lf. destruct (@decode_fqdn_returns (skipn 1 (payload i))) as [s E]; [now apply bytes_skipn|]. rewrite E. lf.
  - lf.
  - lf.
  - lf.
  - unfold tsn_bridge_id. destruct (@index_returns (payload i) 0) as [x E]; [lia|]. rewrite E. cbn [bind].
    destruct (negb (has1 x)); [apply returns_ok|]. destruct (Nat.eqb_spec (length (payload i)) 7) as [L7|L7]; cbn [negb andb].
    + destruct (@slice_returns (payload i) 1 7) as (y & Ey & _); [lia|]. rewrite Ey. apply returns_ok.
    + destruct (Nat.ltb_spec (length (payload i)) 9); [apply returns_err|]. destruct (@slice_returns (payload i) 1 9) as (y & Ey & _); [lia|]. rewrite Ey. apply returns_ok.
Qed.
Lemma leaf_min_ok m l i b : leaf_run g l i = Ok (VB b) -> m <= length (payload i) -> exists k, leaf_min m l = Some k /\ k <= length b.
Proof.
  intros E L. destruct l; cbn [leaf_run leaf_min] in *; unfold as_n, as_s, as_b, as_d, as_t, as_ies, as_node, as_f in *; try (exfalso; okinv; discriminate).
  - okinv. vbinv. exists m. split; [reflexivity|assumption].
  - exfalso. destruct k; cbn [fparse] in E; unfold as_f in E; okinv; discriminate.
  - destruct (Nat.ltb_spec (length (payload i)) 1); [discriminate|]. okinv. vbinv. eexists; split; [reflexivity|lia].
  - unfold node_address in E. okinv; try vbinv; (eexists; split; [reflexivity|]); match goal with H : slice _ _ _ = Ok _ |- _ => apply slice_len in H end; lia.
  - okinv. vbinv. apply slice_len in E0. eexists; split; [reflexivity|]. lia.
  - okinv. vbinv. apply slice_len in E0. eexists; split; [reflexivity|]. lia.
  - eexists; split; [reflexivity|]. lia.
Qed.
Lemma acts_min a t : act_min a (look a t) = true.
Proof.
  assert (H : cases_ok (fun a _ x => act_min a x) act_min = true) by (vm_compute; reflexivity).
  destruct (cases_ok_ok _ _ H a t) as [K|[_ K]]; exact K.
Qed.
Lemma run_min n : forall a i b, run g n a i = Ok (VB b) -> minlen a <= length b.
Proof.
  induction n as [|n IH]; intros a i b E; [discriminate|]. rewrite run_S in E. apply bind_ok in E as (u & C & E). apply check_glen in C. pose proof (acts_min a (ty i)) as K.
  destruct (look a (ty i)) as [l|c ts x|c ts x|c f|c d]; cbn [act_min] in K.
  - destruct (leaf_min_ok _ _ E C) as (k & Ek & Lk). rewrite Ek in K. apply Nat.leb_le in K. lia.
  - apply bind_ok in E as (w & _ & E). destruct w; try discriminate. apply search_ok in E as (y & _ & E). apply IH in E. apply Nat.leb_le in K. lia.
  - apply bind_ok in E as (w & _ & E). destruct w; try discriminate. apply search_ok in E as (y & _ & E). apply IH in E. apply Nat.leb_le in K. lia.
  - apply Nat.eqb_eq in K. lia.
  - apply Nat.eqb_eq in K. lia.
Qed.
Lemma post_safe_ok f i v k k' m : has_kind k v = true -> post_kind f k = Some k' -> post_safe f m = true -> (forall b, v = VB b -> m <= length b) ->
  bytes (payload i) -> returns (post_run f i v).
Proof.
  intros Hk Hf S M Hb. destruct f, k as [ | | | | | | | | |k]; try discriminate Hf; destruct v; try discriminate Hk; cbn [post_run post_safe] in *;
    unfold as_n, as_s; try (pose proof (M _ eq_refl)); try apply returns_ok.
  - apply andb_prop in S as [S1 S2]. apply Nat.leb_le in S1, S2. lf.
  - apply Nat.leb_le in S. lf.
  - lf.
  - lf.
  - lf.
  - apply Nat.leb_le in S. lf.
  - destruct (decode_fqdn_returns Hb) as [s' ->]. lf.
  - destruct k; try discriminate Hf; destruct f; try discriminate Hk; now apply fparse_safe.
  - destruct k; try discriminate Hf; destruct f; try discriminate Hk; now apply fparse_safe.
Qed.
Lemma search_returns p f l : (forall x, In x l -> p x = true -> returns (f x)) -> returns (search p f l).
Proof.
  intros H. induction l as [|x r IH]; cbn [search]; [apply returns_err|]. destruct (p x) eqn:P; [apply H; [now left|assumption]|].
  apply IH. intros y I. apply H. now right.
Qed.
Lemma check_returns gs i : returns (check gs i).
Proof. induction gs as [|[n|t] r IH]; cbn [check]; [apply returns_ok| |]; match goal with |- returns (if ?c then _ else _) => destruct c end; trivial; apply returns_err. Qed.
Lemma check_gmiss gs i : gmiss gs (ty i) = true -> exists e, check gs i = Err e.
Proof.
  induction gs as [|[n|t] r IH]; cbn [gmiss existsb check]; intros G; [discriminate| |].
  - destruct (_ <? _); [eauto|]. now apply IH.
  - destruct (ty i =? t)%N; cbn [negb orb] in *; [now apply IH|eauto].
Qed.
Theorem safe_ok n : forall a i, safe n a (ty i) = true -> bytes (payload i) -> returns (access g a i).
Proof.
  induction n as [|n IH]; intros a i S Hb; [discriminate|]. rewrite access_eq by assumption. cbn [safe] in S. apply orb_prop in S as [S|S].
  { destruct (check_gmiss _ _ S) as [e ->]. apply returns_err. }
  destruct (check_returns (guards (acc_def a)) i) as [[u C]|[e C]]; rewrite C; cbn [bind]; [|apply returns_err]. apply check_glen in C.
  pose proof (acts_kind a (ty i)) as K.
  destruct (look a (ty i)) as [l|c ts x|c ts x|c f|c d].
  - now apply (leaf_safe_ok _ _ S).
  - apply returns_bind; [now apply parseMulti_returns|]. intros is P. apply search_returns. intros y I M. apply memb_spec in M.
    destruct (@parsed_child g _ _ _ Hb P I) as (_ & By & _). apply IH; [|assumption]. rewrite forallb_forall in S. now apply S.
  - apply returns_bind; [now apply parseMulti_returns|]. intros is P. apply search_returns. intros y I M. rewrite M in S. discriminate.
  - apply andb_prop in S as [S1 S2]. apply returns_bind; [now apply IH|]. intros v E. cbn [act_kind] in K.
    destruct (post_kind f (acc_kind c)) eqn:PK; [|discriminate].
    apply (@post_safe_ok f i v (acc_kind c) k (minlen c)); trivial; [now apply access_kind in E|]. intros b ->. now apply run_min in E.
  - apply andb_prop in S as [S1 S2]. apply returns_bind; [now apply IH|]. intros v E. apply access_kind in E. cbn [act_kind] in K.
    apply andb_prop in K as [K _]. apply andb_prop in K as [K _]. apply keq_eq in K. rewrite K in E. destruct v; try discriminate. destruct s; [now apply IH|apply returns_ok].
Qed.
End G.
(** Outside the table no accessor panics, whatever the grouped predicate and the payload. *)
Theorem access_returns g a i : bytes (payload i) -> ~ can_panic a (ty i) -> returns (access g a i).
Proof.
  intros Hb N. apply (@safe_ok g 8); [|assumption]. rewrite safe8. rewrite <- can_panicb_ok in N. destruct (can_panicb a (ty i)); [now contradiction N|reflexivity].
Qed.
(** In any case the call comes back with a value, an error or a panic. *)
Theorem access_terminates g a i : bytes (payload i) -> access g a i <> Fuel.
Proof. intros Hb. apply (@run_nofuel g _ 4); [assumption|apply sdep4|lia]. Qed.

(** ** every pair of the table does panic: a payload for each *)
Definition leaf_bad (l : leaf) : option (N * list N) :=     (* Length, Payload *)
  match l with
  | LFields (K_MACAddressesDetected | K_MACAddressesRemoved) => Some (7, [0; 0; 0; 0; 0; 0; 0])
  | LFields K_OuterHeaderCreation => Some (5, [0; 0x40; 1; 2; 3])
  | LFields K_PFDContents => Some (4, [0x80; 0; 0; 1])
  | LFields K_RemoteGTPUPeer => Some (3, [4; 0; 0])
  | LFields K_SDFFilter => Some (5, [1; 0; 0; 5; 1])
  | LFields K_SourceIPAddress => Some (5, [6; 127; 0; 0; 1])
  | LFields K_TraceInformation => Some (6, [1; 2; 3; 4; 5; 6])
  | LFields K_UserPlaneIPResourceInformation => Some (2, [0x60; 1])
  | LSecs32 => Some (0, [])
  | LSuggestedCount => Some (1, [])
  | LFlowDescription => Some (4, [0; 0; 2; 0])
  | LCSIDs => Some (1, [0])
  | LQFI => Some (2, [0; 0])
  | _ => None
  end%N.
(** an IE of type t with that Length and payload, and the octets of a child *)
Definition bad_ie (t : N) (w : N * list N) : ie := mkIE t (fst w) 0 (snd w) [].
Definition bad_child (t : N) (w : N * list N) : list N := be 2 t ++ be 2 (fst w) ++ snd w.
Fixpoint first_some A B (f : A -> option B) (l : list A) : option (A * B) :=
  match l with [] => None | x :: r => match f x with Some y => Some (x, y) | None => first_some f r end end.
Fixpoint wit (n : nat) (a : acc) (t : N) : option (N * list N) :=
  match n with
  | O => None
  | S n =>
      match look a t with
      | Leaf l => leaf_bad l
      | Via _ ts b => match first_some (wit n b) ts with Some (t', w) => let p := bad_child t' w in Some (lenN p, p) | None => None end
      | ViaOwn _ _ _ => None
      | Then c _ => wit n c t
      | OrElse c _ => wit n c t
      end
  end.
Definition wit_ok (a : acc) (t : N) : bool :=
  match wit 4 a t with
  | Some w => forallb (fun x => N.ltb x 256) (bad_child t w) &&
      match parse default_grouped (bad_child t w) with
      | Ok i => (ty i =? t)%N && match access default_grouped a i with Fault => true | _ => false end
      | _ => false
      end
  | None => false
  end.
(** the octets arrive on the wire: Parse accepts them and the accessor panics on its result *)
Theorem panics_exist a t : can_panic a t -> exists b i, bytes b /\ parse default_grouped b = Ok i /\ ty i = t /\ access default_grouped a i = Fault.
Proof.
  assert (H : forallb (fun '(a, ts) => forallb (wit_ok a) ts) unsafe_table = true) by (vm_compute; reflexivity).
  intros (ts & I & It). rewrite forallb_forall in H. specialize (H _ I). cbn beta iota in H. rewrite forallb_forall in H. specialize (H _ It).
  unfold wit_ok in H. destruct (wit 4 a t) as [w|]; [|discriminate]. apply andb_prop in H as [H1 H2]. exists (bad_child t w).
  destruct (parse default_grouped (bad_child t w)) as [i| | |]; try discriminate. apply andb_prop in H2 as [H2 H3]. apply N.eqb_eq in H2. exists i. split; [|split; [|split]]; trivial.
  - apply Forall_forall. rewrite forallb_forall in H1. intros x J. specialize (H1 x J). apply N.ltb_lt in H1. exact H1.
  - destruct (access default_grouped a i); try discriminate. reflexivity.
Qed.
