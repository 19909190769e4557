(** Which errors the accessors return. *)
From Verif Require Import Base IETypes IE Bits Spec IEProofs IEProofs2 Codec Codec2 Utils UtilsProofs Fields1 Time Fields2 Fields3 Fields4 Access AccTable AccRun AccProofs AccProofs2 Errors ErrorsProofs.
Set Implicit Arguments.

(** where the bodies stand that return anything but io.ErrUnexpectedEOF, ErrIENotFound, InvalidTypeError or an error of the decoder *)
Definition has_type_guard (t : N) (gs : list guard) : bool := existsb (fun x => match x with GType t' => (t' =? t)%N | _ => false end) gs.
Definition leaf_place (a : acc) (t : option N) (l : leaf) : bool :=
  let is u := match t with Some t => (t =? u)%N | None => false end in
  match l with
  | LNodeAddress | LCSIDs => is T_FQCSID
  | LNodeID => has_type_guard T_NodeID (guards (acc_def a))
  | LFail e => match e with EOther => is T_CreatedTrafficEndpoint | _ => false end
  | _ => true
  end.
Lemma leaf_placed : forall a t, match look a t with
  | Leaf l => match l with
              | LNodeAddress | LCSIDs => t = T_FQCSID
              | LNodeID => has_type_guard T_NodeID (guards (acc_def a)) = true
              | LFail e => e = EOther /\ t = T_CreatedTrafficEndpoint
              | _ => True
              end
  | _ => True
  end.
Proof.
  assert (H : cases_ok (fun a t x => match x with Leaf l => leaf_place a (Some t) l | _ => true end)
                       (fun a x => match x with Leaf l => leaf_place a None l | _ => true end) = true) by (vm_compute; reflexivity).
  intros a t. destruct (cases_ok_ok _ _ H a t) as [K|[_ K]]; destruct (look a t) as [[]| | | |]; trivial; try discriminate K;
  cbn [leaf_place] in K; try (now apply N.eqb_eq in K); try exact K.
  - destruct e; try discriminate K. apply N.eqb_eq in K. now split.
  - destruct e; discriminate K.
Qed.

Section G.
Variable g : N -> bool.

Notation inside := (inside g).
Notation acc_err := (acc_err g).
Lemma acc_dec i e : dec_err (payload i) e -> acc_err i e.
Proof. intros [->|[-> S]]; now constructor. Qed.
Lemma acc_eof i e : eof e -> acc_err i e.
Proof. intros ->. constructor. Qed.
Lemma acc_up i is x e : parseMultiIEs g (payload i) = Ok is -> In x is -> acc_err x e -> acc_err i e.
Proof.
  intros P I H. destruct H as [| |S|j J|j y r J|j y r J|j J]; try (now constructor).
  - constructor. apply (@infix_short (payload x)); [|exact S]. now apply (@parse_multi_infix g _ _ _ _ P).
  - constructor. now apply (@inside_child g i is x).
  - apply (@ae_malformed g i j y r); trivial. now apply (@inside_child g i is x).
  - apply (@ae_node g i j y r); trivial. now apply (@inside_child g i is x).
  - apply (@ae_other g i j); trivial. now apply (@inside_child g i is x).
Qed.
Lemma check_only gs i : only (acc_err i) (check gs i).
Proof.
  induction gs as [|[n|t] r IH]; cbn [check]; [apply only_ok| |].
  - destruct (length (payload i) <? n); [apply only_err; constructor|exact IH].
  - destruct (negb (ty i =? t)%N); [apply only_err; constructor; constructor|exact IH].
Qed.
Lemma check_type t gs i u : has_type_guard t gs = true -> check gs i = Ok u -> ty i = t.
Proof.
  induction gs as [|[n|t'] r IH]; cbn [check has_type_guard existsb orb]; [discriminate| |].
  - destruct (length (payload i) <? n); [discriminate|exact IH].
  - destruct (N.eqb_spec (ty i) t') as [E|]; cbn [negb]; [|discriminate]. destruct (N.eqb_spec t' t) as [<-|]; [now intros|exact IH].
Qed.
Lemma uint_only k i : only (acc_err i) (value_as_uint g k i).
Proof.
  unfold value_as_uint. destruct (g (ty i)); [apply only_err; constructor; constructor|].
  destruct (length (payload i) <? k); [apply only_err; constructor|apply only_getr].
Qed.
Lemma node_type_hi x : octet x -> (N.land (N.shiftr x 4) 0x0f =? 0)%N || (N.land (N.shiftr x 4) 0x0f =? 2)%N = false -> (N.land (N.shiftr x 4) 0x0f =? 1)%N = false -> (48 <= x)%N.
Proof.
  intros Hx. replace (N.land (N.shiftr x 4) 15) with (x / 16)%N.
  - intros A B. apply Bool.orb_false_elim in A as [A1 A2]. apply N.eqb_neq in A1, A2, B. assert (3 <= x / 16)%N by lia.
    pose proof (N.div_mod x 16 ltac:(lia)). lia.
  - rewrite N.shiftr_div_pow2. change 15%N with (N.ones 4). rewrite N.land_ones. change (2 ^ 4)%N with 16%N. symmetry. apply N.mod_small.
    unfold octet in Hx. apply N.div_lt_upper_bound; lia.
Qed.
Lemma malformed_at i x r : bytes (payload i) -> ty i = T_FQCSID -> payload i = x :: r ->
  (N.land (N.shiftr x 4) 0x0f =? 0)%N || (N.land (N.shiftr x 4) 0x0f =? 2)%N = false -> (N.land (N.shiftr x 4) 0x0f =? 1)%N = false -> acc_err i EMalformed.
Proof.
  intros B T E A C. apply (@ae_malformed g i i x r); trivial; [constructor|]. rewrite E in B. inversion B; subst. now apply node_type_hi.
Qed.
Ltac wg l := repeat (cbv zeta; first [l | on1]).
Lemma leaf_only a l i u : bytes (payload i) -> look a (ty i) = Leaf l -> check (guards (acc_def a)) i = Ok u -> only (acc_err i) (leaf_run g l i).
Proof.
  intros B A C. pose proof (leaf_placed a (ty i)) as PL. rewrite A in PL.
  assert (EOF : forall T (r : res T), only eof r -> only (acc_err i) r) by (intros T r H; apply (@only_mono _ eof _ _ H); intros e; apply acc_eof).
  assert (TY : acc_err i (EInvalidTypeT (ty i))) by (constructor; constructor).
  assert (FQ : forall p, only (acc_err i) (decode_fqdn p)) by (intros p; apply EOF, eof_fqdn).
  destruct l; cbn [leaf_run];
  unfold as_n, as_s, as_b, as_d, as_t, as_ies, as_node, timestamp_value, value_as_string, suggested_count, timer_body, failed_rule_id, flow_description, node_id_type, tsn_bridge_id;
  try (wg ltac:(first [apply uint_only | apply FQ | apply only_err; first [exact TY | constructor]]); fail).
  - apply only_bind; [|intros; apply only_ok]. apply (@only_mono _ (dec_err (payload i)) _ _ (@parseMulti_only g _ B)). intros e. apply acc_dec.
  - apply EOF, fparse_eof.
  - unfold node_address, node_id_type. apply only_bind; [|intros; apply only_ok]. destruct (payload i) as [|x r] eqn:E; [cbn; apply only_fault|].
    cbn [index nth_error bind]. destruct (_ || _) eqn:C1; [wg ltac:(apply only_err; constructor)|]. destruct (_ =? 1)%N eqn:C2; [wg ltac:(apply only_err; constructor)|].
    apply only_err. rewrite <- E in B. now apply (@malformed_at i x r).
  - unfold csids, node_id_type. apply only_bind; [|intros; apply only_ok]. destruct (payload i) as [|x r] eqn:E; [cbn; apply only_fault|].
    cbn [index nth_error bind]. destruct (_ || _) eqn:C1; [cbn [bind]; wg ltac:(apply only_err; constructor)|].
    destruct (_ =? 1)%N eqn:C2; cbn [bind]; [wg ltac:(apply only_err; constructor)|].
    apply only_err. rewrite <- E in B. now apply (@malformed_at i x r).
  - unfold node_body. apply only_bind; [|intros; apply only_ok]. destruct (payload i) as [|x r] eqn:E; [cbn; apply only_fault|].
    cbn [index nth_error bind]. apply only_bind; [apply only_from|]. intros q _.
    destruct (N.eqb_spec x 0); [apply only_ok|]. destruct (N.eqb_spec x 1); [apply only_ok|]. destruct (N.eqb_spec x 2); [wg ltac:(apply FQ)|].
    apply only_err. apply (@ae_node g i i x r); [constructor|now apply (@check_type _ _ _ _ PL C)|exact E|lia].
  - destruct PL as [-> T]. apply only_err. now apply (@ae_other g i i); [constructor|].
Qed.
Lemma post_only f i v : only (acc_err i) (post_run f i v).
Proof.
  assert (EOF : forall T (r : res T), only eof r -> only (acc_err i) r) by (intros T r H; apply (@only_mono _ eof _ _ H); intros e; apply acc_eof).
  destruct f, v; cbn [post_run]; unfold as_n, as_s;
  wg ltac:(first [apply EOF, fparse_eof | apply EOF, eof_fqdn | apply only_err; constructor]).
Qed.
Lemma search_only (P : err -> Prop) p (f : ie -> res val) l : P EIENotFound -> (forall x, In x l -> only P (f x)) -> only P (search p f l).
Proof.
  intros N0 H. induction l as [|x r IH]; cbn [search]; [now apply only_err|]. destruct (p x); [apply H; now left|]. apply IH. intros y I. apply H. now right.
Qed.
Lemma run_only n : forall a i, bytes (payload i) -> only (acc_err i) (run g n a i).
Proof.
  induction n as [|n IH]; intros a i B; [apply only_fuel|]. rewrite run_S. apply only_bind; [apply check_only|]. intros u C.
  pose proof (via_kids a (ty i)) as K. destruct (look a (ty i)) as [l|c ts b|c ts b|c f|c d] eqn:L.
  - now apply (@leaf_only a l i u).
  - apply only_bind; [now apply IH|]. intros v E. destruct n as [|n]; [discriminate E|]. rewrite (@run_kids g _ _ _ K) in E. unfold as_ies in E.
    destruct (parseMultiIEs g (payload i)) as [is| | |] eqn:P; try discriminate E. assert (v = VIEs is) as -> by (cbn [bind] in E; congruence).
    apply search_only; [constructor|]. intros x I. apply (@only_mono _ (acc_err x)); [apply IH|intros e; now apply (@acc_up i is x)].
    destruct (@parsed_child g _ _ _ B P I) as (_ & Bx & _). exact Bx.
  - apply only_bind; [now apply IH|]. intros v E. destruct n as [|n]; [discriminate E|]. rewrite (@run_kids g _ _ _ K) in E. unfold as_ies in E.
    destruct (parseMultiIEs g (payload i)) as [is| | |] eqn:P; try discriminate E. assert (v = VIEs is) as -> by (cbn [bind] in E; congruence).
    apply search_only; [constructor|]. intros x I. apply (@only_mono _ (acc_err x)); [apply IH|intros e; now apply (@acc_up i is x)].
    destruct (@parsed_child g _ _ _ B P I) as (_ & Bx & _). exact Bx.
  - apply only_bind; [now apply IH|]. intros v _. apply post_only.
  - apply only_bind; [now apply IH|]. intros v _. destruct v; try apply only_fault. destruct s; [now apply IH|apply only_ok].
Qed.
Lemma access_only a i : bytes (payload i) -> only (acc_err i) (access g a i).
Proof. apply run_only. Qed.
End G.
