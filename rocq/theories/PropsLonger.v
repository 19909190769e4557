(** C107: elements longer than this version of the library knows. A later version of the protocol adds octets behind the
    payload of an element, and elements behind the children of a group; a decoder has to ignore them. *)
From Verif Require Import Base IETypes IE Spec IEProofs IEProofs2 Bits Codec Codec2 Utils Fields1 Time Fields2 Fields3 Fields4 Access AccTable AccRun AccProofs AccProofs2.
From Verif Require Import Reuse ReuseSpec ReuseProofs ReuseProofs2 ReuseProofs3 PropsReuse LongerProofs.
Set Implicit Arguments.

(** ** the structured payloads *)
(** UnmarshalBinary of any XxxFields struct, whatever it holds: once it succeeds, octets behind the payload change nothing *)
Theorem C107_fields : forall f b r y, unmarshal f b = Ok y -> unmarshal f (b ++ r) = Ok y.
Proof. intros. now apply longer. Qed.
Print Assumptions C107_fields.
(** the ParseXxxFields functions *)
Theorem C107_parse : forall k b r v, fparse k b = Ok v -> fparse k (b ++ r) = Ok v.
Proof.
  intros k b r v. rewrite !C91_fresh. intros H. apply bind_ok in H as (x & H & E). injection E as <-. now rewrite (longer _ _ _ H).
Qed.
Print Assumptions C107_parse.
(** So an accepted payload has a shortest accepted prefix: cut before its end the decoder fails, cut anywhere behind it gives
    the same struct. *)
Theorem C107_prefix : forall f b y, unmarshal f b = Ok y ->
  exists n, n <= length b /\ forall m, unmarshal f (firstn m b) = Ok y <-> n <= m.
Proof.
  intros f b y H.
  assert (U : forall m m', m <= m' -> forall z, unmarshal f (firstn m b) = Ok z -> unmarshal f (firstn m' b) = Ok z).
  { intros m m' L z E. replace (firstn m' b) with (firstn m b ++ firstn (m' - m) (skipn m b)); [now apply longer|].
    rewrite <- (firstn_skipn m b) at 3. rewrite firstn_app, firstn_firstn, firstn_length. replace (Nat.min m' m) with m by lia. f_equal.
    destruct (Nat.le_gt_cases m (length b)); [now replace (Nat.min m (length b)) with m by lia|]. rewrite skipn_all2 by lia. now rewrite !firstn_nil. }
  assert (V : forall m, (exists z, unmarshal f (firstn m b) = Ok z) -> unmarshal f (firstn m b) = Ok y).
  { intros m [z E]. rewrite E. apply (@U m (Nat.max m (length b))) in E; [|lia]. rewrite firstn_all2 in E by lia. congruence. }
  assert (W : forall c, unmarshal f (firstn c b) = Ok y -> exists n, n <= c /\ forall m, unmarshal f (firstn m b) = Ok y <-> n <= m).
  { induction c as [|c IH]; intros E.
    - exists 0. split; [lia|]. intros m. split; [lia|]. intros _. now apply (@U 0 m); [lia|].
    - destruct (unmarshal f (firstn c b)) as [z|e| |] eqn:D.
      + destruct (IH ltac:(now rewrite <- D; apply V; exists z)) as (n & L & K). exists n. split; [lia|exact K].
      + exists (S c). split; [lia|]. intros m. split; [|intros L; now apply (@U (S c) m)]. intros M. destruct (Nat.le_gt_cases (S c) m) as [|L]; [assumption|]. apply (@U m c) in M; [congruence|lia].
      + exists (S c). split; [lia|]. intros m. split; [|intros L; now apply (@U (S c) m)]. intros M. destruct (Nat.le_gt_cases (S c) m) as [|L]; [assumption|]. apply (@U m c) in M; [congruence|lia].
      + exists (S c). split; [lia|]. intros m. split; [|intros L; now apply (@U (S c) m)]. intros M. destruct (Nat.le_gt_cases (S c) m) as [|L]; [assumption|]. apply (@U m c) in M; [congruence|lia]. }
  apply W. now rewrite firstn_all.
Qed.
Print Assumptions C107_prefix.
Example C107_ex_fseid : unmarshal (F_fseid fseid0) [2; 0; 0; 0; 0; 0; 0; 0; 7; 127; 0; 0; 1; 9; 9]%N = unmarshal (F_fseid fseid0) [2; 0; 0; 0; 0; 0; 0; 0; 7; 127; 0; 0; 1]%N
  /\ exists y, unmarshal (F_fseid fseid0) [2; 0; 0; 0; 0; 0; 0; 0; 7; 127; 0; 0; 1]%N = Ok y.
Proof. split; [|eexists]; vm_compute; reflexivity. Qed.

(** ** the accessors *)
(** bodies that read the start of the payload *)
Definition steady (l : leaf) : bool :=
  match l with LString | LFQDN | LPayload | LApplyAction | LChildren | LNodeID | LTSNBridgeID | LSuggestedCount => false | _ => true end.
Definition whole (l : leaf) : bool := match l with LPayload | LApplyAction => true | _ => false end.
(** what follows a call that gives the whole payload reads the start of it *)
Definition reads_start (f : post) : bool := match f with PU40 _ _ | PIndex0 | PIndex1 | PPolicyID | PPoolID | PSD => true | _ => false end.
Definition not_own (f : post) : bool := match f with POwnFQDN => false | _ => true end.
Definition gives_whole (a : acc) (t : N) : bool := match look a t with Leaf l => whole l | _ => false end.
(** Accessor a, called on an element of type t, reads the start of the payload only, or (if [v]) searches the children; n bounds
    the nested calls on the element. *)
Fixpoint stable (v : bool) (n : nat) (a : acc) (t : N) : bool :=
  match n with
  | O => false
  | S n => match look a t with
           | Leaf l => steady l
           | Via _ _ _ | ViaOwn _ _ _ => v
           | Then c f => not_own f && stable v n c t || reads_start f && gives_whole c t
           | OrElse c d => stable v n c t && stable v n d t
           end
  end.
Section G.
Variable g : N -> bool.
Local Lemma leaf_ext l i j r : ty j = ty i -> payload j = payload i ++ r -> steady l = true -> ext (leaf_run g l i) (leaf_run g l j).
Proof.
  intros T P S. destruct l; try discriminate S; cbn [leaf_run]; unfold value_as_uint, timestamp_value, timer_body, failed_rule_id, flow_description, node_id_type, node_address, csids, node_id_type, as_n, as_b, as_s, as_d, as_t; rewrite ?T, ?P.
  all: try solve [repeat step].
  - intros v E. now apply C107_parse.
  - step; [|steps]. step; [steps|]. step; [steps|]. intros v. destruct (Nat.ltb_spec (length (payload i)) (a0 + 2)) as [L|L].
    + destruct (getr 2 (payload i) a0 (a0 + 2)); discriminate.
    + destruct (Nat.ltb_spec (length (payload i ++ r)) (a0 + 2)) as [M|M]; [rewrite app_length in M; lia|]. trivial.
Qed.
Local Lemma check_ext gs i j r : ty j = ty i -> payload j = payload i ++ r -> ext (check gs i) (check gs j).
Proof.
  intros T P. induction gs as [|[n|t] gs IH]; cbn [check]; [apply ext_refl| |]; rewrite ?P, ?T.
  - apply ext_need. intros _. exact IH.
  - apply ext_if; intros _; [apply ext_refl|exact IH].
Qed.
Local Lemma post_start f i j b r v : reads_start f = true -> post_run f i (VB b) = Ok v -> post_run f j (VB (b ++ r)) = Ok v.
Proof. intros S. revert v. change (ext (post_run f i (VB b)) (post_run f j (VB (b ++ r)))). destruct f; try discriminate S; cbn [post_run]; unfold as_n, as_s; steps. Qed.
Local Lemma post_same f i j v : not_own f = true -> post_run f i v = post_run f j v.
Proof. destruct f; try discriminate; reflexivity. Qed.

(** what is added is octets ([w] false) or elements ([w] true) *)
Local Lemma stable_ext w (is js : list ie) : forall n a i j r v, bytes (payload j) -> ty j = ty i -> payload j = payload i ++ r ->
  (w = true -> wires g is (payload i) /\ wires g js r) ->
  stable w n a (ty i) = true -> access g a i = Ok v -> access g a j = Ok v.
Proof.
  induction n as [|n IH]; intros a i j r v B T P W S; [discriminate S|]. cbn [stable] in S.
  assert (Bi : bytes (payload i)) by (rewrite P in B; now apply Forall_app in B).
  assert (X : forall v p f, (is <- parseMultiIEs g (payload i) ;; search p f is) = Ok v -> w = true -> (is <- parseMultiIEs g (payload j) ;; search p f is) = Ok v).
  { intros u p f E V. destruct (W V) as [W1 W2]. pose proof (wires_app W1 W2) as W3. rewrite <- P in W3. rewrite (parseMulti_wires W1) in E. rewrite (parseMulti_wires W3).
    cbn [bind] in E |- *. clear - E. induction is as [|x l IH]; cbn [app search] in E |- *; [discriminate|]. destruct (p x); auto. }
  rewrite !access_eq by assumption. rewrite T. revert v.
  match goal with |- forall v, ?x = Ok v -> ?y = Ok v => change (ext x y) end.
  apply ext_bind; [now apply check_ext with r|]. intros _ _. destruct (look a (ty i)) as [l|c ts b|c ts b|c f|c d].
  - now apply leaf_ext with r.
  - intros v E. now apply X.
  - intros v E. now apply X.
  - apply orb_prop in S as [S|S]; apply andb_prop in S as [S1 S2].
    + apply ext_bind; [intros v H; now apply (IH c i j r v)|]. intros v _. rewrite (@post_same f i j v S1). apply ext_refl.
    + intros v H. apply bind_ok in H as (y & H & K). rewrite access_eq in H |- * by assumption. rewrite T. apply bind_ok in H as (u & C & H).
      rewrite (@check_ext _ i j r T P u C). cbn [bind]. unfold gives_whole in S2. destruct (look c (ty i)) as [l| | | |]; try discriminate S2.
      destruct l; try discriminate S2; cbn [leaf_run] in H |- *; rewrite P.
      * injection H as <-. cbn [bind]. revert K. now apply post_start.
      * destruct (Nat.ltb_spec (length (payload i)) 1) as [L|L]; [discriminate H|]. injection H as <-.
        destruct (Nat.ltb_spec (length (payload i ++ r)) 1) as [M|M]; [rewrite app_length in M; lia|]. cbn [bind]. revert K. now apply post_start.
  - apply andb_prop in S as [S1 S2]. apply ext_bind; [intros v H; now apply (IH c i j r v)|]. intros v _. destruct v; try apply ext_refl. destruct s; [|apply ext_refl].
    intros v H. now apply (IH d i j r v).
Qed.

(** Of two elements of the same type, one with octets added behind the payload of the other (their Length and ChildIEs fields
    may be anything), an accessor that reads the start of the payload gives the same value. *)
Theorem C107_accessor : forall n a i j r v, bytes (payload j) -> ty j = ty i -> payload j = payload i ++ r ->
  stable false n a (ty i) = true -> access g a i = Ok v -> access g a j = Ok v.
Proof. intros n a i j r v B T P S H. apply (@stable_ext false [] [] n a i j r v); auto. discriminate. Qed.

(** Elements, of types known or not, added behind the children of a group: the accessor searches the children in order, so it
    gives the same value. *)
Theorem C107_group : forall n a i j is js r v, wires g is (payload i) -> wires g js r -> ty j = ty i -> payload j = payload i ++ r ->
  stable true n a (ty i) = true -> access g a i = Ok v -> access g a j = Ok v.
Proof.
  intros n a i j is js r v W1 W2 T P S H. apply (@stable_ext true is js n a i j r v); auto. rewrite P. exact (wires_bytes (wires_app W1 W2)).
Qed.
End G.
Print Assumptions C107_accessor.
Print Assumptions C107_group.

(** ** which accessors these are *)
(** The accessors that give the rest of the payload as it is, and six others, are not covered; every other accessor is, on
    every element whatever (a group accessor called on its own group gives the children). *)
Definition payload_wide : list acc :=
  [A_ActivatePredefinedRules; A_ApplicationID; A_ApplicationInstanceID; A_ApplyAction; A_BridgeManagementInformationContainer;
   A_CPFunctionFeatures; A_DataNetworkAccessIdentifier; A_DeactivatePredefinedRules; A_DownlinkDataServiceInformation; A_FlowInformation;
   A_ForwardingPolicy; A_FQCSID; A_FramedIPv6Route; A_FramedRoute; A_GBR; A_MBR; A_Multiplier; A_NetworkInstance; A_OuterHeaderRemoval;
   A_PortManagementInformationContainer; A_ReportingTriggers; A_TimeQuotaMechanism; A_UEIPAddressPoolIdentity; A_UPFunctionFeatures;
   A_UsageReportTrigger].
Definition length_bound : list acc :=
  [A_APNDNN; A_SMFSetID; A_NetworkInstanceFQDN; A_NetworkInstanceHeuristic; A_NodeID; A_TSNBridgeID; A_DLBufferingSuggestedPacketCount].
Definition acc_mem (a : acc) (l : list acc) : bool := existsb (fun b => N.eqb (acc_id a) (acc_id b)) l.
Local Lemma acc_mem_In a l : acc_mem a l = true -> In a l.
Proof. unfold acc_mem. rewrite existsb_exists. intros (b & I & E). apply N.eqb_eq, acc_id_inj in E. congruence. Qed.
Local Lemma stable_class v n : forall a t, stable v n a t = stable v n a (tclass t).
Proof.
  induction n; intros a t; [reflexivity|]. cbn [stable]. unfold gives_whole. rewrite (look_class a t), (look_class a (tclass t)).
  replace (tclass (tclass t)) with (tclass t) by (unfold tclass; lia).
  destruct (look a (tclass t)); try reflexivity. { now rewrite (IHn c), (look_class c t). } now rewrite (IHn c), (IHn d).
Qed.
Theorem C107_which : forall a t,
  stable true 4 a t = true \/ look a t = Leaf LChildren \/ In a payload_wide \/ In a length_bound.
Proof.
  pose (X := fun a => (acc_mem a payload_wide || acc_mem a length_bound)%bool).
  assert (H : cases_ok (fun a t x => stable true 4 a t || match x with Leaf LChildren => true | _ => false end || X a)%bool
                       (fun a x => match x with Leaf LChildren | Then _ _ => true | Leaf l => steady l | _ => false end || X a)%bool = true) by (vm_compute; reflexivity).
  assert (H' : forallb (fun a => match dflt (acc_def a) with Then _ _ => X a || forallb (stable true 4 a) (upto 401) | _ => true end)%bool all_accs = true) by (vm_compute; reflexivity).
  assert (M : forall a, X a = true -> In a payload_wide \/ In a length_bound).
  { intros a K. apply orb_prop in K as [K|K]; [left|right]; now apply acc_mem_In. }
  intros a t. destruct (cases_ok_ok _ _ H a t) as [K|[D K]].
  - apply orb_prop in K as [K|K]; [apply orb_prop in K as [K|K]|right; right; now apply M].
    + now left.
    + right. left. destruct (look a t) as [[]| | | |]; try discriminate K. reflexivity.
  - apply orb_prop in K as [K|K]; [|right; right; now apply M].
    destruct (look a t) as [l|c ts b|c ts b|c f|c d] eqn:E; try discriminate K.
    + destruct l; try discriminate K; try (left; cbn [stable]; rewrite E; reflexivity). right. left. reflexivity.
    + pose proof (acc_check _ H' a) as N. cbn beta in N. rewrite <- D in N. apply orb_prop in N as [N|N]; [right; right; now apply M|].
      left. rewrite stable_class. rewrite forallb_forall in N. apply N, upto_In. unfold tclass, tops. lia.
Qed.
Print Assumptions C107_which.

(** a group accessor called on its own group gives the children, the added ones behind the others *)
Theorem C107_children : forall g a i j is js r, wires g is (payload i) -> wires g js r -> ty j = ty i -> payload j = payload i ++ r ->
  look a (ty i) = Leaf LChildren -> access g a i = Ok (VIEs is) -> access g a j = Ok (VIEs (is ++ js)).
Proof.
  intros g a i j is js r W1 W2 T P L H. pose proof (wires_app W1 W2) as W. rewrite <- P in W.
  rewrite access_eq in H |- * by (now eapply wires_bytes; eauto). rewrite T, L. rewrite L in H. apply bind_ok in H as (u & C & _). rewrite (@check_ext _ i j r T P u C).
  cbn [bind leaf_run]. now rewrite (parseMulti_wires W).
Qed.
Print Assumptions C107_children.
(** an accessor that gives the payload gives the added octets too *)
Theorem C107_wide : forall g a i j r, bytes (payload j) -> ty j = ty i -> payload j = payload i ++ r ->
  (look a (ty i) = Leaf LPayload \/ look a (ty i) = Leaf LApplyAction -> access g a i = Ok (VB (payload i)) -> access g a j = Ok (VB (payload i ++ r))) /\
  (look a (ty i) = Leaf LString -> access g a i = Ok (VS (payload i)) -> access g a j = Ok (VS (payload i ++ r))).
Proof.
  intros g a i j r B T P. assert (Bi : bytes (payload i)) by (rewrite P in B; now apply Forall_app in B). rewrite !access_eq by assumption. rewrite T.
  split.
  - intros [L|L] H; rewrite L in *; apply bind_ok in H as (u & C & H); rewrite (@check_ext _ i j r T P u C); cbn [bind leaf_run] in H |- *; rewrite P; [reflexivity|].
    destruct (Nat.ltb_spec (length (payload i)) 1) as [M|M]; [discriminate H|]. destruct (Nat.ltb_spec (length (payload i ++ r)) 1) as [K|K]; [rewrite app_length in K; lia|reflexivity].
  - intros L H. rewrite L in *. apply bind_ok in H as (u & C & H). rewrite (@check_ext _ i j r T P u C). cbn [bind leaf_run] in H |- *. unfold value_as_string in *.
    rewrite T, P. destruct (g (ty i)); [discriminate H|reflexivity].
Qed.
Print Assumptions C107_wide.

(** ** accessors bound to the exact length *)
(** Node ID: the address is taken from all octets behind the type, so with octets added the IPv4 address is gone (the text is
    the one of a nil address) and no error is returned. *)
Theorem C107_node_id_refuted : forall g i j a r, ty i = T_NodeID -> ty j = T_NodeID -> payload i = 0%N :: a -> payload j = payload i ++ r -> bytes (payload j) ->
  length a = 4 -> r <> [] -> length r <> 12 -> access g A_NodeID i = Ok (VNode (NodeIP (Some a))) /\ access g A_NodeID j = Ok (VNode (NodeIP None)).
Proof.
  intros g i j a r Ti Tj Pi Pj B L N M. assert (Bi : bytes (payload i)) by (rewrite Pj in B; now apply Forall_app in B).
  destruct a as [|a0 [|a1 [|a2 [|a3 [|]]]]]; try discriminate L. rewrite Pi in Pj. cbn [app] in Pj. rewrite !access_eq by assumption. rewrite Ti, Tj.
  change (look A_NodeID T_NodeID) with (@Leaf acc LNodeID). change (guards (acc_def A_NodeID)) with [GType T_NodeID; GLen 2]. cbn [check leaf_run]. rewrite Ti, Tj, Pi, Pj. split; [reflexivity|].
  rewrite N.eqb_refl. cbn [negb length Nat.ltb Nat.leb bind]. destruct r as [|r0 r]; [now contradiction N|]. unfold node_body, as_node. cbn [index nth_error bind from length Nat.leb skipn N.eqb to4].
  cbn [length] in M. destruct (Nat.eqb_spec (S (S (S (S (S (length r)))))) 4) as [E|_]; [lia|]. destruct (Nat.eqb_spec (S (S (S (S (S (length r)))))) 16) as [E|_]; [lia|reflexivity].
Qed.
Print Assumptions C107_node_id_refuted.
(** TSN Bridge ID: a MAC address of 6 octets is given when the payload has exactly 7, otherwise 9 are wanted and 8 given. *)
Theorem C107_bridge_id_refuted : forall g i j x a r, ty i = T_TSNBridgeID -> ty j = T_TSNBridgeID -> payload i = x :: a -> payload j = payload i ++ r -> bytes (payload j) ->
  N.testbit x 0 = true -> length a = 6 -> access g A_TSNBridgeID i = Ok (VB a) /\
  (length r = 1 -> access g A_TSNBridgeID j = Err EUnexpectedEOF) /\
  (2 <= length r -> access g A_TSNBridgeID j = Ok (VB (a ++ firstn 2 r))).
Proof.
  intros g i j x a r Ti Tj Pi Pj B X L. assert (Bi : bytes (payload i)) by (rewrite Pj in B; now apply Forall_app in B).
  destruct a as [|a0 [|a1 [|a2 [|a3 [|a4 [|a5 [|]]]]]]]; try discriminate L. rewrite Pi in Pj. cbn [app] in Pj. rewrite !access_eq by assumption. rewrite Ti, Tj.
  change (look A_TSNBridgeID T_TSNBridgeID) with (@Leaf acc LTSNBridgeID). change (guards (acc_def A_TSNBridgeID)) with [GLen 1]. cbn [check leaf_run]. rewrite Pi, Pj.
  unfold tsn_bridge_id. cbn [index nth_error bind length Nat.ltb Nat.leb]. rewrite has1_testbit, X. cbn [negb]. split; [reflexivity|]. split.
  - destruct r as [|r0 [|]]; try discriminate. reflexivity.
  - intros M. destruct r as [|r0 [|r1 r]]; cbn [length] in M; try lia. reflexivity.
Qed.
Print Assumptions C107_bridge_id_refuted.
Example C107_ex_names : stable true 4 A_FTEID T_FTEID = true /\ stable true 4 A_PDRID T_CreatePDR = true /\ stable false 4 A_MBRUL T_MBR = true /\ look A_CreatePDR T_CreatePDR = Leaf LChildren.
Proof. repeat split; vm_compute; reflexivity. Qed.
(** a PDR ID (type 56) with two octets more, alone and behind it an element of an unknown type in a Create PDR *)
Example C107_ex_pdr : access default_grouped A_PDRID (new T_PDRID [0; 7]%N) = Ok (VN 7) /\ access default_grouped A_PDRID (new T_PDRID [0; 7; 1; 2]%N) = Ok (VN 7) /\
  access default_grouped A_PDRID (new T_CreatePDR [0; 56; 0; 2; 0; 7; 1; 200; 0; 1; 9]%N) = Ok (VN 7).
Proof. repeat split; vm_compute; reflexivity. Qed.
