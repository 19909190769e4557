(** Spare capacity: decoding does not look past the length; an accessor that returns without it returns the same with it. *)
From Verif Require Import Base IETypes IE Bits IEProofs IEProofs2 Codec Codec2 Utils UtilsProofs Fields1 Time Fields2 Fields3 Fields4 Access AccTable AccRun
  Spare SpareProofs.
Set Implicit Arguments.

(** what does not end in a panic is kept *)
Definition keeps A (x y : res A) : Prop := y = Fault \/ x = y.
Lemma keeps_eq A (x y : res A) : x = y -> keeps x y.
Proof. now right. Qed.
Lemma keeps_bind A B (x y : res A) (f k : A -> res B) : keeps x y -> (forall a, y = Ok a -> x = Ok a -> keeps (f a) (k a)) -> keeps (bind x f) (bind y k).
Proof. intros [-> | ->] H; [now left|]. destruct y; cbn [bind]; [now apply H|now right..]. Qed.
Lemma keeps_if A (c : bool) (x y x' y' : res A) : keeps x y -> keeps x' y' -> keeps (if c then x else x') (if c then y else y').
Proof. now destruct c. Qed.
Lemma slice_keeps b r lo hi : keeps (slice (b ++ r) lo hi) (slice b lo hi).
Proof.
  destruct (le_lt_dec hi (length b)) as [H|H]; [right; now apply slice_app|]. left. unfold slice.
  destruct (Nat.leb_spec hi (length b)); [lia|]. now rewrite andb_false_r.
Qed.
Lemma getr_keeps k b r lo hi : keeps (getr k (b ++ r) lo hi) (getr k b lo hi).
Proof. unfold getr. apply keeps_bind; [apply slice_keeps|]. intros. now right. Qed.

Lemma skipn_firstn_app (l r : list N) k n : k <= length l -> skipn k (l ++ r) = firstn n (skipn k l) ++ (skipn n (skipn k l) ++ r).
Proof. intros H. rewrite skipn_app. replace (k - length l) with 0 by lia. cbn [skipn]. now rewrite app_assoc, firstn_skipn. Qed.

Section B.
Variables b r : list N.
Notation L := (length b).
Notation M := (b ++ r).

(** the same guard, on b[o:] and on b *)
Lemma room_from A o n (x : res A) (y : res A) : o <= L -> keeps x y ->
  keeps (if L <? o + n then Err EUnexpectedEOF else x) (if length (skipn o b) <? n then Err EUnexpectedEOF else y).
Proof. intros H K. rewrite skipn_length. destruct (Nat.ltb_spec L (o + n)), (Nat.ltb_spec (L - o) n); try lia; [now right|assumption]. Qed.
Lemma from_keeps A o (x : res A) (k : list N -> res A) : (o <= L -> keeps x (k (skipn o b))) -> keeps (_ <- cfrom L o ;; x) (q <- from b o ;; k q).
Proof. intros H. unfold cfrom, from. destruct (Nat.leb_spec o L); [now apply H|now left]. Qed.

Lemma sdf_keeps : keeps (sdf_cap L M) (sdf_parse b).
Proof.
  unfold sdf_cap, sdf_parse. destruct (L <? 3); [now right|]. rewrite cindex_eq. apply keeps_bind; [now right|]. intros fl _ _. cbv zeta. apply keeps_bind.
  - destruct (has1 fl); [|now right]. apply from_keeps. intros H. apply room_from; [assumption|].
    apply keeps_bind; [apply getr_keeps|]. intros n _ _. apply keeps_bind; [apply slice_keeps|]. intros; now right.
  - intros [[n fd] o] _ _. right. apply bind_ext; [apply crdsf_eq|]. intros [? ?] _. apply bind_ext; [apply crdsf_eq|]. intros [? ?] _.
    apply bind_ext; [apply crdsf_eq|]. intros [? ?] _. apply bind_ext; [apply crdnf_eq|]. intros [? ?] _. reflexivity.
Qed.

Lemma citems_eq p q : citems (length p) (p ++ q) = pfd_items p.
Proof.
  unfold citems, pfd_items. generalize (S (length p)) as n. intros n. generalize 0 as s. induction n as [|n IH]; intros s; [reflexivity|].
  cbn [citems_from pfd_items_from]. cbv zeta. destruct (Nat.leb_spec (length p) (s + 2)); [reflexivity|]. rewrite getr_app by lia.
  apply bind_ext; [reflexivity|]. intros l _. destruct (Nat.ltb_spec (length p) (s + 2 + N.to_nat l)); [reflexivity|]. rewrite slice_app by lia.
  apply bind_ext; [reflexivity|]. intros a _. now rewrite IH.
Qed.
Lemma crd16s_keeps st c o : keeps (crd16s L M st c o) (rd16s st c b o).
Proof.
  unfold crd16s, rd16s. destruct c; [|now right]. apply from_keeps. intros H. apply room_from; [assumption|].
  apply keeps_bind; [apply getr_keeps|]. intros n _ _. apply keeps_bind; [apply slice_keeps|]. intros; now right.
Qed.
(** the string read, and what follows it in memory *)
Lemma crd16s_rest st c o n p o' : rd16s st c b o = Ok (n, p, o') -> p = [] \/ exists q, skipn (o' - length p) M = p ++ q.
Proof.
  unfold rd16s. destruct c; [|intros E; left; congruence]. intros E. right. apply bind_ok in E as (x & Ex & E).
  destruct (_ <? _) in E; [discriminate|]. apply bind_ok in E as (k & _ & E). apply bind_ok in E as (s & Es & E).
  assert (n = k /\ p = s /\ o' = o + (2 + N.to_nat k)) as (-> & -> & ->) by (repeat split; congruence).
  unfold slice in Es. destruct (Nat.leb_spec (o + 2) (o + 2 + N.to_nat k)); [|discriminate].
  destruct (Nat.leb_spec (o + 2 + N.to_nat k) L); [|discriminate]. cbn [andb] in Es.
  assert (s = firstn (N.to_nat k) (skipn (o + 2) b)) as -> by (replace (N.to_nat k) with (o + 2 + N.to_nat k - (o + 2)) by lia; congruence).
  rewrite firstn_length, skipn_length. replace (o + (2 + N.to_nat k) - Nat.min (N.to_nat k) (L - (o + 2))) with (o + 2) by lia.
  eexists. apply skipn_firstn_app. lia.
Qed.
Lemma items_keeps st c o n p o' : rd16s st c b o = Ok (n, p, o') -> citems (length p) (skipn (o' - length p) M) = pfd_items p.
Proof. intros E. destruct (crd16s_rest _ _ _ E) as [-> | [q ->]]; [reflexivity|apply citems_eq]. Qed.
Lemma pfdc_keeps : keeps (pfdc_cap L M) (pfdc_parse b).
Proof.
  unfold pfdc_cap, pfdc_parse. destruct (L <? 2); [now right|]. rewrite cindex_eq. apply keeps_bind; [now right|]. intros fl _ _. cbv zeta.
  do 5 (apply keeps_bind; [apply crd16s_keeps|]; intros [[? ?] ?] _ _).
  do 3 (apply keeps_bind; [apply crd16s_keeps|]; intros [[? ?] ?] E _; apply keeps_bind; [right; now rewrite (items_keeps _ _ _ E)|]; clear E; intros ? _ _).
  now right.
Qed.

Definition overreads (k : fkind) : bool := match k with K_SDFFilter | K_PFDContents => true | _ => false end.
Lemma fparse_cap_eq k : overreads k = false -> cfparse k L M = fparse k b.
Proof.
  intros H. destruct k; try discriminate H; cbn [cfparse fparse]; unfold as_f; (apply bind_ext; [|reflexivity]).
  all: first [apply altip_cap_eq|apply tag_cap_eq|apply dlfl_cap_eq|apply fseid_cap_eq|apply fteid_cap_eq|apply henr_cap_eq|apply mcast_cap_eq
    |apply macl_cap_eq|apply macaddr_cap_eq|apply mptcp_cap_eq|apply nue_cap_eq|apply ohc_cap_eq|apply delays_cap_eq|apply prstat_cap_eq|apply prate_cap_eq
    |apply pmf_cap_eq|apply redir_cap_eq|apply rpeer_cap_eq|apply srcip_cap_eq|apply vol3_cap_eq|apply trace_cap_eq|apply ueip_cap_eq
    |apply ulip_cap_eq|apply userid_cap_eq|apply upri_cap_eq|apply volm_cap_eq].
Qed.
Lemma fparse_keeps k : keeps (cfparse k L M) (fparse k b).
Proof.
  destruct (overreads k) eqn:O; [|right; now apply fparse_cap_eq].
  destruct k; try discriminate O; cbn [cfparse fparse]; unfold as_f; (apply keeps_bind; [first [apply sdf_keeps|apply pfdc_keeps]|intros; now right]).
Qed.

Lemma cfqdn_loop_eq n : forall o f, cfqdn_loop L M n o f = decode_fqdn_loop n b o f.
Proof.
  induction n as [|n IH]; intros o f; [reflexivity|]. cbn [cfqdn_loop decode_fqdn_loop]. cbv zeta. destruct (L <=? o); [reflexivity|]. rewrite cindex_eq.
  apply bind_ext; [reflexivity|]. intros x _. destruct (Nat.ltb_spec L (o + N.to_nat x + 1)); [reflexivity|]. rewrite slice_app by lia.
  apply bind_ext; [reflexivity|]. intros s _. apply IH.
Qed.
Lemma cdecode_fqdn_eq : cdecode_fqdn L M = decode_fqdn b.
Proof. unfold cdecode_fqdn, decode_fqdn. now rewrite cfqdn_loop_eq. Qed.
Lemma ctimestamp_eq : ctimestamp L M = timestamp_value b.
Proof. unfold ctimestamp, timestamp_value. destruct (Nat.ltb_spec L 4); [reflexivity|]. now rewrite getr_app by lia. Qed.
Lemma cfailed_rule_id_eq : cfailed_rule_id L M = failed_rule_id b.
Proof.
  unfold cfailed_rule_id, failed_rule_id. rewrite cindex_eq. apply bind_ext; [reflexivity|]. intros t _.
  destruct (t =? 0)%N; [destruct (Nat.ltb_spec L 3); [reflexivity|]; now rewrite getr_app by lia|].
  destruct (_ || _ || _); [destruct (Nat.ltb_spec L 5); [reflexivity|]; now rewrite getr_app by lia|].
  destruct (t =? 4)%N; [|reflexivity]. now rewrite cindex_eq.
Qed.
Lemma cflow_description_keeps : keeps (cflow_description L M) (flow_description b).
Proof.
  unfold cflow_description, flow_description. apply keeps_bind; [apply getr_keeps|]. intros l _ _. destruct (_ <? _); [now right|]. apply slice_keeps.
Qed.
Lemma cnode_id_type_eq : cnode_id_type L M = node_id_type b.
Proof. unfold cnode_id_type, node_id_type. now rewrite cindex_eq. Qed.
Lemma cnode_address_eq : (x <- cnode_address L M ;; Ok (fst x)) = node_address b.
Proof.
  unfold cnode_address, node_address. rewrite cnode_id_type_eq. destruct (node_id_type b) as [t|e| |]; try reflexivity. cbn [bind].
  destruct (_ || _); [|destruct (_ =? _)%N; [|reflexivity]].
  - destruct (Nat.ltb_spec L 6); [reflexivity|]. rewrite slice_app by lia. now destruct (slice b 1 5).
  - destruct (Nat.ltb_spec L 18); [reflexivity|]. rewrite slice_app by lia. now destruct (slice b 1 17).
Qed.
Lemma ctsn_bridge_id_eq : (x <- ctsn_bridge_id L M ;; Ok (fst x)) = tsn_bridge_id b.
Proof.
  unfold ctsn_bridge_id, tsn_bridge_id. rewrite cindex_eq. destruct (index b 0) as [t|e| |]; try reflexivity. cbn [bind].
  destruct (negb _); [reflexivity|]. destruct (Nat.eqb_spec L 7) as [E|E]; cbn [negb andb].
  - rewrite slice_app by lia. now destruct (slice b 1 7).
  - destruct (Nat.ltb_spec L 9); [reflexivity|]. rewrite slice_app by lia. now destruct (slice b 1 9).
Qed.
(** the loop of CSIDs runs off the end of the memory *)
Lemma ccsids_loop_fault n : forall o got, length M < o + 2 * n -> L < o + 2 -> ccsids_loop L M n o got = Fault \/ n = 0.
Proof.
  induction n as [|n IH]; intros o got H1 H2; [now right|]. left. cbn [ccsids_loop]. destruct (Nat.ltb_spec L (o + 2)); [|lia].
  unfold getr, slice at 1. destruct (Nat.leb_spec o (o + 2)); [|lia]. destruct (Nat.leb_spec (o + 2) (length M)); [|reflexivity]. cbn [andb bind].
  destruct (getn 2 _) eqn:E; cbn [bind].
  - destruct (IH (o + 2) (got ++ [a])) as [IH'| ->]; [lia|lia|exact IH'|]. cbn in H1. lia.
  - unfold getn in E. destruct (_ <=? _) in E; discriminate.
  - reflexivity.
  - unfold getn in E. destruct (_ <=? _) in E; discriminate.
Qed.
Lemma ccsids_eq : ccsids L M = csids b.
Proof.
  unfold ccsids, csids. rewrite cnode_id_type_eq. apply bind_ext; [reflexivity|]. intros t _. apply bind_ext; [reflexivity|]. intros o E.
  assert (5 <= o) as Ho by (destruct (_ || _) in E; [assert (o = 5) by congruence; lia|destruct (_ =? _)%N in E; [assert (o = 17) by congruence; lia|discriminate]]).
  clear E. destruct (Nat.ltb_spec L (o + 2)).
  - destruct (@ccsids_loop_fault (S (length M)) o []) as [-> | X]; [lia|lia| |discriminate].
    unfold getr, slice. destruct (Nat.leb_spec (o + 2) L); [lia|]. now rewrite andb_false_r.
  - cbn [ccsids_loop]. destruct (Nat.ltb_spec L (o + 2)); [lia|reflexivity].
Qed.
End B.
Lemma cnode_body_eq b r : cnode_body (length b) (b ++ r) = node_body b.
Proof.
  unfold cnode_body, node_body. rewrite cindex_eq. apply bind_ext; [reflexivity|]. intros t _. unfold cfrom, from.
  destruct (Nat.leb_spec 1 (length b)) as [H|H]; [|reflexivity]. cbn [bind]. cbv zeta.
  rewrite skipn_app. replace (1 - length b) with 0 by lia. cbn [skipn]. replace (length b - 1) with (length (skipn 1 b)) by (rewrite skipn_length; lia).
  rewrite firstn_app, firstn_all, Nat.sub_diag, firstn_O, app_nil_r. now rewrite cdecode_fqdn_eq.
Qed.
