(** Proofs about SeenMem.v. *)
From Verif Require Import Base IETypes IE Bits Codec Fields1 Access AccTable AccRun Seen SeenProofs SeenMem.
From Verif Require Import Alias AliasProofs AliasProofs2.
Set Implicit Arguments.

(** the slices reachable from a result *)
Definition reach (x : sval) : list sl :=
  match x with SV _ => [] | SB s => [s] | SIEs l => flat_map slices l | SF _ p => [p] end.
(** a copy, without slices *)
Definition copied (v : val) : Prop := match v with VB _ | VIEs _ => False | VF f => slots f = [] | _ => True end.
Definition proper (h : heap) (x : sval) : Prop :=
  match x with SV v => copied v | SF v p => exists k, fseen k (rd h p) = Ok v | _ => True end.
(** the memory version computes what AccRun.v computes, and its slices lie in b *)
Definition sims (h : heap) (b : sl) (r : res sval) (r' : res val) : Prop :=
  rmap (shown h) r = r' /\ forall x, r = Ok x -> proper h x /\ forall s, In s (reach x) -> within s b.
Section G.
Variable g : N -> bool.
Variable h : heap.

Lemma sims_copy b r : (forall v, r = Ok v -> copied v) -> sims h b (v <- r ;; Ok (SV v)) r.
Proof. intros C. destruct r; (split; [reflexivity|]); intros x E; try discriminate. injection E as <-. split; [now apply C|intros s []]. Qed.
Lemma copied_bind {A} (r : res A) c v : (forall a, copied (c a)) -> (x <- r ;; Ok (c x)) = Ok v -> copied v.
Proof. intros C E. apply bind_ok in E. destruct E as (a & _ & [= <-]). apply C. Qed.
Lemma sims_slice b r r' : (forall s, r = Ok s -> within s b) -> rmap (rd h) r = r' -> sims h b (s <- r ;; Ok (SB s)) (as_b r').
Proof.
  intros W <-. destruct r as [s| | |]; (split; [reflexivity|]); intros x E; try discriminate. injection E as <-. split; [exact I|]. intros t [<-|[]]. auto.
Qed.
Lemma sub_sim p lo hi : valid h p -> rmap (rd h) (sub p lo hi) = slice (rd h p) lo hi.
Proof.
  intros V. unfold sub, slice. rewrite rd_length by assumption. destruct (Nat.leb_spec lo hi), (Nat.leb_spec hi (slen p)); cbn [andb rmap]; try reflexivity.
  rewrite rd_part by lia. reflexivity.
Qed.
Lemma sub_within p lo hi s : sub p lo hi = Ok s -> within s p.
Proof. intros E. apply sub_ok in E. destruct E as (-> & H1 & H2). apply part_within. lia. Qed.
Lemma nil_within b : within nil_slice b. Proof. left. reflexivity. Qed.
Lemma view_payload i : payload (view h i) = rd h (spay i). Proof. destruct i; reflexivity. Qed.
Lemma view_ty i : ty (view h i) = sty i. Proof. destruct i; reflexivity. Qed.

Lemma sleaf_sims l i : valid h (spay i) -> sims h (spay i) (sleaf_run g h l i) (leaf_run g l (view h i)).
Proof.
  intros V. pose proof (rd_length h (spay i) V) as L.
  destruct l; try (apply sims_copy; cbn [leaf_run]; intros v E; repeat match type of E with (if ?c then _ else _) = _ => destruct c; try discriminate end;
    solve [discriminate E | eapply copied_bind, E; intros a; exact I]); cbn [sleaf_run leaf_run]; rewrite ?view_payload.
  - split; [reflexivity|]. intros x [= <-]. split; [exact I|]. intros s [<-|[]]. apply within_refl.
  - pose proof (sparseMulti_sim g h _ V) as S. unfold as_ies. rewrite <- S.
    destruct (sparseMultiIEs g h (spay i)) as [is| | |] eqn:E; (split; [reflexivity|]); intros x Ex; try discriminate. injection Ex as <-. split; [exact I|].
    intros s H. apply in_flat_map in H. destruct H as (j & Hj & Hs). exact (proj2 (sparseMulti_within g h _ _ _ V E Hj) s Hs).
  - rewrite fseen_now. destruct (fseen k (rd h (spay i))) as [v| | |] eqn:Ev; (split; [reflexivity|]); intros x Ex; try discriminate. injection Ex as <-. split; [exists k; exact Ev|].
    intros s [<-|[]]. apply within_refl.
  - rewrite L. destruct (_ <? _); (split; [reflexivity|]); intros x Ex; try discriminate. injection Ex as <-. split; [exact I|]. intros s [<-|[]]. apply within_refl.
  - apply sims_slice.
    + intros s E. unfold snode_address in E. apply bind_ok in E. destruct E as (t & _ & E).
      repeat match type of E with (if ?c then _ else _) = _ => destruct c; try discriminate end; eapply sub_within, E.
    + unfold snode_address, node_address. destruct (node_id_type _) as [t| | |]; try reflexivity. cbn [bind]. rewrite L.
      repeat match goal with |- rmap _ (if ?c then _ else _) = _ => destruct c end; try reflexivity; now apply sub_sim.
  - apply sims_slice; [intros s; apply sub_within|now apply sub_sim].
  - apply sims_slice; [intros s; apply sub_within|now apply sub_sim].
  - apply sims_slice.
    + intros s E. unfold stsn_bridge_id in E. apply bind_ok in E. destruct E as (t & _ & E).
      repeat match type of E with (if ?c then _ else _) = _ => destruct c; try discriminate end; try (eapply sub_within, E).
      injection E as <-. apply nil_within.
    + unfold stsn_bridge_id, tsn_bridge_id. destruct (index _ 0) as [t| | |]; try reflexivity. cbn [bind]. rewrite L.
      repeat match goal with |- rmap _ (if ?c then _ else _) = _ => destruct c end; try reflexivity; now apply sub_sim.
Qed.

Lemma post_copied f i v x : post_run f i v = Ok x -> copied x.
Proof.
  destruct f, v; cbn [post_run]; try discriminate; intros E;
    repeat match type of E with
      | (if ?c then _ else _) = _ => destruct c; try discriminate
      | bind _ (fun _ => Ok _) = _ => idtac
      | as_n _ = _ => idtac | as_s _ = _ => idtac
      | bind _ _ = _ => apply bind_ok in E; destruct E as (? & _ & E)
      end; try (injection E as <-; exact I); try (eapply copied_bind, E; intros a; exact I).
  - destruct f; try discriminate. eapply copied_bind, E. intros a. reflexivity.
  - destruct f; try discriminate. eapply copied_bind, E. intros a. reflexivity.
Qed.
Lemma within_trans s a b : within s a -> within a b -> within s b.
Proof.
  intros [Z|(E & H1 & H2)] [Z'|(E' & H1' & H2')]; [left; exact Z|left; exact Z|left; lia|right]. split; [congruence|lia].
Qed.
Lemma search_sims (p : ie -> bool) q f f' b l : (forall x, In x l -> p (view h x) = q x) ->
  (forall x, In x l -> sims h b (f' x) (f (view h x))) -> sims h b (ssearch q f' l) (search p f (map (view h) l)).
Proof.
  induction l as [|x l IH]; intros P F; cbn [ssearch search map].
  - split; [reflexivity|discriminate].
  - rewrite (P x (or_introl eq_refl)). destruct (q x); [apply F; now left|]. apply IH; intros y Hy; [apply P|apply F]; now right.
Qed.
Lemma sims_bind b a r r' k k' : sims h a r r' -> (forall x, r = Ok x -> sims h b (k x) (k' (shown h x))) -> sims h b (x <- r ;; k x) (v <- r' ;; k' v).
Proof.
  intros (<- & W) K. destruct r as [x| | |]; cbn; try (split; [reflexivity|discriminate]). now apply K.
Qed.
Lemma sims_wider a b r r' : within a b -> sims h a r r' -> sims h b r r'.
Proof. intros W (S & R). split; [exact S|]. intros x E. destruct (R x E) as (P & Q). split; [exact P|]. intros s Hs. eapply within_trans; eauto. Qed.

Theorem srun_sims n : forall a i, valid h (spay i) -> sims h (spay i) (srun g h n a i) (run g n a (view h i)).
Proof.
  induction n as [|n IH]; intros a i V; [split; [reflexivity|discriminate]|]. cbn [srun run]. rewrite view_ty.
  destruct (check _ _) as [[]| | |]; cbn [bind]; try (split; [reflexivity|discriminate]).
  destruct (lookup _ _ _) as [l|c ts b|c ts b|c f|c d].
  - now apply sleaf_sims.
  - eapply sims_bind; [apply IH, V|]. intros x E. destruct (IH c i V) as (_ & R). destruct (R x E) as (P & Q).
    destruct x as [v|s|l|v p]; cbn [shown]; try (split; [reflexivity|discriminate]).
    + destruct v; try (split; [reflexivity|discriminate]). destruct P.
    + apply search_sims; [intros x _; now rewrite view_ty|]. intros x Hx. cbn [reach] in Q.
      assert (Wx : within (spay x) (spay i)) by (apply Q, in_flat_map; exists x; split; [exact Hx|destruct x; now left]).
      eapply sims_wider; [exact Wx|]. apply IH. eapply within_valid; eauto.
  - eapply sims_bind; [apply IH, V|]. intros x E. destruct (IH c i V) as (_ & R). destruct (R x E) as (P & Q).
    destruct x as [v|s|l|v p]; cbn [shown]; try (split; [reflexivity|discriminate]).
    + destruct v; try (split; [reflexivity|discriminate]). destruct P.
    + apply search_sims; [intros x _; reflexivity|]. intros x Hx. cbn [reach] in Q.
      assert (Wx : within (spay x) (spay i)) by (apply Q, in_flat_map; exists x; split; [exact Hx|destruct x; now left]).
      eapply sims_wider; [exact Wx|]. apply IH. eapply within_valid; eauto.
  - eapply sims_bind; [apply IH, V|]. intros x _. apply sims_copy. intros v. apply post_copied.
  - eapply sims_bind; [apply IH, V|]. intros x E. destruct (IH c i V) as (_ & R).
    destruct (shown h x) as [| | | |[|y s]| | | | |] eqn:Sx; try (split; [reflexivity|discriminate]); [apply IH, V|].
    split; [cbn [rmap]; now rewrite Sx|]. intros z [= <-]. exact (R x E).
Qed.
Theorem saccess_sims a i : valid h (spay i) -> sims h (spay i) (saccess g h a i) (access g a (view h i)).
Proof. intros V. unfold saccess, access. rewrite view_payload, rd_length by exact V. now apply srun_sims. Qed.
End G.
