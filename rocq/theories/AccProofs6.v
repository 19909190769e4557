(** Which accessor calls can succeed at all. *)
From Verif Require Import Base IETypes IE Spec Bits Header IEProofs IEProofs2 Codec Codec2 Utils UtilsProofs Fields1 Time Fields2 Fields3 Fields4
  Access AccTable AccRun AccProofs AccProofs2 AccProofs3 AccProofs4 AccProofs5.
Set Implicit Arguments.

(** accessor a has code for an IE of type t *)
Fixpoint knows (n : nat) (a : acc) (t : N) : bool :=
  match n with
  | O => false
  | S n => negb (gmiss (guards (acc_def a)) t) &&
      match look a t with
      | Leaf LInvalid => false
      | Leaf _ | Via _ _ _ | ViaOwn _ _ _ => true
      | Then c _ | OrElse c _ => knows n c t
      end
  end.
Definition handles (a : acc) (t : N) : bool := knows 4 a t.
(** the calls that have code but never succeed *)
Definition dead_table : list (acc * list N) := [
  (A_CTAG, [T_MACAddressesDetected; T_MACAddressesRemoved; T_EthernetContextInformation]);
  (A_STAG, [T_MACAddressesDetected; T_MACAddressesRemoved; T_EthernetContextInformation]);
  (A_FTEID, [T_CreatedTrafficEndpoint]);
  (A_NetworkInstance, [T_PDI]); (A_NetworkInstanceFQDN, [T_PDI]); (A_NetworkInstanceHeuristic, [T_PDI])].
Definition dead (a : acc) (t : N) : Prop := exists ts, In (a, ts) dead_table /\ In t ts.
Definition deadb (a : acc) (t : N) : bool := existsb (fun '(b, ts) => (acc_id a =? acc_id b)%N && memb t ts) dead_table.
Lemma deadb_ok a t : deadb a t = true <-> dead a t.
Proof.
  unfold deadb, dead. rewrite existsb_exists. split.
  - intros ([b ts] & I & E). apply andb_prop in E as [E1 E2]. apply N.eqb_eq in E1. apply acc_id_inj in E1 as ->. exists ts. split; [assumption|now apply memb_spec].
  - intros (ts & I & T). exists (a, ts). split; [assumption|]. cbn beta iota. rewrite N.eqb_refl. now apply memb_spec.
Qed.

Section G.
Variable g : N -> bool.
Lemma knows_ok n : forall a i v, run g n a i = Ok v -> knows n a (ty i) = true.
Proof.
  induction n as [|n IH]; intros a i v E; [discriminate|]. rewrite run_S in E. cbn [knows]. apply bind_ok in E as (u & C & E).
  destruct (gmiss (guards (acc_def a)) (ty i)) eqn:G; [apply check_gmiss in G as [e G]; congruence|]. cbn [negb andb].
  destruct (look a (ty i)) as [l|c ts x|c ts x|c f|c d]; trivial.
  - destruct l; trivial. discriminate.
  - apply bind_ok in E as (w & E & _). now apply IH in E.
  - apply bind_ok in E as (w & E & _). now apply IH in E.
Qed.
Lemma knows_mono n : forall m a t, n <= m -> knows n a t = true -> knows m a t = true.
Proof.
  induction n as [|n IH]; intros m a t L K; [discriminate|]. destruct m as [|m]; [lia|]. cbn [knows] in *. apply andb_prop in K as [K1 K2]. rewrite K1. cbn [andb].
  destruct (look a t) as [[]| | | |]; trivial; apply (IH m); (assumption || lia).
Qed.
Lemma sdep_knows k : forall n a t, sdep k a t = true -> k <= n -> knows n a t = knows k a t.
Proof.
  induction k as [|k IH]; intros n a t D L; [discriminate|]. destruct n as [|n]; [lia|]. cbn [sdep knows] in *. f_equal.
  destruct (look a t) as [[]| | | |]; trivial; apply IH; (assumption || lia || (apply andb_prop in D as [D _]; assumption)).
Qed.
Theorem access_handles a i v : access g a i = Ok v -> handles a (ty i) = true.
Proof. intros E. apply knows_ok in E. unfold handles. rewrite sdep_knows with (k := 4) in E; [assumption|apply sdep4|lia]. Qed.

Lemma macl_no_tag b f : macl_parse b = Ok f -> ml_ctag f = [] /\ ml_stag f = [].
Proof. unfold macl_parse. intros E. repeat (apply bind_ok in E as (? & _ & E) || destruct (_ <? _); try discriminate E || match type of E with context [let (_, _) := ?x in _] => destruct x end). okinv. split; reflexivity. Qed.
Lemma access_macl a i v : bytes (payload i) -> (a = A_MACAddressesDetected /\ ty i = T_MACAddressesDetected) \/ (a = A_MACAddressesRemoved /\ ty i = T_MACAddressesRemoved) ->
  access g a i = Ok v -> exists f, v = VF (F_macl f) /\ ml_ctag f = [] /\ ml_stag f = [].
Proof.
  intros Hb [[-> T]|[-> T]] E; rewrite access_eq in E by assumption; rewrite T in E; cbn [bind check guards acc_def look lookup cases] in E;
  [change (look A_MACAddressesDetected T_MACAddressesDetected) with (@Leaf acc (LFields K_MACAddressesDetected)) in E|change (look A_MACAddressesRemoved T_MACAddressesRemoved) with (@Leaf acc (LFields K_MACAddressesRemoved)) in E];
  cbn [leaf_run fparse] in E; unfold as_f in E; apply bind_ok in E as (f & P & E); exists f; (split; [congruence|now apply macl_no_tag in P]).
Qed.
Lemma tag_dead a c t i v : bytes (payload i) -> ty i = t ->
  (t = T_MACAddressesDetected /\ c = A_MACAddressesDetected) \/ (t = T_MACAddressesRemoved /\ c = A_MACAddressesRemoved) ->
  (guards (acc_def a) = []) -> (look a t = Then c PCTag \/ look a t = Then c PSTag) -> access g a i = Ok v -> False.
Proof.
  intros Hb T D G L E. rewrite access_eq in E by assumption. rewrite G, T in E. cbn [check bind] in E.
  destruct L as [L|L]; rewrite L in E; apply bind_ok in E as (w & E1 & E); apply access_macl in E1 as (f & -> & F1 & F2); trivial;
    try (destruct D as [[-> ->]|[-> ->]]; [left|right]; split; trivial; fail); cbn [post_run] in E; rewrite ?F1, ?F2 in E; discriminate E.
Qed.
Lemma mac_dead a i v : bytes (payload i) -> (a = A_CTAG \/ a = A_STAG) -> ty i = T_MACAddressesDetected \/ ty i = T_MACAddressesRemoved -> access g a i = Ok v -> False.
Proof.
  intros Hb A [T|T]; destruct A as [-> | ->]; apply (@tag_dead _ (if (ty i =? T_MACAddressesDetected)%N then A_MACAddressesDetected else A_MACAddressesRemoved) (ty i)); trivial; rewrite T; auto.
Qed.
Lemma ni_dead i : bytes (payload i) -> ty i = T_PDI -> forall v, access g A_NetworkInstance i <> Ok v.
Proof.
  intros Hb T v E. rewrite access_eq in E by assumption. rewrite T in E. cbn [guards acc_def check bind] in E.
  change (look A_NetworkInstance T_PDI) with (ViaOwn A_PDI [T_NetworkInstance; T_RedundantTransmissionParameters] A_NetworkInstance) in E.
  cbn iota beta in E. apply bind_ok in E as (is & _ & E). rewrite search_find in E. destruct (find _ is) eqn:F; [|discriminate]. apply find_some in F as [_ F]. discriminate F.
Qed.
Theorem dead_ok a i v : bytes (payload i) -> dead a (ty i) -> access g a i <> Ok v.
Proof.
  intros Hb (ts & I & T) E. cbn [In dead_table] in I.
  repeat (destruct I as [I|I]; [assert (K : a = fst (a, ts) /\ ts = snd (a, ts)) by (split; reflexivity); rewrite <- I in K; cbn [fst snd] in K; destruct K as [-> ->]; clear I|]); [..|contradiction].
  1, 2: cbn [In] in T; destruct T as [T|[T|[T|[]]]]; symmetry in T; [now apply (@mac_dead _ i v Hb) in E; auto..|];
    rewrite (@access_via g _ i A_EthernetContextInformation [T_MACAddressesDetected] _ Hb) in E by (rewrite T; reflexivity);
    destruct (_ <? _); [discriminate|]; apply bind_ok in E as (is & P & E); destruct (first_of _ is) as [x|] eqn:F; [|discriminate];
    apply find_some in F as [Ix F]; apply memb_spec in F; cbn [In] in F; destruct F as [F|[]]; symmetry in F; destruct (@parsed_child g _ _ _ Hb P Ix) as (_ & Bx & _); now apply (@mac_dead _ x v Bx) in E; auto.
  all: cbn [In] in T; destruct T as [T|[]]; symmetry in T; pose proof E as E0; rewrite access_eq in E by assumption; rewrite T in E.
  - discriminate E.
  - eapply ni_dead; eauto.
  - cbn [guards acc_def check bind] in E. change (look A_NetworkInstanceFQDN T_PDI) with (Then A_NetworkInstance POwnFQDN) in E. apply bind_ok in E as (w & E & _). eapply ni_dead; eauto.
  - cbn [guards acc_def check bind] in E. change (look A_NetworkInstanceHeuristic T_PDI) with (OrElse A_NetworkInstanceFQDN A_NetworkInstance) in E. apply bind_ok in E as (w & E & _).
    rewrite access_eq in E by assumption. rewrite T in E. cbn [guards acc_def check bind] in E. change (look A_NetworkInstanceFQDN T_PDI) with (Then A_NetworkInstance POwnFQDN) in E.
    apply bind_ok in E as (w' & E & _). eapply ni_dead; eauto.
Qed.
End G.

(** ** every other call that has code succeeds on some element that Parse returns *)
Definition candidates : list (N * list N) :=
  map (fun p => (lenN p, p)) (repeat 0%N 20 :: [] :: flat_map (fun b0 => map (fun n => (b0 :: repeat 0%N n)) (seq 0 24)) [0; 1; 2; 4; 8; 16; 32; 64; 128]%N).
Definition okb {A} (r : res A) : bool := match r with Ok _ => true | _ => false end.
Fixpoint good (n : nat) (a : acc) (t : N) : option (N * list N) :=
  match n with
  | O => None
  | S n =>
      match look a t with
      | Via _ ts b => match first_some (good n b) ts with Some (t', w) => let p := bad_child t' w in Some (lenN p, p) | None => None end
      | ViaOwn _ _ _ => None
      | Then c _ | OrElse c _ => good n c t
      | Leaf _ => find (fun w => okb (access default_grouped a (bad_ie t w))) candidates
      end
  end.
Definition good_ok (a : acc) (t : N) : bool :=
  match good 6 a t with
  | Some w => forallb (fun x => N.ltb x 256) (bad_child t w) &&
      match parse default_grouped (bad_child t w) with
      | Ok i => (ty i =? t)%N && okb (access default_grouped a i)
      | _ => false
      end
  | None => false
  end.
Lemma handles_class a t : handles a t = handles a (tclass t).
Proof.
  unfold handles. generalize 4. intros n. revert a. induction n as [|n IH]; intros a; [reflexivity|]. cbn [knows]. rewrite (gmiss_class a t), (look_class a t), (look_class a (tclass t)).
  replace (tclass (tclass t)) with (tclass t) by (unfold tclass; lia). destruct (look a (tclass t)) as [[]| | | |]; trivial; now rewrite IH.
Qed.
Lemma handles_below a t : handles a t = true -> (t < tops)%N.
Proof.
  intros H. destruct (N.lt_ge_cases t tops); [assumption|]. exfalso. rewrite handles_class in H. replace (tclass t) with tops in H by (unfold tclass; lia).
  assert (C : forall a, handles a tops = false). { intros b. apply negb_true_iff. revert b. apply (@acc_check (fun b => negb (handles b tops))). vm_compute. reflexivity. }
  now rewrite C in H.
Qed.
Definition live_check (a : acc) (t : N) : bool := if handles a t then if deadb a t then true else good_ok a t else true.
Definition live_checks (a : acc) : bool := forallb (live_check a) (upto 401).
Lemma live_table : forallb live_checks all_accs = true.
Proof. vm_compute. reflexivity. Qed.
Lemma live_checked a t : (t < tops)%N -> live_check a t = true.
Proof.
  intros T. pose proof (@acc_check live_checks live_table a) as K. unfold live_checks in K. rewrite forallb_forall in K. apply K, upto_In. unfold tops in T. lia.
Qed.
Theorem live_ok a t : handles a t = true -> ~ dead a t ->
  exists b i v, bytes b /\ parse default_grouped b = Ok i /\ ty i = t /\ access default_grouped a i = Ok v.
Proof.
  intros Hh D. assert (T : (t < tops)%N) by now apply handles_below in Hh. pose proof (live_checked a T) as K. unfold live_check in K.
  rewrite Hh in K. destruct (deadb a t) eqn:E; [now apply deadb_ok in E|]. unfold good_ok in K.
  destruct (good 6 a t) as [w|]; [|discriminate]. apply andb_prop in K as [H1 H2]. exists (bad_child t w).
  destruct (parse default_grouped (bad_child t w)) as [i| | |]; try discriminate H2. apply andb_prop in H2 as [H2 H3]. apply N.eqb_eq in H2. exists i.
  destruct (access default_grouped a i) as [v| | |]; try discriminate H3. exists v. split; [|split; [|split]]; trivial.
  apply Forall_forall. rewrite forallb_forall in H1. intros x J. specialize (H1 x J). apply N.ltb_lt in H1. exact H1.
Qed.
Lemma parse_bytes g b i : bytes b -> parse g b = Ok i -> bytes (payload i).
Proof.
  intros Hb P. apply parse_iff in P as (b1 & rest & -> & A); [|exact Hb]. apply bytes_app in Hb as [Hb _].
  destruct A as [t l e cs h body rest' WH B _ _ _|t l e h WH]; cbn [payload]; [exact B|constructor].
Qed.
