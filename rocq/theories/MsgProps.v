(** Combination lemmas for the message properties. *)
From Coq Require Import String Permutation.
From Verif Require Import Base Bits IETypes IE Spec IEProofs IEProofs2 IEWf Header HeaderSpec HeaderProofs Message MsgSpec MsgProofs MsgProofs2 MsgTables MsgNames.
Set Implicit Arguments.
Local Open Scope list_scope.

Lemma kinds_consistent : forallb consistent kinds = true.
Proof. vm_compute. reflexivity. Qed.
Lemma kind_consistent (k : kind) : In k kinds -> consistent k = true.
Proof. intros I. exact (proj1 (forallb_forall _ _) kinds_consistent k I). Qed.

(** message.Parse with the real dispatch table *)
Definition parse_msg (g : N -> bool) : list N -> res (kind * msg) := parse_message g dispatch K_Generic.
Definition kind_of (c : N) : kind := match lookup c dispatch with Some k => k | None => K_Generic end.

Lemma kind_of_in c : In (kind_of c) kinds.
Proof.
  unfold kind_of, kinds. apply in_app_iff. destruct (lookup c dispatch) as [k|] eqn:L.
  - left. apply lookup_in in L. apply in_map_iff. exists (c, k). auto.
  - right. now left.
Qed.
Lemma dispatch_names : map (fun p => (fst p, k_name (snd p))) dispatch = map (fun p => (fst p, fst (fst (snd p)))) ts_messages.
Proof. vm_compute. reflexivity. Qed.
Lemma lookup_map {A B} (f : A -> B) c l : lookup c (map (fun p => (fst p, f (snd p))) l) = option_map f (lookup c l).
Proof. induction l as [|[t a] l IH]; cbn; [reflexivity|]. now destruct (N.eqb c t). Qed.
Lemma assocN_lookup {A} c (l : list (N * A)) : assocN c l = lookup c l.
Proof. induction l as [|[t a] l IH]; cbn; [reflexivity|]. now rewrite IH. Qed.
Lemma kind_of_name c : k_name (kind_of c) = ts_name c.
Proof.
  unfold kind_of, ts_name. change (assocN c ts_messages) with (lookup c ts_messages).
  pose proof (lookup_map k_name c dispatch) as H1.
  pose proof (lookup_map (fun x => fst (fst x)) c ts_messages) as H2.
  rewrite dispatch_names in H1. rewrite H2 in H1. clear H2.
  destruct (lookup c ts_messages) as [[[n x] y]|], (lookup c dispatch); cbn in *; try discriminate; try congruence.
Qed.
Lemma names_distinct : map k_name kinds = nodup string_dec (map k_name kinds).
Proof. vm_compute. reflexivity. Qed.

Section P.
Variable g : N -> bool.

Theorem parse_msg_eq b : 2 <= length b -> exists c, nth_error b 1 = Some c /\
  parse_msg g b = bind (msg_parse g (kind_of c) b) (fun m => Ok (kind_of c, m)).
Proof.
  intros L. destruct (@index_ok b 1) as (c & E & N); [lia|]. exists c. split; [exact N|].
  unfold parse_msg, parse_message. destruct (Nat.ltb_spec (length b) 2); [lia|]. now rewrite E.
Qed.
Theorem parse_msg_short b : length b < 2 -> parse_msg g b = Err EUnexpectedEOF.
Proof. intros L. unfold parse_msg, parse_message. destruct (Nat.ltb_spec (length b) 2); [reflexivity|lia]. Qed.

Theorem parse_msg_returns b : bytes b ->
  (exists r, parse_msg g b = Ok r) \/ (exists e, parse_msg g b = Err e).
Proof.
  intros Hb. destruct (Nat.lt_ge_cases (length b) 2) as [L|L].
  - right. eexists. now apply parse_msg_short.
  - destruct (parse_msg_eq b L) as (c & _ & ->).
    pose proof (@kind_consistent (kind_of c) (kind_of_in c)) as C.
    destruct (@msg_parse_returns g _ C b Hb) as [(m & ->)|(e & ->)]; cbn [bind]; eauto.
Qed.
Theorem parse_any_returns k b : In k kinds -> bytes b ->
  (exists r, msg_parse g k b = Ok r) \/ (exists e, msg_parse g k b = Err e).
Proof. intros I Hb. exact (@msg_parse_returns g k (@kind_consistent k I) b Hb). Qed.

Lemma hwire_type h b : hwire h b -> nth_error b 1 = Some (h_type h).
Proof. intros H. inversion H; reflexivity. Qed.
Theorem parse_msg_dispatch b k m : bytes b -> parse_msg g b = Ok (k, m) ->
  exists c, nth_error b 1 = Some c /\ msg_type m = c /\ k_name k = ts_name c /\ k = kind_of c.
Proof.
  intros Hb E. destruct (Nat.lt_ge_cases (length b) 2) as [L|L].
  - rewrite parse_msg_short in E by exact L. discriminate.
  - destruct (parse_msg_eq b L) as (c & N & E'). exists c. rewrite E' in E.
    pose proof (@kind_consistent (kind_of c) (kind_of_in c)) as C.
    destruct (msg_parse g (kind_of c) b) as [m'| | |] eqn:P; try discriminate. injection E as <- <-.
    split; [exact N|]. split; [|split; [apply kind_of_name|reflexivity]].
    apply (@msg_parse_iff g _ C) in P; [|exact Hb]. destruct P as (h & W & H).
    pose proof (hwire_type W) as T. rewrite N in T. injection T as ->.
    destruct H as [[_ ->]|[_ (is & _ & ->)]]; reflexivity.
Qed.

(** message.Parse, exactly *)
Theorem parse_msg_iff b k m : bytes b ->
  (parse_msg g b = Ok (k, m) <->
   exists h, hwire h b /\ k = kind_of (h_type h) /\
     ((length (h_payload h) < 2 /\ m = message_of k h []) \/
      (2 <= length (h_payload h) /\ exists is, accepteds g is (h_payload h) /\ m = message_of k h is))).
Proof.
  intros Hb. destruct (Nat.lt_ge_cases (length b) 2) as [L|L].
  - rewrite parse_msg_short by exact L. split; [discriminate|].
    intros (h & W & _). exfalso. apply (hwire_long W). left. lia.
  - destruct (parse_msg_eq b L) as (c & N & E'). rewrite E'.
    pose proof (@kind_consistent (kind_of c) (kind_of_in c)) as C. split.
    + intros E. destruct (msg_parse g (kind_of c) b) as [m'| | |] eqn:P; try discriminate. injection E as <- <-.
      apply (@msg_parse_iff g _ C) in P; [|exact Hb]. destruct P as (h & W & H).
      pose proof (hwire_type W) as T. rewrite N in T. injection T as ->. eauto.
    + intros (h & W & -> & H). pose proof (hwire_type W) as T. rewrite N in T. injection T as ->.
      assert (P : msg_parse g (kind_of (h_type h)) b = Ok m).
      { apply (@msg_parse_iff g _ C); [exact Hb|]. eauto. }
      now rewrite P.
Qed.

(** ** C21 *)
Lemma perm_eq {A} (a b : list A) : a = b -> Permutation a b.
Proof. intros ->. reflexivity. Qed.
Lemma filter_partition {A} (p : A -> bool) l : Permutation (filter p l ++ filter (fun x => negb (p x)) l) l.
Proof.
  induction l as [|x l IH]; cbn; [reflexivity|]. destruct (p x); cbn; [now constructor|].
  symmetry. apply Permutation_cons_app. symmetry. exact IH.
Qed.
Lemma filter_filter {A} (p q : A -> bool) l : filter p (filter q l) = filter (fun x => q x && p x) l.
Proof. induction l as [|x l IH]; cbn; [reflexivity|]. destruct (q x); cbn; [destruct (p x); now rewrite IH|exact IH]. Qed.
Definition below (k : kind) (n : nat) (i : ie) : bool := match route k i with Some m => m <? n | None => false end.
Lemma filter_ext' {A} (p q : A -> bool) l : (forall x, p x = q x) -> filter p l = filter q l.
Proof. intros H. induction l as [|x l IH]; cbn; [reflexivity|]. now rewrite H, IH. Qed.
Lemma partition_fields k is n :
  Permutation (concat (map (fun j => filter (belongs k j) is) (seq 0 n))) (filter (below k n) is).
Proof.
  induction n as [|n IH].
  - cbn. rewrite filter_none; [reflexivity|]. apply Forall_forall. intros i _. unfold below.
    destruct (route k i); reflexivity.
  - rewrite seq_S, map_app, concat_app. cbn [plus map concat]. rewrite app_nil_r.
    rewrite <- (filter_partition (below k n) (filter (below k (S n)) is)).
    rewrite !filter_filter. apply Permutation_app.
    + rewrite IH. apply perm_eq. apply filter_ext'. intros i. unfold below.
      destruct (route k i) as [m|]; [|reflexivity]. destruct (Nat.ltb_spec m n), (Nat.ltb_spec m (S n)); cbn; auto; lia.
    + apply perm_eq. apply filter_ext'. intros i. unfold below, belongs.
      destruct (route k i) as [m|]; [|reflexivity].
      destruct (Nat.ltb_spec m n), (Nat.ltb_spec m (S n)), (Nat.eqb_spec m n); cbn; auto; lia.
Qed.
Lemma route_bound k i n : consistent k = true -> route k i = Some n -> n < length (k_fields k).
Proof.
  intros C. unfold route. destruct (lookup (ty i) (k_switch k)) as [[m|m]|] eqn:L; try discriminate; intros [= <-].
  - pose proof (@c_act k C _ _ (lookup_in _ _ L)) as A. cbn in A.
    apply nth_error_Some. destruct (nth_error (k_fields k) m); [discriminate|congruence].
  - pose proof (@c_act k C _ _ (lookup_in _ _ L)) as A. cbn in A.
    apply nth_error_Some. destruct (nth_error (k_fields k) m); [discriminate|congruence].
Qed.
(** no single field is hit twice *)
Definition singles_once (k : kind) (is : list ie) : Prop :=
  forall n s, nth_error (k_fields k) n = Some (s, false) -> length (filter (belongs k n) is) <= 1.
Lemma fields_of_body k is : singles_once k is ->
  map field_ies (fields_of k is 0 (k_fields k)) = map (fun j => filter (belongs k j) is) (seq 0 (length (k_fields k))).
Proof.
  intros H. apply nth_ext'. intros n. rewrite !nth_error_map, fields_of_nth. cbn [plus].
  destruct (nth_error (k_fields k) n) as [[s b]|] eqn:E; cbn [option_map].
  - assert (n < length (k_fields k)) by (apply nth_error_Some; congruence).
    assert (S : nth_error (seq 0 (length (k_fields k))) n = Some n).
    { rewrite (nth_error_nth' _ 0) by now rewrite seq_length. now rewrite seq_nth. }
    rewrite S. cbn [option_map snd]. f_equal. unfold field_of. destruct b; cbn [field_ies].
    + apply present_map_Some.
    + pose proof (H n s E) as L. destruct (filter (belongs k n) is) as [|x [|y l]]; cbn in *; [reflexivity|reflexivity|lia].
  - apply nth_error_None in E. rewrite (proj2 (nth_error_None _ _)); [reflexivity|]. now rewrite seq_length.
Qed.
Theorem no_ie_lost k h is : consistent k = true -> singles_once k is ->
  Permutation (body_ies (message_of k h is)) is.
Proof.
  intros C H. unfold body_ies. cbn [message_of m_f m_ies]. rewrite present_map_Some, fields_of_body by exact H.
  rewrite partition_fields. rewrite <- (filter_partition (below k (length (k_fields k))) is) at 3.
  apply Permutation_app_head. apply perm_eq. apply filter_ext'. intros i.
  unfold unrouted, below. destruct (route k i) as [n|] eqn:R; [|reflexivity].
  pose proof (route_bound k i C R). destruct (Nat.ltb_spec n (length (k_fields k))); [reflexivity|lia].
Qed.

(** ** constructors *)
Lemma set_length_ok k m : consistent k = true -> shaped k m -> Forall no_nil (m_f m) ->
  (k_setlen k = None \/ m_ies m = map Some (present (m_ies m))) ->
  msg_set_length g k m =
    Ok (with_h m (with_length (m_h m) ((N.of_nat (hbase (m_h m) + lens g (body_ies m)) - 4) mod 65536)%N)).
Proof.
  intros C Sh Nn H. unfold msg_set_length. destruct (k_setlen k) as [o|] eqn:S.
  - destruct H as [?|H]; [discriminate|]. pose proof (@c_setlen k C o S) as ->. rewrite <- (@shaped_length k m Sh).
    rewrite fields_len_ok by exact Nn. cbn [bind]. rewrite H at 1. rewrite sum_len_ok. cbn [bind].
    f_equal. f_equal. f_equal. unfold u16. f_equal. rewrite h_mlen_base. unfold body_ies.
    rewrite lens_app. unfold hbase. destruct (N.odd (h_flags (m_h m))); lia.
  - rewrite (@msg_len_ok g k C m Sh Nn). cbn [bind]. f_equal. f_equal. f_equal. unfold u16. f_equal.
    unfold hbase. destruct (N.odd (h_flags (m_h m))); lia.
Qed.
Lemma split_nil {A} (l : list (option A)) : l = map Some (present l) \/ exists pre post, l = map Some pre ++ None :: post.
Proof.
  induction l as [|[x|] l IH]; [now left| |].
  - destruct IH as [E|(pre & post & ->)]; [left; cbn; now rewrite <- E|right; now exists (x :: pre), post].
  - right. now exists [], l.
Qed.
Lemma set_length_fault k m o : consistent k = true -> shaped k m -> Forall no_nil (m_f m) ->
  k_setlen k = Some o -> In None (m_ies m) -> msg_set_length g k m = Fault.
Proof.
  intros C Sh Nn S I. unfold msg_set_length. rewrite S. pose proof (@c_setlen k C o S) as ->. rewrite <- (@shaped_length k m Sh).
  rewrite fields_len_ok by exact Nn. cbn [bind]. destruct (split_nil (m_ies m)) as [E|(pre & post & E)].
  - rewrite E in I. apply in_map_iff in I. destruct I as (x & ? & _). discriminate.
  - rewrite E, sum_len_fault. reflexivity.
Qed.
End P.

Definition new_header_args k a := ctor_header k a.
Lemma ctor_header_ranges k a : (k_code k < 256 -> a_type a < 256 -> a_fo a < 256 -> a_mp a < 256 -> a_pri a < 256 ->
  h_ranges (ctor_header k a))%N.
Proof.
  intros H1 H2 H3 H4 H5. unfold ctor_header, h_ranges.
  destruct (k_hstyle k); unfold new_header, h_set_length; cbn [h_flags h_type h_prio].
  - repeat split; auto.
  - split; [|auto]. change 256%N with (2 ^ 8)%N. repeat apply lor_bound; try reflexivity; apply u8_lt.
  - repeat split; auto.
Qed.
Lemma kinds_codes : forallb (fun k => (k_code k <? 256)%N) kinds = true.
Proof. vm_compute. reflexivity. Qed.
Lemma kind_code k : In k kinds -> (k_code k < 256)%N.
Proof. intros I. apply N.ltb_lt. exact (proj1 (forallb_forall _ _) kinds_codes k I). Qed.

(** ** constructors give typed messages *)
Section Ctor.
Variable g : N -> bool.
Variable k : kind.
Hypothesis C : consistent k = true.

Lemma set_fields_seq params : forall pre fs, length params = length fs ->
  set_fields (pre ++ fs) (seq (length pre) (length fs)) params = pre ++ map FOne params.
Proof.
  clear C. induction params as [|p ps IH]; intros pre [|f fs] H; cbn [length] in H; try discriminate.
  - cbn. now rewrite app_nil_r.
  - cbn [length seq set_fields map].
    assert (E : upd (pre ++ f :: fs) (length pre) (FOne p) = (pre ++ [FOne p]) ++ fs).
    { clear. induction pre as [|x pre IH]; cbn; [reflexivity|]. now rewrite IH. }
    rewrite E. specialize (IH (pre ++ [FOne p]) fs). rewrite app_length in IH. cbn [length] in IH.
    replace (S (length pre)) with (length pre + 1) by lia. rewrite IH by congruence.
    now rewrite <- app_assoc.
Qed.
Lemma map_shape_FOne ps : map shape (map FOne ps) = repeat false (length ps).
Proof. clear. induction ps; cbn; congruence. Qed.

(** the arguments fit the constructor: nothing nil where the code dereferences, positional IEs of the
    type of their parameter, extra IEs of none of the named types *)
Definition well_given (params ies : list (option ie)) : Prop :=
  match k_ctor k with
  | CSwitch _ => ies = map Some (present ies)
  | CFields _ => length params = length (k_fields k) /\
      (forall n i, nth_error params n = Some (Some i) -> belongs k n i = true) /\
      Forall (fun i => unrouted k i = true) (present ies) /\
      (k_setlen k = None \/ ies = map Some (present ies))
  end.

Definition wire_length (h : header) (is : list ie) : N := ((N.of_nat (hbase h + lens g is) - 4) mod 65536)%N.

Lemma message_of_no_nil h is : Forall no_nil (m_f (message_of k h is)).
Proof. now destruct (message_of_typed k h is) as (_ & ? & _). Qed.

Lemma present_Some_fix {A} (l : list A) : map Some l = map Some (present (map Some l)).
Proof. clear. now rewrite present_map_Some. Qed.

Theorem new_switch a params is cases : k_ctor k = CSwitch cases ->
  let m0 := message_of k (ctor_header k a) is in
  msg_new g k a params (map Some is) = Ok (with_h m0 (with_length (m_h m0) (wire_length (m_h m0) (body_ies m0)))).
Proof.
  intros E m0. unfold msg_new. rewrite E, (c_ctor_switch k C E).
  rewrite store_opts_ok by (auto using zero_shaped). cbn [bind]. rewrite absorb_all_zero. fold m0.
  apply set_length_ok; auto.
  - now apply message_of_typed.
  - apply message_of_no_nil.
  - right. cbn [m0 message_of m_ies]. apply present_Some_fix.
Qed.
Theorem new_fields a params ies fs : k_ctor k = CFields fs -> length params = length (k_fields k) ->
  k_setlen k = None \/ ies = map Some (present ies) ->
  let m0 := mkM (ctor_header k a) (map FOne params) ies in
  msg_new g k a params ies = Ok (with_h m0 (with_length (m_h m0) (wire_length (m_h m0) (body_ies m0)))) /\ shaped k m0.
Proof.
  intros E L H m0. destruct (@c_ctor_fields k C fs E) as [-> R]. unfold msg_new. rewrite E.
  assert (Z : m_f (zero_msg k (ctor_header k a)) = map (fun f => zero_field (snd f)) (k_fields k)) by reflexivity.
  pose proof (@set_fields_seq params [] (m_f (zero_msg k (ctor_header k a)))) as S.
  rewrite Z, map_length in S. cbn [app length] in S. rewrite Z, S by exact L.
  assert (Sh : shaped k m0).
  { unfold shaped. cbn [m0 m_f]. rewrite map_shape_FOne, L. now rewrite R. }
  split; [|exact Sh]. apply (@set_length_ok g k m0); auto.
  cbn [m0 m_f]. apply Forall_forall. intros v I. apply in_map_iff in I. now destruct I as (p & <- & _).
Qed.

Theorem new_typed a params ies : well_given params ies ->
  exists m, msg_new g k a params ies = Ok m /\ typed k m /\
    m_h m = with_length (ctor_header k a) (wire_length (ctor_header k a) (body_ies m)) /\
    match k_ctor k with
    | CSwitch _ => m_f m = m_f (message_of k zero_header (present ies)) /\
                   m_ies m = m_ies (message_of k zero_header (present ies))
    | CFields _ => m_f m = map FOne params /\ m_ies m = ies
    end.
Proof.
  unfold well_given. destruct (k_ctor k) as [fs|cases] eqn:E.
  - intros (L & B & U & H). destruct (@new_fields a params ies fs E L H) as [N Sh]. eexists. split; [exact N|].
    split; [|auto]. split; [exact Sh|]. split; [|split].
    + cbn. apply Forall_forall. intros v I. apply in_map_iff in I. now destruct I as (p & <- & _).
    + cbn [with_h m_f]. intros n v V. rewrite nth_error_map in V.
      destruct (nth_error params n) as [[i|]|] eqn:P; cbn in V; try discriminate; injection V as <-; cbn; constructor; auto.
    + exact U.
  - intros H. rewrite H. eexists. split; [now apply new_switch with (cases := cases)|]. split.
    + apply (message_of_typed k (ctor_header k a)).
    + rewrite present_map_Some. auto.
Qed.

(** nil among the extra IEs *)
Theorem new_nil_fields a params ies fs : k_ctor k = CFields fs -> length params = length (k_fields k) ->
  (k_setlen k = None -> exists m, msg_new g k a params ies = Ok m) /\
  (k_setlen k <> None -> In None ies -> msg_new g k a params ies = Fault).
Proof.
  intros E L. split.
  - intros S. destruct (@new_fields a params ies fs E L (or_introl S)) as [N _]. eauto.
  - intros S I. destruct (k_setlen k) as [o|] eqn:SL; [|congruence].
    destruct (@c_ctor_fields k C fs E) as [-> R]. unfold msg_new. rewrite E.
    assert (Z : m_f (zero_msg k (ctor_header k a)) = map (fun f => zero_field (snd f)) (k_fields k)) by reflexivity.
    pose proof (@set_fields_seq params [] (m_f (zero_msg k (ctor_header k a)))) as Q.
    rewrite Z, map_length in Q. cbn [app length] in Q. rewrite Z, Q by exact L.
    eapply set_length_fault; eauto.
    + unfold shaped. cbn [m_f]. rewrite map_shape_FOne, L. now rewrite R.
    + cbn [m_f]. apply Forall_forall. intros v J. apply in_map_iff in J. now destruct J as (p & <- & _).
Qed.
Theorem new_nil_switch a params ies cases : k_ctor k = CSwitch cases -> In None ies ->
  msg_new g k a params ies = Fault.
Proof.
  intros E I. unfold msg_new. rewrite E, (c_ctor_switch k C E).
  destruct (split_nil ies) as [H|(pre & post & ->)].
  - rewrite H in I. apply in_map_iff in I. destruct I as (x & ? & _). discriminate.
  - rewrite store_opts_nil by auto using zero_shaped. reflexivity.
Qed.
End Ctor.

(** ** the real message types *)
Lemma lookup_nodup {A} (l : list (N * A)) c a : NoDup (map fst l) -> In (c, a) l -> lookup c l = Some a.
Proof.
  induction l as [|[t x] l IH]; [now intros|]. cbn [map fst lookup]. intros ND I. inversion ND; subst.
  destruct I as [[= -> ->]|I].
  - now rewrite N.eqb_refl.
  - destruct (N.eqb_spec c t) as [->|]; [|auto]. exfalso. apply H1. apply in_map_iff. now exists (t, a).
Qed.
Lemma dispatch_nodup : NoDup (map fst dispatch).
Proof.
  assert (E : map fst dispatch = nodup N.eq_dec (map fst dispatch)) by (vm_compute; reflexivity).
  rewrite E. apply NoDup_nodup.
Qed.
Lemma dispatch_codes : forallb (fun p => (k_code (snd p) =? fst p)%N) dispatch = true.
Proof. vm_compute. reflexivity. Qed.
Lemma dispatch_not_generic : forallb (fun p => match k_hstyle (snd p) with HGeneric => false | _ => true end) dispatch = true.
Proof. vm_compute. reflexivity. Qed.
Lemma kind_of_code k : In k (map snd dispatch) -> kind_of (k_code k) = k /\ k_hstyle k <> HGeneric.
Proof.
  intros I. apply in_map_iff in I. destruct I as ([c k'] & E & I). cbn in E. subst k'.
  pose proof (proj1 (forallb_forall _ _) dispatch_codes (c, k) I) as H. cbn in H. apply N.eqb_eq in H.
  pose proof (proj1 (forallb_forall _ _) dispatch_not_generic (c, k) I) as H2. cbn in H2.
  split; [|now destruct (k_hstyle k)]. unfold kind_of. rewrite H. now rewrite (@lookup_nodup _ dispatch c k dispatch_nodup I).
Qed.
Lemma ctor_header_type k a : k_hstyle k <> HGeneric -> h_type (ctor_header k a) = k_code k.
Proof. unfold ctor_header. now destruct (k_hstyle k). Qed.
Lemma in_kinds k : In k (map snd dispatch) -> In k kinds.
Proof. intros I. unfold kinds. apply in_app_iff. now left. Qed.

Section Whole.
Variable g : N -> bool.
Local Open Scope N_scope.

(** encode then decode through message.Parse, for any typed message *)
Theorem marshal_parse_msg k m : In k kinds -> kind_of (h_type (m_h m)) = k -> typed k m -> h_ranges (m_h m) ->
  Forall (fun i => exists b, wire g i b) (body_ies m) ->
  exists b m1 m', msg_marshal g k m = Ok (b, m1) /\ parse_msg g b = Ok (k, m') /\
    m_f m' = m_f m /\ m_ies m' = map Some (present (m_ies m)) /\
    m_h m' = hnorm (final_header g m).
Proof.
  intros I K T R W. pose proof (@kind_consistent k I) as C.
  destruct (@msg_marshal_parse g k C m T R W) as (b & h' & E1 & E2 & ->).
  pose proof T as (Sh & Nn & _).
  exists b, (with_h m (final_header g m)). eexists. split; [exact E1|].
  rewrite (msg_marshal_ok g C Sh Nn) in E1. injection E1 as E1.
  assert (Lb : (2 <= length b)%nat).
  { rewrite <- E1, henc_length, h_mlen_base. unfold hbase. destruct (N.odd _); lia. }
  destruct (parse_msg_eq g b Lb) as (c & Nc & P).
  assert (c = h_type (m_h m)) as ->.
  { rewrite <- E1 in Nc. unfold henc in Nc. cbn in Nc. congruence. }
  rewrite P, K, E2. cbn [bind]. split; [reflexivity|]. auto.
Qed.
Lemma hnorm_final m : hnorm (final_header g m) =
  mkH (h_flags (m_h m)) (h_type (m_h m)) (wire_length g (m_h m) (body_ies m))
      (if N.odd (h_flags (m_h m)) then u64 (h_seid (m_h m)) else 0) (h_seq (m_h m) mod 2 ^ 24) (h_prio (m_h m)) (encs g (body_ies m)).
Proof.
  unfold hnorm. rewrite final_length. unfold wire_length. f_equal.
  apply u16_id. now apply N.mod_lt.
Qed.

(** every constructor, every argument list *)
Theorem constructor_roundtrip_gen k a params ies : In k kinds -> kind_of (h_type (ctor_header k a)) = k ->
  a_type a < 256 -> a_fo a < 256 -> a_mp a < 256 -> a_pri a < 256 -> a_seid a < 2 ^ 64 -> a_seq a < 2 ^ 24 ->
  well_given k params ies ->
  Forall (fun i => exists b, wire g i b) (present params ++ present ies) ->
  exists m b m1 m',
    msg_new g k a params ies = Ok m /\ msg_marshal g k m = Ok (b, m1) /\ parse_msg g b = Ok (k, m') /\
    m_f m' = m_f m /\ m_ies m' = map Some (present (m_ies m)) /\
    h_flags (m_h m') = h_flags (m_h m) /\ h_type (m_h m') = h_type (m_h m) /\ h_length (m_h m') = h_length (m_h m) /\
    h_seid (m_h m') = h_seid (m_h m) /\ h_seq (m_h m') = h_seq (m_h m) /\ h_prio (m_h m') = h_prio (m_h m).
Proof.
  intros IK K R1 R2 R3 R4 R5 R6 WG W. pose proof (@kind_consistent k IK) as C.
  destruct (@new_typed g k C a params ies WG) as (m & E & T & HH & Sel).
  assert (R : h_ranges (m_h m)).
  { rewrite HH. apply (ctor_header_ranges k a); auto. now apply kind_code. }
  assert (KK : kind_of (h_type (m_h m)) = k).
  { rewrite HH. exact K. }
  assert (WB : Forall (fun i => exists b, wire g i b) (body_ies m)).
  { apply Forall_app in W. destruct W as [W1 W2]. apply Forall_forall. intros i Ii.
    rewrite Forall_forall in W1, W2. destruct (k_ctor k).
    - destruct Sel as [S1 S2]. unfold body_ies in Ii. rewrite S1, S2 in Ii. apply in_app_iff in Ii.
      destruct Ii as [Ii|Ii]; [|auto]. apply W1. clear - Ii.
      induction params as [|[p|] ps IH]; cbn in *; auto. destruct Ii as [->|Ii]; auto.
    - destruct Sel as [S1 S2]. unfold body_ies in Ii. rewrite S1, S2 in Ii.
      apply W2. eapply message_of_body_In. exact Ii. }
  destruct (@marshal_parse_msg k m IK KK T R WB) as (b & m1 & m' & E1 & E2 & F1 & F2 & F3).
  exists m, b, m1, m'. do 5 (split; [assumption|]). rewrite F3, hnorm_final.
  cbn [h_flags h_type h_length h_seid h_seq h_prio].
  split; [reflexivity|]. split; [reflexivity|].
  split.
  { rewrite HH at 2. cbn [with_length h_length]. unfold wire_length, hbase. now rewrite HH. }
  rewrite !HH. cbn [with_length h_flags h_seid h_seq h_prio]. unfold ctor_header.
  split; [|split; [|reflexivity]].
  - destruct (k_hstyle k); [reflexivity| |now apply u64_id].
    unfold new_header, h_set_length. cbn [h_flags h_seid].
    assert (O : forall x, N.odd (N.lor x 1) = true).
    { intros x. rewrite <- N.bit0_odd, N.lor_spec. apply orb_true_r. }
    rewrite O. now apply u64_id.
  - destruct (k_hstyle k); unfold new_header, h_set_length; cbn [h_seq]; now apply N.mod_small.
Qed.
Theorem constructor_roundtrip k a params ies : In k (map snd dispatch) ->
  a_type a < 256 -> a_fo a < 256 -> a_mp a < 256 -> a_pri a < 256 -> a_seid a < 2 ^ 64 -> a_seq a < 2 ^ 24 ->
  well_given k params ies ->
  Forall (fun i => exists b, wire g i b) (present params ++ present ies) ->
  exists m b m1 m',
    msg_new g k a params ies = Ok m /\ msg_marshal g k m = Ok (b, m1) /\ parse_msg g b = Ok (k, m') /\
    m_f m' = m_f m /\ m_ies m' = map Some (present (m_ies m)) /\
    h_flags (m_h m') = h_flags (m_h m) /\ h_type (m_h m') = h_type (m_h m) /\ h_length (m_h m') = h_length (m_h m) /\
    h_seid (m_h m') = h_seid (m_h m) /\ h_seq (m_h m') = h_seq (m_h m) /\ h_prio (m_h m') = h_prio (m_h m).
Proof.
  intros I. destruct (@kind_of_code k I) as [K NG]. apply constructor_roundtrip_gen; [now apply in_kinds|].
  now rewrite ctor_header_type.
Qed.
Lemma kind_of_other c : assocN c ts_messages = None -> kind_of c = K_Generic.
Proof.
  intros H. unfold kind_of. destruct (lookup c dispatch) as [k|] eqn:L; [|reflexivity].
  pose proof (lookup_map k_name c dispatch) as H1. pose proof (lookup_map (fun x => fst (fst x)) c ts_messages) as H2.
  rewrite dispatch_names, H2, L in H1. change (lookup c ts_messages) with (assocN c ts_messages) in H1.
  rewrite H in H1. discriminate.
Qed.
(** NewGeneric with an undefined message type *)
Theorem generic_roundtrip a ies : assocN (a_type a) ts_messages = None ->
  a_type a < 256 -> a_fo a < 256 -> a_mp a < 256 -> a_pri a < 256 -> a_seid a < 2 ^ 64 -> a_seq a < 2 ^ 24 ->
  ies = map Some (present ies) -> Forall (fun i => exists b, wire g i b) (present ies) ->
  exists m b m1 m',
    msg_new g K_Generic a [] ies = Ok m /\ msg_marshal g K_Generic m = Ok (b, m1) /\ parse_msg g b = Ok (K_Generic, m') /\
    m_ies m = ies /\ m_ies m' = ies /\
    h_type (m_h m') = a_type a /\ h_seid (m_h m') = a_seid a /\ h_seq (m_h m') = a_seq a.
Proof.
  intros T R1 R2 R3 R4 R5 R6 E W.
  assert (IK : In K_Generic kinds) by (unfold kinds; apply in_app_iff; right; now left).
  assert (WG : well_given K_Generic [] ies).
  { cbn. split; [reflexivity|]. split; [intros [|n] i H; discriminate|]. split; [|now right].
    apply Forall_forall. reflexivity. }
  pose proof (@kind_consistent _ IK) as C.
  destruct (@new_typed g K_Generic C a [] ies WG) as (m0 & E0 & _ & HH & _ & S2).
  destruct (@constructor_roundtrip_gen K_Generic a [] ies IK (kind_of_other _ T) R1 R2 R3 R4 R5 R6 WG W)
    as (m & b & m1 & m' & E1 & E2 & E3 & F1 & F2 & H1 & H2 & H3 & H4 & H5 & H6).
  rewrite E1 in E0. injection E0 as <-.
  exists m, b, m1, m'. do 4 (split; [assumption|]). split; [rewrite F2, S2; now symmetry|].
  rewrite H2, H4, H5, HH. cbn [with_length h_type h_seid h_seq ctor_header K_Generic k_hstyle new_header h_set_length].
  split; [reflexivity|]. split; [reflexivity|]. reflexivity.
Qed.
End Whole.
