(** Proofs about the message model, for every consistent kind. *)
From Coq Require Import String Permutation.
From Verif Require Import Base Bits IE Spec IEProofs IEProofs2 Header HeaderSpec HeaderProofs Message MsgSpec.
Set Implicit Arguments.
Local Open Scope list_scope.

(** ** unpacking [consistent] *)
Lemma list_nat_eqb_eq a b : list_nat_eqb a b = true <-> a = b.
Proof. unfold list_nat_eqb. destruct (list_eq_dec _ a b); split; congruence. Qed.

Section Kind.
Variable g : N -> bool.
Variable k : kind.
Hypothesis C : consistent k = true.

Let nf := length (k_fields k).
Lemma c_write : k_write k = seq 0 nf.
Proof. unfold consistent in C. rewrite !andb_true_iff in C. apply list_nat_eqb_eq. tauto. Qed.
Lemma c_count : k_count k = seq 0 nf.
Proof. unfold consistent in C. rewrite !andb_true_iff in C. apply list_nat_eqb_eq. tauto. Qed.
Lemma c_setlen o : k_setlen k = Some o -> o = seq 0 nf.
Proof.
  intros E. unfold consistent in C. rewrite E, !andb_true_iff in C. apply list_nat_eqb_eq. tauto.
Qed.
Lemma c_act t a : In (t, a) (k_switch k) -> act_ok (k_fields k) a = true.
Proof.
  intros E. unfold consistent in C. rewrite !andb_true_iff, forallb_forall in C.
  destruct C as [[[[[[_ H] _] _] _] _] _]. exact (H (t, a) E).
Qed.
Lemma c_replace : k_mode k = IReplace -> k_fields k = [] /\ k_switch k = [].
Proof.
  intros E. unfold consistent in C. rewrite E, !andb_true_iff in C.
  destruct C as [[[_ H1] H2] _]. destruct (k_fields k); [|discriminate]. destruct (k_switch k); [auto|discriminate].
Qed.
Lemma c_ctor_switch cases : k_ctor k = CSwitch cases -> cases = k_switch k.
Proof.
  intros E. unfold consistent in C. rewrite E, !andb_true_iff in C. destruct C as [_ H].
  destruct (list_eq_dec case_eq_dec cases (k_switch k)); [assumption|discriminate].
Qed.
Lemma c_ctor_fields fs : k_ctor k = CFields fs -> fs = seq 0 nf /\ map snd (k_fields k) = repeat false nf.
Proof.
  intros E. unfold consistent in C. rewrite E, !andb_true_iff in C. destruct C as [_ [H1 H2]].
  apply list_nat_eqb_eq in H1. split; [exact H1|]. unfold nf. clear - H2.
  induction (k_fields k) as [|[n b] l IH]; [reflexivity|]. cbn in *. destruct b; [discriminate|].
  now rewrite IH.
Qed.
End Kind.

(** ** generic list facts *)
Lemma nth_error_upd_eq {A} (l : list A) n x : n < length l -> nth_error (upd l n x) n = Some x.
Proof. revert n; induction l as [|y l IH]; intros [|n] H; cbn in *; try lia; auto. apply IH. lia. Qed.
Lemma nth_error_upd_neq {A} (l : list A) n m x : n <> m -> nth_error (upd l n x) m = nth_error l m.
Proof. revert n m; induction l as [|y l IH]; intros [|n] [|m] H; cbn in *; auto; congruence. Qed.
Lemma upd_length {A} (l : list A) n x : length (upd l n x) = length l.
Proof. revert n; induction l as [|y l IH]; intros [|n]; cbn in *; auto. Qed.
Lemma map_upd {A B} (f : A -> B) l n x : map f (upd l n x) = upd (map f l) n (f x).
Proof. revert n; induction l as [|y l IH]; intros [|n]; cbn in *; auto. now rewrite IH. Qed.
Lemma upd_same {A} (l : list A) n x : nth_error l n = Some x -> upd l n x = l.
Proof. revert n; induction l as [|y l IH]; intros [|n] H; cbn in *; try discriminate; [congruence|]. now rewrite IH. Qed.
Lemma nth_ext' {A} (l r : list A) : (forall n, nth_error l n = nth_error r n) -> l = r.
Proof.
  revert r; induction l as [|x l IH]; intros [|y r] H; auto.
  - specialize (H 0); discriminate.
  - specialize (H 0); discriminate.
  - f_equal; [specialize (H 0); cbn in H; congruence|]. apply IH. intros n. apply (H (S n)).
Qed.
Fixpoint imap {A B} (f : nat -> A -> B) (n : nat) (l : list A) : list B :=
  match l with [] => [] | x :: r => f n x :: imap f (S n) r end.
Lemma nth_error_imap {A B} (f : nat -> A -> B) l : forall n m,
  nth_error (imap f n l) m = option_map (f (n + m)) (nth_error l m).
Proof.
  induction l as [|x l IH]; intros n [|m]; cbn; auto.
  - now rewrite Nat.add_0_r.
  - rewrite IH. now rewrite Nat.add_succ_r.
Qed.
Lemma imap_length {A B} (f : nat -> A -> B) l n : length (imap f n l) = length l.
Proof. revert n; induction l; intros; cbn; auto. Qed.
Lemma last_opt_app {A} (l : list A) x : last_opt (l ++ [x]) = Some x.
Proof. induction l as [|y l IH]; [reflexivity|]. destruct l; [reflexivity|]. exact IH. Qed.
Lemma last_opt_cons {A} (x : A) l : last_opt (x :: l) = match last_opt l with Some y => Some y | None => Some x end.
Proof.
  revert x; induction l as [|y l IH]; intros x; [reflexivity|].
  change (last_opt (x :: y :: l)) with (last_opt (y :: l)). rewrite IH. now destruct (last_opt l).
Qed.
Lemma present_map_Some {A} (l : list A) : present (map Some l) = l.
Proof. induction l; cbn; congruence. Qed.
Lemma present_app {A} (l r : list (option A)) : present (l ++ r) = present l ++ present r.
Proof. induction l as [|[x|] l IH]; cbn; congruence. Qed.

(** ** the switch loop *)
Section Store.
Variable k : kind.
Hypothesis C : consistent k = true.

(** effect of reading [is] on the contents v of field n *)
Definition absorb (is : list ie) (n : nat) (v : fval) : fval :=
  match v with
  | FOne o => FOne (match last_opt (filter (belongs k n) is) with Some i => Some i | None => o end)
  | FMany l => FMany (l ++ map Some (filter (belongs k n) is))
  end.
Definition absorb_all (is : list ie) (m : msg) : msg :=
  mkM (m_h m) (imap (absorb is) 0 (m_f m)) (m_ies m ++ map Some (filter (unrouted k) is)).

Lemma absorb_nil n v : absorb [] n v = v.
Proof. destruct v; cbn; [reflexivity|now rewrite app_nil_r]. Qed.
Lemma absorb_cons i r n v : absorb (i :: r) n v = absorb r n (absorb [i] n v).
Proof.
  destruct v as [o|l]; cbn [absorb filter]; destruct (belongs k n i) eqn:B; cbn [map]; try (rewrite ?app_nil_r; reflexivity).
  - rewrite last_opt_cons. cbn. destruct (last_opt _); reflexivity.
  - now rewrite <- app_assoc.
Qed.
Lemma imap_id {A} (f : nat -> A -> A) l n : (forall m x, f m x = x) -> imap f n l = l.
Proof. intros H. revert n. induction l as [|x l IH]; intros n; cbn; [reflexivity|]. now rewrite H, IH. Qed.
Lemma imap_imap {A} (f h : nat -> A -> A) l n : imap f n (imap h n l) = imap (fun m x => f m (h m x)) n l.
Proof. revert n; induction l; intros; cbn; congruence. Qed.
Lemma imap_ext {A B} (f h : nat -> A -> B) l n : (forall m x, f m x = h m x) -> imap f n l = imap h n l.
Proof. intros H. revert n; induction l; intros; cbn; congruence. Qed.

Lemma absorb_all_nil m : absorb_all [] m = m.
Proof. destruct m as [h f is]. unfold absorb_all. cbn. rewrite app_nil_r, imap_id; [reflexivity|]. apply absorb_nil. Qed.
Lemma absorb_all_cons i r m : absorb_all (i :: r) m = absorb_all r (absorb_all [i] m).
Proof.
  unfold absorb_all. cbn [m_h m_f m_ies]. rewrite imap_imap. f_equal.
  - apply imap_ext. intros. apply absorb_cons.
  - cbn [filter]. destruct (unrouted k i); cbn [map]; [now rewrite <- app_assoc|now rewrite app_nil_r].
Qed.
Lemma absorb_shape is n v : shape (absorb is n v) = shape v.
Proof. now destruct v. Qed.
Lemma absorb_all_shaped is m : shaped k m -> shaped k (absorb_all is m).
Proof.
  unfold shaped. intros <-. cbn [absorb_all m_f]. generalize 0.
  induction (m_f m) as [|v f IH]; intros n; cbn; [reflexivity|]. now rewrite absorb_shape, IH.
Qed.

Lemma lookup_in {A} t (l : list (N * A)) a : lookup t l = Some a -> In (t, a) l.
Proof.
  induction l as [|[t' a'] l IH]; cbn; [discriminate|].
  destruct (N.eqb_spec t t') as [->|]; [intros [= ->]; now left|right; auto].
Qed.
Lemma shaped_nth m n : shaped k m -> option_map shape (nth_error (m_f m) n) = option_map snd (nth_error (k_fields k) n).
Proof. unfold shaped. intros E. rewrite <- !nth_error_map, E. reflexivity. Qed.

Lemma upd_imap (f : list fval) n v v' (h : nat -> fval -> fval) : nth_error f n = Some v -> h n v = v' ->
  (forall m x, m <> n -> nth_error f m = Some x -> h m x = x) -> upd f n v' = imap h 0 f.
Proof.
  intros E E' H. apply nth_ext'. intros m. rewrite nth_error_imap. cbn.
  destruct (Nat.eq_dec n m) as [<-|D].
  - rewrite nth_error_upd_eq by (apply nth_error_Some; congruence). rewrite E. cbn. now rewrite E'.
  - rewrite nth_error_upd_neq by exact D. destruct (nth_error f m) as [x|] eqn:X; cbn; [|reflexivity].
    rewrite H; auto.
Qed.

Lemma store_ok m i : shaped k m -> store (k_switch k) m i = Ok (absorb_all [i] m).
Proof.
  intros Sh. unfold store. destruct (lookup (ty i) (k_switch k)) as [[n|n]|] eqn:L.
  - pose proof (@c_act k C _ _ (lookup_in _ _ L)) as A. cbn in A.
    pose proof (shaped_nth n Sh) as S. destruct (nth_error (k_fields k) n) as [[s []]|]; try discriminate.
    destruct (nth_error (m_f m) n) as [[o|l]|] eqn:E; try discriminate. f_equal.
    unfold absorb_all. cbn [filter]. unfold unrouted, route. rewrite L. cbn [map]. rewrite app_nil_r. f_equal.
    eapply upd_imap; [exact E| |].
    + cbn. unfold belongs, route. rewrite L, Nat.eqb_refl. reflexivity.
    + intros j x D _. unfold absorb. cbn [filter]. unfold belongs, route. rewrite L.
      destruct (Nat.eqb_spec n j); [congruence|]. cbn. destruct x; [reflexivity|now rewrite app_nil_r].
  - pose proof (@c_act k C _ _ (lookup_in _ _ L)) as A. cbn in A.
    pose proof (shaped_nth n Sh) as S. destruct (nth_error (k_fields k) n) as [[s []]|]; try discriminate.
    destruct (nth_error (m_f m) n) as [[o|l]|] eqn:E; try discriminate. f_equal.
    unfold absorb_all. cbn [filter]. unfold unrouted, route. rewrite L. cbn [map]. rewrite app_nil_r. f_equal.
    eapply upd_imap; [exact E| |].
    + cbn. unfold belongs, route. rewrite L, Nat.eqb_refl. reflexivity.
    + intros j x D _. unfold absorb. cbn [filter]. unfold belongs, route. rewrite L.
      destruct (Nat.eqb_spec n j); [congruence|]. cbn. destruct x; [reflexivity|now rewrite app_nil_r].
  - f_equal. unfold absorb_all. cbn [filter]. unfold unrouted, route. rewrite L. cbn [map]. f_equal.
    symmetry. apply imap_id. intros j x. unfold absorb. cbn [filter]. unfold belongs, route. rewrite L. cbn.
    destruct x; [reflexivity|now rewrite app_nil_r].
Qed.
Lemma store_all_ok is : forall m, shaped k m -> store_all (k_switch k) m is = Ok (absorb_all is m).
Proof.
  induction is as [|i r IH]; intros m Sh; cbn [store_all].
  - now rewrite absorb_all_nil.
  - rewrite store_ok by exact Sh. cbn [bind]. rewrite IH by now apply absorb_all_shaped.
    now rewrite <- absorb_all_cons.
Qed.
Lemma store_opts_ok is : forall m, shaped k m -> store_opts (k_switch k) m (map Some is) = Ok (absorb_all is m).
Proof.
  induction is as [|i r IH]; intros m Sh; cbn [store_opts map].
  - now rewrite absorb_all_nil.
  - rewrite store_ok by exact Sh. cbn [bind]. rewrite IH by now apply absorb_all_shaped.
    now rewrite <- absorb_all_cons.
Qed.
Lemma store_opts_nil is r : forall m, shaped k m -> store_opts (k_switch k) m (map Some is ++ None :: r) = Fault.
Proof.
  induction is as [|i is IH]; intros m Sh; cbn [store_opts map app]; [reflexivity|].
  rewrite store_ok by exact Sh. cbn [bind]. apply IH. now apply absorb_all_shaped.
Qed.

Lemma zero_shaped h : shaped k (zero_msg k h).
Proof. unfold shaped, zero_msg. cbn. rewrite map_map. apply map_ext. now intros [s []]. Qed.
Lemma absorb_all_zero h is : absorb_all is (zero_msg k h) = message_of k h is.
Proof.
  unfold absorb_all, message_of, zero_msg. cbn. f_equal. generalize 0.
  induction (k_fields k) as [|[s b] l IH]; intros n; cbn; [reflexivity|]. rewrite IH. f_equal.
  unfold field_of. destruct b; cbn; [reflexivity|]. now destruct (last_opt _).
Qed.
End Store.
