(** Every interleaving of AddGroupedIEType, SetIsGroupedFun and the codec: the lock, the map,
    progress, termination, and what a goroutine's answers can be. *)
From Coq Require Import Wellfounded.
From Verif Require Import Base IETypes IE Header Message MsgTables MsgProofs Registry RegistryProofs.
From Verif Require LoggerProofs.

Section M.
Variable A : Type.
Notation sys := (Registry.sys A).
Notation thread := (Registry.thread A).
Notation tstate := (Registry.tstate A).

Definition set_at (x : thread) a : thread := mkT a (queue x) (out x) (cur x).

Definition isR (a : tstate) : nat := match a with TGotR _ _ | TReading _ _ | TRead _ => 1 | _ => 0 end.
Definition isW (a : tstate) : nat :=
  match a with TAddWait _ | TAddGot _ | TWriting _ _ | TSetWait _ | TSetGot _ | TSetDone => 1 | _ => 0 end.
Definition isX (a : tstate) : nat :=
  match a with TAddGot _ | TWriting _ _ | TSetGot _ | TSetDone => 1 | _ => 0 end.
Definition total (f : tstate -> nat) (s : sys) : nat := list_sum (map (fun x => f (at_ x)) (threads s)).

Definition locks (s : sys) : Prop :=
  readers s = total isR s /\ total isW s = (if pending s then 1 else 0) /\ (0 < total isX s -> readers s = 0).

Lemma total_upd f (ts : list thread) h x x' : nth_error ts h = Some x ->
  list_sum (map (fun x => f (at_ x)) (upd ts h x')) + f (at_ x) = list_sum (map (fun x => f (at_ x)) ts) + f (at_ x').
Proof.
  intros H. rewrite map_upd. apply LoggerProofs.list_sum_upd. now rewrite nth_error_map, H.
Qed.

Lemma locks_start g qs : locks (start g qs).
Proof.
  assert (H : forall f, f TIdle = 0 -> total f (start g qs) = 0).
  { intros f E. unfold total. cbn. rewrite map_map. cbn. rewrite E. induction qs; simpl; auto. }
  split; [symmetry; now apply H|]. split; [now apply H|]. intros Z. rewrite H in Z by reflexivity. lia.
Qed.

Ltac sstep H :=
  unfold step in H; let E := fresh "En" in
  match type of H with context [nth_error ?T0 ?h0] => 
    destruct (nth_error T0 h0) as [[[| [?r|?t ?k] | ?t ?k [|?f|] | ?t ?k | ?t ?k | ?t ?k | ?p | ?ts | ?ts | [|?t ?ts] | ?t ?ts | ?f | ?f | ?f | ] ?q0 ?o0 ?c0]|] eqn:E; [..|discriminate H] end;
  repeat match type of H with
         | context [match ?Q with [] => _ | _ => _ end] => destruct Q as [|[?ts|?f|?p] ?q']
         | context [match ?C with Some _ => _ | None => _ end] => destruct C as [?p0|]
         | context [if ?B then _ else _] => let Z := fresh "Z" in destruct B eqn:Z
         end; try discriminate H; injection H as <-.

Lemma XleW (ts : list thread) : list_sum (map (fun x => isX (at_ x)) ts) <= list_sum (map (fun x => isW (at_ x)) ts).
Proof. induction ts as [|x ts IH]; simpl; [lia|]. destruct x as [[]]; cbn in *; lia. Qed.

Lemma locks_step h s s' : locks s -> step h s = Some s' -> locks s'.
Proof.
  intros (H1 & H2 & H3) H. unfold locks, total in *. pose proof (XleW (threads s)) as XW. sstep H; cbn [readers pending threads];
    match goal with En : nth_error _ _ = Some ?x |- context [upd _ _ ?y] =>
      pose proof (total_upd isR _ _ _ y En) as TR; pose proof (total_upd isW _ _ _ y En) as TW; pose proof (total_upd isX _ _ _ y En) as TX
    end; cbn [at_ isR isW isX] in TR, TW, TX; try (rewrite Nat.eqb_eq in *);
    destruct (pending s); (split; [|split]); try discriminate; try lia.
Qed.

Lemma exec_inv (P : sys -> Prop) : (forall h s s', P s -> step h s = Some s' -> P s') ->
  forall s w s', exec s w s' -> P s -> P s'.
Proof. intros H s w s' E. induction E; eauto. Qed.
Lemma exec_locks g (qs : list (list (task A))) w s : exec (start g qs) w s -> locks s.
Proof. intros E. exact (exec_inv locks locks_step _ _ _ E (locks_start g qs)). Qed.

(** ** The map is never written while another goroutine is in it *)
Lemma total_two f (ts : list thread) h h' x x' : h <> h' -> nth_error ts h = Some x -> nth_error ts h' = Some x' ->
  f (at_ x) + f (at_ x') <= list_sum (map (fun x => f (at_ x)) ts).
Proof.
  revert h h'. induction ts as [|y ts IH]; intros [|h] [|h'] Hn E E'; cbn in E, E'; try discriminate; try congruence.
  - injection E as ->. simpl. enough (f (at_ x') <= list_sum (map (fun x => f (at_ x)) ts)) by lia.
    clear - E'. revert h' E'. induction ts as [|z ts IH]; intros [|h'] E; cbn in E; try discriminate; simpl.
    + injection E as ->. lia.
    + specialize (IH _ E). lia.
  - injection E' as ->. simpl. enough (f (at_ x) <= list_sum (map (fun x => f (at_ x)) ts)) by lia.
    clear - E. revert h E. induction ts as [|z ts IH]; intros [|h'] E; cbn in E; try discriminate; simpl.
    + injection E as ->. lia.
    + specialize (IH _ E). lia.
  - simpl. specialize (IH h h' ltac:(congruence) E E'). lia.
Qed.
Lemma total_one f (ts : list thread) h x : nth_error ts h = Some x -> f (at_ x) <= list_sum (map (fun x => f (at_ x)) ts).
Proof.
  revert h. induction ts as [|z ts IH]; intros [|h'] E; cbn in E; try discriminate; simpl.
  - injection E as ->. lia.
  - specialize (IH _ E). lia.
Qed.
Theorem no_clash g (qs : list (list (task A))) w s : exec (start g qs) w s -> ~ map_clash s.
Proof.
  intros E (h & h' & x & x' & t & ts & Hn & Hx & Hx' & Ha & Hb). destruct (exec_locks _ _ _ _ E) as (H1 & H2 & H3).
  unfold total in *. destruct Hb as [(t' & k & Hb)|(t' & ts' & Hb)].
  - pose proof (total_one isX _ _ _ Hx) as X. rewrite Ha in X. cbn in X.
    pose proof (total_one isR _ _ _ Hx') as R. rewrite Hb in R. cbn in R. lia.
  - pose proof (total_two isW _ _ _ _ _ Hn Hx Hx') as W. rewrite Ha, Hb in W. cbn in W. destruct (pending s); lia.
Qed.

(** ** Progress *)
Definition running (s : sys) : Prop := forall h x p, nth_error (threads s) h = Some x -> at_ x = TProg p -> cur x <> None.
Definition inprog (a : tstate) : bool :=
  match a with TProg _ | TCall _ _ _ | TWantR _ _ | TGotR _ _ | TReading _ _ | TRead _ => true | _ => false end.
Definition held (s : sys) : Prop := forall h x, nth_error (threads s) h = Some x -> inprog (at_ x) = true -> cur x <> None.
Lemma held_start g qs : held (start g qs).
Proof.
  intros h x Hx. cbn in Hx. rewrite nth_error_map in Hx. destruct (nth_error qs h); [|discriminate]. injection Hx as <-. discriminate.
Qed.
Lemma held_step h s s' : held s -> step h s = Some s' -> held s'.
Proof.
  intros I H. sstep H; intros h' x Hx; cbn [threads] in Hx; apply LoggerProofs.nth_upd in Hx;
    (destruct Hx as [[-> ->]|[_ Hx]]; [|now apply (I h')]); cbn [at_ inprog cur]; try discriminate;
    intros _; try discriminate; apply (I _ _ En); reflexivity.
Qed.
Lemma exec_held g (qs : list (list (task A))) w s : exec (start g qs) w s -> held s.
Proof. intros E. exact (exec_inv held held_step _ _ _ E (held_start g qs)). Qed.

Lemma sum_zero_or f (ts : list thread) : list_sum (map (fun x => f (at_ x)) ts) = 0 \/
  exists h x, nth_error ts h = Some x /\ 0 < f (at_ x).
Proof.
  induction ts as [|y ts [IH|(h & x & E & F)]]; [now left| |right; exists (S h), x; now split].
  destruct (f (at_ y)) eqn:Ey; [left; simpl; lia|]. right. exists 0, y. split; [reflexivity|lia].
Qed.

Theorem no_deadlock g (qs : list (list (task A))) w s : exec (start g qs) w s -> blocked s -> finished s.
Proof.
  intros E B. destruct (exec_locks _ _ _ _ E) as (H1 & H2 & H3). pose proof (exec_held _ _ _ _ E) as Hh.
  assert (P : pending s = false).
  { destruct (pending s) eqn:P; [exfalso|reflexivity].
    assert (R : readers s = 0).
    { rewrite H1. unfold total. destruct (sum_zero_or isR (threads s)) as [Z|(h & [a q o c] & Hx & F)]; [exact Z|exfalso].
      specialize (B h). unfold step in B. rewrite Hx in B. destruct a; cbn in F; try lia; discriminate B. }
    unfold total in H2. destruct (sum_zero_or isW (threads s)) as [Z|(h & [a q o c] & Hx & F)]; [lia|].
    specialize (B h). unfold step in B. rewrite Hx, R in B. destruct a as [| | | | | | | | | [] | | | | |]; cbn in F; try lia; discriminate B. }
  intros h [a q o c] Hx. specialize (Hh _ _ Hx). cbn in Hh.
  pose proof (total_one isW _ _ _ Hx) as TW. unfold total in H2. rewrite P in H2. cbn [at_] in TW.
  specialize (B h). unfold step in B. rewrite Hx, P in B.
  destruct a as [|[r|t k]|t k [| |]| | | | | | |[|]| | | | |]; cbn in TW; try lia; try discriminate B.
  - destruct q as [|[| |]]; try discriminate B. now split.
  - destruct c; [discriminate|]. now destruct (Hh eq_refl).
Qed.

(** ** Termination: no schedule runs for ever *)
Inductive move : thread -> thread -> Prop :=   (* move x' x: x becomes x' in one step *)
| mv_add ts q o c : move (mkT (TAdd ts) q o None) (mkT TIdle (KAdd ts :: q) o c)
| mv_set f q o c : move (mkT (TSet f) q o None) (mkT TIdle (KSet f :: q) o c)
| mv_prog p q o c : move (mkT (TProg p) q o (Some p)) (mkT TIdle (KProg p :: q) o c)
| mv_done r q o p : move (mkT TIdle q (o ++ [(p, r)]) None) (mkT (TProg (Done r)) q o (Some p))
| mv_ask t k f q o c : move (mkT (TCall t k f) q o c) (mkT (TProg (Ask t k)) q o c)
| mv_enter t k q o c : move (mkT (TWantR t k) q o c) (mkT (TCall t k FDefault) q o c)
| mv_user t k f q o c : move (mkT (TProg (k (f t))) q o c) (mkT (TCall t k (FUser f)) q o c)
| mv_nil t k q o c : move (mkT TIdle q o c) (mkT (TCall t k FNil) q o c)
| mv_rlock t k q o c : move (mkT (TGotR t k) q o c) (mkT (TWantR t k) q o c)
| mv_read t k q o c : move (mkT (TReading t k) q o c) (mkT (TGotR t k) q o c)
| mv_reads t k b q o c : move (mkT (TRead (k b)) q o c) (mkT (TReading t k) q o c)
| mv_runlock p q o c : move (mkT (TProg p) q o c) (mkT (TRead p) q o c)
| mv_lock ts q o c : move (mkT (TAddWait ts) q o c) (mkT (TAdd ts) q o c)
| mv_got ts q o c : move (mkT (TAddGot ts) q o c) (mkT (TAddWait ts) q o c)
| mv_write t ts q o c : move (mkT (TWriting t ts) q o c) (mkT (TAddGot (t :: ts)) q o c)
| mv_wrote t ts q o c : move (mkT (TAddGot ts) q o c) (mkT (TWriting t ts) q o c)
| mv_unlock q o c : move (mkT TIdle q o c) (mkT (TAddGot []) q o c)
| mv_slock f q o c : move (mkT (TSetWait f) q o c) (mkT (TSet f) q o c)
| mv_sgot f q o c : move (mkT (TSetGot f) q o c) (mkT (TSetWait f) q o c)
| mv_sset f q o c : move (mkT TSetDone q o c) (mkT (TSetGot f) q o c)
| mv_sunlock q o c : move (mkT TIdle q o c) (mkT TSetDone q o c).

Lemma step_move h s s' : step h s = Some s' -> exists x x',
  nth_error (threads s) h = Some x /\ threads s' = upd (threads s) h x' /\ move x' x.
Proof. intros H. sstep H; do 2 eexists; (split; [first [exact En|reflexivity]|]); (split; [reflexivity|]); constructor. Qed.

Ltac acc1 := constructor; let y := fresh "y" in let Hy := fresh "Hy" in intros y Hy; inversion Hy; subst; clear Hy; auto.
Lemma move_acc_idle (q : list (task A)) : (forall o c, Acc move (mkT TIdle q o c)) -> forall a o c, Acc move (mkT a q o c).
Proof.
  intros I.
  assert (AG : forall ts o c, Acc move (mkT (TAddGot ts) q o c)).
  { induction ts as [|t ts IHt]; intros o c; acc1. acc1. }
  assert (PR : forall p o c, Acc move (mkT (TProg p) q o c)).
  { induction p as [r|t k IHp]; intros o c; acc1. do 6 acc1. }
  assert (SD : forall o c, Acc move (mkT TSetDone q o c)) by (intros; acc1).
  assert (RD : forall p o c, Acc move (mkT (TRead p) q o c)) by (intros; acc1).
  assert (RG : forall t k o c, Acc move (mkT (TReading t k) q o c)) by (intros; acc1).
  assert (GR : forall t k o c, Acc move (mkT (TGotR t k) q o c)) by (intros; acc1).
  assert (WR : forall t k o c, Acc move (mkT (TWantR t k) q o c)) by (intros; acc1).
  assert (AW : forall ts o c, Acc move (mkT (TAddWait ts) q o c)) by (intros; acc1).
  assert (SG : forall f o c, Acc move (mkT (TSetGot f) q o c)) by (intros; acc1).
  assert (SW : forall f o c, Acc move (mkT (TSetWait f) q o c)) by (intros; acc1).
  intros a o c. destruct a; auto; acc1.
Qed.
Lemma move_acc : forall x : thread, Acc move x.
Proof.
  assert (Hq : forall (q : list (task A)) a o c, Acc move (mkT a q o c)).
  2:{ intros [a q o c]. apply Hq. }
  induction q as [|k q IH]; apply move_acc_idle; intros o c; acc1.
Qed.

Definition smove (s' s : sys) : Prop := exists h, step h s = Some s'.
Lemma acc_threads (ts : list thread) : forall s : sys, threads s = ts -> Acc smove s.
Proof.
  set (lmove := fun ts' ts : list thread => exists h x x', nth_error ts h = Some x /\ ts' = upd ts h x' /\ move x' x).
  assert (H : forall ts, Acc lmove ts).
  { induction ts0 as [|x ts0 IH].
    - constructor. intros y (h & x & x' & E & _). now destruct h.
    - revert ts0 IH. induction (move_acc x) as [x _ IHx]. intros ts0 IH. induction IH as [ts0 Hts IHts].
      constructor. intros y ([|h] & z & z' & E & -> & M); cbn in E.
      + injection E as ->. cbn. apply IHx; [exact M|]. now constructor.
      + cbn. apply IHts. exists h, z, z'. auto. }
  specialize (H ts). induction H as [ts _ IH]. intros s Es. constructor. intros s' [h Hs].
  destruct (step_move _ _ _ Hs) as (x & x' & E & E' & M). eapply IH; [|exact E'].
  exists h, x, x'. rewrite Es in *. auto.
Qed.
Theorem smove_wf : forall s : sys, Acc smove s.
Proof. intros s. eapply acc_threads. reflexivity. Qed.
Theorem no_infinite (f : nat -> sys) : (forall n, exists h, step h (f n) = Some (f (S n))) -> False.
Proof.
  intros H. assert (G : forall s, Acc smove s -> forall n, f n = s -> False).
  { induction 1 as [s _ IH]. intros n E. destruct (H n) as [h Hh]. eapply IH; [|reflexivity]. exists h. rewrite <- E. exact Hh. }
  exact (G (f 0) (smove_wf _) 0 eq_refl).
Qed.
Lemma step_find (s : sys) : (exists h s', step h s = Some s') \/ blocked s.
Proof.
  assert (H : forall n, (exists t s', step t s = Some s') \/ forall t, t < n -> step t s = None).
  { induction n as [|n [IH|IH]]; [right; intros; lia|now left|].
    destruct (step n s) eqn:E; [left; eauto|]. right. intros t Ht.
    destruct (Nat.eq_dec t n) as [->|]; [auto|apply IH; lia]. }
  destruct (H (length (threads s))) as [|N]; [now left|]. right. intros t.
  destruct (Nat.lt_ge_cases t (length (threads s))) as [|Hl]; [auto|].
  unfold step. rewrite (proj2 (nth_error_None _ _) Hl). reflexivity.
Qed.
Theorem exec_to_end (s : sys) : exists w s', exec s w s' /\ blocked s'.
Proof.
  induction (smove_wf s) as [s _ IH]. destruct (step_find s) as [(h & s1 & Hs)|B].
  - destruct (IH s1) as (w & s' & E & B); [now exists h|]. exists (h :: w), s'. split; auto. econstructor; eauto.
  - exists [], s. split; [constructor|auto].
Qed.

(** ** What a goroutine was answered *)
(** the program went from p to p' and question number n was answered by the n-th predicate of the list *)
Inductive asked (p : prog A) : list (N -> bool) -> prog A -> Prop :=
| asked_nil : asked p [] p
| asked_snoc l t k g : asked p l (Ask t k) -> asked p (l ++ [g]) (k (g t)).
Lemma asked_run p l p' : asked p l p' -> forall (o : nat -> N -> bool),
  (forall n g, nth_error l n = Some g -> forall t, o n t = g t) -> forall r, p' = Done r -> run o 0 p = (r, length l).
Proof.
  intros H o Ho r ->.
  assert (G : forall l p', asked p l p' -> (forall n g, nth_error l n = Some g -> forall t, o n t = g t) -> run o 0 p = run o (length l) p').
  { clear. induction 1 as [|l t k g H IH]; intros Hl; [reflexivity|]. rewrite IH.
    - cbn [run]. rewrite app_length. cbn. replace (length l + 1) with (S (length l)) by lia. f_equal.
      rewrite (Hl (length l) g); [reflexivity|]. rewrite nth_error_app2, Nat.sub_diag by lia. reflexivity.
    - intros n g' E. apply Hl. rewrite nth_error_app1; [exact E|]. apply nth_error_Some. congruence. }
  rewrite (G _ _ H Ho). reflexivity.
Qed.
Definition incl_reg (g g' : N -> bool) : Prop := forall t, g t = true -> g' t = true.
(** the registry only grows, from g0 to g *)
Definition chain (g0 : N -> bool) (l : list (N -> bool)) (g : N -> bool) : Prop :=
  incl_reg g0 g /\ Forall (fun x => incl_reg g0 x /\ incl_reg x g) l /\
  forall n m x y, n <= m -> nth_error l n = Some x -> nth_error l m = Some y -> incl_reg x y.
Lemma chain_grow g0 l g g' : chain g0 l g -> incl_reg g g' -> chain g0 l g'.
Proof.
  intros (H0 & H1 & H2) H. split; [intros t Z; auto|]. split; auto. eapply Forall_impl; [|exact H1]. intros x [? ?]. split; auto. intros t Z; auto.
Qed.
Lemma chain_snoc g0 l g : chain g0 l g -> chain g0 (l ++ [g]) g.
Proof.
  intros (H0 & H1 & H2). split; [exact H0|]. split.
  - apply Forall_app. split; [exact H1|]. constructor; [split; [exact H0|intros t Z; exact Z]|constructor].
  - intros n m x y Hnm Hn Hm. destruct (Nat.lt_ge_cases m (length l)) as [L|L].
    + rewrite nth_error_app1 in Hn, Hm by lia. eauto.
    + rewrite nth_error_app2 in Hm by lia. destruct (m - length l) as [|d]; [|destruct d; discriminate Hm].
      injection Hm as <-. destruct (Nat.lt_ge_cases n (length l)) as [L'|L'].
      * rewrite nth_error_app1 in Hn by lia. rewrite Forall_forall in H1. apply H1. eapply nth_error_In; eauto.
      * rewrite nth_error_app2 in Hn by lia. destruct (n - length l) as [|d']; [|destruct d'; discriminate Hn].
        injection Hn as <-. intros t Z. exact Z.
Qed.

Definition adds_only (k : task A) : bool := match k with KSet _ => false | _ => true end.
Definition plain (a : tstate) : bool :=
  match a with TSet _ | TSetWait _ | TSetGot _ | TSetDone | TCall _ _ (FUser _) | TCall _ _ FNil => false | _ => true end.
Definition atprog (a : tstate) : option (prog A) :=
  match a with
  | TProg p | TRead p => Some p
  | TCall t k _ | TWantR t k | TGotR t k | TReading t k => Some (Ask t k)
  | _ => None
  end.
Definition answered g0 (s : sys) : Prop :=
  fvar s = FDefault /\ panicked s = false /\ incl_reg g0 (reg s) /\
  forall h x, nth_error (threads s) h = Some x ->
    plain (at_ x) = true /\ forallb adds_only (queue x) = true /\
    (forall p, atprog (at_ x) = Some p -> exists p0 l, cur x = Some p0 /\ asked p0 l p /\ chain g0 l (reg s)) /\
    (forall p r, In (p, r) (out x) -> exists l, asked p l (Done r) /\ chain g0 l (reg s)).
Lemma answered_start g qs : forallb (forallb adds_only) qs = true -> answered g (start g qs).
Proof.
  intros H. split; [reflexivity|]. split; [reflexivity|]. split; [intros t Z; exact Z|].
  intros h x Hx. cbn in Hx. rewrite nth_error_map in Hx. destruct (nth_error qs h) as [q|] eqn:E; [|discriminate].
  injection Hx as <-. cbn. split; [reflexivity|]. split; [|split; [discriminate|contradiction]].
  rewrite forallb_forall in H. apply H. eapply nth_error_In; eauto.
Qed.
Lemma answered_step g0 h s s' : answered g0 s -> step h s = Some s' -> answered g0 s'.
Proof.
  intros (F & P & R & I) H. sstep H; destruct (I _ _ En) as (I1 & I2 & I3 & I4); cbn [at_ queue out cur plain atprog forallb adds_only andb] in *;
    try discriminate I1; try discriminate I2.
  all: split; [exact F|]; split; [exact P|]; split; [try exact R; cbn [reg]; intros u Zu; rewrite (R _ Zu); apply orb_true_r|].
  all: intros h' x Hx; cbn [threads reg] in *; apply LoggerProofs.nth_upd in Hx.
  all: assert (G : forall t0, incl_reg (reg s) (fun u => (u =? t0)%N || reg s u)) by (intros t0 u Zu; rewrite Zu; apply orb_true_r).
  all: destruct Hx as [[-> ->]|[_ Hx]];
    [|destruct (I _ _ Hx) as (J1 & J2 & J3 & J4); split; [exact J1|]; split; [exact J2|]; split; [try exact J3|try exact J4]].
  all: cbn [at_ queue out cur plain atprog forallb adds_only andb].
  all: try (split; [first [exact I1|reflexivity|rewrite F; reflexivity]|]; split; [exact I2|]; split;
    [first [discriminate|exact I3|idtac]|first [exact I4|idtac]]).
  - intros q [= <-]. exists p, []. split; [reflexivity|]. split; [constructor|]. split; [exact R|]. split; [constructor|]. intros [|] m a b _ Hn; discriminate Hn.
  - intros p r' Hin. apply in_app_or in Hin. destruct Hin as [Hin|[[= <- <-]|[]]]; [auto|].
    destruct (I3 _ eq_refl) as (p1 & l & [= <-] & Ha & Hc). eauto.
  - intros p [= <-]. destruct (I3 _ eq_refl) as (p0 & l & Hc & Ha & Hch). exists p0, (l ++ [reg s]).
    split; [exact Hc|]. split; [now apply asked_snoc|now apply chain_snoc].
  - intros p r Hin. destruct (I4 _ _ Hin) as (l & Ha & Hc). exists l. split; [exact Ha|]. eapply chain_grow; [exact Hc|apply G].
  - intros p Hp. destruct (J3 _ Hp) as (p0 & l & Hc & Ha & Hch). exists p0, l. split; [exact Hc|]. split; [exact Ha|]. eapply chain_grow; [exact Hch|apply G].
  - intros p r Hin. destruct (J4 _ _ Hin) as (l & Ha & Hc). exists l. split; [exact Ha|]. eapply chain_grow; [exact Hc|apply G].
Qed.
Lemma exec_answered g qs w s : forallb (forallb adds_only) qs = true -> exec (start g qs) w s -> answered g s.
Proof. intros H E. exact (exec_inv (answered g) (answered_step g) _ _ _ E (answered_start g qs H)). Qed.

(** Results returned to a goroutine are those of a run whose registry only grows. *)
Theorem results_grow g (qs : list (list (task A))) w s h x p r :
  forallb (forallb adds_only) qs = true -> exec (start g qs) w s ->
  nth_error (threads s) h = Some x -> In (p, r) (out x) ->
  exists o, growing o /\ (forall n t, g t = true -> o n t = true) /\ fst (run o 0 p) = r.
Proof.
  intros H E Hx Hin. destruct (exec_answered _ _ _ _ H E) as (_ & _ & _ & I). destruct (I _ _ Hx) as (_ & _ & _ & I4).
  destruct (I4 _ _ Hin) as (l & Ha & (C0 & C1 & C2)).
  exists (fun n => nth n l (fun _ => true)). split; [|split].
  - intros n m t Hnm Hn. destruct (Nat.lt_ge_cases m (length l)) as [L|L]; [|now rewrite nth_overflow].
    destruct (nth_error l n) as [a|] eqn:Ea; [|apply nth_error_None in Ea; lia].
    destruct (nth_error l m) as [b|] eqn:Eb; [|apply nth_error_None in Eb; lia].
    rewrite (nth_error_nth _ _ _ Ea) in Hn. rewrite (nth_error_nth _ _ _ Eb). exact (C2 n m a b Hnm Ea Eb t Hn).
  - intros n t Ht. destruct (Nat.lt_ge_cases n (length l)) as [L|L]; [|now rewrite nth_overflow].
    rewrite Forall_forall in C1. apply (C1 (nth n l (fun _ => true))); [now apply nth_In|exact Ht].
  - rewrite (asked_run p l (Done r) Ha _ ) with (r := r); auto. intros n a Ea t. now rewrite (nth_error_nth _ _ _ Ea).
Qed.
Theorem no_panic g (qs : list (list (task A))) w s : forallb (forallb adds_only) qs = true -> exec (start g qs) w s -> panicked s = false.
Proof. intros H E. apply (exec_answered _ _ _ _ H E). Qed.
Theorem no_race g (qs : list (list (task A))) w s : forallb (forallb adds_only) qs = true -> exec (start g qs) w s -> ~ var_race s.
Proof.
  intros H E (h & h' & x & x' & t & k & f & _ & _ & Hx & _ & Ha). destruct (exec_answered _ _ _ _ H E) as (_ & _ & _ & I).
  destruct (I _ _ Hx) as (I1 & _). rewrite Ha in I1. discriminate.
Qed.

(** only the goroutine's own programs appear in its results *)
Definition own (qs : list (list (task A))) (s : sys) : Prop := forall h q0 x, nth_error qs h = Some q0 -> nth_error (threads s) h = Some x ->
  (forall k, In k (queue x) -> In k q0) /\ (forall p, cur x = Some p -> In (KProg p) q0) /\
  (forall p r, In (p, r) (out x) -> In (KProg p) q0).
Lemma own_start g qs : own qs (start g qs).
Proof.
  intros h q0 x Hq Hx. cbn in Hx. rewrite nth_error_map, Hq in Hx. injection Hx as <-. cbn.
  split; [auto|]. split; [discriminate|contradiction].
Qed.
Lemma own_step qs h s s' : own qs s -> step h s = Some s' -> own qs s'.
Proof.
  intros I H. sstep H; intros h' q1 x Hq Hx; cbn [threads] in Hx; apply LoggerProofs.nth_upd in Hx;
    (destruct Hx as [[-> ->]|[_ Hx]]; [|now apply (I h')]); destruct (I _ _ _ Hq En) as (I1 & I2 & I3);
    cbn [queue out cur] in *; (split; [|split]); auto.
  all: try (intros k0 Hk; apply I1; now right).
  all: try discriminate.
  - intros p1 [= <-]. apply I1. now left.
  - intros p1 r1 Hin. apply in_app_or in Hin. destruct Hin as [Hin|[[= <- <-]|[]]]; eauto.
Qed.
Lemma ran_programs g qs w s : exec (start g qs) w s -> own qs s.
Proof. intros E. exact (exec_inv (own qs) (own_step qs) _ _ _ E (own_start g qs)). Qed.
End M.

(** running a schedule, for the witnesses *)
Fixpoint play {A} (w : list nat) (s : Registry.sys A) : option (Registry.sys A) :=
  match w with [] => Some s | h :: w => match step h s with Some s' => play w s' | None => None end end.
Lemma play_exec {A} w : forall s s' : Registry.sys A, play w s = Some s' -> exec s w s'.
Proof.
  induction w as [|h w IH]; cbn; intros s s' H; [injection H as <-; constructor|].
  destruct (step h s) eqn:E; [|discriminate]. econstructor; eauto.
Qed.
