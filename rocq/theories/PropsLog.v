(** Property C41: the logging functions under every interleaving.
    Logger.v gives each call as its list of operations on the mutex and the logger variable;
    [exec (start ps) w s]: goroutine number t makes the calls of the t-th list of [ps], and the
    goroutines picked in the order [w] (each able to move when picked) lead to [s].
    [no_enable ps]: nobody calls EnableLogging. *)
From Verif Require Import Base IETypes IE Message MsgTables Logger LoggerProofs.

(** ** C41 without EnableLogging: never stuck, never endless, every call returned in order *)
Theorem C41_no_deadlock : forall ps w s, no_enable ps = true -> exec (start ps) w s -> blocked s -> finished s.
Proof. exact progress. Qed.
Print Assumptions C41_no_deadlock.
(** whatever is called, a schedule has at most as many steps as there are operations *)
Theorem C41_bounded : forall ps w s, exec (start ps) w s ->
  length w <= list_sum (map (fun p => length (code p)) ps).
Proof. intros ps w s E. apply exec_size in E. rewrite start_size in E. lia. Qed.
Print Assumptions C41_bounded.
(** any execution can be continued until nothing can move ... *)
Theorem C41_continue : forall s, exists w s', exec s w s' /\ blocked s'.
Proof. exact exec_to_end. Qed.
Print Assumptions C41_continue.
(** ... and by then every call of every goroutine has returned, in program order, and has had its effect *)
Theorem C41_all_return : forall ps w s, no_enable ps = true -> exec (start ps) w s -> blocked s ->
  forall t p, nth_error ps t = Some p -> calls_of t (returned s) = p /\ mine t (hist s) = flat_map effs p.
Proof. exact all_returned. Qed.
Print Assumptions C41_all_return.
(** at every moment: the calls returned so far are a prefix of the goroutine's calls, their effects
    have happened, and at most the next call's effect has happened too (even with EnableLogging) *)
Theorem C41_order : forall ps w s t p, exec (start ps) w s -> nth_error ps t = Some p ->
  exists cs d, p = calls_of t (returned s) ++ cs /\
    mine t (hist s) = flat_map effs (calls_of t (returned s)) ++ d /\
    (d = [] \/ exists c cs', cs = c :: cs' /\ d = effs c).
Proof. intros ps w s t p E. exact (@book_prefix ps s t p (@exec_book ps w s E)). Qed.
Print Assumptions C41_order.
(** the shared state is that of the effects carried out one at a time, in the order they happened *)
Theorem C41_atomic : forall ps w s, exec (start ps) w s -> fold_left seq_eff (map snd (hist s)) sh0 = sh s.
Proof. intros ps w s E. exact (proj1 (proj2 (@exec_good true ps w s (or_introl eq_refl) E))). Qed.
Print Assumptions C41_atomic.
(** the mutex is never unlocked while free *)
Theorem C41_no_fatal : forall ps w s, exec (start ps) w s -> fatal s = false.
Proof. intros ps w s E. exact (proj1 (@exec_good true ps w s (or_introl eq_refl) E)). Qed.
Print Assumptions C41_no_fatal.
(** message.Parse takes part exactly when the type octet is not one of the 23 known ones *)
Theorem C41_parse_logs : forall b, logs b = true <->
  exists c, nth_error b 1 = Some c /\ ~ (1 <= c <= 15 \/ 50 <= c <= 57)%N.
Proof. exact logs_iff. Qed.
Print Assumptions C41_parse_logs.
(** nothing is printed while the current logger is muted (DisableLogging) *)
Theorem C41_disabled : forall s n, let s' := seq_eff s EMute in fold_left seq_eff (repeat EPrint n) s' = s'.
Proof. intros s n. apply muted_silent. left. reflexivity. Qed.
Print Assumptions C41_disabled.
(** a logger installed by SetLogger prints, unless that logger was itself muted; a nil one is new and prints *)
Theorem C41_set : forall s l, ~ In l (muted s) -> lines (seq_eff (seq_eff s (ESet (Some l))) EPrint) = lines s ++ [l].
Proof.
  intros s l H. cbn. replace (existsb (Nat.eqb l) (muted s)) with false; [reflexivity|].
  symmetry. apply not_true_iff_false. rewrite existsb_exists. intros (x & Hx & E). apply Nat.eqb_eq in E. congruence.
Qed.
Print Assumptions C41_set.

(** ** C41 with EnableLogging: refuted.  It never returns, in any schedule; and once it has taken the
    mutex no other call that needs the mutex returns either. *)
Theorem C41_enable_never_returns : forall ps w s t l, exec (start ps) w s -> ~ In (t, CEnableLogging l) (returned s).
Proof. exact enable_never_returns. Qed.
Print Assumptions C41_enable_never_returns.
Theorem C41_enable_blocks : forall ps w s t r l k s1, exec (start ps) w s ->
  nth_error (threads s) t = Some (mkT r (ops (CEnableLogging l) ++ ORet (CEnableLogging l) :: k)) ->
  step t s = Some s1 ->
  forall w' s2, exec s1 w' s2 ->
    calls_of t (returned s2) = calls_of t (returned s) /\
    forall u r' c k', u <> t -> nth_error (threads s1) u = Some (mkT r' (ops c ++ ORet c :: k')) ->
      match c with CParse b => logs b = true | _ => True end ->
      calls_of u (returned s2) = calls_of u (returned s).
Proof.
  intros ps w s t r l k s1 E Ht Hs w' s2 E2. destruct (@enable_blocks ps w s t r l k s1 E Ht Hs w' s2 E2) as [H1 H2].
  split; [exact H1|]. intros u r' c k' Hu Hc Hn. apply (H2 u r' c k' Hu Hc). destruct c; auto.
Qed.
Print Assumptions C41_enable_blocks.
Theorem C41_refuted : ~ (forall ps w s, exec (start ps) w s -> blocked s -> finished s).
Proof.
  intros H. set (s1 := mkS true sh0 [mkT 0 [OLock; OSet None; OUnlock; OUnlock; ORet (CEnableLogging None)]] false [] []).
  assert (E : exec (start [[CEnableLogging None]]) [0] s1) by (econstructor; [reflexivity|constructor]).
  assert (B : blocked s1) by (intros [|[|t]]; reflexivity).
  specialize (H _ _ _ E B 0 _ eq_refl). discriminate H.
Qed.
Print Assumptions C41_refuted.

(** hypotheses can be met: two goroutines, one of them parsing a message of unknown type 200 *)
Example C41_example : let ps := [[CSetLogger (Some 7); CLogf]; [CDisableLogging; CParse [32; 200; 0; 0]%N]] in
  no_enable ps = true /\ logs [32; 200; 0; 0]%N = true /\
  exists w s, exec (start ps) w s /\ blocked s /\ finished s /\ returned s <> [].
Proof.
  intros ps. split; [reflexivity|]. split; [reflexivity|].
  destruct (exec_to_end (start ps)) as (w & s & E & B). exists w, s. split; [exact E|]. split; [exact B|].
  split; [now apply (@C41_no_deadlock ps w)|]. intros Z.
  destruct (@C41_all_return ps w s eq_refl E B 0 _ eq_refl) as [C _]. rewrite Z in C. discriminate C.
Qed.
Example C41_blocks_example : exists s1, step 0 (start [[CEnableLogging None]; [CLogf]]) = Some s1 /\
  nth_error (threads (start [[CEnableLogging None]; [CLogf]])) 0 =
    Some (mkT 0 (ops (CEnableLogging None) ++ ORet (CEnableLogging None) :: [])) /\
  nth_error (threads s1) 1 = Some (mkT 0 (ops CLogf ++ ORet CLogf :: [])).
Proof. eexists. split; [reflexivity|]. split; reflexivity. Qed.
