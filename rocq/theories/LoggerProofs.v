(** Every interleaving of the logging calls: invariants of Logger.v. *)
From Verif Require Import Base IETypes IE Message MsgTables MsgProofs Logger.

Inductive mode := Out | In_ | Loaded.
Definition starts_lock (k : list op) : bool := match k with OLock :: _ => true | _ => false end.
(** the operations of a goroutine respect the lock; [e]: EnableLogging may occur *)
Fixpoint bal (e : bool) (m : mode) (k : list op) : bool :=
  match k with
  | [] => match m with Out => true | _ => false end
  | OStd :: k => match m with Out => bal e Out k | _ => false end
  | ORet c :: k => match m with Out => negb (enables c) && bal e Out k | _ => false end
  | OLock :: k => match m with Out => bal e In_ k || (e && starts_lock k) | _ => false end
  | OUnlock :: k => match m with In_ => bal e Out k | _ => false end
  | OSet _ :: k => match m with In_ => bal e In_ k | _ => false end
  | OGet :: k => match m with In_ => bal e Loaded k | _ => false end
  | OMute :: k | OPrint :: k => match m with Loaded => bal e In_ k | _ => false end
  end.

Lemma bal_code e cs : (e = true \/ forallb (fun c => negb (enables c)) cs = true) -> bal e Out (code cs) = true.
Proof.
  induction cs as [|c cs IH]; intros H; [reflexivity|].
  assert (H' : e = true \/ forallb (fun c => negb (enables c)) cs = true).
  { destruct H as [H|H]; [now left|right; cbn in H; now apply andb_prop in H]. }
  specialize (IH H'). clear H'.
  destruct c as [[l|]|[l|]| | |b]; cbn -[code]; unfold code in *; cbn;
    try (rewrite IH; reflexivity).
  - destruct H as [->|H]; [reflexivity|discriminate H].
  - destruct H as [->|H]; [reflexivity|discriminate H].
  - destruct (logs b); cbn; rewrite IH; reflexivity.
Qed.

Definition eft1 (o : op) : list eff :=
  match o with OSet l => [ESet l] | OMute => [EMute] | OPrint => [EPrint] | _ => [] end.
Definition eft (k : list op) : list eff := flat_map eft1 k.
Definition ret1 (o : op) : list call := match o with ORet c => [c] | _ => [] end.
Definition rets (k : list op) : list call := flat_map ret1 k.

Lemma eft_app a b : eft (a ++ b) = eft a ++ eft b.
Proof. apply flat_map_app. Qed.
Lemma rets_app a b : rets (a ++ b) = rets a ++ rets b.
Proof. apply flat_map_app. Qed.
Lemma eft_ops c : eft (ops c) = effs c.
Proof. destruct c as [[l|]|[l|]| | |b]; try reflexivity. cbn. destruct (logs b); reflexivity. Qed.
Lemma rets_ops c : rets (ops c) = [].
Proof. destruct c as [[l|]|[l|]| | |b]; try reflexivity. cbn. destruct (logs b); reflexivity. Qed.
Lemma eft_code cs : eft (code cs) = flat_map effs cs.
Proof.
  induction cs as [|c cs IH]; [reflexivity|]. unfold code in *. cbn [flat_map].
  unfold eft in *. rewrite !flat_map_app. cbn [flat_map eft1 app]. rewrite app_nil_r, IH.
  f_equal. apply eft_ops.
Qed.
Lemma rets_code cs : rets (code cs) = cs.
Proof.
  induction cs as [|c cs IH]; [reflexivity|]. unfold code in *. cbn [flat_map].
  unfold rets in *. rewrite !flat_map_app. cbn [flat_map ret1 app]. rewrite IH.
  change (flat_map ret1 (ops c)) with (rets (ops c)). now rewrite rets_ops.
Qed.

(** ** One step *)
Inductive stepped (t : nat) (s s' : sys) : Prop :=
| stepped_intro r o k :
    nth_error (threads s) t = Some (mkT r (o :: k)) ->
    threads s' = upd (threads s) t (mkT (match o with OGet => cur (sh s) | _ => r end) k) ->
    locked s' = (match o with OLock => true | OUnlock => false | _ => locked s end) ->
    (o = OLock -> locked s = false) ->
    fatal s' = (match o with OUnlock => fatal s || negb (locked s) | _ => fatal s end) ->
    sh s' = (match o with OSet l => set_sh l (sh s) | OMute => mute_sh r (sh s) | OPrint => print_sh r (sh s)
             | _ => sh s end) ->
    returned s' = returned s ++ map (pair t) (ret1 o) ->
    hist s' = hist s ++ map (pair t) (eft1 o) -> stepped t s s'.
Lemma step_stepped t s s' : step t s = Some s' -> stepped t s s'.
Proof.
  unfold step. destruct (nth_error (threads s) t) as [[r [|o k]]|] eqn:E; try discriminate.
  destruct o; try (intros [= <-]; econstructor; [exact E|..]; cbn; rewrite ?app_nil_r; reflexivity || discriminate).
  destruct (locked s) eqn:L; [discriminate|].
  intros [= <-]; econstructor; [exact E|..]; cbn; rewrite ?app_nil_r; reflexivity || auto.
Qed.
Lemma step_blocked t s r o k : nth_error (threads s) t = Some (mkT r (o :: k)) ->
  (step t s = None <-> o = OLock /\ locked s = true).
Proof.
  intros E. unfold step. rewrite E. destruct o; try (split; [discriminate|intros [[=] _]]).
  destruct (locked s); split; auto; try discriminate. intros [_ [=]].
Qed.
Lemma nth_upd {A} (l : list A) n m x y : nth_error (upd l n x) m = Some y ->
  (m = n /\ y = x) \/ (m <> n /\ nth_error l m = Some y).
Proof.
  intros H. destruct (Nat.eq_dec m n) as [->|Hn].
  - left. split; auto. destruct (Nat.lt_ge_cases n (length l)) as [Hl|Hl].
    + rewrite nth_error_upd_eq in H by auto. congruence.
    + assert (nth_error (upd l n x) n = None) by (apply nth_error_None; now rewrite upd_length). congruence.
  - right. split; auto. rewrite nth_error_upd_neq in H by auto. exact H.
Qed.
Lemma nth_upd_same {A} (l : list A) n x y : nth_error l n = Some y -> nth_error (upd l n x) n = Some x.
Proof. intros H. apply nth_error_upd_eq. apply nth_error_Some. congruence. Qed.

(** ** The lock *)
Definition good e (s : sys) : Prop :=
  fatal s = false /\
  fold_left seq_eff (map snd (hist s)) sh0 = sh s /\
  ((locked s = false /\ forall t x, nth_error (threads s) t = Some x -> bal e Out (todo x) = true) \/
   (locked s = true /\ exists h hx m, nth_error (threads s) h = Some hx /\ m <> Out /\ bal e m (todo hx) = true /\
      (m = Loaded -> reg hx = cur (sh s)) /\
      forall t x, t <> h -> nth_error (threads s) t = Some x -> bal e Out (todo x) = true) \/
   (e = true /\ locked s = true /\ exists h hx, nth_error (threads s) h = Some hx /\ starts_lock (todo hx) = true /\
      forall t x, t <> h -> nth_error (threads s) t = Some x -> bal e Out (todo x) = true)).

Lemma start_good e ps : (e = true \/ forallb (forallb (fun c => negb (enables c))) ps = true) -> good e (start ps).
Proof.
  intros H. split; [reflexivity|split; [reflexivity|]]. left. split; [reflexivity|].
  intros t x Hx. cbn in Hx. rewrite nth_error_map in Hx.
  destruct (nth_error ps t) as [p|] eqn:E; [|discriminate]. injection Hx as <-. cbn.
  apply bal_code. destruct H as [H|H]; [now left|right].
  rewrite forallb_forall in H. apply H. eapply nth_error_In; eauto.
Qed.

Lemma good_step e t s s' : good e s -> step t s = Some s' -> good e s'.
Proof.
  intros (Hf & Hh & Hd) Hs. apply step_stepped in Hs.
  destruct Hs as [r o k En Et El Ell Ef Es Er Ehi].
  assert (F : forall l, fold_left seq_eff (map snd (hist s ++ map (pair t) l)) sh0 = fold_left seq_eff l (sh s)).
  { intros l. rewrite map_app, fold_left_app, Hh. f_equal. rewrite map_map. cbn. apply map_id. }
  assert (G : forall m x, m <> t -> nth_error (threads s') m = Some x -> nth_error (threads s) m = Some x).
  { intros m x Hm Hx. rewrite Et in Hx. apply nth_upd in Hx. destruct Hx as [[? _]|[_ Hx]]; [congruence|auto]. }
  assert (T : nth_error (threads s') t = Some (mkT (match o with OGet => cur (sh s) | _ => r end) k)).
  { rewrite Et. eapply nth_upd_same; eauto. }
  unfold good. rewrite Ehi, F.
  destruct Hd as [(L & Hb)|[(L & h & hx & m & Hhx & Hm & Hbh & Hreg & Hb)|(He & L & h & hx & Hhx & Hsl & Hb)]].
  - (* free *)
    pose proof (Hb _ _ En) as B. cbn in B.
    destruct o; try discriminate B.
    + split; [now rewrite Ef|]. split; [now rewrite Es|]. left. split; [now rewrite El|].
      intros m x Hx. destruct (Nat.eq_dec m t) as [->|Hn]; [|eauto]. rewrite T in Hx. injection Hx as <-. exact B.
    + (* OLock *) split; [now rewrite Ef|]. split; [now rewrite Es|]. right.
      destruct (bal e In_ k) eqn:BI.
      * left. split; [exact El|]. exists t, (mkT r k), In_. repeat split; auto; try discriminate.
        intros m x Hm Hx. eauto.
      * right. cbn in B. apply andb_prop in B. destruct B as [-> B]. split; [reflexivity|]. split; [exact El|].
        exists t, (mkT r k). repeat split; auto. intros m x Hm Hx. eauto.
    + apply andb_prop in B. destruct B as [_ B].
      split; [now rewrite Ef|]. split; [now rewrite Es|]. left. split; [now rewrite El|].
      intros m x Hx. destruct (Nat.eq_dec m t) as [->|Hn]; [|eauto]. rewrite T in Hx. injection Hx as <-. exact B.
  - destruct (Nat.eq_dec t h) as [->|Hth].
    + rewrite En in Hhx. injection Hhx as <-. cbn [todo reg] in Hbh, Hreg.
      destruct m; [congruence| |].
      * destruct o; try discriminate Hbh; cbn in Hbh.
        -- (* unlock *) split; [rewrite Ef, Hf, L; reflexivity|]. split; [now rewrite Es|]. left. split; [exact El|].
           intros m x Hx. destruct (Nat.eq_dec m h) as [->|Hn]; [|eauto]. rewrite T in Hx. now injection Hx as <-.
        -- split; [now rewrite Ef|]. split; [now rewrite Es|]. right. left. split; [now rewrite El|].
           exists h, (mkT r k), In_. repeat split; auto; try discriminate. intros m x Hn Hx. eauto.
        -- split; [now rewrite Ef|]. split; [now rewrite Es|]. right. left. split; [now rewrite El|].
           exists h, (mkT (cur (sh s)) k), Loaded. repeat split; auto; try discriminate.
           ++ intros _. now rewrite Es.
           ++ intros m x Hn Hx. eauto.
      * specialize (Hreg eq_refl). subst r. destruct o; try discriminate Hbh; cbn in Hbh.
        -- split; [now rewrite Ef|]. split; [now rewrite Es|]. right. left. split; [now rewrite El|].
           exists h, (mkT (cur (sh s)) k), In_. repeat split; auto; try discriminate. intros m x Hn Hx. eauto.
        -- split; [now rewrite Ef|]. split; [now rewrite Es|]. right. left. split; [now rewrite El|].
           exists h, (mkT (cur (sh s)) k), In_. repeat split; auto; try discriminate. intros m x Hn Hx. eauto.
    + pose proof (Hb _ _ Hth En) as B. cbn in B.
      destruct o; try discriminate B.
      2:{ specialize (Ell eq_refl). congruence. }
      * split; [now rewrite Ef|]. split; [now rewrite Es|]. right. left. split; [now rewrite El|].
        exists h, hx, m. rewrite Es. repeat split; auto.
        -- rewrite Et, nth_error_upd_neq by auto. exact Hhx.
        -- intros m' x Hm' Hx. destruct (Nat.eq_dec m' t) as [->|Hn]; [|eauto]. rewrite T in Hx. now injection Hx as <-.
      * apply andb_prop in B. destruct B as [_ B].
        split; [now rewrite Ef|]. split; [now rewrite Es|]. right. left. split; [now rewrite El|].
        exists h, hx, m. rewrite Es. repeat split; auto.
        -- rewrite Et, nth_error_upd_neq by auto. exact Hhx.
        -- intros m' x Hm' Hx. destruct (Nat.eq_dec m' t) as [->|Hn]; [|eauto]. rewrite T in Hx. now injection Hx as <-.
  - destruct (Nat.eq_dec t h) as [->|Hth].
    + rewrite En in Hhx. injection Hhx as <-. cbn in Hsl. destruct o; try discriminate Hsl.
      specialize (Ell eq_refl). congruence.
    + pose proof (Hb _ _ Hth En) as B. cbn in B.
      destruct o; try discriminate B.
      2:{ specialize (Ell eq_refl). congruence. }
      * split; [now rewrite Ef|]. split; [now rewrite Es|]. right. right. split; [auto|]. split; [now rewrite El|].
        exists h, hx. repeat split; auto.
        -- rewrite Et, nth_error_upd_neq by auto. exact Hhx.
        -- intros m' x Hm' Hx. destruct (Nat.eq_dec m' t) as [->|Hn]; [|eauto]. rewrite T in Hx. now injection Hx as <-.
      * apply andb_prop in B. destruct B as [_ B].
        split; [now rewrite Ef|]. split; [now rewrite Es|]. right. right. split; [auto|]. split; [now rewrite El|].
        exists h, hx. repeat split; auto.
        -- rewrite Et, nth_error_upd_neq by auto. exact Hhx.
        -- intros m' x Hm' Hx. destruct (Nat.eq_dec m' t) as [->|Hn]; [|eauto]. rewrite T in Hx. now injection Hx as <-.
Qed.

Lemma exec_ind_inv (P : sys -> Prop) : (forall t s s', P s -> step t s = Some s' -> P s') ->
  forall s w s', exec s w s' -> P s -> P s'.
Proof. intros H s w s' E. induction E; eauto. Qed.
Lemma exec_app s w1 s1 w2 s2 : exec s w1 s1 -> exec s1 w2 s2 -> exec s (w1 ++ w2) s2.
Proof. intros H. induction H; cbn; auto. intros E. econstructor; eauto. Qed.

Definition no_enable (ps : list (list call)) : bool := forallb (forallb (fun c => negb (enables c))) ps.

Lemma exec_good e ps w s : (e = true \/ no_enable ps = true) -> exec (start ps) w s -> good e s.
Proof. intros H E. eapply (exec_ind_inv (good e)); [apply good_step|exact E|now apply start_good]. Qed.

(** no deadlock without EnableLogging *)
Lemma bal_nonempty e m k : m <> Out -> bal e m k = true -> exists o k', k = o :: k' /\ o <> OLock.
Proof.
  destruct k as [|o k]; destruct m; cbn; try congruence; intros _ H;
    (exists o, k; split; [reflexivity|intros ->; discriminate H]).
Qed.
Lemma progress ps w s : no_enable ps = true -> exec (start ps) w s -> blocked s -> finished s.
Proof.
  intros H E B. destruct (@exec_good false ps w s (or_intror H) E) as (_ & _ & D).
  destruct D as [(L & Hb)|[(L & h & hx & m & Hhx & Hm & Hbh & _ & _)|(? & _)]]; [| |discriminate].
  - intros t [r k] Hx. destruct k as [|o k]; [reflexivity|].
    pose proof (proj1 (@step_blocked _ _ _ _ _ Hx) (B _)) as Bk. destruct Bk; congruence.
  - exfalso. destruct hx as [r k]. destruct (@bal_nonempty _ _ _ Hm Hbh) as (o & k' & E1 & E2). cbn in E1. subst k.
    pose proof (proj1 (@step_blocked _ _ _ _ _ Hhx) (B _)) as Bk. destruct Bk; congruence.
Qed.

(** the total number of operations left *)
Definition size (s : sys) : nat := list_sum (map (fun x => length (todo x)) (threads s)).
Lemma list_sum_upd l n x y : nth_error l n = Some y -> list_sum (upd l n x) + y = list_sum l + x.
Proof.
  unfold list_sum. revert n. induction l as [|a l IH]; intros [|n] H; cbn in *; try discriminate.
  - injection H as ->. lia.
  - specialize (IH _ H). lia.
Qed.
Lemma step_size t s s' : step t s = Some s' -> S (size s') = size s.
Proof.
  intros H. apply step_stepped in H. destruct H as [r o k En Et _ _ _ _ _ _].
  unfold size. rewrite Et, map_upd. cbn [todo].
  assert (nth_error (map (fun x => length (todo x)) (threads s)) t = Some (S (length k))) by (rewrite nth_error_map, En; reflexivity).
  apply list_sum_upd with (x := length k) in H. lia.
Qed.
Lemma exec_size s w s' : exec s w s' -> length w + size s' = size s.
Proof. intros E. induction E; cbn; auto. apply step_size in H. lia. Qed.
Lemma start_size ps : size (start ps) = list_sum (map (fun p => length (code p)) ps).
Proof. unfold size, start. cbn. now rewrite map_map. Qed.

(** a step is always decidable, so an execution can be run to the end *)
Lemma step_find s : (exists t s', step t s = Some s') \/ blocked s.
Proof.
  assert (H : forall n, (exists t s', step t s = Some s') \/ forall t, t < n -> step t s = None).
  { induction n as [|n [IH|IH]]; [right; intros; lia|now left|].
    destruct (step n s) eqn:E; [left; eauto|]. right. intros t Ht.
    destruct (Nat.eq_dec t n) as [->|]; [auto|apply IH; lia]. }
  destruct (H (length (threads s))) as [|N]; [now left|]. right. intros t.
  destruct (Nat.lt_ge_cases t (length (threads s))) as [|Hl]; [auto|].
  unfold step. rewrite (proj2 (nth_error_None _ _) Hl). reflexivity.
Qed.
Lemma exec_to_end s : exists w s', exec s w s' /\ blocked s'.
Proof.
  remember (size s) as n. revert s Heqn. induction n as [n IH] using lt_wf_ind. intros s ->.
  destruct (step_find s) as [(t & s1 & Hs)|B].
  - pose proof (@step_size _ _ _ Hs). destruct (IH (size s1)) with (s := s1) as (w & s' & E & B); [lia|reflexivity|].
    exists (t :: w), s'. split; auto. econstructor; eauto.
  - exists [], s. split; [constructor|auto].
Qed.

(** ** History *)
Lemma mine_app t h h' : mine t (h ++ h') = mine t h ++ mine t h'.
Proof. unfold mine. now rewrite filter_app, map_app. Qed.
Lemma calls_of_app t h h' : calls_of t (h ++ h') = calls_of t h ++ calls_of t h'.
Proof. unfold calls_of. now rewrite filter_app, map_app. Qed.
Lemma mine_same t l : mine t (map (pair t) l) = l.
Proof. unfold mine. induction l; cbn; auto. rewrite Nat.eqb_refl. cbn. now f_equal. Qed.
Lemma calls_same t l : calls_of t (map (pair t) l) = l.
Proof. unfold calls_of. induction l; cbn; auto. rewrite Nat.eqb_refl. cbn. now f_equal. Qed.
Lemma mine_other t u l : t <> u -> mine u (map (pair t) l) = [].
Proof. intros H. unfold mine. induction l; cbn; auto. destruct (Nat.eqb_spec t u); [congruence|auto]. Qed.
Lemma calls_other t u l : t <> u -> calls_of u (map (pair t) l) = [].
Proof. intros H. unfold calls_of. induction l; cbn; auto. destruct (Nat.eqb_spec t u); [congruence|auto]. Qed.

(** a goroutine's remaining operations are the rest of one call and whole calls after it *)
Definition shape (k : list op) : Prop :=
  (exists cs, k = code cs) \/ (exists pre q c cs, k = q ++ ORet c :: code cs /\ ops c = pre ++ q).
Lemma shape_tail o k : shape (o :: k) -> shape k.
Proof.
  assert (H : forall q c cs pre, o :: k = q ++ ORet c :: code cs -> ops c = pre ++ q -> shape k).
  { intros [|o' q] c cs pre E Ho; cbn in E; injection E as -> ->.
    - left. now exists cs.
    - right. exists (pre ++ [o']), q, c, cs. split; auto. rewrite Ho, <- app_assoc. reflexivity. }
  intros [[[|c cs] E]|(pre & q & c & cs & E & Ho)]; [discriminate| |eauto].
  change (code (c :: cs)) with ((ops c ++ [ORet c]) ++ code cs) in E. rewrite <- app_assoc in E.
  eapply (H (ops c) c cs []); eauto.
Qed.

Definition book (ps : list (list call)) (s : sys) : Prop :=
  length (threads s) = length ps /\
  forall t p x, nth_error ps t = Some p -> nth_error (threads s) t = Some x ->
    shape (todo x) /\ calls_of t (returned s) ++ rets (todo x) = p /\ mine t (hist s) ++ eft (todo x) = flat_map effs p.
Lemma start_book ps : book ps (start ps).
Proof.
  split; [cbn; apply map_length|]. intros t p x Hp Hx. cbn in Hx. rewrite nth_error_map, Hp in Hx. injection Hx as <-.
  cbn. rewrite rets_code, eft_code. repeat split. left. now exists p.
Qed.
Lemma step_book ps t s s' : book ps s -> step t s = Some s' -> book ps s'.
Proof.
  intros (Hl & H) Hs. apply step_stepped in Hs. destruct Hs as [r o k En Et _ _ _ _ Er Eh].
  split; [now rewrite Et, upd_length|]. intros u p x Hp Hx. rewrite Et in Hx. apply nth_upd in Hx.
  rewrite Er, Eh, calls_of_app, mine_app.
  destruct Hx as [[-> ->]|[Hn Hx]].
  - destruct (H _ _ _ Hp En) as (S1 & S2 & S3). cbn [todo] in *.
    rewrite calls_same, mine_same, <- !app_assoc. split; [now apply shape_tail in S1|]. split; [exact S2|exact S3].
  - rewrite calls_other, mine_other by auto. rewrite !app_nil_r. eauto.
Qed.
Lemma exec_book ps w s : exec (start ps) w s -> book ps s.
Proof. intros E. eapply (exec_ind_inv (book ps)); [apply step_book|exact E|apply start_book]. Qed.

Lemma book_prefix ps s t p : book ps s -> nth_error ps t = Some p ->
  exists cs d, p = calls_of t (returned s) ++ cs /\
    mine t (hist s) = flat_map effs (calls_of t (returned s)) ++ d /\
    (d = [] \/ exists c cs', cs = c :: cs' /\ d = effs c).
Proof.
  intros (Hl & H) Hp. destruct (nth_error (threads s) t) as [x|] eqn:Hx.
  2:{ apply nth_error_None in Hx. assert (t < length ps) by (apply nth_error_Some; congruence). lia. }
  destruct (H _ _ _ Hp Hx) as (Sh & R & M). exists (rets (todo x)).
  rewrite <- R, flat_map_app in M.
  destruct Sh as [[cs E]|(pre & q & c & cs & E & Ho)].
  - rewrite E, rets_code, eft_code in M. apply app_inv_tail in M.
    exists []. rewrite app_nil_r. repeat split; auto.
  - assert (Rq : rets q = []).
    { pose proof (rets_ops c) as Z. rewrite Ho, rets_app in Z. now apply app_eq_nil in Z. }
    assert (Eq : effs c = eft pre ++ eft q) by (rewrite <- eft_ops, Ho; apply eft_app).
    assert (Er : rets (todo x) = c :: cs).
    { rewrite E, rets_app, Rq. change (rets (ORet c :: code cs)) with (c :: rets (code cs)). now rewrite rets_code. }
    assert (Ee : eft (todo x) = eft q ++ flat_map effs cs).
    { rewrite E, eft_app. change (eft (ORet c :: code cs)) with (eft (code cs)). now rewrite eft_code. }
    rewrite Er, Ee in *. cbn [flat_map] in M. rewrite Eq in M.
    rewrite !app_assoc in M. apply app_inv_tail in M. apply app_inv_tail in M.
    exists (eft pre). split; [now symmetry|]. split; [exact M|].
    destruct (eft pre) as [|e l] eqn:Ep; [now left|right]. exists c, cs. split; [reflexivity|].
    destruct c as [[l0|]|[l0|]| | |b]; cbn in Eq |- *; try (destruct (logs b));
      try discriminate Eq; injection Eq as -> Z; symmetry in Z; apply app_eq_nil in Z; destruct Z as [-> _]; reflexivity.
Qed.

(** ** EnableLogging *)
Definition hung (s : sys) : Prop :=
  locked s = true /\ exists h hx, nth_error (threads s) h = Some hx /\ starts_lock (todo hx) = true /\
    forall t x, t <> h -> nth_error (threads s) t = Some x -> bal true Out (todo x) = true.
Lemma hung_step t s s' : hung s -> step t s = Some s' -> hung s'.
Proof.
  intros (L & h & hx & Hh & Hs & Hb) Hst. apply step_stepped in Hst. destruct Hst as [r o k En Et El Ell _ _ _ _].
  destruct (Nat.eq_dec t h) as [->|Hn].
  { rewrite En in Hh. injection Hh as <-. cbn in Hs. destruct o; try discriminate. specialize (Ell eq_refl). congruence. }
  pose proof (Hb _ _ Hn En) as B. cbn in B.
  assert (B' : o <> OLock /\ o <> OUnlock /\ bal true Out k = true).
  { destruct o; try discriminate B; repeat split; try discriminate; auto.
    - specialize (Ell eq_refl). congruence.
    - specialize (Ell eq_refl). congruence.
    - now apply andb_prop in B. }
  destruct B' as (N1 & N2 & B').
  split; [rewrite El; destruct o; congruence|]. exists h, hx.
  split; [rewrite Et, nth_error_upd_neq; auto|]. split; auto.
  intros u x Hu Hx. rewrite Et in Hx. apply nth_upd in Hx. destruct Hx as [[-> ->]|[Hm Hx]]; eauto.
Qed.

Definition never_enabled (s : sys) : Prop := forall t l, ~ In (t, CEnableLogging l) (returned s).
Lemma enable_step t s s' : good true s /\ never_enabled s -> step t s = Some s' -> good true s' /\ never_enabled s'.
Proof.
  intros (G & Nv) Hs. split; [eapply good_step; eauto|].
  apply step_stepped in Hs. destruct Hs as [r o k En Et _ Ell _ _ Er _].
  intros u l Hin. rewrite Er in Hin. apply in_app_or in Hin. destruct Hin as [Hin|Hin]; [now apply (Nv _ _ Hin)|].
  destruct o; cbn in Hin; try contradiction. destruct Hin as [[= <- ->]|[]].
  destruct G as (_ & _ & D).
  destruct D as [(L & Hb)|[(L & h & hx & m & Hhx & Hm & Hbh & _ & Hb)|(_ & L & h & hx & Hhx & Hsl & Hb)]].
  - specialize (Hb _ _ En). discriminate Hb.
  - destruct (Nat.eq_dec t h) as [->|Hn].
    + rewrite En in Hhx. injection Hhx as <-. cbn in Hbh. destruct m; congruence.
    + specialize (Hb _ _ Hn En). discriminate Hb.
  - destruct (Nat.eq_dec t h) as [->|Hn].
    + rewrite En in Hhx. injection Hhx as <-. cbn in Hsl. discriminate.
    + specialize (Hb _ _ Hn En). discriminate Hb.
Qed.
Lemma enable_never_returns ps w s t l : exec (start ps) w s -> ~ In (t, CEnableLogging l) (returned s).
Proof.
  intros E. refine (proj2 (@exec_ind_inv (fun s => good true s /\ never_enabled s) enable_step _ _ _ E _) t l).
  split; [apply start_good; now left|]. intros ? ? [].
Qed.

(** once EnableLogging holds the lock, whoever needs the lock waits for ever *)
Definition stuck_at (t : nat) (k2 : list op) (R : list call) (s : sys) : Prop :=
  hung s /\ calls_of t (returned s) = R /\
  exists r k1, nth_error (threads s) t = Some (mkT r (k1 ++ OLock :: k2)) /\ rets k1 = [].
Lemma stuck_step k2 R u t s s' : stuck_at t k2 R s -> step u s = Some s' -> stuck_at t k2 R s'.
Proof.
  intros (H & HR & r & k1 & Ht & Hn) Hs. split; [eapply hung_step; eauto|].
  destruct H as (L & _). apply step_stepped in Hs. destruct Hs as [r' o k En Et _ Ell _ _ Er _].
  rewrite Et, Er, calls_of_app. destruct (Nat.eq_dec u t) as [->|Hu].
  - rewrite Ht in En. injection En as -> Ek. destruct k1 as [|o' k1]; cbn in Ek; injection Ek as <- <-.
    + specialize (Ell eq_refl). congruence.
    + cbn in Hn. apply app_eq_nil in Hn. destruct Hn as [Hn1 Hn2]. rewrite Hn1. cbn. rewrite app_nil_r.
      split; [exact HR|]. eexists _, k1. split; [eapply nth_upd_same; eauto|auto].
  - rewrite calls_other, app_nil_r by auto. split; [exact HR|]. exists r, k1. split; [|auto]. rewrite nth_error_upd_neq; auto.
Qed.
Definition needs_lock (c : call) : bool := match c with CParse b => logs b | _ => true end.
Lemma needs_lock_ops c : needs_lock c = true -> exists a b, ops c = a ++ OLock :: b.
Proof.
  destruct c as [[l|]|[l|]| | |b]; cbn; intros H; try rewrite H.
  - exists []. eexists. reflexivity.
  - exists [OStd]. eexists. reflexivity.
  - exists []. eexists. reflexivity.
  - exists []. eexists. reflexivity.
  - exists []. eexists. reflexivity.
  - exists []. eexists. reflexivity.
  - exists []. eexists. reflexivity.
Qed.
Lemma hung_forever s w s' t r c k : hung s -> exec s w s' ->
  nth_error (threads s) t = Some (mkT r (ops c ++ ORet c :: k)) -> needs_lock c = true ->
  calls_of t (returned s') = calls_of t (returned s).
Proof.
  intros H E Ht Hc. destruct (@needs_lock_ops _ Hc) as (a & b & Ho).
  assert (S0 : stuck_at t (b ++ ORet c :: k) (calls_of t (returned s)) s).
  { split; auto. split; [reflexivity|]. exists r, a. rewrite Ho, <- app_assoc in Ht. split; [exact Ht|].
    pose proof (rets_ops c) as Z. rewrite Ho, rets_app in Z. now apply app_eq_nil in Z. }
  now destruct (@exec_ind_inv (stuck_at t (b ++ ORet c :: k) (calls_of t (returned s))) (fun u => @stuck_step _ _ u t) _ _ _ E S0) as (_ & -> & _).
Qed.
Lemma enable_hangs ps w s t r l k : exec (start ps) w s -> locked s = false ->
  nth_error (threads s) t = Some (mkT r (ops (CEnableLogging l) ++ ORet (CEnableLogging l) :: k)) ->
  exists s', step t s = Some s' /\ hung s'.
Proof.
  intros E L Ht. destruct (@exec_good true ps w s (or_introl eq_refl) E) as (_ & _ & D).
  destruct D as [(_ & Hb)|[(? & _)|(_ & ? & _)]]; try congruence.
  pose proof Ht as Ht'. cbn in Ht'.
  unfold step. rewrite Ht'. cbn. rewrite L. eexists. split; [reflexivity|].
  split; [reflexivity|]. cbn. exists t. eexists. split; [eapply nth_upd_same; exact Ht'|]. split; [reflexivity|].
  intros u x Hu Hx. apply nth_upd in Hx. destruct Hx as [[? _]|[_ Hx]]; [congruence|eauto].
Qed.

(** ** What the calls do, one at a time *)
Lemma muted_silent n s : In (cur s) (muted s) -> fold_left seq_eff (repeat EPrint n) s = s.
Proof.
  intros H. assert (E : print_sh (cur s) s = s).
  { unfold print_sh. replace (existsb (Nat.eqb (cur s)) (muted s)) with true; [now destruct s|].
    symmetry. apply existsb_exists. exists (cur s). split; auto. apply Nat.eqb_refl. }
  induction n; cbn; auto. rewrite E. exact IHn.
Qed.

(** message.Parse logs when the type octet is none of 1..15, 50..57 *)
Lemma logs_iff b : logs b = true <->
  exists c, nth_error b 1 = Some c /\ ~ (1 <= c <= 15 \/ 50 <= c <= 57)%N.
Proof.
  assert (K : forall c, lookup c dispatch = None <-> ~ (1 <= c <= 15 \/ 50 <= c <= 57)%N).
  { intros c. split.
    - intros H R.
      assert (exists k, In (c, k) dispatch).
      { assert (In c (map fst dispatch)).
        { change (map fst dispatch) with [1;2;3;4;5;6;7;8;9;10;11;12;13;14;15;50;51;52;53;54;55;56;57]%N. cbn. lia. }
        apply in_map_iff in H0. destruct H0 as ([c' k] & <- & Hin). now exists k. }
      destruct H0 as [k Hin]. clear R. revert Hin H. generalize dispatch.
      induction l as [|[t k'] l IH]; cbn; [contradiction|]. intros [[= -> ->]|Hin].
      + rewrite N.eqb_refl. discriminate.
      + destruct (c =? t)%N; [discriminate|]. auto.
    - intros R. assert (Z : ~ In c (map fst dispatch)).
      { change (map fst dispatch) with [1;2;3;4;5;6;7;8;9;10;11;12;13;14;15;50;51;52;53;54;55;56;57]%N. cbn. lia. }
      clear R. revert Z. generalize dispatch. induction l as [|[t k'] l IH]; cbn; auto.
      intros Z. destruct (N.eqb_spec c t) as [->|]; [exfalso; auto|auto]. }
  unfold logs. destruct b as [|x [|c b]]; cbn [nth_error].
  - split; [discriminate|intros (? & [=] & _)].
  - split; [discriminate|intros (? & [=] & _)].
  - specialize (K c). destruct (lookup c dispatch).
    + split; [discriminate|]. intros (c' & [= <-] & H). apply K in H. discriminate.
    + split; auto. intros _. exists c. split; auto. now apply K.
Qed.

Lemma all_returned ps w s : no_enable ps = true -> exec (start ps) w s -> blocked s ->
  forall t p, nth_error ps t = Some p -> calls_of t (returned s) = p /\ mine t (hist s) = flat_map effs p.
Proof.
  intros H E B t p Hp. pose proof (@progress _ _ _ H E B) as F. destruct (@exec_book _ _ _ E) as (Hl & Hb).
  destruct (nth_error (threads s) t) as [x|] eqn:Hx.
  2:{ apply nth_error_None in Hx. assert (t < length ps) by (apply nth_error_Some; congruence). lia. }
  destruct (Hb _ _ _ Hp Hx) as (_ & R & M). rewrite (F _ _ Hx) in *. cbn in *. now rewrite !app_nil_r in *.
Qed.
Lemma hist_grows s w s' : exec s w s' -> exists d, hist s' = hist s ++ d.
Proof.
  intros E. induction E as [|s t s1 w s2 Hs _ [d IH]]; [exists []; now rewrite app_nil_r|].
  apply step_stepped in Hs. destruct Hs as [r o k _ _ _ _ _ _ _ Eh]. rewrite IH, Eh, <- app_assoc. eauto.
Qed.

Theorem enable_blocks ps w s t r l k s1 : exec (start ps) w s ->
  nth_error (threads s) t = Some (mkT r (ops (CEnableLogging l) ++ ORet (CEnableLogging l) :: k)) ->
  step t s = Some s1 ->
  forall w' s2, exec s1 w' s2 ->
    calls_of t (returned s2) = calls_of t (returned s) /\
    forall u r' c k', u <> t -> nth_error (threads s1) u = Some (mkT r' (ops c ++ ORet c :: k')) -> needs_lock c = true ->
      calls_of u (returned s2) = calls_of u (returned s).
Proof.
  intros E Ht Hs w' s2 E2. pose proof (@step_stepped _ _ _ Hs) as [r0 o k0 En Et El Ell _ _ Er _].
  rewrite Ht in En. injection En as -> <- <-.
  destruct (@enable_hangs ps w s t r0 l k E (Ell eq_refl) Ht) as (s' & Hs' & Hh). rewrite Hs in Hs'. injection Hs' as <-.
  cbn in Er. rewrite app_nil_r in Er. rewrite <- Er. split.
  - assert (S0 : stuck_at t (OSet l :: OUnlock :: OUnlock :: ORet (CEnableLogging l) :: k) (calls_of t (returned s1)) s1).
    { split; auto. split; [reflexivity|]. exists r0, []. split; [|reflexivity]. rewrite Et. eapply nth_upd_same. exact Ht. }
    now destruct (@exec_ind_inv (stuck_at t _ (calls_of t (returned s1))) (fun u => @stuck_step _ _ u t) _ _ _ E2 S0) as (_ & -> & _).
  - intros u r' c k' Hu Hc Hn. eapply hung_forever; eauto.
Qed.
