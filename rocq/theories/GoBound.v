(** How far MarshalTo of the XxxFields structs can write when the slice is too short: a call on a slice of length L of a memory is compared with two calls on the
    whole memory, whose contents differ at one place p.  The three go along together until the first one stops; a write to p makes the other two the same, and so they
    end the same, which is not so if p is behind the encoding (C112, PropsGoBound.v). *)
From Coq Require Import String.
From Verif Require Import Base Codec Utils Time Fields2 Fields3 Access Reuse Go GoProofs GoMeta GoOver GoWithin.
Set Implicit Arguments.
Open Scope string_scope.
Open Scope list_scope.
Open Scope nat_scope.

(** does not mention the argument or its length *)
Definition clean (e : exp) : bool := pure e && negb (mentions "l" e).
Fixpoint clean_c (c : cond) : bool :=
  match c with
  | CLt a b | CLe a b | CNe a b => clean a && clean b
  | CHas _ a | CNotNil a | CEmpty a => clean a
  | CNot a => clean_c a
  | CAnd a b | COr a b => clean_c a && clean_c b
  end.
(** the length of the argument is used only to leave the method *)
Fixpoint plain (c : stmt) : bool :=
  match c with
  | SSkip | SEof | SBreak => true
  | SSeq a b => plain a && plain b
  | SBlock a => plain a
  | SLet x e => if String.eqb x "l" then match e with ELen EBuf => true | _ => false end else clean e
  | SPutB i e => clean i && clean e
  | SPut _ lo hi e | SCopyB lo hi e => clean lo && clean hi && clean e
  | SPutV _ x e => negb (String.eqb x "l") && clean e
  | SIf t a => match check_of t a with Some e => clean e | None => clean_c t && plain a end
  | SRange x _ a => negb (String.eqb x "l") && plain a
  | SRet e => clean e
  | _ => false
  end.

(** * Writes at one place *)
Definition away (p : nat) (a b : list N) : Prop := List.length a = List.length b /\ forall i, i <> p -> nth_error a i = nth_error b i.
Lemma nth_error_ext' (a : list N) : forall b, (forall i, nth_error a i = nth_error b i) -> a = b.
Proof.
  induction a as [|x a IH]; intros [|y b] H; [reflexivity|specialize (H 0); discriminate|specialize (H 0); discriminate|].
  f_equal; [specialize (H 0); now injection H|]. apply IH. intros i. apply (H (S i)).
Qed.
Lemma away_eq p a b : away p a b -> nth_error a p = nth_error b p -> a = b.
Proof. intros [_ H] E. apply nth_error_ext'. intros i. destruct (Nat.eq_dec i p) as [->|N]; [exact E|now apply H]. Qed.
Lemma put_nth a i s a' : put a i s = Ok a' ->
  List.length a' = List.length a /\ forall q, nth_error a' q = if (i <=? q) && (q <? i + List.length s) then nth_error s (q - i) else nth_error a q.
Proof.
  unfold put. destruct (Nat.leb_spec (i + List.length s) (List.length a)) as [H|H]; [|discriminate]. intros [= <-]. split; [rewrite !app_length, firstn_length, skipn_length; lia|]. intros q.
  assert (Li : List.length (firstn i a) = i) by (rewrite firstn_length; lia).
  destruct (Nat.leb_spec i q) as [A|A]; cbn [andb].
  - rewrite nth_error_app2 by lia. rewrite Li. destruct (Nat.ltb_spec q (i + List.length s)) as [B|B].
    + now rewrite nth_error_app1 by lia.
    + rewrite nth_error_app2 by lia. rewrite <- (firstn_skipn (i + List.length s) a) at 2. rewrite nth_error_app2 by (rewrite firstn_length; lia).
      f_equal. rewrite firstn_length. lia.
  - rewrite nth_error_app1 by lia. rewrite <- (firstn_skipn i a) at 2. now rewrite nth_error_app1 by lia.
Qed.
Lemma put_ok a i s : i + List.length s <= List.length a -> exists a', put a i s = Ok a'.
Proof. intros H. unfold put. destruct (Nat.leb_spec (i + List.length s) (List.length a)); [eauto|lia]. Qed.
Lemma put_len a i s a' : put a i s = Ok a' -> i + List.length s <= List.length a.
Proof. unfold put. destruct (Nat.leb_spec (i + List.length s) (List.length a)); [auto|discriminate]. Qed.
(** the same write to two memories that differ at p only *)
Definition same_write (p : nat) (a a' b : list N) (r : res (list N)) : Prop :=
  exists b', r = Ok b' /\ away p a' b' /\ (nth_error a' p = nth_error b' p \/ (nth_error a' p = nth_error a p /\ nth_error b' p = nth_error b p)).
Lemma put_both p a b i s a' : away p a b -> put a i s = Ok a' -> same_write p a a' b (put b i s).
Proof.
  intros [A1 A2] E. pose proof (@put_len _ _ _ _ E) as G. rewrite A1 in G. destruct (@put_ok b i s G) as [b' E']. exists b'. split; [exact E'|].
  destruct (@put_nth _ _ _ _ E) as [L1 N1], (@put_nth _ _ _ _ E') as [L2 N2]. split.
  - split; [congruence|]. intros q Q. rewrite N1, N2. destruct (_ && _); [reflexivity|now apply A2].
  - rewrite N1, N2. destruct (_ && _); [now left|now apply or_intror].
Qed.
Lemma copy_both p a b i j s a' : away p a b -> copy_range a i j s = Ok a' -> same_write p a a' b (copy_range b i j s).
Proof.
  intros A. pose proof A as [A1 _]. unfold copy_range. rewrite <- A1. destruct (Nat.leb_spec i j) as [H|H]; [|discriminate]. destruct (Nat.leb_spec j (List.length a)) as [K|K]; [|discriminate].
  cbn [andb]. cbv zeta. intros E. assert (Q : i + List.length (firstn (j - i) s) <= List.length a) by (rewrite firstn_length; lia).
  assert (P1 : put a i (firstn (j - i) s) = Ok a') by (unfold put; destruct (Nat.leb_spec (i + List.length (firstn (j - i) s)) (List.length a)); [exact E|lia]).
  pose proof (@put_both p a b i _ a' A P1) as W. unfold put in W at 1. rewrite <- A1 in W. destruct (Nat.leb_spec (i + List.length (firstn (j - i) s)) (List.length a)); [exact W|lia].
Qed.
Lemma put_be_both k p a b i j x a' : away p a b -> put_be k a i j x = Ok a' -> same_write p a a' b (put_be k b i j x).
Proof.
  intros A. pose proof A as [A1 _]. unfold put_be, slice. rewrite <- A1. destruct ((i <=? j) && (j <=? List.length a)); [|discriminate]. cbn [bind]. rewrite !firstn_length, !skipn_length, <- A1.
  destruct (_ <? k); [discriminate|]. now apply put_both.
Qed.

(** * Three runs *)
Section Three.
Variables (n L H p : nat).
Hypothesis LH : L <= H.
Variable m : option N. (* what was at p in the first memory *)
Definition vpair (a b : string * gval) : Prop := fst a = fst b /\ (fst a <> "l" -> snd a = snd b) /\ (fst a = "l" -> snd a = GI L /\ snd b = GI H).
Definition vrel := Forall2 vpair.
Record three (s s1 s2 : state) : Prop := {
  t_f1 : flds s = flds s1; t_f2 : flds s1 = flds s2;
  t_v1 : vrel (vars s) (vars s1); t_v2 : vars s1 = vars s2;
  t_b1 : buf s = buf s1; t_b2 : away p (buf s1) (buf s2); t_h : List.length (buf s) = H;
  t_p : nth_error (buf s1) p = nth_error (buf s2) p \/ nth_error (buf s) p = m }.
Lemma vrel_look x u v : vrel u v -> x <> "l" -> look x u = look x v.
Proof.
  intros R N. induction R as [|[a b] [c d] u v (E & F & _) R IH]; [reflexivity|]. cbn in *. subst c. destruct (String.eqb_spec x a) as [->|K]; [now rewrite F|exact IH].
Qed.
Lemma vrel_l u v : vrel u v -> (look "l" u = Some (GI L) /\ look "l" v = Some (GI H)) \/ (look "l" u = None /\ look "l" v = None).
Proof.
  intros R. induction R as [|[a b] [c d] u v (E & _ & F) R IH]; [now apply or_intror|]. cbn [fst snd] in *. subst c. cbn [look]. destruct (String.eqb_spec "l" a) as [<-|K]; [|exact IH].
  left. destruct (F eq_refl) as [-> ->]. now split.
Qed.
Lemma vrel_upd x w u v : vrel u v -> x <> "l" -> vrel (upd x w u) (upd x w v).
Proof.
  intros R N. induction R as [|[a b] [c d] u v P R IH]; cbn [upd].
  - apply Forall2_cons; [|apply Forall2_nil]. split; [reflexivity|]. split; [cbn; congruence|intros E; cbn in E; now try split].
  - pose proof P as (E & _). cbn in E. subst c. destruct (String.eqb x a) eqn:K; [|constructor; assumption]. apply String.eqb_eq in K. subst a. constructor; [|exact R].
    split; [reflexivity|]. cbn. split; [reflexivity|contradiction].
Qed.
Lemma vrel_upd_l u v : vrel u v -> vrel (upd "l" (GI L) u) (upd "l" (GI H) v).
Proof.
  intros R. induction R as [|[a b] [c d] u v P R IH]; cbn [upd].
  - apply Forall2_cons; [|apply Forall2_nil]. split; [reflexivity|]. split; [cbn; congruence|intros E; cbn in E; now try split].
  - pose proof P as (E & _). cbn in E. subst c. destruct (String.eqb "l" a) eqn:K; [|constructor; assumption]. apply String.eqb_eq in K. subst a. constructor; [|exact R].
    split; [reflexivity|]. cbn. split; [congruence|now split].
Qed.
Lemma eval_vrel e : forall s s', clean e = true -> flds s = flds s' -> vrel (vars s) (vars s') -> eval s e = eval s' e.
Proof.
  unfold clean. induction e; intros s s' P F V; cbn [pure mentions] in P; rewrite ?Bool.negb_orb in P; bools; cbn [eval]; try reflexivity; try discriminate; try congruence;
    rewrite ?(IHe s s'), ?(IHe1 s s'), ?(IHe2 s s'), ?(IHe3 s s') by (try assumption; apply andb_true_intro; split; assumption); try reflexivity.
  rewrite (@vrel_look x _ _ V); [reflexivity|]. intros ->. now rewrite String.eqb_refl in *.
Qed.
Lemma test_vrel c : forall s s', clean_c c = true -> flds s = flds s' -> vrel (vars s) (vars s') -> test s c = test s' c.
Proof.
  induction c; intros s s' P F V; cbn [clean_c] in P; bools; cbn [test];
    rewrite ?(@eval_vrel a s s'), ?(@eval_vrel b s s'), ?(IHc s s'), ?(IHc1 s s'), ?(IHc2 s s') by assumption; reflexivity.
Qed.
Lemma same_states s s1 s2 : three s s1 s2 -> nth_error (buf s1) p = nth_error (buf s2) p -> s1 = s2.
Proof. intros T E. pose proof (away_eq (t_b2 T) E). destruct s1, s2; cbn in *. f_equal; [exact (t_f2 T)|exact (t_v2 T)|assumption]. Qed.
(** the end of the first run is before the ends of the others, or with them *)
Definition along (o o1 o2 : out) : Prop :=
  match o with
  | Done t r => List.length (buf t) = H /\ (nth_error (buf t) p = m \/ o1 = o2) /\ forall v, r = Ok v -> exists t1, o1 = Done t1 r /\ buf t1 = buf t
  | Next u => exists u1 u2, o1 = Next u1 /\ o2 = Next u2 /\ three u u1 u2
  | Brk u => exists u1 u2, o1 = Brk u1 /\ o2 = Brk u2 /\ three u u1 u2
  end.
Definition run3 (c : stmt) : Prop := forall s s1 s2, three s s1 s2 -> along (xexec n L c s) (xexec n H c s1) (xexec n H c s2).
(** any way of stopping *)
Lemma stops s s1 s2 r (k : state -> out) : three s s1 s2 -> (forall v, r <> Ok v) -> along (Done s r) (k s1) (k s2).
Proof. intros T N. cbn. split; [exact (t_h T)|]. split; [|intros v E; now apply N in E]. destruct (t_p T) as [E|E]; [apply or_intror; now rewrite (same_states T E)|now left]. Qed.
Lemma views s s1 s2 e : three s s1 s2 -> clean e = true -> eval (view L s) e = eval (view H s1) e /\ eval (view L s) e = eval (view H s2) e.
Proof.
  intros T C. split; (apply eval_vrel; [exact C|..]); cbn [view flds vars].
  - exact (t_f1 T). - exact (t_v1 T). - rewrite (t_f1 T). exact (t_f2 T). - rewrite <- (t_v2 T). exact (t_v1 T).
Qed.
Lemma views_c s s1 s2 c : three s s1 s2 -> clean_c c = true -> test (view L s) c = test (view H s1) c /\ test (view L s) c = test (view H s2) c.
Proof.
  intros T C. split; (apply test_vrel; [exact C|..]); cbn [view flds vars].
  - exact (t_f1 T). - exact (t_v1 T). - rewrite (t_f1 T). exact (t_f2 T). - rewrite <- (t_v2 T). exact (t_v1 T).
Qed.
Lemma three_set s s1 s2 x v : three s s1 s2 -> x <> "l" -> three (setv x v s) (setv x v s1) (setv x v s2).
Proof.
  intros T N. constructor; cbn [setv flds vars buf]; [exact (t_f1 T)|exact (t_f2 T)|apply vrel_upd; [exact (t_v1 T)|exact N]|now rewrite (t_v2 T)|exact (t_b1 T)|exact (t_b2 T)|exact (t_h T)|exact (t_p T)].
Qed.
Lemma three_leave s s1 s2 u u1 u2 : three s s1 s2 -> three u u1 u2 -> three (leave s u) (leave s1 u1) (leave s2 u2).
Proof.
  intros S T. constructor; cbn [leave flds vars buf]; [exact (t_f1 T)|exact (t_f2 T)| |now rewrite (t_v2 S), (t_v2 T)|exact (t_b1 T)|exact (t_b2 T)|exact (t_h T)|exact (t_p T)].
  pose proof (t_v1 S) as R. pose proof (t_v1 T) as Q. revert Q. generalize (vars u) (vars u1). induction R; intros c d Q; cbn [cut]; [constructor|].
  destruct Q; constructor; auto. now apply IHR.
Qed.
(** the same write in all three *)
Lemma write s s1 s2 (w : list N -> res (list N)) b :
  three s s1 s2 -> (forall a b a', away p a b -> w a = Ok a' -> same_write p a a' b (w b)) -> (forall a a', w a = Ok a' -> List.length a' = List.length a) -> w (buf s) = Ok b ->
  exists c, w (buf s1) = Ok b /\ w (buf s2) = Ok c /\ three (setb b s) (setb b s1) (setb c s2).
Proof.
  intros T W Ln E. rewrite (t_b1 T) in E. destruct (W _ _ _ (t_b2 T) E) as (c & E2 & A & D). exists c. split; [exact E|]. split; [exact E2|].
  constructor; cbn [setb flds vars buf]; [exact (t_f1 T)|exact (t_f2 T)|exact (t_v1 T)|exact (t_v2 T)|reflexivity|exact A|rewrite (Ln _ _ E), <- (t_b1 T); exact (t_h T)|].
  destruct D as [D|[D1 D2]]; [now left|]. rewrite D1, D2. pose proof (t_p T) as P. rewrite (t_b1 T) in P. exact P.
Qed.
Lemma copy_len i j s a a' : copy_range a i j s = Ok a' -> List.length a' = List.length a.
Proof.
  unfold copy_range. destruct (Nat.leb_spec i j); [|discriminate]. destruct (Nat.leb_spec j (List.length a)); [|discriminate]. cbn [andb]. cbv zeta. intros [= <-].
  rewrite !app_length, !firstn_length, skipn_length, ?firstn_length. lia.
Qed.
Lemma put_be_len k i j x a a' : put_be k a i j x = Ok a' -> List.length a' = List.length a.
Proof. unfold put_be. destruct (slice a i j); try discriminate. cbn [bind]. destruct (_ <? k); [discriminate|]. intros E. exact (proj1 (@put_nth _ _ _ _ E)). Qed.
Theorem runs c : plain c = true -> run3 c.
Proof.
  induction c as [|a IHa b IHb|a IH|x e|x e|x y e|x e|i e|k lo hi e|k x e|lo hi e|t a IH|a IH|x y a IH| |e|]; intros C s s1 s2 T; try discriminate C; cbn [plain] in C; bools.
  - cbn. now exists s1, s2.
  - cbn [xexec]. pose proof (IHa H0 s s1 s2 T) as A. destruct (xexec n L a s) as [u|u|u r]; cbn [along] in A.
    + destruct A as (u1 & u2 & -> & -> & U). now apply IHb.
    + destruct A as (u1 & u2 & -> & -> & U). cbn. now exists u1, u2.
    + destruct A as (Ln & A & K). split; [exact Ln|]. split; [|intros v0 E0; destruct (K v0 E0) as (t1 & -> & Q); exists t1; now split]. destruct A as [A|A]; [now left|]. apply or_intror. now rewrite A.
  - cbn [xexec]. pose proof (IH C s s1 s2 T) as A. destruct (xexec n L a s) as [u|u|u r]; cbn [along within] in *.
    + destruct A as (u1 & u2 & -> & -> & U). exists (leave s1 u1), (leave s2 u2). split; [reflexivity|]. split; [reflexivity|]. now apply three_leave.
    + destruct A as (u1 & u2 & -> & -> & U). exists (leave s1 u1), (leave s2 u2). split; [reflexivity|]. split; [reflexivity|]. now apply three_leave.
    + destruct A as (Ln & A & K). split; [exact Ln|]. split; [|intros v0 E0; destruct (K v0 E0) as (t1 & -> & Q); exists t1; now split]. destruct A as [A|A]; [now left|]. apply or_intror. rewrite A. assert (E : vars s1 = vars s2) by exact (t_v2 T).
      destruct (xexec n H a s2); cbn [within]; unfold leave; now rewrite ?E.
  - cbn [xexec]. destruct (String.eqb_spec x "l") as [->|N].
    + destruct e; try discriminate C. destruct e; try discriminate C. cbn [eval view buf oct bind fails octs]. unfold octs.
      assert (B1 : List.length (buf s1) = H) by (rewrite <- (t_b1 T); exact (t_h T)). assert (B2 : List.length (buf s2) = H) by (rewrite <- (proj1 (t_b2 T)); exact B1).
      rewrite !firstn_length, B1, B2, (t_h T), Nat.min_id, Nat.min_l by exact LH. eexists _, _. split; [reflexivity|]. split; [reflexivity|].
      constructor; cbn [setv flds vars buf]; [exact (t_f1 T)|exact (t_f2 T)|apply vrel_upd_l; exact (t_v1 T)|now rewrite (t_v2 T)|exact (t_b1 T)|exact (t_b2 T)|exact (t_h T)|exact (t_p T)].
    + destruct (@views _ _ _ _ T C) as [E1 E2]. rewrite <- E1, <- E2. destruct (eval (view L s) e) as [v| | |]; cbn [fails]; [|apply (@stops _ _ _ _ (fun u => Done u _) T); intros; discriminate..].
      eexists _, _. split; [reflexivity|]. split; [reflexivity|]. now apply three_set.
  - cbn [xexec]. destruct (@views _ _ _ _ T H0) as [I1 I2], (@views _ _ _ _ T H1) as [E1 E2]. rewrite <- I1, <- I2, <- E1, <- E2. clear I1 I2 E1 E2.
    destruct (eval (view L s) e) as [v| | |]; cbn [bind fails]; [|apply (@stops _ _ _ _ (fun u => Done u _) T); intros; discriminate..].
    destruct (num v) as [x| | |]; cbn [bind fails]; [|apply (@stops _ _ _ _ (fun u => Done u _) T); intros; discriminate..].
    destruct (eval (view L s) i) as [w| | |]; cbn [bind fails]; [|apply (@stops _ _ _ _ (fun u => Done u _) T); intros; discriminate..].
    destruct (int w) as [j| | |]; cbn [bind fails]; [|apply (@stops _ _ _ _ (fun u => Done u _) T); intros; discriminate..].
    destruct (Nat.ltb_spec j L) as [B|B]; [|cbn [fails]; apply (@stops _ _ _ _ (fun u => fails u (if j <? H then put (buf u) j [x] else Fault) (fun b => Next (setb b u))) T); intros; discriminate].
    destruct (Nat.ltb_spec j H) as [B'|B']; [|lia].
    destruct (put (buf s) j [x]) as [b| | |] eqn:E; cbn [fails]; [|apply (@stops _ _ _ _ (fun u => fails u (put (buf u) j [x]) (fun b => Next (setb b u))) T); intros; discriminate..].
    destruct (@write s s1 s2 (fun a => put a j [x]) b T) as (c & W1 & W2 & W3); [intros; eapply put_both; eassumption|intros a a' Q; exact (proj1 (@put_nth _ _ _ _ Q))|exact E|].
    rewrite W1, W2. cbn. eauto.
  - cbn [xexec]. destruct (@views _ _ _ _ T H0) as [I1 I2], (@views _ _ _ _ T H2) as [J1 J2], (@views _ _ _ _ T H1) as [E1 E2]. rewrite <- I1, <- I2, <- E1, <- E2, <- J1, <- J2. clear I1 I2 E1 E2 J1 J2.
    destruct (eval (view L s) lo) as [w| | |]; cbn [bind fails]; [|apply (@stops _ _ _ _ (fun u => Done u _) T); intros; discriminate..].
    destruct (int w) as [i| | |]; cbn [bind fails]; [|apply (@stops _ _ _ _ (fun u => Done u _) T); intros; discriminate..].
    destruct (eval (view L s) hi) as [w'| | |]; cbn [bind fails]; [|apply (@stops _ _ _ _ (fun u => Done u _) T); intros; discriminate..].
    destruct (int w') as [j| | |]; cbn [bind fails]; [|apply (@stops _ _ _ _ (fun u => Done u _) T); intros; discriminate..].
    destruct (eval (view L s) e) as [v| | |]; cbn [bind fails]; [|apply (@stops _ _ _ _ (fun u => Done u _) T); intros; discriminate..].
    destruct (num v) as [x| | |]; cbn [bind fails]; [|apply (@stops _ _ _ _ (fun u => Done u _) T); intros; discriminate..].
    destruct (put_be k (buf s) i j x) as [b| | |] eqn:E; cbn [fails]; [|apply (@stops _ _ _ _ (fun u => fails u (put_be k (buf u) i j x) (fun b => Next (setb b u))) T); intros; discriminate..].
    destruct (@write s s1 s2 (fun a => put_be k a i j x) b T) as (c & W1 & W2 & W3); [intros; eapply put_be_both; eassumption|intros a a' Q; exact (put_be_len _ _ _ _ _ Q)|exact E|].
    rewrite W1, W2. cbn. eauto.
  - cbn [xexec]. apply Bool.negb_true_iff, String.eqb_neq in H0. destruct (@views _ _ _ _ T H1) as [E1 E2]. rewrite <- E1, <- E2, <- (t_v2 T), <- (vrel_look (t_v1 T) H0). clear E1 E2.
    destruct (w <- of_look (look x (vars s)) ;; d <- oct w ;; v <- eval (view L s) e ;; y <- num v ;; put d 0 (be k y)) as [q| | |]; cbn [fails]; [|apply (@stops _ _ _ _ (fun u => Done u _) T); intros; discriminate..].
    eexists _, _. split; [reflexivity|]. split; [reflexivity|]. now apply three_set.
  - cbn [xexec]. destruct (@views _ _ _ _ T H0) as [I1 I2], (@views _ _ _ _ T H2) as [J1 J2], (@views _ _ _ _ T H1) as [E1 E2]. rewrite <- I1, <- I2, <- E1, <- E2, <- J1, <- J2. clear I1 I2 E1 E2 J1 J2.
    destruct (eval (view L s) lo) as [w| | |]; cbn [bind fails]; [|apply (@stops _ _ _ _ (fun u => Done u _) T); intros; discriminate..].
    destruct (int w) as [i| | |]; cbn [bind fails]; [|apply (@stops _ _ _ _ (fun u => Done u _) T); intros; discriminate..].
    destruct (eval (view L s) hi) as [w'| | |]; cbn [bind fails]; [|apply (@stops _ _ _ _ (fun u => Done u _) T); intros; discriminate..].
    destruct (int w') as [j| | |]; cbn [bind fails]; [|apply (@stops _ _ _ _ (fun u => Done u _) T); intros; discriminate..].
    destruct (eval (view L s) e) as [v| | |]; cbn [bind fails]; [|apply (@stops _ _ _ _ (fun u => Done u _) T); intros; discriminate..].
    destruct (oct v) as [x| | |]; cbn [bind fails]; [|apply (@stops _ _ _ _ (fun u => Done u _) T); intros; discriminate..].
    destruct (copy_range (buf s) i j x) as [b| | |] eqn:E; cbn [fails]; [|apply (@stops _ _ _ _ (fun u => fails u (copy_range (buf u) i j x) (fun b => Next (setb b u))) T); intros; discriminate..].
    destruct (@write s s1 s2 (fun a => copy_range a i j x) b T) as (c & W1 & W2 & W3); [intros; eapply copy_both; eassumption|intros a a' Q; exact (copy_len _ _ _ _ Q)|exact E|].
    rewrite W1, W2. cbn. eauto.
  - destruct (check_of t a) as [e|] eqn:K.
    + unfold check_of in K. destruct t as [e1 e2| | | | | | | |]; try discriminate K. destruct e1; try discriminate K. destruct a; try discriminate K.
      destruct (String.eqb_spec x "l") as [->|N]; [|discriminate K]. destruct (pure e2); [|discriminate K]. injection K as <-.
      destruct (@views _ _ _ _ T C) as [E1 E2]. cbn [xexec test]. rewrite <- E1, <- E2. cbn [eval view vars]. change (St (flds s) (vars s) (firstn L (buf s))) with (view L s).
      rewrite <- (t_v2 T). destruct (vrel_l (t_v1 T)) as [[-> ->]|[-> ->]]; cbn [of_look bind int fails]; [|apply (@stops _ _ _ _ (fun u => Done u _) T); intros; discriminate].
      destruct (eval (view L s) e2) as [v| | |]; cbn [bind fails]; [|apply (@stops _ _ _ _ (fun u => Done u _) T); intros; discriminate..].
      destruct (int v) as [h| | |]; cbn [bind fails]; [|apply (@stops _ _ _ _ (fun u => Done u _) T); intros; discriminate..].
      destruct (Nat.ltb_spec L h); [apply (@stops _ _ _ _ (fun u => if H <? h then Done u (Err EUnexpectedEOF) else Next u) T); intros; discriminate|]. destruct (Nat.ltb_spec H h); [lia|]. cbn. eauto.
    + bools. cbn [xexec]. destruct (@views_c _ _ _ _ T H0) as [E1 E2]. rewrite <- E1, <- E2.
      destruct (test (view L s) t) as [[]| | |]; cbn [fails]; [now apply IH|cbn; eauto|apply (@stops _ _ _ _ (fun u => Done u _) T); intros; discriminate..].
  - cbn [xexec]. apply Bool.negb_true_iff, String.eqb_neq in H0. rewrite <- (t_f2 T), <- (t_f1 T).
    destruct (look y (flds s)) as [[x0|x0|x0|x0|l|x0|]|]; try (apply (@stops _ _ _ _ (fun u => Done u _) T); intros; discriminate). revert s s1 s2 T.
    induction l as [|q l IHl]; intros s s1 s2 T; [cbn; eauto|].
    pose proof (IH H1 _ _ _ (@three_set s s1 s2 x (GS q) T H0)) as A. destruct (xexec n L a (setv x (GS q) s)) as [u|u|u r]; cbn [along] in A.
    + destruct A as (u1 & u2 & -> & -> & U). now apply IHl.
    + destruct A as (u1 & u2 & -> & -> & U). cbn. eauto.
    + destruct A as (Ln & A & K). split; [exact Ln|]. split; [|intros v0 E0; destruct (K v0 E0) as (t1 & -> & Q); exists t1; now split]. destruct A as [A|A]; [now left|]. apply or_intror. now rewrite A.
  - cbn. now exists s1, s2.
  - cbn [xexec]. destruct (@views _ _ _ _ T C) as [E1 E2]. rewrite <- E1, <- E2. destruct (eval (view L s) e) as [v| | |]; cbn [fails]; [|apply (@stops _ _ _ _ (fun u => Done u _) T); intros; discriminate..].
    cbn. split; [exact (t_h T)|]. split; [destruct (t_p T) as [E|E]; [apply or_intror; now rewrite (same_states T E)|now left]|]. intros v0 _. exists s1. split; [reflexivity|]. symmetry. exact (t_b1 T).
  - cbn [xexec]. apply (@stops _ _ _ _ (fun u => Done u _) T); intros; discriminate.
Qed.
(** the call *)
Theorem reach c F M M' : plain c = true -> List.length M = H -> away p M M' -> nth_error M p = m ->
  let t := buf (fst (xcall n L c F M)) in
  List.length t = H /\ (nth_error t p = m \/ nth_error (buf (fst (xcall n H c F M))) p = nth_error (buf (fst (xcall n H c F M'))) p) /\
  forall v, snd (xcall n L c F M) = Ok v -> snd (xcall n H c F M) = Ok v /\ buf (fst (xcall n H c F M)) = t.
Proof.
  intros C Hm A E. cbv zeta. unfold xcall. assert (T : three (St F [] M) (St F [] M) (St F [] M')) by (constructor; cbn; auto; constructor).
  pose proof (runs _ C T) as R. destruct (xexec n L c (St F [] M)) as [u|u|u r]; cbn [along] in R; cbn [fst].
  - destruct R as (u1 & u2 & -> & -> & U). split; [exact (t_h U)|]. split; [|discriminate]. destruct (t_p U) as [Q|Q]; [apply or_intror; exact Q|left; exact Q].
  - destruct R as (u1 & u2 & -> & -> & U). split; [exact (t_h U)|]. split; [|discriminate]. destruct (t_p U) as [Q|Q]; [apply or_intror; exact Q|left; exact Q].
  - destruct R as (Ln & Q & K). split; [exact Ln|]. split; [destruct Q as [Q|Q]; [left; exact Q|apply or_intror; now rewrite Q]|].
    cbn [snd]. intros v E0. destruct (K v E0) as (t1 & -> & B). cbn. now split.
Qed.
End Three.
