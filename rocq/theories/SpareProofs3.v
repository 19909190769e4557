(** Spare capacity: decoding does not look past the length; an accessor that returns without it returns the same with it. *)
From Verif Require Import Base IETypes IE Bits IEProofs IEProofs2 Codec Codec2 Utils UtilsProofs Fields1 Time Fields2 Fields3 Fields4 Access AccTable AccRun
  Spare SpareProofs SpareProofs2.
Set Implicit Arguments.

(** the visible part *)
Definition seen A B (r : res (A * B)) : res A := x <- r ;; Ok (fst x).
Definition seens A B (r : res (list (A * B))) : res (list A) := l <- r ;; Ok (map fst l).
Lemma slice_prefix (b : list N) lo hi p : slice b lo hi = Ok p -> lo <= hi <= length b /\ p = firstn (hi - lo) (skipn lo b) /\ length p = hi - lo.
Proof.
  unfold slice. destruct (Nat.leb_spec lo hi); [|discriminate]. destruct (Nat.leb_spec hi (length b)); [|discriminate]. cbn [andb]. intros E.
  assert (p = firstn (hi - lo) (skipn lo b)) as -> by congruence. repeat split; try lia. rewrite firstn_length, skipn_length. lia.
Qed.
Lemma skipn_skipn (k n : nat) (l : list N) : skipn k (skipn n l) = skipn (k + n) l.
Proof. revert l. induction n as [|n IH]; intros l; [now rewrite Nat.add_0_r|]. rewrite Nat.add_succ_r. destruct l; [now rewrite !skipn_nil|]. cbn [skipn]. apply IH. Qed.
Lemma skipn_part (b r : list N) lo n : lo + n <= length b -> skipn lo (b ++ r) = firstn n (skipn lo b) ++ skipn (lo + n) (b ++ r).
Proof.
  intros H. rewrite (skipn_firstn_app b r n) by lia. f_equal. rewrite skipn_skipn, (Nat.add_comm n lo), skipn_app.
  replace (lo + n - length b) with 0 by lia. reflexivity.
Qed.
Lemma skipn_over (b r : list N) k : k <= length b -> skipn k (b ++ r) = skipn k b ++ r.
Proof. intros H. rewrite skipn_app. now replace (k - length b) with 0 by lia. Qed.

Section G.
Variable g : N -> bool.
Lemma cparse_multi_S n L M : cparse_multi g (S n) L M =
    if L =? 0 then Ok [] else
    x <- cunmarshal g n L M ;;
    _ <- cfrom L (mlen g (fst x)) ;;
    r <- cparse_multi g n (L - mlen g (fst x)) (skipn (mlen g (fst x)) M) ;;
    Ok (x :: r).
Proof. reflexivity. Qed.
Lemma cunmarshal_S n L M : cunmarshal g (S n) L M =
    if L <? 4 then Err EUnexpectedEOF else
    t <- getr 2 M 0 2 ;;
    ln <- getr 2 M 2 4 ;;
    '(e, offset, fin) <-
      (if vendor t then
         if L <? 6 then Err EUnexpectedEOF else
         if N.to_nat ln <? 2 then Err EInvalidLength else
         e <- getr 2 M 4 6 ;; Ok (e, 6, N.to_nat ln - 2)
       else Ok (0%N, 4, N.to_nat ln)) ;;
    if L <=? offset then Ok (mkIE t ln e [] [], []) else
    if L <? offset + fin then Err EUnexpectedEOF else
    p <- slice M offset (offset + fin) ;;
    if g t then
      cs <- cparse_multi g n fin (skipn offset M) ;; Ok (mkIE t ln e p (map fst cs), skipn (offset + fin) M)
    else Ok (mkIE t ln e p [], skipn (offset + fin) M).
Proof. reflexivity. Qed.
Theorem decode_seen n : (forall b r, seen (cunmarshal g n (length b) (b ++ r)) = unmarshal g n zeroIE b)
  /\ (forall b r, seens (cparse_multi g n (length b) (b ++ r)) = parse_multi g n b).
Proof.
  induction n as [|n [IHu IHm]]; [now split|]. split; intros b r.
  - unfold seen. rewrite cunmarshal_S, unmarshal_S. cbv zeta. destruct (Nat.ltb_spec (length b) 4); [reflexivity|]. rewrite getr_app by lia.
    destruct (getr 2 b 0 2) as [t|e| |]; try reflexivity. cbn [bind]. rewrite getr_app by lia. destruct (getr 2 b 2 4) as [ln|e| |]; try reflexivity. cbn [bind].
    assert (forall e offset fin,
      (x <- (if length b <=? offset then Ok (mkIE t ln e [] [], []) else
      if length b <? offset + fin then Err EUnexpectedEOF else
      p <- slice (b ++ r) offset (offset + fin) ;;
      if g t then cs <- cparse_multi g n fin (skipn offset (b ++ r)) ;; Ok (mkIE t ln e p (map fst cs), skipn (offset + fin) (b ++ r))
      else Ok (mkIE t ln e p [], skipn (offset + fin) (b ++ r))) ;; Ok (fst x)) =
      (if length b <=? offset then Ok (mkIE t ln e [] []) else
      if length b <? offset + fin then Err EUnexpectedEOF else
      p <- slice b offset (offset + fin) ;;
      if g t then cs <- parse_multi g n p ;; Ok (mkIE t ln e p cs) else Ok (mkIE t ln e p []))) as X.
    { intros e offset fin. destruct (Nat.leb_spec (length b) offset); [reflexivity|]. destruct (Nat.ltb_spec (length b) (offset + fin)); [reflexivity|].
      rewrite slice_app by lia. destruct (slice b offset (offset + fin)) as [p|e'| |] eqn:E; try reflexivity. cbn [bind]. destruct (g t); [|reflexivity].
      apply slice_prefix in E as (_ & -> & Lp). replace (offset + fin - offset) with fin in * by lia.
      rewrite (@skipn_part b r offset fin) by lia. rewrite <- (IHm _ (skipn (offset + fin) (b ++ r))). rewrite Lp. unfold seens.
      now destruct (cparse_multi g n fin _). }
    cbn [eid payload children zeroIE]. destruct (vendor t); [|exact (X 0%N 4 (N.to_nat ln))].
    destruct (Nat.ltb_spec (length b) 6); [reflexivity|]. destruct (N.to_nat ln <? 2); [reflexivity|]. rewrite getr_app by lia.
    destruct (getr 2 b 4 6) as [e|e| |]; try reflexivity. cbn [bind]. exact (X e 6 (N.to_nat ln - 2)).
  - unfold seens. rewrite cparse_multi_S, parse_multi_S. destruct (length b =? 0); [reflexivity|]. rewrite <- (IHu b r). unfold seen.
    destruct (cunmarshal g n (length b) (b ++ r)) as [[i s]|e| |]; try reflexivity. cbn [bind fst]. unfold cfrom, from.
    destruct (Nat.leb_spec (mlen g i) (length b)); [|reflexivity]. cbn [bind]. rewrite skipn_over by assumption.
    rewrite <- (IHm (skipn (mlen g i) b) r). rewrite skipn_length. unfold seens. now destruct (cparse_multi g n (length b - mlen g i) _).
Qed.
(** where the payload and its spare capacity are *)
Definition lies (b r : list N) (x : cie) : Prop :=
  (payload (fst x) = [] /\ snd x = []) \/ exists pre post, b = pre ++ payload (fst x) ++ post /\ snd x = post ++ r.
Lemma part_lies (b r : list N) o n : o + n <= length b -> exists pre post, b = pre ++ firstn n (skipn o b) ++ post /\ skipn (o + n) (b ++ r) = post ++ r.
Proof.
  intros H. exists (firstn o b), (skipn (o + n) b). split; [|now apply skipn_over]. rewrite Nat.add_comm, <- skipn_skipn. now rewrite firstn_skipn, firstn_skipn.
Qed.
Theorem decode_lies n : (forall b r x, cunmarshal g n (length b) (b ++ r) = Ok x -> lies b r x)
  /\ (forall b r l, cparse_multi g n (length b) (b ++ r) = Ok l -> Forall (lies b r) l).
Proof.
  induction n as [|n [IHu IHm]]; [now split|]. split; intros b r.
  - intros x. rewrite cunmarshal_S. destruct (Nat.ltb_spec (length b) 4); [discriminate|]. intros E.
    apply bind_ok in E as (t & _ & E). apply bind_ok in E as (ln & _ & E). apply bind_ok in E as ([[e offset] fin] & _ & E).
    destruct (Nat.leb_spec (length b) offset); [assert (x = (mkIE t ln e [] [], [])) as -> by congruence; now left|].
    destruct (Nat.ltb_spec (length b) (offset + fin)); [discriminate|]. apply bind_ok in E as (p & Ep & E). rewrite slice_app in Ep by lia.
    apply slice_prefix in Ep as (_ & -> & _). replace (offset + fin - offset) with fin in * by lia. right. destruct (g t).
    + apply bind_ok in E as (cs & _ & E). set (s := skipn (offset + fin) (b ++ r)) in *.
      assert (x = (mkIE t ln e (firstn fin (skipn offset b)) (map fst cs), s)) as -> by congruence. now apply part_lies.
    + set (s := skipn (offset + fin) (b ++ r)) in *. assert (x = (mkIE t ln e (firstn fin (skipn offset b)) [], s)) as -> by congruence. now apply part_lies.
  - intros l. rewrite cparse_multi_S. destruct (length b =? 0); [intros E; assert (l = []) as -> by congruence; constructor|]. intros E.
    apply bind_ok in E as (x & Ex & E). apply IHu in Ex. unfold cfrom in E. destruct (Nat.leb_spec (mlen g (fst x)) (length b)) as [Hm|]; [|discriminate]. cbn [bind] in E.
    apply bind_ok in E as (rest & Er & E). assert (l = x :: rest) as -> by congruence. clear E. constructor; [assumption|].
    rewrite skipn_over, <- skipn_length in Er by assumption. apply IHm in Er. revert Er. apply Forall_impl. intros y [Y|(pre & post & Y & Z)]; [now left|].
    right. exists (firstn (mlen g (fst x)) b ++ pre), post. split; [|assumption]. rewrite <- app_assoc, <- Y. now rewrite firstn_skipn.
Qed.

Definition out (r : res cval) : res val := v <- r ;; Ok (plain v).
Lemma out_cv (r : res val) : out (v <- r ;; Ok (CV v)) = r.
Proof. now destruct r. Qed.
Lemma keeps_out (x : res val) y : keeps x y -> keeps (out (v <- x ;; Ok (CV v))) y.
Proof. now rewrite out_cv. Qed.
Lemma multi_out i r : out (is <- cparseMultiIEs g (length (payload i)) (payload i ++ r) ;; Ok (CIEs is)) = as_ies (parseMultiIEs g (payload i)).
Proof.
  unfold cparseMultiIEs, parseMultiIEs, as_ies. rewrite <- (proj2 (decode_seen _) _ r). unfold seens, out. now destruct (cparse_multi _ _ _ _).
Qed.

(** leaves that read within the payload of at least m octets, or end as they would without spare capacity *)
Definition leaf_tight (m : nat) (l : leaf) : bool :=
  match l with
  | LFlowDescription => false
  | LFields k => negb (overreads k)
  | LSecs32 | LMillis32 | LSNSSAI => 4 <=? m
  | LNanos64 => 8 <=? m
  | LSecs16 | LAuri => 2 <=? m
  | LExponent => 12 <=? m
  | LNFInstanceID => 16 <=? m
  | _ => true
  end.
Lemma leaf_keeps l i r : keeps (out (cleaf_run g l (i, r))) (leaf_run g l i).
Proof.
  destruct l; unfold cleaf_run; cbn [fst snd]; cbv zeta.
  all: try (right; unfold leaf_run; now rewrite out_cv).
  all: try (apply keeps_out); cbn [leaf_run].
  - destruct (g (ty i)); [now right|]. apply keeps_out. right. now rewrite cdecode_fqdn_eq.
  - destruct (g (ty i)); [now right|]. apply keeps_out. right. now rewrite ctimestamp_eq.
  - now right.
  - right. apply multi_out.
  - apply fparse_keeps.
  - unfold as_d. apply keeps_bind; [apply keeps_bind; [apply getr_keeps|intros; now right]|intros; now right].
  - unfold as_d. apply keeps_bind; [apply keeps_bind; [apply getr_keeps|intros; now right]|intros; now right].
  - unfold as_d. apply keeps_bind; [apply keeps_bind; [apply getr_keeps|intros; now right]|intros; now right].
  - unfold as_d. apply keeps_bind; [apply keeps_bind; [apply getr_keeps|intros; now right]|intros; now right].
  - unfold as_n. apply keeps_bind; [apply keeps_bind; [apply getr_keeps|intros; now right]|intros; now right].
  - destruct (_ <? _); now right.
  - right. now rewrite cfailed_rule_id_eq.
  - unfold as_s. apply keeps_bind; [apply cflow_description_keeps|intros; now right].
  - right. rewrite <- (cnode_address_eq _ r). unfold out, as_b. destruct (cnode_address _ _) as [[? ?]|? | |]; reflexivity.
  - right. rewrite ccsids_eq. unfold out. now destruct (csids _).
  - unfold as_n. apply keeps_bind; [apply getr_keeps|intros; now right].
  - unfold as_b, out. destruct (slice_keeps (payload i) r 0 16) as [-> | ->]; [now left|right]. now destruct (slice _ _ _).
  - right. now rewrite cnode_body_eq.
  - unfold as_b, out. destruct (slice_keeps (payload i) r 0 4) as [-> | ->]; [now left|right]. now destruct (slice _ _ _).
  - right. rewrite <- (ctsn_bridge_id_eq _ r). unfold out, as_b. destruct (ctsn_bridge_id _ _) as [[? ?]|? | |]; reflexivity.
Qed.
Lemma leaf_tight_eq m l i r : leaf_tight m l = true -> m <= length (payload i) -> out (cleaf_run g l (i, r)) = leaf_run g l i.
Proof.
  intros T Hm. destruct l; try discriminate T; try (apply Nat.leb_le in T);
  unfold cleaf_run; cbn [fst snd]; cbv zeta; rewrite ?out_cv; unfold leaf_run; try reflexivity.
  all: try (rewrite getr_app by lia; reflexivity).
  all: try (rewrite slice_app by lia; unfold out, as_b; now destruct (slice _ _ _)).
  - destruct (g (ty i)); [reflexivity|]. now rewrite out_cv, cdecode_fqdn_eq.
  - destruct (g (ty i)); [reflexivity|]. now rewrite out_cv, ctimestamp_eq.
  - apply multi_out.
  - apply negb_true_iff in T. now apply fparse_cap_eq.
  - now destruct (_ <? _).
  - now rewrite cfailed_rule_id_eq.
  - rewrite <- (cnode_address_eq _ r). unfold out, as_b. destruct (cnode_address _ _) as [[? ?]|? | |]; reflexivity.
  - rewrite ccsids_eq. unfold out. now destruct (csids _).
  - now rewrite cnode_body_eq.
  - rewrite <- (ctsn_bridge_id_eq _ r). unfold out, as_b. destruct (ctsn_bridge_id _ _) as [[? ?]|? | |]; reflexivity.
Qed.
Lemma post_keeps f i r v : keeps (out (cpost_run f (i, r) v)) (post_run f i (plain v)).
Proof.
  assert (D : keeps (out (w <- post_run f i (plain v) ;; Ok (CV w))) (post_run f i (plain v))) by (right; apply out_cv).
  destruct f; cbn [cpost_run]; try exact D; destruct v as [v|b q|l]; try exact D; cbn [plain post_run fst snd].
  - unfold out. destruct (slice_keeps b q lo hi) as [-> | ->]; [now left|right]. now destruct (slice _ _ _).
  - destruct (Nat.ltb_spec (length b) 1); [now right|]. destruct (index b 0) as [n|? | |]; try (now right). cbn [bind].
    destruct (Nat.ltb_spec (length b) (N.to_nat n + 1)); [now right|]. right. now rewrite slice_app, out_cv by lia.
  - destruct (Nat.ltb_spec (length b) 2); [now right|]. rewrite getr_app by lia. destruct (getr 2 b 0 2) as [n|? | |]; try (now right). cbn [bind].
    destruct (Nat.ltb_spec (length b) (N.to_nat n + 2)); [now right|]. right. now rewrite slice_app, out_cv by lia.
  - unfold out. destruct (slice_keeps b q 1 4) as [-> | ->]; [now left|right]. now destruct (slice _ _ _).
  - destruct v; try exact D. right. now rewrite cdecode_fqdn_eq, out_cv.
Qed.
Lemma search_keeps p q f k (l : list cie) : (forall y, p y = q (fst y)) -> (forall y, In y l -> keeps (out (f y)) (k (fst y))) ->
  keeps (out (csearch p f l)) (search q k (map fst l)).
Proof.
  intros Hp Hf. induction l as [|x l IH]; cbn [csearch search map]; [now right|]. rewrite Hp. destruct (q (fst x)); [apply Hf; now left|].
  apply IH. intros y I. apply Hf. now right.
Qed.
(** a list of IEs always comes with the places of its elements *)
Definition clean (v : cval) : Prop := match v with CV (VIEs _) => False | _ => True end.
Ltac okall := repeat match goal with
  | E : bind _ _ = Ok _ |- _ => let x := fresh "x" in let F := fresh "F" in apply bind_ok in E as (x & F & E)
  | E : (let '(_, _) := ?p in _) = Ok _ |- _ => destruct p
  | E : (if ?c then _ else _) = Ok _ |- _ => destruct c
  | E : Err _ = Ok _ |- _ => discriminate E
  | E : Fault = Ok _ |- _ => discriminate E
  end.
Ltac got := match goal with E : Ok ?a = Ok ?v |- clean ?v => assert (v = a) as -> by congruence end.
Lemma fparse_clean k L M v : cfparse k L M = Ok v -> clean (CV v).
Proof. destruct k; cbn [cfparse]; unfold as_f; intros E; apply bind_ok in E as (x & _ & E); match goal with E : Ok ?a = Ok ?v |- _ => assert (v = a) as -> by congruence end; exact I. Qed.
Lemma fparse_clean0 k b v : fparse k b = Ok v -> clean (CV v).
Proof. destruct k; cbn [fparse]; unfold as_f; intros E; apply bind_ok in E as (x & _ & E); match goal with E : Ok ?a = Ok ?v |- _ => assert (v = a) as -> by congruence end; exact I. Qed.
Ltac fin := match goal with F : Ok ?a = Ok ?v |- clean (CV ?v) => assert (v = a) as -> by congruence; exact I end.
Lemma cleaf_clean l x v : cleaf_run g l x = Ok v -> clean v.
Proof.
  destruct x as [i r]. destruct l; unfold cleaf_run; cbn [fst snd leaf_run]; cbv zeta; unfold as_n, as_s, as_b, as_d, as_t, as_ies, as_node; intros E; okall; try (got; try exact I); try discriminate; try fin.
  all: try (eapply fparse_clean; eassumption).
  all: idtac.
Qed.
Lemma cpost_clean f x w v : cpost_run f x w = Ok v -> clean v.
Proof.
  destruct x as [i r]. destruct f, w as [w|b q|l]; cbn [cpost_run post_run fst snd plain]; cbv zeta; unfold as_n, as_s, as_b, as_d, as_t, as_ies, as_node; intros E; okall; try discriminate; try (got; try exact I); try fin.
  all: destruct w; try discriminate; okall; try discriminate; try (got; try exact I); try fin.
  all: destruct f; try discriminate; okall; eapply fparse_clean0; eassumption.
Qed.
Lemma csearch_clean p f l v : (forall y v, f y = Ok v -> clean v) -> csearch p f l = Ok v -> clean v.
Proof. intros H. induction l as [|x l IH]; cbn [csearch]; [discriminate|]. destruct (p x); [apply H|apply IH]. Qed.
Lemma crun_clean n : forall a x v, crun g n a x = Ok v -> clean v.
Proof.
  induction n as [|n IH]; intros a x v E; [discriminate|]. cbn [crun] in E. cbv zeta in E. apply bind_ok in E as (u & _ & E).
  destruct (lookup _ _ _) as [l|c ts b|c ts b|c f|c d].
  - now apply cleaf_clean in E.
  - apply bind_ok in E as (w & _ & E). destruct w; try discriminate. apply csearch_clean in E; [assumption|]. intros y. apply IH.
  - apply bind_ok in E as (w & _ & E). destruct w; try discriminate. apply csearch_clean in E; [assumption|]. intros y. apply IH.
  - apply bind_ok in E as (w & _ & E). now apply cpost_clean in E.
  - apply bind_ok in E as (w & Ew & E). destruct (plain w) eqn:P; try discriminate. destruct s; [now apply IH in E|]. assert (v = w) as -> by congruence. now apply IH in Ew.
Qed.

(** An accessor that returns, or reports an error, without the spare capacity does the same with it. *)
Theorem run_keeps n : forall a x, keeps (out (crun g n a x)) (run g n a (fst x)).
Proof.
  induction n as [|n IH]; intros a x; [now right|]. cbn [crun run]. cbv zeta. destruct (check _ _) as [[]|e| |]; try (now right). cbn [bind].
  destruct (lookup _ _ _) as [l|c ts b|c ts b|c f|c d].
  - destruct x as [i r]. apply leaf_keeps.
  - destruct (IH c x) as [-> | H]; [now left|]. rewrite <- H. unfold out at 2. destruct (crun g n c x) as [v|e| |] eqn:C; try (now right). cbn [bind].
    apply crun_clean in C. destruct v as [v|? ?|l]; cbn [plain]; [destruct v; try (now left); destruct C|now left|].
    apply search_keeps; [reflexivity|]. intros y _. apply IH.
  - destruct (IH c x) as [-> | H]; [now left|]. rewrite <- H. unfold out at 2. destruct (crun g n c x) as [v|e| |] eqn:C; try (now right). cbn [bind].
    apply crun_clean in C. destruct v as [v|? ?|l]; cbn [plain]; [destruct v; try (now left); destruct C|now left|].
    apply search_keeps; [reflexivity|]. intros y _. apply IH.
  - destruct (IH c x) as [-> | H]; [now left|]. rewrite <- H. unfold out at 2. destruct (crun g n c x) as [v|e| |]; try (now right). cbn [bind].
    destruct x as [i r]. apply post_keeps.
  - destruct (IH c x) as [-> | H]; [now left|]. rewrite <- H. unfold out at 2. destruct (crun g n c x) as [v|e| |]; try (now right). cbn [bind].
    destruct (plain v) eqn:Ev; try (now left). destruct s; [apply IH|]. right. unfold out. cbn [bind]. now rewrite Ev.
Qed.
End G.
