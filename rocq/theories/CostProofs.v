(** Bounds on the work counted in Cost.v. *)
From Verif Require Import Base IETypes IE Spec IEProofs Cost.
Set Implicit Arguments.

(** IEs in an IE, itself included, and levels of nesting *)
Fixpoint elements (i : ie) : nat := S (list_sum (map elements (children i))).
Fixpoint levels (i : ie) : nat := S (fold_right Nat.max 0 (map levels (children i))).

Lemma levels_elements i : levels i <= elements i.
Proof.
  induction i as [t l e p cs IH] using ie_ind'. cbn [levels elements children]. apply le_n_S.
  induction IH as [|c cs H _ IH]; simpl; lia.
Qed.

Section G.
Variable g : N -> bool.

Lemma mlen_visits_eq i : mlen_visits g i = S (if g (ty i) then list_sum (map (mlen_visits g) (children i)) else 0).
Proof. destruct i as [t l e p cs]. cbn [mlen_visits ty children]. f_equal. destruct (g t); [|reflexivity]. now rewrite fold_left_add. Qed.

Lemma unmarshal_c_S n i0 b : unmarshal_c g (S n) i0 b =
    cbind call (fun _ =>
    let l := length b in
    if l <? 4 then lift (Err EUnexpectedEOF) else
    cbind (lift (getr 2 b 0 2)) (fun t =>
    cbind (lift (getr 2 b 2 4)) (fun ln =>
    let offset := 4 in
    let fin := N.to_nat ln in
    cbind (lift
      (if vendor t then
         if l <? 6 then Err EUnexpectedEOF else
         if fin <? 2 then Err EInvalidLength else
         e <- getr 2 b 4 6 ;; Ok (e, offset + 2, fin - 2)
       else Ok (eid i0, offset, fin))) (fun '(e, offset, fin) =>
    if l <=? offset then lift (Ok (mkIE t ln e (payload i0) (children i0))) else
    if l <? offset + fin then lift (Err EUnexpectedEOF) else
    cbind (lift (slice b offset (offset + fin))) (fun p =>
    if g t then
      cbind (parse_multi_c g n p) (fun cs => lift (Ok (mkIE t ln e p cs)))
    else lift (Ok (mkIE t ln e p (children i0)))))))).
Proof. reflexivity. Qed.
Lemma parse_multi_c_S n b : parse_multi_c g (S n) b =
    if length b =? 0 then lift (Ok []) else
    cbind (unmarshal_c g n zeroIE b) (fun i =>
    cbind (mlen_c g i) (fun m =>
    cbind (lift (from b m)) (fun b' =>
    cbind (parse_multi_c g n b') (fun is =>
    lift (Ok (i :: is)))))).
Proof. reflexivity. Qed.

(** ** The counts do not change the result *)
Lemma decoded_cbind {A B} (x : counted A) (k : A -> counted B) : decoded (cbind x k) = (a <- decoded x ;; decoded (k a)).
Proof. destruct x as [[c v] [a|e| |]]; cbn; try reflexivity. destruct (k a) as [[c' v'] r']. reflexivity. Qed.
Lemma calls_cbind {A B} (x : counted A) (k : A -> counted B) : calls (cbind x k) = calls x + (match decoded x with Ok a => calls (k a) | _ => 0 end).
Proof. destruct x as [[c v] [a|e| |]]; cbn; try lia. destruct (k a) as [[c' v'] r']. reflexivity. Qed.
Lemma visits_cbind {A B} (x : counted A) (k : A -> counted B) : visits (cbind x k) = visits x + (match decoded x with Ok a => visits (k a) | _ => 0 end).
Proof. destruct x as [[c v] [a|e| |]]; cbn; try lia. destruct (k a) as [[c' v'] r']. reflexivity. Qed.
Lemma decoded_lift {A} (r : res A) : decoded (lift r) = r. Proof. reflexivity. Qed.

Lemma bind_ext {A B} (x : res A) (k k' : A -> res B) : (forall a, k a = k' a) -> bind x k = bind x k'.
Proof. intros H. destruct x; cbn; auto. Qed.

Lemma decoded_same n : (forall i0 b, decoded (unmarshal_c g n i0 b) = unmarshal g n i0 b) /\ (forall b, decoded (parse_multi_c g n b) = parse_multi g n b).
Proof.
  induction n as [|n [IHu IHm]]; [split; reflexivity|]. split.
  - intros i0 b. rewrite unmarshal_c_S, unmarshal_S, decoded_cbind. cbn [decoded call snd bind]. cbv zeta.
    destruct (length b <? 4); [reflexivity|]. rewrite decoded_cbind, decoded_lift. apply bind_ext. intros t.
    rewrite decoded_cbind, decoded_lift. apply bind_ext. intros ln. rewrite decoded_cbind, decoded_lift. apply bind_ext. intros [[e o] f].
    destruct (length b <=? o); [reflexivity|]. destruct (length b <? o + f); [reflexivity|]. rewrite decoded_cbind, decoded_lift. apply bind_ext. intros p.
    destruct (g t); [|reflexivity]. rewrite decoded_cbind, IHm. reflexivity.
  - intros b. rewrite parse_multi_c_S, parse_multi_S. destruct (length b =? 0); [reflexivity|]. rewrite decoded_cbind, IHu. apply bind_ext. intros i.
    rewrite decoded_cbind. cbn [mlen_c decoded snd bind]. rewrite decoded_cbind, decoded_lift. apply bind_ext. intros b'. rewrite decoded_cbind, IHm. reflexivity.
Qed.

(** ** Sums *)
Lemma sum_visits cs : Forall (fun c => mlen_visits g c = elements c) cs -> list_sum (map (mlen_visits g) cs) = list_sum (map elements cs).
Proof. induction 1; simpl; congruence. Qed.

(** ** Bounds.  [tight i m c v]: what an IE of m octets can have cost. *)
Definition tight (i : ie) (c v : nat) : Prop :=
  4 * c <= mlen g i /\ 4 * elements i <= mlen g i /\ mlen_visits g i = elements i /\ 4 <= mlen g i /\ 16 * v <= (mlen g i - 4) * (mlen g i - 4).
Definition tights (is : list ie) (b : list N) (c v : nat) : Prop :=
  list_sum (map (mlen g) is) = length b /\ 4 * c <= length b /\ 4 * list_sum (map elements is) <= length b /\
  list_sum (map (mlen_visits g) is) = list_sum (map elements is) /\ 16 * v <= length b * length b.

Ltac bad := cbn; split; [lia|]; split; [first [apply Nat.le_0_l|lia]|]; intros ? Hbad; discriminate Hbad.
Lemma bounds n :
  (forall b, let x := unmarshal_c g n zeroIE b in
     4 * calls x <= length b + 4 /\ 16 * visits x <= length b * length b /\
     forall i, decoded x = Ok i -> mlen g i <= length b /\ tight i (calls x) (visits x)) /\
  (forall b, let x := parse_multi_c g n b in
     4 * calls x <= length b + 4 /\ 16 * visits x <= length b * length b /\
     forall is, decoded x = Ok is -> tights is b (calls x) (visits x)).
Proof.
  induction n as [|n [IHu IHm]]; [split; intros b x; subst x; [change (unmarshal_c g 0 zeroIE b) with (@lift ie Fuel)|change (parse_multi_c g 0 b) with (@lift (list ie) Fuel)]; bad|]. split.
  - intros b x. subst x. rewrite unmarshal_c_S. cbv zeta. rewrite calls_cbind, visits_cbind, decoded_cbind. cbn [decoded call calls visits fst snd bind].
    destruct (Nat.ltb_spec (length b) 4) as [L|L]; [bad|].
    rewrite !calls_cbind, !visits_cbind, !decoded_cbind, !decoded_lift. destruct (getr 2 b 0 2) as [t|?| |]; try (bad). cbn [bind].
    rewrite !calls_cbind, !visits_cbind, !decoded_cbind, !decoded_lift. destruct (getr 2 b 2 4) as [ln|?| |]; try (bad). cbn [bind].
    rewrite !calls_cbind, !visits_cbind, !decoded_cbind, !decoded_lift.
    set (hd := if vendor t then _ else _).
    assert (Hd : forall e o f, hd = Ok (e, o, f) -> o = hdr t /\ hdr t <= length b).
    { subst hd. unfold hdr. intros e o f. destruct (vendor t); [|intros E; injection E as _ <- _; split; [reflexivity|exact L]]. destruct (Nat.ltb_spec (length b) 6); [discriminate|]. destruct (N.to_nat ln <? 2); [discriminate|].
      destruct (getr 2 b 4 6); cbn; try discriminate. intros E. injection E as _ <- _. split; [reflexivity|assumption]. }
    destruct hd as [[[e o] f]|?| |]; try (bad). destruct (Hd _ _ _ eq_refl) as [-> Hb]. cbn [bind]. pose proof (hdr_pos t) as H4.
    destruct (Nat.leb_spec (length b) (hdr t)) as [L1|L1].
    { cbn [lift calls visits decoded fst snd payload children zeroIE]. split; [lia|]. split; [apply Nat.le_0_l|]. intros i E. injection E as <-.
      assert (E : mlen g (mkIE t ln e [] []) = hdr t) by (rewrite mlen_eq; cbn [ty children payload map length]; destruct (g t); simpl; lia).
      unfold tight. rewrite mlen_visits_eq, E. cbn [ty children map elements]. destruct (g t); change (list_sum []) with 0; repeat split; first [lia|apply Nat.le_0_l]. }
    destruct (Nat.ltb_spec (length b) (hdr t + f)) as [L2|L2]; [bad|].
    rewrite !calls_cbind, !visits_cbind, !decoded_cbind, !decoded_lift. rewrite slice_ok by lia. cbn [bind].
    set (p := firstn (hdr t + f - hdr t) (skipn (hdr t) b)). assert (Lp : length p = f) by (subst p; rewrite firstn_length, skipn_length; lia).
    destruct (g t) eqn:G.
    + rewrite !calls_cbind, !visits_cbind, !decoded_cbind. destruct (IHm p) as (C & V & R). set (x := parse_multi_c g n p) in *.
      split; [|split].
      * destruct (decoded x); cbn [lift calls visits fst snd]; lia.
      * assert (16 * visits x <= length b * length b) by nia. destruct (decoded x); cbn [lift calls visits fst snd]; lia.
      * intros i E. destruct (decoded x) as [cs|?| |]; try discriminate E. cbn [bind lift decoded snd] in E. injection E as <-.
        destruct (R cs eq_refl) as (S1 & S2 & S3 & S4 & S5). unfold tight. rewrite mlen_visits_eq, mlen_eq. cbn [ty children elements]. rewrite G, S1, S4. cbn [lift calls visits fst snd]. rewrite Lp in *.
        repeat split; try lia. nia.
    + cbn [lift calls visits decoded fst snd payload children zeroIE]. split; [lia|]. split; [apply Nat.le_0_l|]. intros i E. injection E as <-.
      assert (E : mlen g (mkIE t ln e p []) = hdr t + f) by (rewrite mlen_eq; cbn [ty payload]; rewrite G; lia).
      unfold tight. rewrite mlen_visits_eq, E. cbn [ty children map elements]. rewrite G. change (list_sum []) with 0. repeat split; first [lia|apply Nat.le_0_l].
  - intros b x. subst x. rewrite parse_multi_c_S. destruct (Nat.eqb_spec (length b) 0) as [Z|Z].
    { cbn. split; [lia|]. split; [apply Nat.le_0_l|]. intros is E. injection E as <-. unfold tights. cbn. lia. }
    rewrite !calls_cbind, !visits_cbind, !decoded_cbind. destruct (IHu b) as (C & V & R). set (x := unmarshal_c g n zeroIE b) in *.
    destruct (decoded x) as [i|?| |]; try (bad). destruct (R i eq_refl) as (M & T1 & T2 & T3 & T4 & T5). clear R. cbn [bind].
    rewrite !calls_cbind, !visits_cbind, !decoded_cbind. cbn [mlen_c calls visits decoded fst snd bind]. rewrite !calls_cbind, !visits_cbind, !decoded_cbind, !decoded_lift.
    rewrite from_ok by exact M. cbn [bind]. rewrite !calls_cbind, !visits_cbind, !decoded_cbind. destruct (IHm (skipn (mlen g i) b)) as (C' & V' & R'). set (y := parse_multi_c g n (skipn (mlen g i) b)) in *.
    rewrite skipn_length in C', V'. rewrite T3. cbn [lift calls visits fst snd].
    assert (Q : 16 * (visits x + (elements i + visits y)) <= length b * length b) by nia.
    split; [|split].
    + destruct (decoded y); cbn [lift calls visits fst snd]; lia.
    + destruct (decoded y); cbn [lift calls visits fst snd]; lia.
    + intros is E. destruct (decoded y) as [js|?| |]; try discriminate E. cbn [bind lift decoded snd] in E. injection E as <-. destruct (R' js eq_refl) as (S1 & S2 & S3 & S4 & S5). rewrite skipn_length in *.
      unfold tights. cbn [map]. change (@list_sum) with (fold_right plus 0) in *. cbn [fold_right lift calls visits fst snd]. repeat split; try lia. 
Qed.

(** ** Exact counts on success *)
(** sum over the IEs inside i of their depth below i *)
Fixpoint depth_sum (i : ie) : nat := list_sum (map (fun c => depth_sum c + elements c) (children i)).

Lemma exact n :
  (forall b i, decoded (unmarshal_c g n zeroIE b) = Ok i -> calls (unmarshal_c g n zeroIE b) = elements i /\ visits (unmarshal_c g n zeroIE b) = depth_sum i) /\
  (forall b is, decoded (parse_multi_c g n b) = Ok is -> calls (parse_multi_c g n b) = list_sum (map elements is) /\
     visits (parse_multi_c g n b) = list_sum (map (fun c => depth_sum c + elements c) is)).
Proof.
  induction n as [|n [IHu IHm]]; [split; intros b i E; discriminate E|]. split.
  - intros b i. rewrite unmarshal_c_S. cbv zeta. rewrite calls_cbind, visits_cbind, decoded_cbind. cbn [decoded call calls visits fst snd bind].
    destruct (length b <? 4); [discriminate|].
    rewrite !calls_cbind, !visits_cbind, !decoded_cbind, !decoded_lift. destruct (getr 2 b 0 2) as [t|?| |]; try discriminate. cbn [bind].
    rewrite !calls_cbind, !visits_cbind, !decoded_cbind, !decoded_lift. destruct (getr 2 b 2 4) as [ln|?| |]; try discriminate. cbn [bind].
    rewrite !calls_cbind, !visits_cbind, !decoded_cbind, !decoded_lift.
    destruct (if vendor t then _ else _) as [[[e o] f]|?| |]; try discriminate. cbn [bind].
    destruct (length b <=? o); [intros E; injection E as <-; split; reflexivity|].
    destruct (length b <? o + f); [discriminate|].
    rewrite !calls_cbind, !visits_cbind, !decoded_cbind, !decoded_lift. destruct (slice b o (o + f)) as [p|?| |]; try discriminate. cbn [bind].
    destruct (g t); [|intros E; injection E as <-; split; reflexivity].
    rewrite !calls_cbind, !visits_cbind, !decoded_cbind. specialize (IHm p). destruct (decoded (parse_multi_c g n p)) as [cs|?| |]; try discriminate. cbn [bind].
    destruct (IHm cs eq_refl) as [C V]. intros E. injection E as <-. cbn [elements depth_sum children lift calls visits fst snd] in *. rewrite <- C, <- V. unfold calls, visits. split; lia.
  - intros b is. rewrite parse_multi_c_S. destruct (length b =? 0); [intros E; injection E as <-; split; reflexivity|].
    rewrite !calls_cbind, !visits_cbind, !decoded_cbind. pose proof (proj1 (bounds n) b) as B. cbv zeta in B. destruct B as (_ & _ & B). specialize (IHu b).
    destruct (decoded (unmarshal_c g n zeroIE b)) as [i|?| |]; try discriminate. destruct (IHu i eq_refl) as [-> ->]. destruct (B i eq_refl) as (M & _ & _ & T & _). cbn [bind].
    rewrite !calls_cbind, !visits_cbind, !decoded_cbind. cbn [mlen_c calls visits decoded fst snd bind]. rewrite !calls_cbind, !visits_cbind, !decoded_cbind, !decoded_lift.
    rewrite from_ok by exact M. cbn [bind]. rewrite !calls_cbind, !visits_cbind, !decoded_cbind. specialize (IHm (skipn (mlen g i) b)).
    destruct (decoded (parse_multi_c g n (skipn (mlen g i) b))) as [js|?| |]; try discriminate. destruct (IHm js eq_refl) as [-> ->]. cbn [bind]. intros E. injection E as <-.
    cbn [lift calls visits fst snd map]. change (@list_sum) with (fold_right plus 0). cbn [fold_right]. rewrite T. split; lia.
Qed.

(** ** Encoding *)
Lemma mlen_visits_le i : mlen_visits g i <= elements i.
Proof.
  induction i as [t l e p cs IH] using ie_ind'. rewrite mlen_visits_eq. cbn [ty children elements]. apply le_n_S. destruct (g t); [|lia].
  induction IH as [|c cs H _ IH]; simpl; lia.
Qed.
Lemma marshal_to_visits_eq i : marshal_to_visits g i =
  if g (ty i) then list_sum (map (fun c => marshal_to_visits g c + mlen_visits g c) (children i)) else mlen_visits g i.
Proof.
  destruct i as [t l e p cs]. cbn [marshal_to_visits ty children]. destruct (g t); [|reflexivity].
  assert (H : forall a, fold_left (fun a c => a + marshal_to_visits g c + mlen_visits g c) cs a = a + list_sum (map (fun c => marshal_to_visits g c + mlen_visits g c) cs)); [|apply (H 0)].
  induction cs as [|c cs IH]; intros a; simpl; [lia|]. rewrite IH. lia.
Qed.
Lemma marshal_to_visits_le i : marshal_to_visits g i <= elements i * levels i.
Proof.
  induction i as [t l e p cs IH] using ie_ind'. rewrite marshal_to_visits_eq. cbn [ty children]. destruct (g t) eqn:G.
  - cbn [elements levels children].
    assert (H : list_sum (map (fun c => marshal_to_visits g c + mlen_visits g c) cs) <= list_sum (map elements cs) * S (fold_right Nat.max 0 (map levels cs))); [|lia].
    induction IH as [|c cs H _ IH]; [simpl; lia|]. pose proof (mlen_visits_le c) as V. cbn [map fold_right]. change (@list_sum) with (fold_right plus 0) in *. cbn [fold_right].
    set (s := fold_right plus 0 (map elements cs)) in *. set (m := fold_right Nat.max 0 (map levels cs)) in *. set (q := fold_right _ _ _) in *.
    pose proof (Nat.le_max_l (levels c) m). pose proof (Nat.le_max_r (levels c) m). nia.
  - pose proof (mlen_visits_le (mkIE t l e p cs)) as V. set (i := mkIE t l e p cs) in *. assert (1 <= levels i) by (destruct i; cbn; lia). nia.
Qed.
Lemma marshal_visits_le i : marshal_visits g i <= elements i * S (levels i).
Proof. unfold marshal_visits. pose proof (mlen_visits_le i). pose proof (marshal_to_visits_le i). lia. Qed.

(** ** A chain of groups, each with one member *)
Variable t : N.
Fixpoint chain_octets (d : nat) : list N := match d with O => [] | S d => be 2 t ++ be 2 (N.of_nat (4 * d)) ++ chain_octets d end.
Fixpoint chain_ie (d : nat) : ie := match d with O => mkIE t 0 0 [] [] | S d => mkIE t (N.of_nat (4 * S d)) 0 (chain_octets (S d)) [chain_ie d] end.
Lemma chain_length d : length (chain_octets d) = 4 * d.
Proof. induction d; [reflexivity|]. cbn [chain_octets]. rewrite !app_length, !be_length, IHd. lia. Qed.
Lemma chain_bytes d : bytes (chain_octets d).
Proof. induction d; [constructor|]. cbn [chain_octets]. rewrite !bytes_app. repeat split; auto using be_bytes. Qed.
Lemma chain_wire d : (t < 0x8000)%N -> g t = true -> (N.of_nat (4 * d) < 65536)%N -> wire g (chain_ie d) (chain_octets (S d)).
Proof.
  intros Ht G. induction d as [|d IH]; intros Hd.
  - cbn [chain_ie chain_octets]. rewrite app_assoc. apply wire_ie; [constructor; lia|constructor| |intros _; constructor|congruence].
    unfold announced. destruct (N.ltb_spec t 0x8000); [reflexivity|lia].
  - cbn [chain_ie]. change (chain_octets (S (S d))) with (be 2 t ++ be 2 (N.of_nat (4 * S d)) ++ chain_octets (S d)). rewrite app_assoc. apply wire_ie.
    + constructor; lia.
    + apply chain_bytes.
    + rewrite chain_length. unfold announced. destruct (N.ltb_spec t 0x8000); [|lia]. now rewrite Nat2N.id.
    + intros _. rewrite <- (app_nil_r (chain_octets (S d))). constructor; [apply IH; lia|constructor].
    + congruence.
Qed.
Lemma chain_elements d : elements (chain_ie d) = S d.
Proof. induction d; [reflexivity|]. cbn [chain_ie elements children map]. rewrite IHd. simpl. lia. Qed.
Lemma chain_depth_sum d : 2 * depth_sum (chain_ie d) = d * S d.
Proof. induction d; [reflexivity|]. cbn [chain_ie depth_sum children map]. rewrite chain_elements. simpl in *. lia. Qed.
Lemma chain_mlen_visits d : g t = true -> mlen_visits g (chain_ie d) = S d.
Proof. intros G. induction d; rewrite mlen_visits_eq; cbn [chain_ie ty children]; rewrite G; [reflexivity|]. cbn [map]. rewrite IHd. simpl. lia. Qed.
Lemma chain_marshal d : g t = true -> 2 * marshal_visits g (chain_ie d) = S d * (d + 2).
Proof.
  intros G. unfold marshal_visits. rewrite chain_mlen_visits by exact G.
  assert (H : 2 * marshal_to_visits g (chain_ie d) = d * S d); [|lia].
  induction d; rewrite marshal_to_visits_eq; cbn [chain_ie ty children]; rewrite G; [reflexivity|]. cbn [map]. rewrite chain_mlen_visits by exact G. simpl in *. lia.
Qed.
End G.
