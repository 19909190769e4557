(** MAC Addresses Detected / Removed. *)
From Verif Require Import Base Bits Codec Codec2 HeaderProofs Fields3 FieldsProofs3c Fields4 FieldsSpec4 FieldsProofs4 FieldsProofs4c.
Set Implicit Arguments.

Lemma lenN_natA {A} (s : list A) : N.to_nat (lenN s) = length s.
Proof. unfold lenN. lia. Qed.
Lemma rd_macs_app macs : forall p q, Forall mac6 macs -> rd_macs (length macs) (p ++ concat macs ++ q) (length p) = Ok (macs, length (p ++ concat macs)).
Proof.
  induction macs as [|m macs IH]; intros p q F; cbn [rd_macs length concat]; [now rewrite app_nil_r|].
  inversion F as [|? ? [_ Lm] F']; subst. rewrite <- app_assoc. rewrite rd_app by exact Lm. cbn [bind].
  rewrite (app_assoc p). rewrite IH by exact F'. cbn [bind]. now rewrite <- app_assoc.
Qed.
Lemma rd_macs_inv k : forall p q macs o, rd_macs k (p ++ q) (length p) = Ok (macs, o) -> bytes q ->
  exists q', q = concat macs ++ q' /\ length macs = k /\ Forall mac6 macs /\ o = length (p ++ concat macs) /\ bytes q'.
Proof.
  induction k as [|k IH]; intros p q macs o H B; cbn [rd_macs] in H.
  - assert (macs = [] /\ o = length p) as [-> ->] by (split; congruence). exists q. cbn. rewrite app_nil_r. auto 10.
  - apply bind_ok in H. destruct H as ([x o1] & E & H). apply rd_inv in E; [|exact B]. destruct E as (q1 & -> & Lx & Bx & B1 & ->).
    rewrite app_assoc in H. apply bind_ok in H. destruct H as ([r o2] & E & H). apply IH in E; [|exact B1].
    destruct E as (q' & -> & Lr & F & -> & Bq). assert (macs = x :: r /\ o = length ((p ++ x) ++ concat r)) as [-> ->] by (split; congruence).
    exists q'. cbn [concat length]. rewrite <- !app_assoc. split; [reflexivity|]. split; [now rewrite Lr|]. split; [constructor; [split|]; auto|]. auto.
Qed.
Lemma rd_macs_cases k : forall p q, bytes q ->
  (6 * k <= length q /\ exists macs o, rd_macs k (p ++ q) (length p) = Ok (macs, o)) \/ (length q < 6 * k /\ rd_macs k (p ++ q) (length p) = Err EUnexpectedEOF).
Proof.
  induction k as [|k IH]; intros p q B; cbn [rd_macs]; [left; split; [lia|eauto]|].
  destruct (le_lt_dec 6 (length q)) as [L|L].
  - assert (E := firstn_skipn 6 q). set (x := firstn 6 q) in *. set (q1 := skipn 6 q) in *. assert (Lx : length x = 6) by (unfold x; rewrite firstn_length_le; lia).
    clearbody x q1. subst q. apply bytes_app in B. rewrite app_length in L. rewrite rd_app by exact Lx. cbn [bind]. rewrite app_assoc.
    destruct (IH (p ++ x) q1 (proj2 B)) as [[K (m & o & ->)]|[K ->]]; cbn [bind]; rewrite app_length; [left|right]; (split; [lia|eauto]).
  - right. split; [lia|]. unfold rd. rewrite app_length. destruct (Nat.ltb_spec (length p + length q) (length p + 6)); [reflexivity|lia].
Qed.
Lemma concat_len macs : Forall mac6 macs -> length (concat macs) = 6 * length macs.
Proof. induction 1 as [|m l [_ Lm] _ IH]; [reflexivity|]. cbn [concat length]. rewrite app_length, IH, Lm. lia. Qed.

(** the decoder after the addresses *)
Lemma macl_tail p t r : octet t ->
  (' _ <- (need (length p + N.to_nat t) in (p ++ t :: r) ;; slice (p ++ t :: r) (length p) (length p + N.to_nat t)) ;; Ok t) =
  if N.to_nat t <=? S (length r) then Ok t else Err EUnexpectedEOF.
Proof.
  intros Ot. destruct (Nat.ltb_spec (length (p ++ t :: r)) (length p + N.to_nat t)) as [L|L]; rewrite app_length in L; cbn [length] in L.
  - destruct (Nat.leb_spec (N.to_nat t) (S (length r))); [lia|reflexivity].
  - rewrite slice_ok by (rewrite ?app_length; cbn [length]; lia). cbn [bind]. destruct (Nat.leb_spec (N.to_nat t) (S (length r))); [reflexivity|lia].
Qed.
Lemma macl_parse_form n macs q : Forall mac6 macs -> length macs = S (N.to_nat n) ->
  macl_parse (n :: concat macs ++ q) = match q with
    | [] => Fault
    | t :: r => if N.to_nat t <=? S (length r) then Ok {| ml_n := n; ml_macs := macs; ml_ctlen := t; ml_ctag := []; ml_stlen := t; ml_stag := [] |} else Err EUnexpectedEOF
    end.
Proof.
  intros F Lm. unfold macl_parse. change (length (n :: concat macs ++ q) <? 1) with false. cbv iota. cbn [index nth_error]. unfold bind at 1. rewrite <- Lm.
  change (n :: concat macs ++ q) with ([n] ++ concat macs ++ q). change 1 with (length [n]). rewrite rd_macs_app by exact F. unfold bind at 1.
  rewrite app_assoc. set (p := [n] ++ concat macs). destruct q as [|t r].
  - rewrite app_nil_r, Nat.ltb_irrefl. unfold index. rewrite (proj2 (nth_error_None p (length p))) by lia. reflexivity.
  - rewrite need_app by lia. rewrite index_app by reflexivity. unfold bind at 1.
    destruct (Nat.ltb_spec (length (p ++ t :: r)) (length p + N.to_nat t)) as [L|L]; rewrite app_length in L; cbn [length] in L.
    + destruct (Nat.leb_spec (N.to_nat t) (S (length r))); [lia|reflexivity].
    + destruct (Nat.leb_spec (N.to_nat t) (S (length r))); [|lia]. rewrite slice_ok by (rewrite ?app_length; cbn [length]; lia). cbn [bind].
      destruct (Nat.ltb_spec (length (p ++ t :: r)) (length p + N.to_nat t)) as [C|_]; [rewrite app_length in C; cbn [length] in C; lia|].
      rewrite slice_ok by (rewrite ?app_length; cbn [length]; lia). reflexivity.
Qed.
Lemma macl_parse_short n q : bytes q -> length q < 6 * S (N.to_nat n) -> macl_parse (n :: q) = Err EUnexpectedEOF.
Proof.
  intros B L. unfold macl_parse. change (length (n :: q) <? 1) with false. cbv iota. cbn [index nth_error]. unfold bind at 1.
  change (n :: q) with ([n] ++ q). change 1 with (length [n]). destruct (@rd_macs_cases (S (N.to_nat n)) [n] q B) as [[K _]|[_ ->]]; [lia|reflexivity].
Qed.
Lemma macl_split n q : bytes q -> 6 * S (N.to_nat n) <= length q -> exists macs q', q = concat macs ++ q' /\ length macs = S (N.to_nat n) /\ Forall mac6 macs /\ bytes q'.
Proof.
  intros B L. destruct (@rd_macs_cases (S (N.to_nat n)) [n] q B) as [[_ (m & o & E)]|[K _]]; [|lia].
  apply rd_macs_inv in E; [|exact B]. destruct E as (q' & -> & Lm & F & _ & Bq). now exists m, q'.
Qed.
Lemma macs_inj : forall a b c d : list (list N), Forall mac6 a -> Forall mac6 b -> length a = length b -> forall r s, concat a ++ r = concat b ++ s -> a = b /\ r = s.
Proof.
  induction a as [|x a IH]; intros [|y b] c d Fa Fb L r s E; try discriminate; [auto|].
  inversion Fa as [|? ? [_ Lx] Fa']; subst. inversion Fb as [|? ? [_ Ly] Fb']; subst. cbn [concat] in E. rewrite <- !app_assoc in E.
  apply app_inj_len in E; [|congruence]. destruct E as [-> E]. cbn in L. destruct (IH b c d Fa' Fb' ltac:(lia) r s E) as [-> ->]. auto.
Qed.
Theorem macl_parse_exact b f : bytes b -> (macl_parse b = Ok f <-> macl_read b f).
Proof.
  intros B. destruct b as [|n q].
  - split; [discriminate|]. intros (n & macs & t & r & E & _). destruct macs; discriminate.
  - inversion B as [|? ? Bn Bq]; subst. destruct (le_lt_dec (6 * S (N.to_nat n)) (length q)) as [L|L].
    + destruct (@macl_split n q Bq L) as (macs & q' & -> & Lm & F & Bq'). rewrite macl_parse_form by assumption. split.
      * destruct q' as [|t r]; [discriminate|]. destruct (Nat.leb_spec (N.to_nat t) (S (length r))) as [K|K]; [|discriminate]. intros E.
        exists n, macs, t, r. refine (conj eq_refl (conj Lm (conj F (conj K _)))). congruence.
      * intros (n' & macs' & t & r & E & Lm' & F' & K & ->). assert (n' = n) as -> by congruence.
        assert (E' : concat macs ++ q' = concat macs' ++ t :: r) by congruence. apply (@macs_inj macs macs' [] []) in E'; [|assumption|assumption|congruence].
        destruct E' as [-> ->]. destruct (Nat.leb_spec (N.to_nat t) (S (length r))); [reflexivity|lia].
    + rewrite macl_parse_short by assumption. split; [discriminate|]. intros (n' & macs' & t & r & E & Lm' & F' & K & ->). exfalso.
      assert (n' = n) as -> by congruence. assert (E' : q = concat macs' ++ t :: r) by congruence. rewrite E', app_length, (concat_len F'), Lm' in L. lia.
Qed.
Theorem macl_parse_fault b : bytes b -> (macl_parse b = Fault <-> exists n q, b = n :: q /\ length q = 6 * S (N.to_nat n)).
Proof.
  intros B. destruct b as [|n q].
  - split; [discriminate|]. intros (? & ? & E & _). discriminate.
  - inversion B as [|? ? Bn Bq]; subst. destruct (le_lt_dec (6 * S (N.to_nat n)) (length q)) as [L|L].
    + destruct (@macl_split n q Bq L) as (macs & q' & -> & Lm & F & Bq'). rewrite macl_parse_form by assumption. rewrite app_length, (concat_len F), Lm in L. split.
      * destruct q' as [|t r]; [|destruct (N.to_nat t <=? S (length r)); discriminate]. intros _. exists n, (concat macs ++ []). split; [reflexivity|].
        rewrite app_nil_r, (concat_len F), Lm. reflexivity.
      * intros (n' & q'' & E & K). assert (n' = n /\ q'' = concat macs ++ q') as [-> ->] by (split; congruence).
        rewrite app_length, (concat_len F), Lm in K. destruct q'; [reflexivity|cbn [length] in K; lia].
    + rewrite macl_parse_short by assumption. split; [discriminate|]. intros (n' & q'' & E & K). assert (n' = n /\ q'' = q) as [-> ->] by (split; congruence). lia.
Qed.
Theorem macl_parse_else b : bytes b -> (exists f, macl_parse b = Ok f) \/ macl_parse b = Fault \/ macl_parse b = Err EUnexpectedEOF.
Proof.
  intros B. destruct b as [|n q]; [now right; right|]. inversion B as [|? ? Bn Bq]; subst. destruct (le_lt_dec (6 * S (N.to_nat n)) (length q)) as [L|L].
  - destruct (@macl_split n q Bq L) as (macs & q' & -> & Lm & F & Bq'). rewrite macl_parse_form by assumption. destruct q' as [|t r]; [auto|].
    destruct (N.to_nat t <=? S (length r)); eauto.
  - rewrite macl_parse_short by assumption. auto.
Qed.

(** * the encoder *)
(** an address of another length is cut to six octets, or filled up with zeros in a fresh buffer *)
Definition fit6 (m : list N) : list N := firstn 6 (m ++ make 6).
Lemma fit6_id m : length m = 6 -> fit6 m = m.
Proof. intros L. unfold fit6. rewrite firstn_app, L, Nat.sub_diag. rewrite <- L at 1. rewrite firstn_all. apply app_nil_r. Qed.
Lemma fit6_len m : length (fit6 m) = 6.
Proof. unfold fit6. rewrite firstn_length, app_length, make_length. lia. Qed.
Lemma make_app a b : make (a + b) = make a ++ make b.
Proof. unfold make. apply repeat_app. Qed.
Lemma cp_macs_ok macs : forall w k, 6 * length macs <= k ->
  cp_macs macs (w ++ make k) (length w) = Ok ((w ++ concat (map fit6 macs)) ++ make (k - 6 * length macs), length w + 6 * length macs).
Proof.
  induction macs as [|m macs IH]; intros w k L; cbn [cp_macs map concat length].
  - rewrite app_nil_r, Nat.mul_0_r, Nat.sub_0_r, Nat.add_0_r. reflexivity.
  - cbn [length] in L. replace k with (6 + (k - 6)) at 1 by lia. rewrite make_app.
    assert (E : copy_range (w ++ make 6 ++ make (k - 6)) (length w) (length w + 6) m = Ok ((w ++ fit6 m) ++ make (k - 6))).
    { unfold copy_range. rewrite !app_length, !make_length. destruct (Nat.leb_spec (length w) (length w + 6)); [|lia].
      destruct (Nat.leb_spec (length w + 6) (length w + (6 + (k - 6)))); [|lia]. cbn [andb]. f_equal. rewrite firstn_app_exact by reflexivity. rewrite <- app_assoc. f_equal.
      replace (length w + 6 - length w) with 6 by lia. rewrite (@skipn_app_plus _ w _ _ (length (firstn 6 m))) by lia. unfold fit6.
      rewrite skipn_app, make_length. assert (Lf : length (firstn 6 m) = Nat.min 6 (length m)) by apply firstn_length.
      rewrite (firstn_app 6 m). rewrite app_assoc. f_equal.
      - f_equal. rewrite Lf. unfold make. destruct (le_lt_dec 6 (length m)) as [C|C].
        + replace (Nat.min 6 (length m)) with 6 by lia. replace (6 - length m) with 0 by lia. reflexivity.
        + replace (Nat.min 6 (length m)) with (length m) by lia. assert (length m = 0 \/ length m = 1 \/ length m = 2 \/ length m = 3 \/ length m = 4 \/ length m = 5) as Cs by lia.
          destruct Cs as [->|[->|[->|[->|[->| ->]]]]]; reflexivity.
      - replace (length (firstn 6 m) - 6) with 0 by lia. reflexivity. }
    rewrite E. cbn [bind]. replace (length w + 6) with (length (w ++ fit6 m)) by (rewrite app_length, fit6_len; reflexivity).
    rewrite IH by lia. rewrite <- !app_assoc, app_length, fit6_len. 
    replace (k - 6 - 6 * length macs) with (k - 6 * S (length macs)) by lia. replace (length w + 6 + 6 * length macs) with (length w + 6 * S (length macs)) by lia. reflexivity.
Qed.
Lemma cp_macs_inside l : forall b o, o <= length b -> inside true (6 * length l) b o (cp_macs l b o).
Proof.
  induction l as [|m l IH]; intros b o L; cbn [cp_macs].
  - right. exists b. cbn. rewrite Nat.add_0_r. auto.
  - destruct (copy_range_cases b o (o + 6) m) as [->|(b2 & -> & L2 & K2)]; [now left|]. cbn [bind].
    destruct (IH b2 (o + 6) ltac:(lia)) as [->|(b3 & -> & L3 & K3)]; [now left|]. right. exists b3. cbn [len_if length] in *. split; [do 2 f_equal; lia|lia].
Qed.
Lemma cp8s_inside c n s b o : o <= length b -> inside c (1 + N.to_nat n) b o (cp8s c n s b o).
Proof.
  intros L. unfold cp8s, inside. destruct c; [|right; exists b; cbn [len_if]; rewrite Nat.add_0_r; auto].
  destruct (put_cases b o [n]) as [->|(b1 & -> & L1 & K1)]; [now left|]. cbn [bind].
  destruct (copy_range_cases b1 (o + 1) (o + 1 + N.to_nat n) s) as [->|(b2 & -> & L2 & K2)]; [now left|]. cbn [bind].
  right. exists b2. cbn [len_if]. split; [do 2 f_equal; lia|lia].
Qed.
Lemma macl_marshal_new ct st macs : (lenN macs < 256)%N ->
  exists f, new_macl (Some ct) (Some st) macs = Ok f /\ macl_marshal f = Ok (macl_wire (map fit6 macs) (cut256 ct) (cut256 st)).
Proof.
  intros L. eexists. split; [reflexivity|]. unfold macl_marshal, macl_marshal_to, macl_marshal_len. cbn [ml_n ml_macs ml_ctlen ml_ctag ml_stlen ml_stag].
  replace (u8 (lenN macs)) with (lenN macs) by (symmetry; now apply N.mod_small). rewrite lenN_natA.
  assert (V : forall s, N.to_nat (u8 (lenN s)) = length (cut256 s)) by (intros s; unfold u8; rewrite <- cut256_len; apply lenN_natA).
  rewrite !V. set (m := 2 + length macs * 6 + length (cut256 ct) + length (cut256 st)).
  change (make (3 + length macs * 6 + length (cut256 ct) + length (cut256 st))) with ([0%N] ++ make m).
  change (length ([0%N] ++ make m) <? 1) with false. cbv iota. change (put ([0%N] ++ make m) 0 [lenN macs]) with (Ok ([lenN macs] ++ make m)). unfold bind at 1.
  change 1 with (length [lenN macs]) at 1. rewrite cp_macs_ok by (unfold m; lia). cbn [bind].
  replace (length [lenN macs] + 6 * length macs) with (length ([lenN macs] ++ concat (map fit6 macs))).
  2:{ rewrite app_length. f_equal. clear. induction macs as [|x l IH]; [reflexivity|]. cbn [map concat length]. rewrite app_length, fit6_len, IH. lia. }
  rewrite cp8s_cut. rewrite cp8s_ok by (rewrite seg8_length, make_length; cbn [len_if]; unfold m; lia). cbn [bind].
  rewrite cp8s_cut. rewrite cp8s_ok by (rewrite skipn_length, !seg8_length, make_length; cbn [len_if]; unfold m; lia). cbn [bind].
  f_equal. rewrite skipn_all_nil by (rewrite skipn_length, !seg8_length, make_length; cbn [len_if]; unfold m; lia). rewrite app_nil_r.
  unfold macl_wire, seg8. rewrite <- !app_assoc. assert (E : lenN (map fit6 macs) = lenN macs) by (unfold lenN; now rewrite map_length). rewrite E. reflexivity.
Qed.
(** 256 addresses or more overrun the buffer *)
Lemma macl_marshal_new_fault ct st macs : (256 <= lenN macs)%N -> exists f, new_macl (Some ct) (Some st) macs = Ok f /\ macl_marshal f = Fault.
Proof.
  intros L. eexists. split; [reflexivity|]. unfold macl_marshal, macl_marshal_to, macl_marshal_len. cbn [ml_n ml_macs ml_ctlen ml_ctag ml_stlen ml_stag].
  set (n := u8 (lenN macs)). assert (Ln : N.to_nat n < length macs) by (unfold n, u8; assert (lenN macs mod 256 < 256)%N by (apply N.mod_lt; discriminate); unfold lenN in *; lia).
  clearbody n. set (c := u8 (lenN ct)). set (s := u8 (lenN st)). set (m := 2 + N.to_nat n * 6 + N.to_nat c + N.to_nat s).
  change (make (3 + N.to_nat n * 6 + N.to_nat c + N.to_nat s)) with ([0%N] ++ make m).
  change (length ([0%N] ++ make m) <? 1) with false. cbv iota. change (put ([0%N] ++ make m) 0 [n]) with (Ok ([n] ++ make m)). unfold bind at 1.
  set (b := [n] ++ make m). assert (Lb : length b = S m) by (unfold b; rewrite app_length, make_length; reflexivity). clearbody b.
  destruct (@cp_macs_inside macs b 1 ltac:(lia)) as [->|(b1 & -> & L1 & K1)]; [reflexivity|]. cbn [bind].
  destruct (@cp8s_inside true c ct b1 (1 + len_if true (6 * length macs)) ltac:(lia)) as [->|(b2 & -> & L2 & K2)]; [reflexivity|]. cbn [bind].
  destruct (@cp8s_inside true s st b2 (1 + len_if true (6 * length macs) + len_if true (1 + N.to_nat c)) ltac:(lia)) as [->|(b3 & -> & L3 & K3)]; [reflexivity|].
  exfalso. cbn [len_if] in *. unfold m in *. lia.
Qed.
(** the decoder never gives back what was encoded *)
Definition tags_room (ct st : list N) : nat := 2 + length ct + length st.
Lemma macl_round macs ct st f : Forall mac6 macs -> bytes ct -> bytes st -> (lenN macs < 256)%N -> (lenN ct < 256)%N -> (lenN st < 256)%N ->
  macl_parse (macl_wire macs ct st) = Ok f -> length (ml_macs f) = S (length macs) /\ ml_ctag f = [] /\ ml_stag f = [] /\ 4 < length ct + length st.
Proof.
  intros F Bc Bs L1 L2 L3 H.
  assert (B : bytes (macl_wire macs ct st)).
  { unfold macl_wire. constructor; [exact L1|]. apply bytes_app. split.
    - clear - F. induction F as [|m l [Bm _] _ IH]; [constructor|]. cbn [concat]. apply bytes_app. auto.
    - cbn [app]. constructor; [exact L2|]. apply bytes_app. split; [exact Bc|]. constructor; [exact L3|exact Bs]. }
  apply macl_parse_exact in H; [|exact B]. destruct H as (n & macs' & t & r & E & Lm & F' & K & ->). cbn [ml_macs ml_ctag ml_stag].
  unfold macl_wire in E. assert (n = lenN macs) as -> by congruence. rewrite lenN_natA in Lm. refine (conj Lm (conj eq_refl (conj eq_refl _))).
  apply (f_equal (@length N)) in E. cbn [length] in E. rewrite !app_length in E. cbn [length] in E. rewrite (concat_len F), (concat_len F'), Lm in E. lia.
Qed.
Lemma macl_round_small macs ct st : Forall mac6 macs -> bytes ct -> bytes st -> (lenN macs < 256)%N -> (lenN ct < 256)%N -> (lenN st < 256)%N ->
  (length ct + length st < 4 -> macl_parse (macl_wire macs ct st) = Err EUnexpectedEOF) /\
  (length ct + length st = 4 -> macl_parse (macl_wire macs ct st) = Fault).
Proof.
  intros F Bc Bs L1 L2 L3.
  assert (B : bytes (macl_wire macs ct st)).
  { unfold macl_wire. constructor; [exact L1|]. apply bytes_app. split.
    - clear - F. induction F as [|m l [Bm _] _ IH]; [constructor|]. cbn [concat]. apply bytes_app. auto.
    - cbn [app]. constructor; [exact L2|]. apply bytes_app. split; [exact Bc|]. constructor; [exact L3|exact Bs]. }
  split; intros L.
  - unfold macl_wire in *. inversion B; subst. apply macl_parse_short; [assumption|].
    rewrite !app_length. cbn [length]. rewrite (concat_len F), lenN_natA. lia.
  - apply macl_parse_fault; [exact B|]. unfold macl_wire. do 2 eexists. split; [reflexivity|].
    rewrite !app_length. cbn [length]. rewrite (concat_len F), lenN_natA. lia.
Qed.
