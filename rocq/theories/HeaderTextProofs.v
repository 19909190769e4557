(** What the text of a header tells. *)
From Coq Require Import String Ascii DecimalString DecimalN HexadecimalString HexadecimalN HexadecimalFacts.
From Verif Require Import Base Bits Header HeaderSpec HeaderProofs TypeString HeaderText.
Local Open Scope string_scope.
Local Open Scope N_scope.

(** ** texts with a separator *)
Fixpoint no (c : ascii) (s : string) : Prop := match s with EmptyString => True | String d r => d <> c /\ no c r end.
Lemma no_app c a b : no c a -> no c b -> no c (a ++ b).
Proof. induction a as [|d a IH]; cbn; [auto|]. intros [H1 H2] H. auto. Qed.
Lemma tok c s : (exists t, s = String c t) -> forall a b x y, no c a -> no c b -> a ++ s ++ x = b ++ s ++ y -> a = b /\ x = y.
Proof.
  intros (t & ->). induction a as [|d a IH]; intros [|e b] x y A B E.
  - cbn in E. split; [reflexivity|]. injection E as E. clear - E. induction t as [|u t IH]; [exact E|]. cbn in E. injection E as E. now apply IH.
  - cbn in E, B. destruct B as [B _]. injection E as E _. congruence.
  - cbn in E, A. destruct A as [A _]. injection E as E _. congruence.
  - cbn in E, A, B. injection E as -> E. destruct A, B. destruct (IH b x y) as [-> ->]; auto.
Qed.
Lemma lit s x y : s ++ x = s ++ y -> x = y.
Proof. induction s as [|c s IH]; [auto|]. cbn. intros E. injection E as E. auto. Qed.
Lemma app_assoc_s (a b c : string) : (a ++ b) ++ c = a ++ b ++ c.
Proof. induction a as [|d a IH]; [reflexivity|]. cbn. now rewrite IH. Qed.
Lemma length_app_s (a b : string) : String.length (a ++ b) = (String.length a + String.length b)%nat.
Proof. induction a as [|d a IH]; [reflexivity|]. cbn. now rewrite IH. Qed.
Lemma app_inj_len a : forall b x y, String.length a = String.length b -> a ++ x = b ++ y -> a = b /\ x = y.
Proof.
  induction a as [|c a IH]; intros [|d b] x y L E; try discriminate; [auto|]. cbn in L, E. injection E as -> E. destruct (IH b x y) as [-> ->]; auto.
Qed.

(** ** digits *)
(** decimal digits and a to f *)
Definition hexish (c : ascii) : Prop := (48 <= N_of_ascii c <= 57 \/ 97 <= N_of_ascii c <= 102)%N.
Fixpoint all_hex (s : string) : Prop := match s with EmptyString => True | String c r => hexish c /\ all_hex r end.
Lemma all_hex_app a b : all_hex a -> all_hex b -> all_hex (a ++ b).
Proof. induction a as [|d a IH]; cbn; [auto|]. intros [H1 H2] H. auto. Qed.
Lemma all_hex_no c s : all_hex s -> ~ hexish c -> no c s.
Proof. intros A C. induction s as [|d s IH]; cbn; [auto|]. destruct A as [A1 A2]. split; [congruence|auto]. Qed.
Lemma comma_plain : ~ hexish ",". Proof. unfold hexish. cbn. lia. Qed.
Lemma brace_plain : ~ hexish "}". Proof. unfold hexish. cbn. lia. Qed.
Lemma dec_uint_hex d : all_hex (DecimalString.NilEmpty.string_of_uint d).
Proof. induction d; cbn; auto; (split; [unfold hexish; cbn; lia|assumption]). Qed.
Lemma hex_uint_hex d : all_hex (HexadecimalString.NilEmpty.string_of_uint d).
Proof. induction d; cbn; auto; (split; [unfold hexish; cbn; lia|assumption]). Qed.
Lemma hex_digit_hex d : d < 16 -> hexish (hex_digit d).
Proof.
  intros H. unfold hexish, hex_digit. rewrite N_ascii_embedding by (destruct (d <? 10); lia). destruct (N.ltb_spec d 10); lia.
Qed.
Lemma fixed_hex_all w : forall n, all_hex (fixed_hex w n).
Proof. induction w as [|w IH]; intros n; cbn [fixed_hex]; [exact I|]. apply all_hex_app; [apply IH|]. split; [|exact I]. apply hex_digit_hex, N.mod_lt. lia. Qed.
Lemma octets_hex_all b : all_hex (octets_hex b).
Proof. induction b as [|x b IH]; [exact I|]. cbn [octets_hex]. apply all_hex_app; [apply fixed_hex_all|exact IH]. Qed.

(** ** each verb is injective and free of separators *)
Lemma fmt_d_inj n m : fmt_d n = fmt_d m -> n = m.
Proof.
  unfold fmt_d, format_int. intros E. apply (f_equal DecimalString.NilEmpty.uint_of_string) in E. rewrite !DecimalString.NilEmpty.usu in E.
  assert (X : N.to_uint n = N.to_uint m) by congruence. apply (f_equal N.of_uint) in X. now rewrite !DecimalN.Unsigned.of_to in X.
Qed.
Lemma fmt_x_inj n m : fmt_x n = fmt_x m -> n = m.
Proof.
  unfold fmt_x. intros E. apply lit in E. apply (f_equal HexadecimalString.NilEmpty.uint_of_string) in E. rewrite !HexadecimalString.NilEmpty.usu in E.
  assert (X : N.to_hex_uint n = N.to_hex_uint m) by congruence. apply (f_equal N.of_hex_uint) in X. now rewrite !HexadecimalN.Unsigned.of_to in X.
Qed.
Lemma hex_digit_inj a b : a < 16 -> b < 16 -> hex_digit a = hex_digit b -> a = b.
Proof.
  intros A B E. unfold hex_digit in E. apply (f_equal N_of_ascii) in E. rewrite !N_ascii_embedding in E by (destruct (a <? 10), (b <? 10); lia).
  destruct (N.ltb_spec a 10), (N.ltb_spec b 10); lia.
Qed.
Lemma fixed_length w : forall n, String.length (fixed_hex w n) = w.
Proof. induction w as [|w IH]; intros n; [reflexivity|]. cbn [fixed_hex]. rewrite length_app_s, IH. cbn. lia. Qed.
Lemma fixed_inj w : forall n m, n < 16 ^ N.of_nat w -> m < 16 ^ N.of_nat w -> fixed_hex w n = fixed_hex w m -> n = m.
Proof.
  induction w as [|w IH]; intros n m Hn Hm E. { cbn in Hn, Hm. lia. }
  cbn [fixed_hex] in E. apply app_inj_len in E; [|now rewrite !fixed_length]. destruct E as [E1 E2].
  replace (N.of_nat (S w)) with (N.succ (N.of_nat w)) in * by lia. rewrite N.pow_succ_r' in *.
  assert (D : n / 16 = m / 16) by (apply IH; trivial; apply N.div_lt_upper_bound; lia).
  assert (R : n mod 16 = m mod 16) by (injection E2 as E2; apply hex_digit_inj; trivial; apply N.mod_lt; lia).
  rewrite (N.div_mod n 16), (N.div_mod m 16) by lia. now rewrite D, R.
Qed.
Lemma octets_inj a : forall b, bytes a -> bytes b -> octets_hex a = octets_hex b -> a = b.
Proof.
  induction a as [|x a IH]; intros [|y b] A B E; [reflexivity|..].
  - exfalso. apply (f_equal String.length) in E. cbn [octets_hex] in E. rewrite length_app_s, fixed_length in E. discriminate.
  - exfalso. apply (f_equal String.length) in E. cbn [octets_hex] in E. rewrite length_app_s, fixed_length in E. discriminate.
  - cbn [octets_hex] in E. apply app_inj_len in E; [|now rewrite !fixed_length]. destruct E as [E1 E2]. inversion A; inversion B; subst.
    apply fixed_inj in E1; [|assumption..]. subst y. f_equal. now apply IH.
Qed.
Lemma fmt_xs_inj a b : bytes a -> bytes b -> fmt_xs a = fmt_xs b -> a = b.
Proof.
  intros A B E. destruct a as [|x a], b as [|y b]; trivial; try discriminate. unfold fmt_xs in E. apply lit in E. now apply octets_inj.
Qed.
Lemma fmt_t_inj a b : fmt_t a = fmt_t b -> a = b.
Proof. destruct a, b; trivial; discriminate. Qed.
Lemma fmt_t_no a c : (c = "," \/ c = "}")%char -> no c (fmt_t a).
Proof. intros [->| ->]; destruct a; cbn; repeat split; discriminate. Qed.
Lemma no0x c s : (c = "," \/ c = "}")%char -> all_hex s -> no c ("0x" ++ s).
Proof.
  intros C A. assert (no c s) by (apply all_hex_no; [exact A|]; destruct C as [->| ->]; [apply comma_plain|apply brace_plain]).
  destruct C as [->| ->]; cbn; repeat split; try discriminate; assumption.
Qed.
Lemma fmt_d_no n c : (c = "," \/ c = "}")%char -> no c (fmt_d n).
Proof. intros C. apply all_hex_no; [apply dec_uint_hex|]. destruct C as [->| ->]; [apply comma_plain|apply brace_plain]. Qed.
Lemma fmt_x_no n c : (c = "," \/ c = "}")%char -> no c (fmt_x n).
Proof. intros C. apply no0x; [exact C|apply hex_uint_hex]. Qed.
Lemma fmt_016x_no n c : (c = "," \/ c = "}")%char -> no c (fmt_016x n).
Proof. intros C. apply no0x; [exact C|apply fixed_hex_all]. Qed.
Lemma fmt_xs_no b c : (c = "," \/ c = "}")%char -> no c (fmt_xs b).
Proof. intros C. destruct b; [exact I|]. apply no0x; [exact C|apply octets_hex_all]. Qed.

(** what a header shows *)
Definition shows_same (h k : header) : Prop :=
  has_fo h = has_fo k /\ has_mp h = has_mp k /\ has_seid h = has_seid k /\ h_type h = h_type k /\ h_length h = h_length k /\
  h_seid h = h_seid k /\ h_seq h = h_seq k /\ h_prio h = h_prio k /\ h_payload h = h_payload k.
Ltac cut_at c := match goal with E : _ = _ |- _ => apply lit in E; apply (@tok c) in E; [|eexists; reflexivity|auto using fmt_t_no, fmt_d_no, fmt_x_no, fmt_016x_no, fmt_xs_no..];
  let F := fresh "F" in destruct E as [F E] end.
Theorem h_string_iff h k : h_seid h < 2 ^ 64 -> h_seid k < 2 ^ 64 -> bytes (h_payload h) -> bytes (h_payload k) ->
  (h_string h = h_string k <-> shows_same h k).
Proof.
  intros Sh Sk Bh Bk. split.
  - intros E. unfold h_string in E. apply lit in E. unfold h_version in E. apply lit in E.
    apply lit in E. apply (@tok ",") in E; [|eexists; reflexivity|auto using fmt_t_no..]. destruct E as [F1 E].
    apply (@tok ",") in E; [|eexists; reflexivity|auto using fmt_t_no..]. destruct E as [F2 E].
    apply (@tok "}") in E; [|eexists; reflexivity|auto using fmt_t_no..]. destruct E as [F3 E].
    apply (@tok ",") in E; [|eexists; reflexivity|auto using fmt_d_no..]. destruct E as [F4 E].
    apply (@tok ",") in E; [|eexists; reflexivity|auto using fmt_d_no..]. destruct E as [F5 E].
    apply (@tok ",") in E; [|eexists; reflexivity|auto using fmt_016x_no..]. destruct E as [F6 E].
    apply (@tok ",") in E; [|eexists; reflexivity|auto using fmt_x_no..]. destruct E as [F7 E].
    apply (@tok ",") in E; [|eexists; reflexivity|auto using fmt_d_no..]. destruct E as [F8 E].
    assert (F9 : fmt_xs (h_payload h) = fmt_xs (h_payload k)).
    { change "}" with ("}" ++ "") in E. apply (@tok "}") in E; [apply E|eexists; reflexivity|auto using fmt_xs_no..]. }
    unfold shows_same. repeat split; eauto using fmt_t_inj, fmt_d_inj, fmt_x_inj, fmt_xs_inj.
    unfold fmt_016x in F6. apply lit in F6. apply fixed_inj in F6; trivial.
  - intros (F1 & F2 & F3 & F4 & F5 & F6 & F7 & F8 & F9). unfold h_string. unfold h_version. now rewrite F1, F2, F3, F4, F5, F6, F7, F8, F9.
Qed.

(** ** the digits read back *)
Definition digit_value (c : ascii) : option N :=
  let d := N_of_ascii c in
  if (48 <=? d) && (d <=? 57) then Some (d - 48) else if (97 <=? d) && (d <=? 102) then Some (d - 87) else None.
(** the value of a string of digits, most significant first *)
Fixpoint number (base acc : N) (s : string) : option N :=
  match s with
  | EmptyString => Some acc
  | String c r => match digit_value c with Some d => if d <? base then number base (base * acc + d) r else None | None => None end
  end.
Lemma digit_value_hex d : d < 16 -> digit_value (hex_digit d) = Some d.
Proof.
  intros H. unfold digit_value, hex_digit. rewrite N_ascii_embedding by (destruct (d <? 10); lia). destruct (N.ltb_spec d 10).
  - destruct (N.leb_spec 48 (48 + d)); [|lia]. destruct (N.leb_spec (48 + d) 57); [|lia]. cbn [andb]. f_equal. lia.
  - destruct (N.leb_spec 48 (87 + d)); [|lia]. destruct (N.leb_spec (87 + d) 57); [lia|]. cbn [andb]. destruct (N.leb_spec 97 (87 + d)); [|lia]. destruct (N.leb_spec (87 + d) 102); [|lia]. cbn [andb]. f_equal. lia.
Qed.
Lemma number_app base a : forall acc b, number base acc (a ++ b) = match number base acc a with Some v => number base v b | None => None end.
Proof.
  induction a as [|c a IH]; intros acc b; [reflexivity|]. cbn [append number]. destruct (digit_value c) as [d|]; [|reflexivity]. destruct (d <? base); [apply IH|reflexivity].
Qed.
Lemma number_fixed w : forall acc n, n < 16 ^ N.of_nat w -> number 16 acc (fixed_hex w n) = Some (16 ^ N.of_nat w * acc + n).
Proof.
  induction w as [|w IH]; intros acc n H. { cbn in *. f_equal. lia. }
  cbn [fixed_hex]. replace (N.of_nat (S w)) with (N.succ (N.of_nat w)) in * by lia. rewrite N.pow_succ_r' in *. rewrite number_app, IH by (apply N.div_lt_upper_bound; lia).
  cbn [number]. rewrite digit_value_hex by (apply N.mod_lt; lia). destruct (N.ltb_spec (n mod 16) 16) as [_|X]; [|exfalso; pose proof (N.mod_lt n 16); lia].
  f_equal. pose proof (N.div_mod n 16). lia.
Qed.
Lemma number_hex_pos d : forall p, number 16 (Npos p) (HexadecimalString.NilEmpty.string_of_uint d) = Some (Npos (Pos.of_hex_uint_acc d p)).
Proof.
  induction d; intros p; [reflexivity|..]; cbn [HexadecimalString.NilEmpty.string_of_uint number Pos.of_hex_uint_acc];
    (match goal with |- context [digit_value ?c] => let v := eval vm_compute in (digit_value c) in change (digit_value c) with v end); cbv iota;
    (match goal with |- context [if ?b then _ else _] => change b with true end); cbv iota; (rewrite <- IHd; f_equal); lia.
Qed.
Lemma number_dec_pos d : forall p, number 10 (Npos p) (DecimalString.NilEmpty.string_of_uint d) = Some (Npos (Pos.of_uint_acc d p)).
Proof.
  induction d; intros p; [reflexivity|..]; cbn [DecimalString.NilEmpty.string_of_uint number Pos.of_uint_acc];
    (match goal with |- context [digit_value ?c] => let v := eval vm_compute in (digit_value c) in change (digit_value c) with v end); cbv iota;
    (match goal with |- context [if ?b then _ else _] => change b with true end); cbv iota; (rewrite <- IHd; f_equal); lia.
Qed.
Lemma number_hex n : number 16 0 (HexadecimalString.NilEmpty.string_of_uint (N.to_hex_uint n)) = Some n.
Proof.
  rewrite <- (HexadecimalN.Unsigned.of_to n) at 2. generalize (N.to_hex_uint n). unfold N.of_hex_uint. induction u; [reflexivity|exact IHu|..]; cbn [Pos.of_hex_uint]; exact (number_hex_pos u _).
Qed.
Lemma number_dec n : number 10 0 (fmt_d n) = Some n.
Proof.
  unfold fmt_d, format_int. rewrite <- (DecimalN.Unsigned.of_to n) at 2. generalize (N.to_uint n). unfold N.of_uint. induction u; [reflexivity|exact IHu|..]; cbn [Pos.of_uint]; exact (number_dec_pos u _).
Qed.
Lemma dec_first n : fmt_d n = "0" \/ forall r, fmt_d n <> String "0" r.
Proof.
  unfold fmt_d, format_int. replace (N.to_uint n) with (Decimal.unorm (N.to_uint n)) by now rewrite <- DecimalN.Unsigned.to_of, DecimalN.Unsigned.of_to.
  generalize (N.to_uint n). intros d. unfold Decimal.unorm. destruct (Decimal.nzhead d) eqn:E; try (right; intros r; discriminate); [now left|].
  exfalso. clear - E. induction d; try discriminate. apply IHd. exact E.
Qed.
Lemma hex_first n : let s := HexadecimalString.NilEmpty.string_of_uint (N.to_hex_uint n) in s = "0" \/ forall r, s <> String "0" r.
Proof.
  cbv zeta. replace (N.to_hex_uint n) with (Hexadecimal.unorm (N.to_hex_uint n)) by now rewrite <- HexadecimalN.Unsigned.to_of, HexadecimalN.Unsigned.of_to.
  generalize (N.to_hex_uint n). intros d. unfold Hexadecimal.unorm. destruct (Hexadecimal.nzhead d) eqn:E; try (right; intros r; discriminate); [now left|].
  exfalso. clear - E. induction d; try discriminate. apply IHd. exact E.
Qed.
(** the octets of a text of pairs of digits *)
Inductive pairs : string -> list N -> Prop :=
| pairs_nil : pairs "" nil
| pairs_cons c d x s l : number 16 0 (String c (String d "")) = Some x -> pairs s l -> pairs (String c (String d s)) (x :: l).
Lemma octets_pairs b : bytes b -> pairs (octets_hex b) b.
Proof.
  induction 1 as [|x b Hx Hb IH]; [constructor|]. change (octets_hex (x :: b)) with (String (hex_digit (x / 16 mod 16)) (String (hex_digit (x mod 16)) (octets_hex b))).
  constructor; [|exact IH]. change (String (hex_digit (x / 16 mod 16)) (String (hex_digit (x mod 16)) "")) with (fixed_hex 2 x). rewrite number_fixed by exact Hx. reflexivity.
Qed.

(** ** two datagrams *)
Lemma flag_bits h : has_fo h = N.testbit (h_flags h) 2 /\ has_mp h = N.testbit (h_flags h) 1 /\ has_seid h = N.testbit (h_flags h) 0.
Proof. unfold has_fo, has_mp, has_seid. rewrite has1_testbit, has2_testbit, has3_testbit. auto. Qed.
Lemma low_three a b : (N.testbit a 0 = N.testbit b 0 /\ N.testbit a 1 = N.testbit b 1 /\ N.testbit a 2 = N.testbit b 2) <-> a mod 8 = b mod 8.
Proof.
  change 8 with (2 ^ 3). split.
  - intros (A & B & C). apply N.bits_inj. intros i. destruct (N.lt_ge_cases i 3) as [L|L].
    + rewrite !N.mod_pow2_bits_low by exact L. assert (i = 0 \/ i = 1 \/ i = 2) as [->|[->| ->]] by lia; assumption.
    + now rewrite !N.mod_pow2_bits_high.
  - intros E. assert (H : forall i, i < 3 -> N.testbit a i = N.testbit b i).
    { intros i L. rewrite <- (N.mod_pow2_bits_low a 3 i L), E. now apply N.mod_pow2_bits_low. }
    repeat split; apply H; lia.
Qed.
Lemma hwire_flag h f r f' : hwire h (f :: r) -> f' < 256 -> N.odd f' = N.odd f ->
  hwire (mkH f' (h_type h) (h_length h) (h_seid h) (h_seq h) (h_prio h) (h_payload h)) (f' :: r).
Proof.
  intros W B O. remember (f :: r) as b eqn:E. destruct W as [fl tp ln sd sq pr body|fl tp ln sq pr body]; cbn [app] in E; assert (fl = f) by congruence; subst fl;
    (match type of E with _ :: ?x = _ => assert (r = x) by congruence end); subst r; cbn [h_type h_length h_seid h_seq h_prio h_payload].
  - change (hwire (mkH f' tp ln sd sq pr body) ([f'; tp] ++ be 2 ln ++ be 8 sd ++ be 3 sq ++ [pr] ++ body)). constructor; trivial. congruence.
  - change (hwire (mkH f' tp ln 0 sq pr body) ([f'; tp] ++ be 2 ln ++ be 3 sq ++ [pr] ++ body)). constructor; trivial. congruence.
Qed.
Theorem text_datagrams h k b c : hwire h b -> hwire k c ->
  (h_string h = h_string k <-> exists f f' r, b = f :: r /\ c = f' :: r /\ f mod 8 = f' mod 8).
Proof.
  intros Hb Hc.
  assert (R : forall h b, hwire h b -> h_seid h < 2 ^ 64 /\ bytes (h_payload h)) by (intros ? ? [|]; cbn; split; trivial; lia).
  destruct (R _ _ Hb) as [R1 R2], (R _ _ Hc) as [R3 R4]. rewrite h_string_iff by assumption. clear R R1 R2 R3 R4.
  assert (F : forall h b, hwire h b -> exists r, b = h_flags h :: r) by (intros ? ? [|]; cbn; eauto).
  split.
  - intros (F1 & F2 & F3 & F4 & F5 & F6 & F7 & F8 & F9). destruct (flag_bits h) as (A1 & A2 & A3), (flag_bits k) as (B1 & B2 & B3).
    assert (M : h_flags h mod 8 = h_flags k mod 8) by (apply low_three; repeat split; congruence).
    assert (O : N.odd (h_flags h) = N.odd (h_flags k)) by (unfold has_seid in F3; rewrite !has1_odd in F3; exact F3).
    destruct Hb as [fl tp ln sd sq pr body ? O1|fl tp ln sq pr body ? O1], Hc as [fl' tp' ln' sd' sq' pr' body' ? O2|fl' tp' ln' sq' pr' body' ? O2]; cbn in *; try congruence; subst; do 3 eexists; (split; [reflexivity|]); (split; [reflexivity|exact M]).
  - intros (f & f' & r & -> & -> & M). apply low_three in M. destruct M as (M1 & M2 & M3).
    destruct (F _ _ Hb) as (r1 & E1), (F _ _ Hc) as (r2 & E2). injection E1 as E1 _. injection E2 as E2 _.
    assert (O : N.odd f' = N.odd f) by (rewrite <- !N.bit0_odd; now symmetry).
    assert (B : f' < 256) by (apply hwire_bytes in Hc; now inversion Hc).
    assert (K : k = mkH f' (h_type h) (h_length h) (h_seid h) (h_seq h) (h_prio h) (h_payload h)).
    { pose proof (hwire_flag _ _ _ _ Hb B O) as W. assert (Y : bytes (f' :: r)) by (eapply hwire_bytes; exact Hc). apply parse_header_iff in W, Hc; trivial. congruence. }
    unfold shows_same. destruct (flag_bits h) as (-> & -> & ->), (flag_bits k) as (-> & -> & ->). rewrite <- E1, <- E2. rewrite K. cbn. auto 10.
Qed.
