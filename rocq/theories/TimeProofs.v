From Coq Require Import SpecFloat.
From Verif Require Import Base Codec Time.
Set Implicit Arguments.
Local Open Scope Z_scope.

(** * Timestamps *)
Lemma secs1900_mid t : epoch1900 <= t -> t - epoch1900 <= maxint64 -> Z.of_N (secs1900 t) = t / second + 2208988800.
Proof.
  intros H1 H2. unfold secs1900, to_u64, time_sub. rewrite Z.min_r, Z.max_r by (unfold maxint64, minint64 in *; lia).
  rewrite Z.mod_small by (unfold maxint64 in *; lia). rewrite N2Z.inj_div, Z2N.id by lia. change (Z.of_N 1000000000) with second.
  unfold epoch1900. replace (t - -2208988800 * second) with (t + 2208988800 * second) by lia. rewrite Z.div_add by (unfold second; lia). reflexivity.
Qed.
Lemma get4_be v : (v < 2 ^ 32)%N -> getr 4 (be 4 v) 0 4 = Ok v.
Proof. intros H. rewrite <- (app_nil_r (be 4 v)). exact (@getr_app 4 [] v [] H). Qed.
Lemma get8_be v : (v < 2 ^ 64)%N -> getr 8 (be 8 v) 0 8 = Ok v.
Proof. intros H. rewrite <- (app_nil_r (be 8 v)). exact (@getr_app 8 [] v [] H). Qed.
Lemma get2_be v : (v < 2 ^ 16)%N -> getr 2 (be 2 v) 0 2 = Ok v.
Proof. intros H. rewrite <- (app_nil_r (be 2 v)). exact (@getr_app 2 [] v [] H). Qed.
Lemma u32_lt n : (u32 n < 2 ^ 32)%N. Proof. unfold u32. apply N.mod_lt. discriminate. Qed.
Lemma timestamp_value_be v : (v < 2 ^ 32)%N -> timestamp_value (be 4 v) = Ok ((Z.of_N v - 2208988800) mod 2 ^ 32 * second).
Proof.
  intros H. unfold timestamp_value. rewrite be_length. cbn [Nat.ltb Nat.leb]. rewrite get4_be by exact H. cbn [bind]. do 2 f_equal.
  unfold u32. rewrite N2Z.inj_mod, N2Z.inj_add. change (Z.of_N 4294967296) with (2 ^ 32). change (Z.of_N (4294967296 - 2208988800)) with (-2208988800 + 1 * 2 ^ 32).
  rewrite Z.add_assoc, Z.mod_add by lia. f_equal.
Qed.
(** what comes back for a time from 1900 to 2192: the same second, modulo 2^32 seconds counted from 1970 *)
Lemma timestamp_roundtrip t : epoch1900 <= t -> t - epoch1900 <= maxint64 ->
  timestamp_value (new_timestamp t) = Ok ((t / second) mod 2 ^ 32 * second).
Proof.
  intros H1 H2. unfold new_timestamp. rewrite timestamp_value_be by apply u32_lt. do 2 f_equal. unfold u32. rewrite N2Z.inj_mod, secs1900_mid by assumption.
  change (Z.of_N 4294967296) with (2 ^ 32). rewrite Zminus_mod_idemp_l. f_equal. lia.
Qed.
Lemma timestamp_range t : exists r, timestamp_value (new_timestamp t) = Ok (r * second) /\ 0 <= r < 2 ^ 32.
Proof.
  unfold new_timestamp. rewrite timestamp_value_be by apply u32_lt. eexists. split; [reflexivity|]. apply Z.mod_pos_bound. reflexivity.
Qed.
Lemma timestamp_exact t : timestamp_value (new_timestamp t) = Ok (t / second * second) <-> 0 <= t < 2 ^ 32 * second.
Proof.
  split.
  - destruct (timestamp_range t) as (r & -> & Hr). intros [= E]. unfold second in *. pose proof (Z.div_mod t 1000000000). pose proof (Z.mod_pos_bound t 1000000000). lia.
  - intros H. rewrite timestamp_roundtrip by (unfold epoch1900, maxint64, second in *; lia). do 2 f_equal. apply Z.mod_small.
    unfold second in *. split; [apply Z.div_pos; lia|apply Z.div_lt_upper_bound; lia].
Qed.
Lemma timestamp_total b : returns (timestamp_value b).
Proof. unfold timestamp_value. tot. destruct (@getr_returns 4 b 0 4) as (v & ->); [lia..|]. apply returns_ok. Qed.
(** the other direction: every 4 octets decode to a time that encodes to the same octets *)
Lemma timestamp_reencode x : (x < 2 ^ 32)%N -> exists t, timestamp_value (be 4 x) = Ok t /\ new_timestamp t = be 4 x.
Proof.
  intros H. rewrite timestamp_value_be by exact H. eexists. split; [reflexivity|]. unfold new_timestamp. f_equal.
  apply N2Z.inj. unfold u32. rewrite N2Z.inj_mod.
  assert (B : 0 <= (Z.of_N x - 2208988800) mod 2 ^ 32 < 2 ^ 32) by (apply Z.mod_pos_bound; reflexivity).
  rewrite secs1900_mid by (unfold epoch1900, maxint64, second; lia). rewrite Z.div_mul by discriminate.
  change (Z.of_N 4294967296) with (2 ^ 32). rewrite Zplus_mod_idemp_l. replace (Z.of_N x - 2208988800 + 2208988800) with (Z.of_N x) by lia.
  apply Z.mod_small. lia.
Qed.

(** * Timers *)
Definition timer_unit (u : Z) : Prop := u = 2 * second \/ u = minute \/ u = 10 * minute \/ u = hour \/ u = 10 * hour.
(** representable: at most 31 times one of the units *)
Definition timer_repr (d : Z) : Prop := exists k u, 0 <= k <= 31 /\ timer_unit u /\ d = k * u.
(** the largest unit that divides d *)
Definition timer_pick (d : Z) : option Z :=
  if d mod (10 * hour) =? 0 then Some (10 * hour) else if d mod hour =? 0 then Some hour
  else if d mod (10 * minute) =? 0 then Some (10 * minute) else if d mod minute =? 0 then Some minute
  else if d mod (2 * second) =? 0 then Some (2 * second) else None.
Lemma rem0_mod d u : 0 < u -> (Z.rem d u =? 0) = (d mod u =? 0).
Proof.
  intros H. destruct (Z.eqb_spec (d mod u) 0) as [E|E]; apply Z.eqb_eq || apply Z.eqb_neq.
  - apply Z.rem_divide; [lia|]. now apply Z.mod_divide; [lia|].
  - intros R. apply E. apply Z.rem_divide in R; [|lia]. now apply Z.mod_divide; [lia|].
Qed.
Lemma quot_div_exact d u : 0 < u -> d mod u = 0 -> Z.quot d u = d / u.
Proof.
  intros H E. apply Z.mod_divide in E; [|lia]. destruct E as (k & ->). rewrite Z.quot_mul, Z.div_mul by lia. reflexivity.
Qed.
Definition timer_code (d : Z) (u : N) (v : Z) : list N := [u8 (u + N.land (to_u8 v) 0x1f)].
Lemma land31 n : N.land n 31 = (n mod 32)%N. Proof. exact (N.land_ones n 5). Qed.
Lemma to_u8_31 v : Z.of_N (N.land (to_u8 v) 0x1f) = v mod 32.
Proof.
  rewrite land31, N2Z.inj_mod. unfold to_u8. rewrite Z2N.id by (apply Z.mod_pos_bound; reflexivity). change (Z.of_N 32) with 32.
  change (2 ^ 8) with (32 * 8). rewrite Z.rem_mul_r by lia. rewrite Z.mul_comm, Z.mod_add by lia. now rewrite Z.mod_mod by lia.
Qed.
Lemma timer_decode_all (c x : N) : (c < 8)%N -> (x < 32)%N ->
  timer_value [u8 (32 * c + x)] = Ok (match c with 7%N => maxint64 | 4%N => Z.of_N x * 10 * hour | 3%N => Z.of_N x * hour | 2%N => Z.of_N x * 10 * minute
                                       | 1%N => Z.of_N x * minute | 0%N => Z.of_N x * 2 * second | _ => 0 end).
Proof.
  intros Hc Hx. unfold timer_value. change (length [u8 (32 * c + x)] <? 1)%nat with false. change (index [u8 (32 * c + x)] 0) with (Ok (u8 (32 * c + x))). unfold bind.
  assert (E1 : u8 (32 * c + x) = (32 * c + x)%N) by (unfold u8; apply N.mod_small; lia). 
  assert (E2 : N.land (32 * c + x) 31 = x) by (rewrite land31, N.add_comm, N.mul_comm, N.mod_add by lia; apply N.mod_small; lia).
  assert (E3 : N.shiftr (N.land (32 * c + x) 0xe0) 5 = c).
  { change 0xe0%N with (N.shiftl (N.ones 3) 5). rewrite N.shiftr_land, N.shiftr_shiftl_l by lia. change (5 - 5)%N with 0%N. rewrite N.shiftl_0_r.
    rewrite N.shiftr_div_pow2. change (2 ^ 5)%N with 32%N. rewrite N.add_comm, N.mul_comm, N.div_add by lia. rewrite N.div_small by lia. cbn [N.add].
    rewrite N.land_ones. apply N.mod_small. lia. }
  rewrite E1. cbv zeta. rewrite E2, E3. reflexivity.
Qed.
Lemma timer_exact d : timer_value (new_timer d) = Ok (match timer_pick d with Some u => (d / u) mod 32 * u | None => maxint64 end).
Proof.
  unfold new_timer, timer_pick. change (1 * hour) with hour. change (1 * minute) with minute. rewrite !rem0_mod by reflexivity.
  assert (L : forall v, (N.land (to_u8 v) 31 < 32)%N) by (intros v; rewrite land31; apply N.mod_lt; discriminate).
  assert (S1 : forall v u, v * 10 * u = v * (10 * u)) by (intros; lia).
  assert (S2 : forall v u, v * 2 * u = v * (2 * u)) by (intros; lia).
  destruct (Z.eqb_spec (d mod (10 * hour)) 0) as [E|_].
  { rewrite quot_div_exact by (try exact E; reflexivity). change 128%N with (32 * 4)%N. rewrite timer_decode_all by (auto; reflexivity). now rewrite to_u8_31, S1. }
  destruct (Z.eqb_spec (d mod hour) 0) as [E|_].
  { rewrite quot_div_exact by (try exact E; reflexivity). change 96%N with (32 * 3)%N. rewrite timer_decode_all by (auto; reflexivity). now rewrite to_u8_31. }
  destruct (Z.eqb_spec (d mod (10 * minute)) 0) as [E|_].
  { rewrite quot_div_exact by (try exact E; reflexivity). change 64%N with (32 * 2)%N. rewrite timer_decode_all by (auto; reflexivity). now rewrite to_u8_31, S1. }
  destruct (Z.eqb_spec (d mod minute) 0) as [E|_].
  { rewrite quot_div_exact by (try exact E; reflexivity). change 32%N with (32 * 1)%N at 1. rewrite timer_decode_all by (auto; reflexivity). now rewrite to_u8_31. }
  destruct (Z.eqb_spec (d mod (2 * second)) 0) as [E|_].
  { rewrite quot_div_exact by (try exact E; reflexivity). change 0%N with (32 * 0)%N at 1. rewrite timer_decode_all by (auto; reflexivity). now rewrite to_u8_31, S2. }
  reflexivity.
Qed.
Lemma pick_div d u : timer_pick d = Some u -> timer_unit u /\ d = d / u * u.
Proof.
  assert (X : forall w, 0 < w -> d mod w = 0 -> d = d / w * w).
  { intros w Hw E. rewrite (Z.div_mod d w) at 1 by (intros ->; discriminate Hw). rewrite E, Z.add_0_r. apply Z.mul_comm. }
  unfold timer_pick, timer_unit. intros H.
  assert (Y : forall w, 0 < w -> timer_unit w -> d mod w = 0 -> Some w = Some u -> timer_unit u /\ d = d / u * u).
  { intros w Hw Uw E F. assert (w = u) by congruence. subst w. split; [exact Uw|]. now apply X. }
  unfold timer_unit in Y.
  destruct (Z.eqb_spec (d mod (10 * hour)) 0) as [E|_]; [revert H; apply Y; auto 6; reflexivity|].
  destruct (Z.eqb_spec (d mod hour) 0) as [E|_]; [revert H; apply Y; auto 6; reflexivity|].
  destruct (Z.eqb_spec (d mod (10 * minute)) 0) as [E|_]; [revert H; apply Y; auto 6; reflexivity|].
  destruct (Z.eqb_spec (d mod minute) 0) as [E|_]; [revert H; apply Y; auto 6; reflexivity|].
  destruct (Z.eqb_spec (d mod (2 * second)) 0) as [E|_]; [revert H; apply Y; auto 6; reflexivity|].
  discriminate.
Qed.
(** any unit dividing d is at most the one picked *)
Lemma pick_max d u : timer_unit u -> d mod u = 0 -> exists w, timer_pick d = Some w /\ u <= w.
Proof.
  intros U E. unfold timer_pick.
  destruct (Z.eqb_spec (d mod (10 * hour)) 0) as [_|N1]; [eexists; split; [reflexivity|]; unfold timer_unit, hour, minute, second in *; lia|].
  destruct (Z.eqb_spec (d mod hour) 0) as [_|N2]; [eexists; split; [reflexivity|]; unfold timer_unit in *; destruct U as [->|[->|[->|[->| ->]]]]; [unfold hour, minute, second; lia..|now elim N1]|].
  destruct (Z.eqb_spec (d mod (10 * minute)) 0) as [_|N3]; [eexists; split; [reflexivity|]; destruct U as [->|[->|[->|[->| ->]]]]; [unfold hour, minute, second; lia..|now elim N2|now elim N1]|].
  destruct (Z.eqb_spec (d mod minute) 0) as [_|N4]; [eexists; split; [reflexivity|]; destruct U as [->|[->|[->|[->| ->]]]]; [unfold hour, minute, second; lia..|now elim N3|now elim N2|now elim N1]|].
  destruct U as [->|[->|[->|[->| ->]]]]; try contradiction. destruct (Z.eqb_spec (d mod (2 * second)) 0) as [_|N5]; [|now elim N5]. eexists. split; [reflexivity|lia].
Qed.
Lemma timer_roundtrip_iff d : timer_value (new_timer d) = Ok d <-> timer_repr d \/ d = maxint64.
Proof.
  rewrite timer_exact. split.
  - intros [= H]. destruct (timer_pick d) as [u|] eqn:P; [|now right]. left. destruct (pick_div _ P) as [U _]. exists ((d / u) mod 32), u.
    pose proof (Z.mod_pos_bound (d / u) 32). repeat split; try lia; auto.
  - intros [(k & u & K & U & ->)|E].
    + assert (M : (k * u) mod u = 0) by (apply Z.mod_mul; destruct U as [->|[->|[->|[->| ->]]]]; discriminate).
      destruct (pick_max _ U M) as (w & P & L). rewrite P. destruct (pick_div _ P) as [W D]. f_equal.
      assert (0 < u) by (destruct U as [->|[->|[->|[->| ->]]]]; reflexivity).
      rewrite Z.mod_small; [now symmetry|]. split; [apply Z.div_pos; nia|]. apply Z.div_lt_upper_bound; nia.
    + subst d. now vm_compute.
Qed.
Lemma timer_total b : returns (timer_value b).
Proof. unfold timer_value. tot. Qed.

(** * Whole seconds *)
Lemma digits_shift d p : digits2_pos (shift_pos d p) = (digits2_pos p + d)%positive.
Proof.
  unfold shift_pos. induction d as [|d IH] using Pos.peano_ind.
  - cbn. now rewrite Pos.add_1_r.
  - rewrite Pos.iter_succ. cbn [digits2_pos]. rewrite IH. lia.
Qed.
Lemma shift_pos_mul d p : Z.pos (shift_pos d p) = Z.pos p * 2 ^ Z.pos d.
Proof.
  unfold shift_pos. induction d as [|d IH] using Pos.peano_ind.
  - cbn. lia.
  - rewrite Pos.iter_succ, Pos2Z.inj_succ, Z.pow_succ_r by lia. rewrite Pos2Z.inj_xO, IH. lia.
Qed.
Lemma digits_bound p : Z.pos p < 2 ^ Z.pos (digits2_pos p) /\ 2 ^ (Z.pos (digits2_pos p) - 1) <= Z.pos p.
Proof.
  induction p as [p [IH1 IH2]|p [IH1 IH2]|]; cbn [digits2_pos]; [| |cbn; lia].
  - rewrite Pos2Z.inj_succ. replace (Z.succ (Z.pos (digits2_pos p)) - 1) with (Z.succ (Z.pos (digits2_pos p) - 1)) by lia. rewrite !Z.pow_succ_r by lia. lia.
  - rewrite Pos2Z.inj_succ. replace (Z.succ (Z.pos (digits2_pos p)) - 1) with (Z.succ (Z.pos (digits2_pos p) - 1)) by lia. rewrite !Z.pow_succ_r by lia. lia.
Qed.
Lemma digits_le p n : 0 <= n -> Z.pos p < 2 ^ n -> Z.pos (digits2_pos p) <= n.
Proof.
  intros Hn H. destruct (digits_bound p) as [_ L]. destruct (Z.le_gt_cases (Z.pos (digits2_pos p)) n) as [|G]; [assumption|].
  assert (2 ^ n <= 2 ^ (Z.pos (digits2_pos p) - 1)) by (apply Z.pow_le_mono_r; lia). lia.
Qed.
(** integers below 2^53 are floats: 53 significant digits *)
Lemma round_exact m e : Z.pos (digits2_pos m) = 53 -> -1000 <= e <= 0 -> binary_round_aux 53 1024 false (Z.pos m) e loc_Exact = S754_finite false m e.
Proof.
  intros D E.
  assert (S : shr_fexp 53 1024 (Z.pos m) e loc_Exact = ({| shr_m := Z.pos m; shr_r := false; shr_s := false |}, e)).
  { unfold shr_fexp, fexp, emin. cbn [Zdigits2 shr_record_of_loc]. rewrite D. replace (Z.max (53 + e - 53) (3 - 1024 - 53) - e) with 0 by lia. reflexivity. }
  unfold binary_round_aux. rewrite S. cbn [shr_m loc_of_shr_record round_nearest_even]. rewrite S. cbn [shr_m].
  now replace (e <=? 1024 - 53) with true by (symmetry; apply Z.leb_le; lia).
Qed.
Lemma f64_exact p : Z.pos p < 2 ^ 53 -> exists m e, f64_of_Z (Z.pos p) = S754_finite false m e /\ e <= 0 /\ Z.pos m = Z.pos p * 2 ^ (- e).
Proof.
  intros H. pose proof (@digits_le p 53 ltac:(lia) H) as D.
  unfold f64_of_Z, binary_normalize, binary_round. 
  assert (F : fexp 53 1024 (Z.pos (digits2_pos p) + 0) = Z.pos (digits2_pos p) - 53) by (unfold fexp, emin; lia).
  rewrite F. unfold shl_align. rewrite Z.sub_0_r.
  destruct (Z.pos (digits2_pos p) - 53) as [|d|d] eqn:E; [|lia|].
  - exists p, 0. rewrite round_exact by lia. repeat split; lia.
  - exists (shift_pos d p), (Z.neg d). rewrite round_exact by (rewrite ?digits_shift; lia). repeat split; [lia|]. rewrite shift_pos_mul. reflexivity.
Qed.
Lemma dur_seconds_whole s : 0 <= s < 2 ^ 53 -> f64_trunc (dur_seconds (s * second)) = Some s.
Proof.
  intros H. unfold dur_seconds. rewrite Z.quot_mul, Z.rem_mul by discriminate.
  change (SFdiv 53 1024 (f64_of_Z 0) (f64_of_Z 1000000000)) with (S754_zero false).
  destruct s as [|p|p]; [reflexivity| |lia]. destruct (@f64_exact p ltac:(lia)) as (m & e & -> & He & Em).
  cbn [SFadd]. unfold f64_trunc. destruct (Z.leb_spec 0 e).
  - assert (e = 0) by lia. subst e. f_equal. rewrite Em. cbn. lia.
  - f_equal. rewrite Em. apply Z.div_mul. pose proof (Z.pow_pos_nonneg 2 (- e)). lia.
Qed.
Lemma f64_to_uint_whole bits s : 0 <= s < 2 ^ 53 -> s < 2 ^ bits -> f64_to_uint bits (dur_seconds (s * second)) = Some (Z.to_N s).
Proof.
  intros H1 H2. unfold f64_to_uint. rewrite dur_seconds_whole by exact H1.
  replace (0 <=? s) with true by (symmetry; apply Z.leb_le; lia). now replace (s <? 2 ^ bits) with true by (symmetry; apply Z.ltb_lt; lia).
Qed.
Lemma seconds32_roundtrip s : 0 <= s < 2 ^ 32 -> exists p, new_seconds32 (s * second) = Some p /\ seconds32_value p = Ok (s * second) /\ subsequent_time_quota_value p = Ok (s * second).
Proof.
  intros H. unfold new_seconds32. rewrite f64_to_uint_whole by lia. cbn [option_map]. eexists. split; [reflexivity|].
  unfold seconds32_value, subsequent_time_quota_value. rewrite be_length. change (4 <? 4)%nat with false. cbn match.
  rewrite get4_be by lia. cbn [bind]. now rewrite Z2N.id by lia.
Qed.
Lemma seconds16_roundtrip s : 0 <= s < 2 ^ 16 -> exists p, new_seconds16 (s * second) = Some p /\ seconds16_value p = Ok (s * second).
Proof.
  intros H. unfold new_seconds16. rewrite f64_to_uint_whole by lia. cbn [option_map]. eexists. split; [reflexivity|].
  unfold seconds16_value. rewrite be_length. change (2 <? 2)%nat with false. cbn match.
  rewrite get2_be by lia. cbn [bind]. now rewrite Z2N.id by lia.
Qed.
Lemma seconds32_total b : returns (seconds32_value b).
Proof. unfold seconds32_value. tot. destruct (@getr_returns 4 b 0 4) as (v & ->); [lia..|]. apply returns_ok. Qed.
Lemma seconds16_total b : returns (seconds16_value b).
Proof. unfold seconds16_value. tot. destruct (@getr_returns 2 b 0 2) as (v & ->); [lia..|]. apply returns_ok. Qed.
Lemma stq_fault b : subsequent_time_quota_value b = Fault <-> (length b < 4)%nat.
Proof.
  unfold subsequent_time_quota_value. split.
  - destruct (Nat.lt_ge_cases (length b) 4) as [|L]; [auto|]. destruct (@getr_returns 4 b 0 4) as (v & ->); [lia..|]. discriminate.
  - intros L. destruct b as [|? [|? [|? [|? ?]]]]; cbn [length] in L; try lia; reflexivity.
Qed.

(** * Milliseconds, 50 ms units, nanoseconds *)
Lemma millis_roundtrip d : 0 <= d -> millis_value (new_millis d) = Ok ((d / 1000000) mod 2 ^ 32 * 1000000).
Proof.
  intros H. unfold millis_value, new_millis. rewrite be_length. change (4 <? 4)%nat with false. cbn match.
  pose proof (Z.mod_pos_bound (Z.quot d 1000000) (2 ^ 32) ltac:(lia)). rewrite get4_be by lia. cbn [bind]. rewrite Z2N.id by lia.
  now rewrite Z.quot_div_nonneg by lia.
Qed.
Lemma ddn_delay_roundtrip d : 0 <= d -> ddn_delay_value (new_ddn_delay d) = Ok ((d / 50000000) mod 256 * 50000000).
Proof.
  intros H. unfold ddn_delay_value, new_ddn_delay, to_u8. cbn [length Nat.ltb Nat.leb index bind nth_error].
  pose proof (Z.mod_pos_bound (Z.quot d 50000000) (2 ^ 8) ltac:(lia)). rewrite Z2N.id by lia.
  now rewrite Z.quot_div_nonneg by lia.
Qed.
Lemma to_i64_u64 d : minint64 <= d <= maxint64 -> to_i64 (to_u64 d) = d.
Proof.
  unfold to_i64, to_u64, minint64, maxint64. intros H.
  destruct (Z.le_gt_cases 0 d).
  - rewrite Z.mod_small by lia. destruct (N.ltb_spec (Z.to_N d) 9223372036854775808); rewrite ?Z2N.id; lia.
  - replace (d mod 2 ^ 64) with (d + 2 ^ 64). 2:{ rewrite <- (Z.mod_add d 1) by lia. rewrite Z.mod_small by lia. lia. }
    destruct (N.ltb_spec (Z.to_N (d + 2 ^ 64)) 9223372036854775808); rewrite ?Z2N.id; lia.
Qed.
Lemma time_offset_roundtrip d : minint64 <= d <= maxint64 -> time_offset_value (new_time_offset d) = Ok d.
Proof.
  intros H. unfold time_offset_value, new_time_offset. rewrite be_length. change (8 <? 8)%nat with false. cbn match.
  rewrite get8_be. 2:{ unfold to_u64. pose proof (Z.mod_pos_bound d (2 ^ 64) ltac:(lia)). lia. }
  cbn [bind]. now rewrite to_i64_u64.
Qed.
