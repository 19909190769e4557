(** Bit-level facts: or of disjoint ranges, masks and shifts as arithmetic. *)
From Verif Require Import Base.
Set Implicit Arguments.
Local Open Scope N_scope.

Lemma has1_odd f : has1 f = N.odd f.
Proof. now rewrite has1_testbit, N.bit0_odd. Qed.

Lemma high_bit b k j : b < 2 ^ k -> k <= j -> N.testbit b j = false.
Proof. intros H L. rewrite <- (N.mod_small b (2 ^ k)) by exact H. now apply N.mod_pow2_bits_high. Qed.

Lemma land_disjoint a b k : b < 2 ^ k -> N.land (a * 2 ^ k) b = 0.
Proof.
  intros H. apply N.bits_inj. intros j. rewrite N.bits_0, N.land_spec, <- N.shiftl_mul_pow2.
  destruct (N.le_gt_cases k j) as [L|L].
  - now rewrite (@high_bit b k j H L), andb_false_r.
  - now rewrite N.shiftl_spec_low.
Qed.
(** or of disjoint bit ranges is addition *)
Lemma lor_add a b k : b < 2 ^ k -> N.lor (a * 2 ^ k) b = a * 2 ^ k + b.
Proof.
  intros H. pose proof (@land_disjoint a b k H) as D.
  rewrite <- N.lxor_lor by exact D. symmetry. now apply N.add_nocarry_lxor.
Qed.
Lemma shiftl_lor a b k : b < 2 ^ k -> N.lor (N.shiftl a k) b = a * 2 ^ k + b.
Proof. intros H. rewrite N.shiftl_mul_pow2. now apply lor_add. Qed.
Lemma land_low a k : N.land a (N.ones k) = a mod 2 ^ k.
Proof. apply N.land_ones. Qed.

Lemma lor_bound a b k : a < 2 ^ k -> b < 2 ^ k -> N.lor a b < 2 ^ k.
Proof.
  intros Ha Hb. rewrite <- (N.mod_small a (2 ^ k)), <- (N.mod_small b (2 ^ k)) by assumption.
  rewrite <- !N.land_ones, <- N.land_lor_distr_l, N.land_ones. apply N.mod_lt. apply N.pow_nonzero. discriminate.
Qed.
Lemma land_bound a b k : a < 2 ^ k -> N.land a b < 2 ^ k.
Proof.
  intros Ha. rewrite <- (N.mod_small a (2 ^ k)) by assumption.
  rewrite <- N.land_ones, <- N.land_assoc, (N.land_comm _ b), N.land_assoc, N.land_ones.
  apply N.mod_lt. apply N.pow_nonzero. discriminate.
Qed.
Lemma u8_lt n : u8 n < 256. Proof. apply N.mod_lt. discriminate. Qed.
Lemma u16_lt n : u16 n < 65536. Proof. apply N.mod_lt. discriminate. Qed.
Lemma u32_lt n : u32 n < 4294967296. Proof. apply N.mod_lt. discriminate. Qed.
Lemma u64_lt n : u64 n < 18446744073709551616. Proof. apply N.mod_lt. discriminate. Qed.
Lemma u8_id n : n < 256 -> u8 n = n. Proof. apply N.mod_small. Qed.
Lemma u16_id n : n < 65536 -> u16 n = n. Proof. apply N.mod_small. Qed.
Lemma u32_id n : n < 4294967296 -> u32 n = n. Proof. apply N.mod_small. Qed.
Lemma u64_id n : n < 18446744073709551616 -> u64 n = n. Proof. apply N.mod_small. Qed.
Lemma u16_be n : be 2 (u16 n) = be 2 n. Proof. now apply be_cast. Qed.
