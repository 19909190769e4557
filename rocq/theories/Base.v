(** Base definitions shared by the whole model: octets, Go slices, big-endian
    integers and the result type.  Stdlib only. *)
From Coq Require Export List NArith ZArith Lia Bool Arith.
From Coq Require Export ZifyBool ZifyNat ZifyN.
Export ListNotations.
Set Implicit Arguments.

(** Go errors that the modelled code can return.  ie/errors.go:12-43 plus
    io.ErrUnexpectedEOF, hex decoding errors and ad-hoc errors.New values. *)
Inductive err :=
| EUnexpectedEOF            (* io.ErrUnexpectedEOF *)
| EInvalidLength            (* ie.ErrInvalidLength, ie/errors.go:15 *)
| EInvalidType              (* ie.ErrInvalidType, ie/errors.go:17 *)
| EIENotFound               (* ie.ErrIENotFound, ie/errors.go:18 *)
| EMalformed                (* ie.ErrMalformed, ie/errors.go:20 *)
| EElementNotFound          (* ie.ErrElementNotFound, ie/errors.go:22 *)
| EInvalidTypeT (t : N)     (* *ie.InvalidTypeError, ie/errors.go:26-33 *)
| EInvalidNodeID (id : N)   (* *ie.InvalidNodeIDError, ie/errors.go:36-43 *)
| EHex                      (* an encoding/hex decoding error *)
| EOther.                   (* an errors.New / fmt.Errorf value built inline *)

(** Result of running Go code.  [Fault] is a run-time panic or an access beyond
    [len] of a slice (Go panics beyond [cap]; between [len] and [cap] it would
    over-read; both are [Fault]).  [Fuel] is the model's own out-of-fuel value
    and is shown unreachable wherever fuel is used. *)
Inductive res (A : Type) :=
| Ok (a : A)
| Err (e : err)
| Fault
| Fuel.
Arguments Ok {A} _. Arguments Err {A} _. Arguments Fault {A}. Arguments Fuel {A}.

Definition bind {A B} (r : res A) (f : A -> res B) : res B :=
  match r with Ok a => f a | Err e => Err e | Fault => Fault | Fuel => Fuel end.
Notation "x <- r ;; k" := (bind r (fun x => k)) (at level 61, r at next level, right associativity).
Notation "' p <- r ;; k" := (bind r (fun p => k)) (at level 61, p pattern, r at next level, right associativity).

(** "No panic and no divergence": the call returned a value or a Go error. *)
Definition returns {A} (r : res A) : Prop := (exists a, r = Ok a) \/ (exists e, r = Err e).

(** A Go octet string. *)
Definition octet (x : N) : Prop := (x < 256)%N.
Definition bytes (l : list N) : Prop := Forall octet l.

(** ** Go slice operations on a buffer *)

(** [b[lo:hi]] *)
Definition slice (b : list N) (lo hi : nat) : res (list N) :=
  if (lo <=? hi) && (hi <=? length b) then Ok (firstn (hi - lo) (skipn lo b)) else Fault.
(** [b[lo:]] *)
Definition from (b : list N) (lo : nat) : res (list N) :=
  if lo <=? length b then Ok (skipn lo b) else Fault.
(** [b[i]] *)
Definition index (b : list N) (i : nat) : res N :=
  match nth_error b i with Some x => Ok x | None => Fault end.
(** Write all of [s] at [lo], e.g. [binary.BigEndian.PutUintN(b[lo:lo+k], v)] or [b[lo] = x]. *)
Definition put (b : list N) (lo : nat) (s : list N) : res (list N) :=
  if lo + length s <=? length b
  then Ok (firstn lo b ++ s ++ skipn (lo + length s) b) else Fault.
(** [copy(b[lo:hi], src)]: the slice bounds are checked, then min(hi-lo, len src) octets move. *)
Definition copy_range (b : list N) (lo hi : nat) (src : list N) : res (list N) :=
  if (lo <=? hi) && (hi <=? length b)
  then let s := firstn (hi - lo) src in
       Ok (firstn lo b ++ s ++ skipn (lo + length s) b)
  else Fault.
(** [copy(b[lo:], src)] *)
Definition copy_from (b : list N) (lo : nat) (src : list N) : res (list N) :=
  copy_range b lo (length b) src.
(** [make([]byte, n)] *)
Definition make (n : nat) : list N := repeat 0%N n.

(** ** Big-endian integers (encoding/binary) *)

(** [binary.BigEndian.PutUint(8*n)]: the n low octets, most significant first. *)
Fixpoint be (n : nat) (v : N) : list N :=
  match n with
  | O => []
  | S k => ((v / 256 ^ N.of_nat k) mod 256)%N :: be k v
  end.
(** Value of an octet string read big-endian (shifts and ors of octets written as * and +). *)
Definition unbe (l : list N) : N := fold_left (fun a x => (a * 256 + x)%N) l 0%N.
(** [binary.BigEndian.Uint(8*n)(b)]: panics if b has fewer than n octets, reads the first n. *)
Definition getn (n : nat) (b : list N) : res N :=
  if n <=? length b then Ok (unbe (firstn n b)) else Fault.
(** [binary.BigEndian.Uint(8*n)(b[lo:hi])] *)
Definition getr (n : nat) (b : list N) (lo hi : nat) : res N :=
  s <- slice b lo hi ;; getn n s.

(** ** Bits of an octet, as ie/misc.go:7-37 and message/misc.go:49-59 compute them:
    [(f & mask) >> k == 1]. *)
Definition hasbit (f mask k : N) : bool := (N.shiftr (N.land f mask) k =? 1)%N.
Definition has8 f := hasbit f 0x80 7. (* has8thBit ie/misc.go:7-9 *)
Definition has7 f := hasbit f 0x40 6. (* has7thBit ie/misc.go:11-13 *)
Definition has6 f := hasbit f 0x20 5. (* has6thBit ie/misc.go:15-17 *)
Definition has5 f := hasbit f 0x10 4. (* has5thBit ie/misc.go:19-21 *)
Definition has4 f := hasbit f 0x08 3. (* has4thBit ie/misc.go:23-25 *)
Definition has3 f := hasbit f 0x04 2. (* has3rdBit ie/misc.go:27-29, message/misc.go:49-51 *)
Definition has2 f := hasbit f 0x02 1. (* has2ndBit ie/misc.go:31-33, message/misc.go:53-55 *)
Definition has1 f := (N.land f 0x01 =? 1)%N. (* has1stBit ie/misc.go:35-37, message/misc.go:57-59 *)

(** [uint16(n)] and friends *)
Definition u8 (n : N) : N := (n mod 256)%N.
Definition u16 (n : N) : N := (n mod 65536)%N.
Definition u32 (n : N) : N := (n mod 4294967296)%N.
Definition u64 (n : N) : N := (n mod 18446744073709551616)%N.
Definition lenN {A} (l : list A) : N := N.of_nat (length l).

(** * Lemmas *)

Arguments N.add : simpl never.
Arguments N.mul : simpl never.
Arguments N.sub : simpl never.
Arguments N.div : simpl never.
Arguments N.modulo : simpl never.
Arguments N.pow : simpl never.
Arguments N.land : simpl never.
Arguments N.lor : simpl never.
Arguments N.shiftl : simpl never.
Arguments N.shiftr : simpl never.
Arguments N.of_nat : simpl never.
Arguments N.to_nat : simpl never.
Arguments N.eqb : simpl never.
Arguments N.ltb : simpl never.
Arguments N.leb : simpl never.

Lemma firstn_app_exact {A} (l r : list A) n : n = length l -> firstn n (l ++ r) = l.
Proof. intros ->. rewrite firstn_app, Nat.sub_diag, firstn_all, firstn_O, app_nil_r. reflexivity. Qed.
Lemma skipn_app_exact {A} (l r : list A) n : n = length l -> skipn n (l ++ r) = r.
Proof. intros ->. rewrite skipn_app, Nat.sub_diag, skipn_all. reflexivity. Qed.
Lemma firstn_app_plus {A} (l r : list A) n k : n = length l + k -> firstn n (l ++ r) = l ++ firstn k r.
Proof. intros ->. rewrite firstn_app, firstn_all2 by lia. f_equal. f_equal. lia. Qed.
Lemma skipn_app_plus {A} (l r : list A) n k : n = length l + k -> skipn n (l ++ r) = skipn k r.
Proof. intros ->. rewrite skipn_app, skipn_all2 by lia. simpl. f_equal. lia. Qed.

Lemma skipn_skipn' {A} (l : list A) a b : skipn a (skipn b l) = skipn (b + a) l.
Proof. revert l; induction b as [|b IH]; intros [|x l]; simpl; auto. now rewrite skipn_nil. Qed.

Lemma slice_ok b lo hi : lo <= hi -> hi <= length b -> slice b lo hi = Ok (firstn (hi - lo) (skipn lo b)).
Proof.
  intros H1 H2. unfold slice.
  destruct (Nat.leb_spec lo hi); [|lia]. destruct (Nat.leb_spec hi (length b)); [|lia]. reflexivity.
Qed.
Lemma from_ok b lo : lo <= length b -> from b lo = Ok (skipn lo b).
Proof. intros H. unfold from. destruct (Nat.leb_spec lo (length b)); [reflexivity|lia]. Qed.
Lemma put_ok b lo s : lo + length s <= length b -> put b lo s = Ok (firstn lo b ++ s ++ skipn (lo + length s) b).
Proof. intros H. unfold put. destruct (Nat.leb_spec (lo + length s) (length b)); [reflexivity|lia]. Qed.
Lemma copy_range_ok b lo hi s : lo <= hi -> hi <= length b ->
  copy_range b lo hi s =
  Ok (firstn lo b ++ firstn (hi - lo) s ++ skipn (lo + length (firstn (hi - lo) s)) b).
Proof.
  intros H1 H2. unfold copy_range.
  destruct (Nat.leb_spec lo hi); [|lia]. destruct (Nat.leb_spec hi (length b)); [|lia]. reflexivity.
Qed.

(** Writing at the end of an already written prefix [p] of the buffer. *)
Lemma put_app p r s : length s <= length r -> put (p ++ r) (length p) s = Ok (p ++ s ++ skipn (length s) r).
Proof.
  intros H. rewrite put_ok by (rewrite app_length; lia).
  rewrite firstn_app_exact by reflexivity. rewrite skipn_app_plus with (k := length s) by lia. reflexivity.
Qed.
Lemma copy_range_app p r s n : n <= length r -> length s = n ->
  copy_range (p ++ r) (length p) (length p + n) s = Ok (p ++ s ++ skipn n r).
Proof.
  intros H <-. rewrite copy_range_ok by (rewrite ?app_length; lia).
  rewrite firstn_app_exact by reflexivity.
  replace (length p + length s - length p) with (length s) by lia. rewrite firstn_all.
  rewrite skipn_app_plus with (k := length s) by lia. reflexivity.
Qed.
Lemma slice_app p s r lo hi : lo = length p -> hi = length p + length s -> slice (p ++ s ++ r) lo hi = Ok s.
Proof.
  intros -> ->. rewrite slice_ok by (rewrite ?app_length; lia).
  rewrite skipn_app_exact by reflexivity. rewrite firstn_app_exact by lia. reflexivity.
Qed.
Lemma index_app p x r i : i = length p -> index (p ++ x :: r) i = Ok x.
Proof. intros ->. unfold index. rewrite nth_error_app2, Nat.sub_diag by lia. reflexivity. Qed.
Lemma from_app p r lo : lo = length p -> from (p ++ r) lo = Ok r.
Proof. intros ->. rewrite from_ok by (rewrite app_length; lia). now rewrite skipn_app_exact. Qed.

Lemma index_ok b i : i < length b -> exists x, index b i = Ok x /\ nth_error b i = Some x.
Proof.
  intros H. unfold index. destruct (nth_error b i) as [x|] eqn:E; [eauto|].
  apply nth_error_None in E. lia.
Qed.

Lemma be_length n v : length (be n v) = n.
Proof. induction n as [|n IH]; simpl; [reflexivity|now rewrite IH]. Qed.
Lemma be_bytes n v : bytes (be n v).
Proof.
  induction n as [|n IH]; simpl; constructor; [|exact IH].
  apply N.mod_lt. discriminate.
Qed.
Lemma bytes_app l r : bytes (l ++ r) <-> bytes l /\ bytes r.
Proof. apply Forall_app. Qed.
Lemma bytes_firstn n l : bytes l -> bytes (firstn n l).
Proof. intros H. rewrite <- (firstn_skipn n l) in H. now apply bytes_app in H. Qed.
Lemma bytes_skipn n l : bytes l -> bytes (skipn n l).
Proof. intros H. rewrite <- (firstn_skipn n l) in H. now apply bytes_app in H. Qed.

Lemma unbe_acc l a :
  fold_left (fun a x => (a * 256 + x)%N) l a = (a * 256 ^ lenN l + unbe l)%N.
Proof.
  unfold unbe, lenN. revert a. induction l as [|x l IH]; intros a; cbn [fold_left length].
  - change (N.of_nat 0) with 0%N. rewrite N.pow_0_r. lia.
  - rewrite IH, (IH (0 * 256 + x)%N). rewrite Nat2N.inj_succ, N.pow_succ_r' by lia. lia.
Qed.
Lemma unbe_cons x l : unbe (x :: l) = (x * 256 ^ lenN l + unbe l)%N.
Proof. unfold unbe at 1. cbn [fold_left]. rewrite unbe_acc. lia. Qed.
Lemma unbe_nil : unbe [] = 0%N. Proof. reflexivity. Qed.

Lemma pow256_pos n : (0 < 256 ^ n)%N.
Proof. apply N.neq_0_lt_0, N.pow_nonzero. discriminate. Qed.

Lemma unbe_bound l : bytes l -> (unbe l < 256 ^ lenN l)%N.
Proof.
  induction 1 as [|x l Hx Hl IH]; [reflexivity|].
  rewrite unbe_cons. unfold lenN in *. cbn [length]. rewrite Nat2N.inj_succ, N.pow_succ_r' by lia.
  unfold octet in Hx. nia.
Qed.
Lemma unbe_be n v : unbe (be n v) = (v mod 256 ^ N.of_nat n)%N.
Proof.
  induction n as [|n IH].
  - cbn [be]. change (N.of_nat 0) with 0%N. rewrite N.pow_0_r, N.mod_1_r. reflexivity.
  - cbn [be]. rewrite unbe_cons, IH. unfold lenN. rewrite be_length.
    rewrite Nat2N.inj_succ, N.pow_succ_r' by lia.
    rewrite (N.mul_comm 256 (256 ^ _)). rewrite N.mod_mul_r by (try discriminate; apply N.pow_nonzero; discriminate).
    lia.
Qed.
Lemma unbe_be_small n v : (v < 256 ^ N.of_nat n)%N -> unbe (be n v) = v.
Proof. intros H. rewrite unbe_be. now apply N.mod_small. Qed.

Lemma be_mod n m v : n <= m -> be n (v mod 256 ^ N.of_nat m) = be n v.
Proof.
  induction n as [|n IH]; intros H; cbn [be]; [reflexivity|]. f_equal; [|apply IH; lia].
  replace (N.of_nat m) with (N.of_nat n + 1 + N.of_nat (m - S n))%N by lia.
  rewrite !N.pow_add_r, N.pow_1_r.
  pose proof (pow256_pos (N.of_nat n)) as P1. pose proof (pow256_pos (N.of_nat (m - S n))) as P2.
  set (A := (256 ^ N.of_nat n)%N) in *. set (B := (256 ^ N.of_nat (m - S n))%N) in *.
  rewrite <- N.mul_assoc, N.mod_mul_r by lia.
  rewrite (N.mul_comm A), N.div_add by lia.
  rewrite (N.div_small (v mod A)) by (apply N.mod_lt; lia). rewrite N.add_0_l.
  rewrite N.mod_mul_r by lia.
  rewrite (N.mul_comm 256), N.mod_add by lia. apply N.mod_mod. lia.
Qed.

Lemma be_unbe l n : bytes l -> n = length l -> be n (unbe l) = l.
Proof.
  intros Hl ->. induction Hl as [|x l Hx Hl IH]; [reflexivity|].
  cbn [length be]. pose proof (unbe_bound Hl) as B. pose proof (pow256_pos (lenN l)) as P.
  rewrite unbe_cons. unfold lenN in *. f_equal.
  - rewrite N.div_add_l by lia. rewrite N.div_small by exact B. rewrite N.add_0_r. now apply N.mod_small.
  - rewrite <- (@be_mod (length l) (length l)) by lia.
    rewrite N.add_comm, N.mod_add, N.mod_small by lia. exact IH.
Qed.

Lemma be_cast n m v : (256 ^ N.of_nat n = m)%N -> be n (v mod m)%N = be n v.
Proof. intros <-. now apply be_mod. Qed.

Lemma bytes_len16 a b : octet a -> octet b -> (unbe [a; b] < 65536)%N.
Proof. intros Ha Hb. apply (@unbe_bound [a; b]). repeat constructor; assumption. Qed.

(** Characterisation of the bit tests. *)
Lemma hasbit_testbit f k : hasbit f (2 ^ k) k = N.testbit f k.
Proof.
  unfold hasbit.
  assert (H : N.shiftr (N.land f (2 ^ k)) k = if N.testbit f k then 1%N else 0%N).
  { apply N.bits_inj. intros j. rewrite N.shiftr_spec', N.land_spec, N.pow2_bits_eqb.
    destruct (N.eqb_spec k (j + k)) as [E|E].
    - assert (j = 0)%N as -> by lia. rewrite N.add_0_l, andb_true_r.
      destruct (N.testbit f k); reflexivity.
    - rewrite andb_false_r. destruct (N.testbit f k); [|now rewrite N.bits_0].
      destruct j; [lia|]. reflexivity. }
  rewrite H. destruct (N.testbit f k); reflexivity.
Qed.
Lemma has1_testbit f : has1 f = N.testbit f 0.
Proof.
  change (has1 f) with (N.land f 1 =? 1)%N.
  change 1%N with (N.ones 1). rewrite N.land_ones. change (2 ^ 1)%N with 2%N. change (N.ones 1) with 1%N.
  rewrite N.bit0_odd, <- N.bit0_mod. rewrite N.bit0_odd. destruct (N.odd f); reflexivity.
Qed.
Lemma has2_testbit f : has2 f = N.testbit f 1. Proof. exact (hasbit_testbit f 1). Qed.
Lemma has3_testbit f : has3 f = N.testbit f 2. Proof. exact (hasbit_testbit f 2). Qed.
Lemma has4_testbit f : has4 f = N.testbit f 3. Proof. exact (hasbit_testbit f 3). Qed.
Lemma has5_testbit f : has5 f = N.testbit f 4. Proof. exact (hasbit_testbit f 4). Qed.
Lemma has6_testbit f : has6 f = N.testbit f 5. Proof. exact (hasbit_testbit f 5). Qed.
Lemma has7_testbit f : has7 f = N.testbit f 6. Proof. exact (hasbit_testbit f 6). Qed.
Lemma has8_testbit f : has8 f = N.testbit f 7. Proof. exact (hasbit_testbit f 7). Qed.

(** Lifting a computed sweep over all octets to every octet. *)
Definition octets : list N := map N.of_nat (seq 0 256).
Lemma octets_all (P : N -> bool) : forallb P octets = true -> forall x, octet x -> P x = true.
Proof.
  intros H x Hx. rewrite forallb_forall in H. apply H. unfold octets.
  apply in_map_iff. exists (N.to_nat x). split; [lia|]. apply in_seq. unfold octet in Hx. lia.
Qed.
