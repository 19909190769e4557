(** Reading an IE that holds a single value and building it again: lemmas for C110 (PropsSame.v). *)
From Coq Require Import Floats.SpecFloat.
From Verif Require Import Base IETypes IE Codec Utils UtilsProofs Time TimeProofs Access AccTable AccNames AccRun New NewTable NewRun NewProofs IENames AccProofs MemberProofs Formats FormatProofs.
Set Implicit Arguments.

(** one value, one coding: except for the timers, where 60 s is 30 units of 2 s and one of a minute *)
Lemma encodes_fun f v p q : f <> FTimer -> encodes f v p -> encodes f v q -> p = q.
Proof.
  intros NT E F. destruct E; try congruence; inversion F; subst; try reflexivity.
  - (* names *) match goal with H : join_dot _ = join_dot _ |- _ => apply (f_equal split_dot) in H; rewrite !split_join in H; [subst; reflexivity|..] end;
      try assumption; (eapply Forall_impl; [|eassumption]); cbn beta; tauto.
  - do 3 f_equal. lia.
  - do 2 f_equal. lia.
  - do 2 f_equal. lia.
  - do 2 f_equal. lia.
Qed.

(** the octets that belong to the value *)
Definition width (f : fmt) (p : list N) : nat :=
  match f with FUint k | FSecs k => k | FBits _ | FTimer | F50ms => 1 | FTime | FMillis => 4 | FNanos => 8 | FText | FName | FOctets _ => length p end.
(** the formats in which all octets stand for some value *)
Definition whole (f : fmt) : bool := match f with FBits _ | FName | FTimer => false | _ => true end.

Lemma unbe_small k (p : list N) : bytes p -> k <= length p -> (unbe (firstn k p) < 256 ^ N.of_nat k)%N /\ be k (unbe (firstn k p)) = firstn k p.
Proof.
  intros B L. assert (Bf : bytes (firstn k p)) by now apply bytes_firstn. assert (E : length (firstn k p) = k) by (rewrite firstn_length; lia).
  split; [|apply be_unbe; congruence]. pose proof (unbe_bound Bf) as H. unfold lenN in H. now rewrite E in H.
Qed.
Lemma every_value f p : whole f = true -> bytes p -> fmin f <= length p -> exists v, encodes f v (firstn (width f p) p).
Proof.
  intros W B L. destruct f; try discriminate W; cbn [width fmin] in *.
  - destruct (@unbe_small k p B L) as [S E]. exists (VN (unbe (firstn k p))). rewrite <- E at 2. now constructor.
  - rewrite firstn_all. eexists. constructor.
  - destruct (@unbe_small 4 p B L) as [S E]. exists (VT ((Z.of_N (unbe (firstn 4 p)) + 2085978496) mod 4294967296 * 1000000000)%Z). rewrite <- E at 2.
    change (256 ^ N.of_nat 4)%N with 4294967296%N in S.
    assert (H : unbe (firstn 4 p) = Z.to_N (((Z.of_N (unbe (firstn 4 p)) + 2085978496) mod 4294967296 + 2208988800) mod 2 ^ 32)).
    { change (2 ^ 32)%Z with 4294967296%Z. rewrite Z.add_mod_idemp_l by lia. rewrite <- Z.add_assoc. change (2085978496 + 2208988800)%Z with (1 * 4294967296)%Z.
      rewrite Z.mod_add by lia. rewrite Z.mod_small by lia. lia. }
    rewrite H at 2. constructor. change (2 ^ 32)%Z with 4294967296%Z. apply Z.mod_pos_bound. lia.
  - destruct (@unbe_small k p B L) as [S E]. exists (VD (Z.of_N (unbe (firstn k p)) * 1000000000)%Z). rewrite <- E at 2.
    rewrite <- (N2Z.id (unbe (firstn k p))) at 2. constructor. apply N2Z.inj_lt in S. rewrite N2Z.inj_pow, nat_N_Z in S. change (Z.of_N 256) with 256%Z in S. lia.
  - destruct (@unbe_small 4 p B L) as [S E]. exists (VD (Z.of_N (unbe (firstn 4 p)) * 1000000)%Z). rewrite <- E at 2. change (256 ^ N.of_nat 4)%N with 4294967296%N in S.
    rewrite <- (N2Z.id (unbe (firstn 4 p))) at 2. constructor. change (2 ^ 32)%Z with 4294967296%Z. lia.
  - destruct p as [|x p]; [cbn in L; lia|]. inversion B as [|? ? X ?]; subst. cbn [firstn]. exists (VD (Z.of_N x * 50000000)%Z). rewrite <- (N2Z.id x) at 2. constructor. unfold octet in X. lia.
  - destruct (@unbe_small 8 p B L) as [S E]. set (n := Z.of_N (unbe (firstn 8 p))). change (256 ^ N.of_nat 8)%N with 18446744073709551616%N in S.
    exists (VD (if n <? 2 ^ 63 then n else n - 2 ^ 64)%Z). rewrite <- E.
    assert (H : unbe (firstn 8 p) = Z.to_N ((if n <? 2 ^ 63 then n else n - 2 ^ 64) mod 2 ^ 64)%Z).
    { change (2 ^ 64)%Z with 18446744073709551616%Z. change (2 ^ 63)%Z with 9223372036854775808%Z. destruct (Z.ltb_spec n 9223372036854775808).
      - rewrite Z.mod_small by lia. subst n. lia.
      - rewrite <- (Z.mod_add _ 1) by lia. rewrite Z.mod_small by lia. subst n. lia. }
    rewrite H. constructor. change (2 ^ 64)%Z with 18446744073709551616%Z. change (2 ^ 63)%Z with 9223372036854775808%Z. destruct (Z.ltb_spec n 9223372036854775808); lia.
  - rewrite firstn_all. eexists. now constructor.
Qed.

Section Same.
Variable g : N -> bool.
Variable beyond : spec_float -> N.
(** the value read is one that the constructor takes *)
Lemma arg_exists s f v p : writes f s = true -> encodes f v p -> exists x : sarg s, val_of s x = Some v.
Proof. intros W E. destruct E; destruct s; try discriminate W; cbn [sarg val_of]; eexists; reflexivity. Qed.
Lemma build_total s (x : sarg s) f v p : writes f s = true -> val_of s x = Some v -> encodes f v p -> exists b, build beyond s x = Ok (Some b).
Proof.
  intros W V E. destruct s; try discriminate V; cbn [build]; try (eexists; reflexivity).
  rewrite encode_fqdn_ok. eexists. reflexivity.
Qed.
Theorem same_value a c i f v p rest : In (ty i, f) formats -> named a (ty i) -> g (ty i) = false -> con_type c = Some (ty i) -> exempt c = false ->
  encodes f v p -> (trails f = true \/ rest = []) -> payload i = p ++ rest ->
  access g a i = Ok v /\ exists x j, val_of (con_shape c) x = Some v /\ calls g beyond c (con_shape c) x (Ok (Some j)) /\
    ty j = ty i /\ access g a j = Ok v /\ (f <> FTimer -> payload j = p).
Proof.
  intros I M G T X E R P. split; [exact (@format_decode g a i f v p rest I M G E R P)|].
  pose proof (@con_checked c (ty i) f X T I) as W. destruct (@arg_exists (con_shape c) f v p W E) as [x V].
  destruct (@build_total (con_shape c) x f v p W V E) as [b B]. exists x, (new (ty i) b).
  assert (C : calls g beyond c (con_shape c) x (Ok (Some (new (ty i) b)))).
  { split; [reflexivity|]. rewrite T. unfold make_ie. destruct (con_shape c); try discriminate V; now rewrite B. }
  split; [exact V|]. split; [exact C|]. split; [reflexivity|].
  assert (E' : encodes f v b).
  { pose proof (@format_encode g beyond c (con_shape c) x (new (ty i) b) (ty i) f v C X T I V (ex_intro _ p E)) as H. exact H. }
  split.
  - apply (@format_decode g a (new (ty i) b) f v b []); try assumption; [now apply or_intror|]. cbn [new payload]. now rewrite app_nil_r.
  - intros NT. cbn [new payload]. now apply (@encodes_fun f v).
Qed.
Theorem same_octets a c i f : In (ty i, f) formats -> whole f = true -> named a (ty i) -> g (ty i) = false -> con_type c = Some (ty i) -> exempt c = false ->
  bytes (payload i) -> fmin f <= length (payload i) ->
  exists v x j, access g a i = Ok v /\ val_of (con_shape c) x = Some v /\ calls g beyond c (con_shape c) x (Ok (Some j)) /\
    ty j = ty i /\ payload j = firstn (width f (payload i)) (payload i).
Proof.
  intros I W M G T X B L. destruct (@every_value f (payload i) W B L) as [v E].
  destruct (@same_value a c i f v (firstn (width f (payload i)) (payload i)) (skipn (width f (payload i)) (payload i)) I M G T X E) as (A & x & j & V & C & Y & _ & S).
  - destruct f; try discriminate W; cbn [width trails]; auto; rewrite skipn_all; auto.
  - symmetry. apply firstn_skipn.
  - exists v, x, j. split; [exact A|]. split; [exact V|]. split; [exact C|]. split; [exact Y|]. apply S. intros ->. discriminate W.
Qed.
(** spare bits *)
Theorem same_bits a c i k y r : In (ty i, FBits k) formats -> named a (ty i) -> g (ty i) = false -> con_type c = Some (ty i) -> exempt c = false ->
  payload i = y :: r -> (y < 256)%N ->
  exists n x j, access g a i = Ok (VN n) /\ val_of (con_shape c) x = Some (VN n) /\ calls g beyond c (con_shape c) x (Ok (Some j)) /\ ty j = ty i /\
    (payload j = [y] \/ payload j = [y mod 2 ^ k]%N).
Proof.
  intros I M G T X P Y. pose proof (@format_spare g a i k y r I M G P) as A. pose proof (@con_checked c (ty i) (FBits k) X T I) as W.
  pose proof (@bits_small_ok (ty i) k I) as K8.
  set (n := if masked (ty i) then (y mod 2 ^ k)%N else y) in A.
  assert (N : n = y \/ n = (y mod 2 ^ k)%N) by (subst n; destruct (masked (ty i)); auto). clearbody n.
  assert (P2 : (2 ^ k <> 0)%N) by now apply N.pow_nonzero.
  assert (Mod : (y mod 2 ^ k < 256)%N). { pose proof (N.mod_le y (2 ^ k) P2). lia. }
  assert (Q : forall s (S : con_shape c = s), exists (x : sarg s) b, val_of s x = Some (VN n) /\ build beyond s x = Ok (Some b) /\ (b = [y] \/ b = [y mod 2 ^ k]%N)).
  { intros s S. rewrite S in W. destruct s; cbn [writes] in W; try discriminate W; [destruct k0 as [|[|]]; try discriminate W|]; exists n; eexists; (split; [reflexivity|split; [reflexivity|]]).
    - rewrite be1 by (destruct N as [->| ->]; assumption). destruct N as [->| ->]; auto.
    - apply N.eqb_eq in W. subst. apply or_intror. f_equal. rewrite <- N.pred_sub, <- N.ones_equiv, N.land_ones. destruct N as [->| ->]; [reflexivity|]. now apply N.mod_mod. }
  destruct (Q _ eq_refl) as (x & b & V & B & H). exists n, x, (new (ty i) b). split; [exact A|]. split; [exact V|]. split; [|split; [reflexivity|exact H]].
  split; [reflexivity|]. rewrite T. unfold make_ie. destruct (con_shape c); try discriminate V; now rewrite B.
Qed.
(** timers: the duration is kept, whatever the octet *)
Lemma timer_kept y : (y < 256)%N -> exists d, timer_value [y] = Ok d /\ encodes FTimer (VD d) (new_timer d).
Proof.
  intros Y. assert (C : (y / 32 < 8)%N) by (apply N.div_lt_upper_bound; lia). assert (X : (y mod 32 < 32)%N) by (apply N.mod_upper_bound; lia).
  pose proof (@timer_decode_all (y / 32) (y mod 32) C X) as H. rewrite <- N.div_mod in H by lia. unfold u8 in H at 1. rewrite N.mod_small in H by exact Y.
  rewrite H. eexists. split; [reflexivity|]. apply timer_writes. clear H. unfold timer_repr, timer_unit.
  assert (Q : (y / 32 = 0 \/ y / 32 = 1 \/ y / 32 = 2 \/ y / 32 = 3 \/ y / 32 = 4 \/ y / 32 = 5 \/ y / 32 = 6 \/ y / 32 = 7)%N) by lia.
  destruct Q as [E|[E|[E|[E|[E|[E|[E|E]]]]]]]; rewrite E; [left|left|left|left|left|left|left|now apply or_intror].
  - exists (Z.of_N (y mod 32)), (2 * second)%Z. split; [lia|]. split; [tauto|lia].
  - exists (Z.of_N (y mod 32)), minute. split; [lia|]. split; [tauto|lia].
  - exists (Z.of_N (y mod 32)), (10 * minute)%Z. split; [lia|]. split; [tauto|lia].
  - exists (Z.of_N (y mod 32)), hour. split; [lia|]. split; [tauto|lia].
  - exists (Z.of_N (y mod 32)), (10 * hour)%Z. split; [lia|]. split; [tauto|lia].
  - exists 0%Z, hour. split; [lia|]. split; [tauto|lia].
  - exists 0%Z, hour. split; [lia|]. split; [tauto|lia].
Qed.
Theorem same_timer a c i y r : In (ty i, FTimer) formats -> named a (ty i) -> g (ty i) = false -> con_type c = Some (ty i) -> exempt c = false ->
  payload i = y :: r -> (y < 256)%N ->
  exists d x j, access g a i = Ok (VD d) /\ val_of (con_shape c) x = Some (VD d) /\ calls g beyond c (con_shape c) x (Ok (Some j)) /\ ty j = ty i /\
    length (payload j) = 1 /\ access g a j = Ok (VD d).
Proof.
  intros I M G T X P Y. destruct (timer_kept Y) as (d & D & E).
  assert (A : access g a i = Ok (VD d)).
  { destruct (format_checked I M) as (l & L & R & Q). rewrite (@leaf_access g a i l L).
    - destruct l; try discriminate R. cbn [leaf_run]. now rewrite P, timer_body_one, D.
    - apply guards_pass with (n := fmin FTimer); [exact Q|]. rewrite P. cbn. lia. }
  pose proof (@con_checked c (ty i) FTimer X T I) as W. destruct (@arg_exists (con_shape c) FTimer (VD d) _ W E) as [x V].
  destruct (@build_total (con_shape c) x FTimer (VD d) _ W V E) as [b B]. exists d, x, (new (ty i) b).
  assert (C : calls g beyond c (con_shape c) x (Ok (Some (new (ty i) b)))).
  { split; [reflexivity|]. rewrite T. unfold make_ie. destruct (con_shape c); try discriminate V; now rewrite B. }
  pose proof (@format_encode g beyond c (con_shape c) x (new (ty i) b) (ty i) FTimer (VD d) C X T I V (ex_intro _ _ E)) as E'.
  split; [exact A|]. split; [exact V|]. split; [exact C|]. split; [reflexivity|]. split; [now inversion E'|].
  apply (@format_decode g a (new (ty i) b) FTimer (VD d) b []); try assumption; [now left|]. cbn [new payload]. now rewrite app_nil_r.
Qed.
End Same.
