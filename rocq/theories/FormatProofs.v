(** The constructors and the accessors against the table of Formats.v (C86). *)
From Coq Require Import Floats.SpecFloat String.
From Verif Require Import Base IETypes IE Spec Bits IEProofs2 Header Codec Codec2 Utils UtilsProofs Time TimeProofs Fields1 Fields2 Fields3 Fields4
  IENames AccNames Access AccTable AccRun AccProofs AccProofs2 AccProofs5 New NewTable NewRun NewProofs NewProofs2 NewProofs3 MemberProofs Formats.
Set Implicit Arguments.

(** * Decoding *)
Definition reads (f : fmt) (l : leaf) : bool :=
  match f, l with
  | FUint k, LUint j => k =? j
  | FBits _, LUint 1 => true
  | FBits k, LPPIndicator => (k =? 3)%N
  | FBits k, LTGPPInterface => (k =? 6)%N
  | FText, LString | FName, LFQDN | FTime, LTime | FTimer, LTimer | FMillis, LMillis32 | F50ms, LOctet50ms | FNanos, LNanos64 => true
  | FSecs k, LSecs32 => k =? 4
  | FSecs k, LSecs16 => k =? 2
  | FOctets _, LPayload => true
  | FOctets k, LApplyAction => 1 <=? k
  | _, _ => false
  end.
Definition fmin (f : fmt) : nat :=
  match f with FUint k | FSecs k | FOctets k => k | FBits _ | FTimer | F50ms => 1 | FTime | FMillis => 4 | FNanos => 8 | FText | FName => 0 end.
Definition guard_ok (t : N) (n : nat) (x : guard) : bool := match x with GLen m => m <=? n | GType u => (u =? t)%N end.
Definition format_check_in (tab : list (N * fmt)) (k : list N) (a : acc) : bool :=
  forallb (fun '(t, f) => if memb t k then
    match look a t with Leaf l => if reads f l then forallb (guard_ok t (fmin f)) (guards (acc_def a)) else false | _ => false end else true) tab.
Lemma format_table : forallb (fun a => format_check_in formats (codes a) a) all_accs = true.
Proof. vm_compute. reflexivity. Qed.
Lemma format_check_ok tab k a t f : format_check_in tab k a = true -> In (t, f) tab -> In t k ->
  exists l, look a t = Leaf l /\ reads f l = true /\ forallb (guard_ok t (fmin f)) (guards (acc_def a)) = true.
Proof.
  unfold format_check_in. intros H I M. rewrite forallb_forall in H. specialize (H _ I). cbn beta iota in H. apply memb_spec in M. rewrite M in H.
  destruct (look a t) as [l| | | |]; try discriminate. destruct (reads f l) eqn:R; [|discriminate]. now exists l.
Qed.
Lemma format_checked a t f : In (t, f) formats -> named a t ->
  exists l, look a t = Leaf l /\ reads f l = true /\ forallb (guard_ok t (fmin f)) (guards (acc_def a)) = true.
Proof.
  intros I M. apply (proj2 (codes_ok a t)) in M.
  assert (H : format_check_in formats (codes a) a = true) by exact (@acc_check (fun a => format_check_in formats (codes a) a) format_table a).
  revert H I M. generalize (codes a) formats. intros k tab H I M. exact (@format_check_ok tab k a t f H I M).
Qed.
Lemma guards_pass gs n i : forallb (guard_ok (ty i) n) gs = true -> n <= length (payload i) -> check gs i = Ok tt.
Proof.
  intros H L. induction gs as [|x r IH]; [reflexivity|]. cbn [forallb] in H. apply andb_prop in H as [H1 H2]. destruct x as [m|u]; cbn [check guard_ok] in *.
  - apply Nat.leb_le in H1. destruct (Nat.ltb_spec (length (payload i)) m); [lia|]. now apply IH.
  - apply N.eqb_eq in H1. subst u. rewrite N.eqb_refl. cbn [negb]. now apply IH.
Qed.
Lemma encodes_min f v p : encodes f v p -> fmin f <= length p.
Proof. intros E. destruct E; cbn [fmin]; rewrite ?be_length; cbn [length]; lia. Qed.

Lemma get_first k v r : (v < 256 ^ N.of_nat k)%N -> getr k (be k v ++ r) 0 k = Ok v.
Proof. intros H. exact (@getr_app k [] v r H). Qed.
Lemma low_bits k v m : (v < 2 ^ k)%N -> m = (2 ^ k - 1)%N -> N.land v m = v.
Proof. intros H ->. rewrite <- N.pred_sub, <- N.ones_equiv, N.land_ones. now apply N.mod_small. Qed.
Lemma timer_body_one x r : timer_body (x :: r) = timer_value [x].
Proof. reflexivity. Qed.
Lemma timer_code_units code unit : In (code, unit) [(0, 2); (1, 60); (2, 600); (3, 3600); (4, 36000)]%Z -> (0 <= code < 5)%Z.
Proof. intros [H|[H|[H|[H|[H|[]]]]]]; injection H as <- <-; lia. Qed.
Lemma timer_read code unit k : In (code, unit) [(0, 2); (1, 60); (2, 600); (3, 3600); (4, 36000)]%Z -> (0 <= k < 32)%Z ->
  timer_value [Z.to_N (32 * code + k)] = Ok (k * (unit * 1000000000))%Z.
Proof.
  intros I K. pose proof (timer_code_units I) as C.
  replace (Z.to_N (32 * code + k)) with (u8 (32 * Z.to_N code + Z.to_N k)).
  2: { unfold u8. rewrite N.mod_small by lia. lia. }
  rewrite timer_decode_all by lia. f_equal.
  destruct I as [H|[H|[H|[H|[H|[]]]]]]; injection H as <- <-; cbn [Z.to_N]; rewrite Z2N.id by lia; unfold hour, minute, second; lia.
Qed.

Section Decode.
Variable g : N -> bool.
Lemma leaf_reads l f v p rest i : reads f l = true -> g (ty i) = false -> encodes f v p -> (trails f = true \/ rest = []) -> payload i = p ++ rest ->
  leaf_run g l i = Ok v.
Proof.
  intros R G E T P. destruct E.
  - (* uint *) destruct l as [j| | | | | | | | | | | | | | | | | | | | | | | | | | | | | | | | ]; try discriminate R. cbn [reads] in R. apply Nat.eqb_eq in R. subst j.
    cbn [leaf_run]. unfold value_as_uint. rewrite G, P, app_length, be_length. destruct (Nat.ltb_spec (k + length rest) k); [lia|]. now rewrite get_first.
  - (* bits *) destruct l as [[|[|j]]| | | | | | | | | | | | | | | | | | | | | | | | | | | | | | | | ]; try discriminate R; cbn [reads] in R.
    + cbn [leaf_run]. unfold value_as_uint. rewrite G, P. reflexivity.
    + apply N.eqb_eq in R. subst k. cbn [leaf_run]. rewrite P. cbn. do 2 f_equal. now apply (@low_bits 3).
    + apply N.eqb_eq in R. subst k. cbn [leaf_run]. rewrite P. cbn. do 2 f_equal. now apply (@low_bits 6).
  - destruct l; try discriminate R. destruct T as [T| ->]; [discriminate|]. rewrite app_nil_r in P. cbn [leaf_run]. unfold value_as_string. now rewrite G, P.
  - destruct l; try discriminate R. destruct T as [T| ->]; [discriminate|]. rewrite app_nil_r in P. cbn [leaf_run]. rewrite G, P.
    change (concat (map (fun l => lenN l :: l) ls)) with (name_syntax ls). rewrite (@decode_fqdn_name ls); [reflexivity|]. eapply Forall_impl; [|exact H0]. cbn beta. tauto.
  - destruct l; try discriminate R. cbn [leaf_run]. rewrite G, P. unfold timestamp_value. rewrite app_length, be_length. destruct (Nat.ltb_spec (4 + length rest) 4); [lia|].
    assert (B : (0 <= (s + 2208988800) mod 2 ^ 32 < 2 ^ 32)%Z) by (apply Z.mod_pos_bound; reflexivity).
    rewrite get_first. 2: { change (256 ^ N.of_nat 4)%N with 4294967296%N. change (2 ^ 32)%Z with 4294967296%Z in B. lia. }
    cbn [bind as_t]. do 2 f_equal. unfold second. f_equal.
    unfold u32. rewrite N2Z.inj_mod, N2Z.inj_add, Z2N.id by lia. change (2 ^ 32)%Z with 4294967296%Z in *.
    change (Z.of_N (4294967296 - 2208988800)) with 2085978496%Z. change (Z.of_N (2 ^ 32)) with 4294967296%Z.
    rewrite Z.add_mod_idemp_l by lia. rewrite <- Z.add_assoc. change (2208988800 + 2085978496)%Z with (1 * 4294967296)%Z. rewrite Z.mod_add by lia. now rewrite Z.mod_small.
  - destruct l; try discriminate R. cbn [leaf_run]. rewrite P. change ([Z.to_N (32 * code + k)] ++ rest) with (Z.to_N (32 * code + k) :: rest).
    rewrite timer_body_one, (@timer_read code unit k) by assumption. reflexivity.
  - destruct l; try discriminate R. cbn [leaf_run]. rewrite P. reflexivity.
  - assert (B : (Z.to_N s < 256 ^ N.of_nat k)%N).
    { apply N2Z.inj_lt. rewrite Z2N.id, N2Z.inj_pow by lia. rewrite nat_N_Z. exact (proj2 H). }
    destruct l; try discriminate R; cbn [reads] in R; apply Nat.eqb_eq in R; subst k; cbn [leaf_run]; rewrite P, get_first by exact B; cbn [bind as_d]; now rewrite Z2N.id by lia.
  - destruct l; try discriminate R. cbn [leaf_run]. rewrite P, get_first by (change (256 ^ N.of_nat 4)%N with 4294967296%N; lia). cbn [bind as_d]. now rewrite Z2N.id by lia.
  - destruct l; try discriminate R. cbn [leaf_run]. rewrite P. cbn [app]. unfold index. cbn [nth_error bind as_d]. now rewrite Z2N.id by lia.
  - destruct l; try discriminate R. cbn [leaf_run].
    assert (B : (0 <= d mod 2 ^ 64 < 2 ^ 64)%Z) by (apply Z.mod_pos_bound; reflexivity).
    rewrite P, get_first by (change (256 ^ N.of_nat 8)%N with (2 ^ 64)%N; change (2 ^ 64)%Z with (Z.of_N (2 ^ 64)) in B at 2; lia).
    cbn [bind as_d]. do 2 f_equal. change (2 ^ 63)%Z with 9223372036854775808%Z in H. unfold to_i64. change (2 ^ 64)%Z with 18446744073709551616%Z in *.
    destruct (Z.lt_ge_cases d 0) as [L|L].
    + assert (M : (d mod 18446744073709551616)%Z = (d + 1 * 18446744073709551616)%Z) by (rewrite <- (Z.mod_add d 1) by lia; apply Z.mod_small; lia). rewrite M.
      destruct (N.ltb_spec (Z.to_N (d + 1 * 18446744073709551616)) 9223372036854775808); lia.
    + rewrite Z.mod_small in * by lia. destruct (N.ltb_spec (Z.to_N d) 9223372036854775808); lia.
  - destruct T as [T| ->]; [discriminate|]. rewrite app_nil_r in P. destruct l; try discriminate R; cbn [leaf_run]; rewrite P; [reflexivity|].
    cbn [reads] in R. apply Nat.leb_le in R. destruct (Nat.ltb_spec (length b) 1); [lia|reflexivity].
Qed.
Lemma leaf_access a i l : look a (ty i) = Leaf l -> check (guards (acc_def a)) i = Ok tt -> access g a i = leaf_run g l i.
Proof.
  intros L C. unfold access. change (4 * S (length (payload i))) with (S (length (payload i) + 3 * S (length (payload i)))) || idtac.
  replace (4 * S (length (payload i))) with (S (3 + 4 * length (payload i))) by lia. rewrite run_S, C. cbn [bind]. unfold look in L |- *. now rewrite L.
Qed.
Theorem format_decode a i f v p rest : In (ty i, f) formats -> named a (ty i) -> g (ty i) = false -> encodes f v p -> (trails f = true \/ rest = []) ->
  payload i = p ++ rest -> access g a i = Ok v.
Proof.
  intros I M G E T P. destruct (format_checked I M) as (l & L & R & Q). rewrite (@leaf_access a i l L).
  - exact (@leaf_reads l f v p rest i R G E T P).
  - apply guards_pass with (n := fmin f); [exact Q|]. rewrite P, app_length. pose proof (encodes_min E). lia.
Qed.
End Decode.

(** * Encoding *)
(** the value given to a constructor of one of these shapes *)
Definition val_of (s : shape) : sarg s -> option val :=
  match s return sarg s -> option val with
  | SUint _ | SMask _ => fun v => Some (VN v)
  | SString | SFQDN => fun x => Some (VS x)
  | SOctets => fun b => Some (VB b)
  | STime => fun t => Some (VT t)
  | STimer | SSecs32 | SSecs16 | SMillis | S50ms | SNanos => fun d => Some (VD d)
  | _ => fun _ => None
  end.
Definition writes (f : fmt) (s : shape) : bool :=
  match f, s with
  | FUint k, SUint j => k =? j
  | FBits _, SUint 1 => true
  | FBits k, SMask m => (m =? 2 ^ k - 1)%N
  | FText, SString | FName, SFQDN | FTime, STime | FTimer, STimer | FMillis, SMillis | F50ms, S50ms | FNanos, SNanos | FOctets _, SOctets => true
  | FSecs k, SSecs32 => k =? 4
  | FSecs k, SSecs16 => k =? 2
  | _, _ => false
  end.
Definition exempt (c : con) : bool := match c with N_NetworkInstanceFQDN | N_UPFunctionFeatures => true | _ => false end.
Definition con_check (c : con) : bool :=
  if exempt c then true else
  match con_type c with Some t => forallb (fun '(u, f) => if (u =? t)%N then writes f (con_shape c) else true) formats | None => true end.
Lemma con_checks c : con_check c = true.
Proof. destruct c; vm_compute; reflexivity. Qed.
Lemma con_checked c t f : exempt c = false -> con_type c = Some t -> In (t, f) formats -> writes f (con_shape c) = true.
Proof.
  intros X T I. pose proof (con_checks c) as H. unfold con_check in H. rewrite X, T in H. revert H I. generalize formats. intros tab H I.
  rewrite forallb_forall in H. specialize (H _ I). cbn beta iota in H. now rewrite N.eqb_refl in H.
Qed.
Lemma timer_unit_code u : timer_unit u -> exists code unit, In (code, unit) [(0, 2); (1, 60); (2, 600); (3, 3600); (4, 36000)]%Z /\ u = (unit * 1000000000)%Z.
Proof. intros [->|[->|[->|[->| ->]]]]; [exists 0%Z, 2%Z|exists 1%Z, 60%Z|exists 2%Z, 600%Z|exists 3%Z, 3600%Z|exists 4%Z, 36000%Z]; (split; [cbn; tauto|reflexivity]). Qed.
Lemma timer_writes d : timer_repr d \/ d = maxint64 -> encodes FTimer (VD d) (new_timer d).
Proof.
  intros H. apply timer_roundtrip_iff in H. rewrite timer_exact in H. injection H as H.
  unfold new_timer. change (1 * hour)%Z with hour. change (1 * minute)%Z with minute. rewrite !rem0_mod by reflexivity. unfold timer_pick in H.
  assert (L : forall n code unit, (0 <= code < 5)%Z -> n = Z.to_N (32 * code) -> In (code, unit) [(0, 2); (1, 60); (2, 600); (3, 3600); (4, 36000)]%Z ->
    (d mod (unit * 1000000000) = 0)%Z -> ((d / (unit * 1000000000)) mod 32 * (unit * 1000000000) = d)%Z -> (0 < unit)%Z ->
    encodes FTimer (VD d) [u8 (n + N.land (to_u8 (Z.quot d (unit * 1000000000))) 0x1f)]).
  { clear H. intros n code unit C -> I M E U. rewrite (@quot_div_exact d (unit * 1000000000)); [|lia|exact M].
    pose proof (to_u8_31 (d / (unit * 1000000000))) as K. pose proof (Z.mod_pos_bound (d / (unit * 1000000000)) 32 eq_refl) as B.
    replace (u8 (Z.to_N (32 * code) + N.land (to_u8 (d / (unit * 1000000000))) 31)) with (Z.to_N (32 * code + (d / (unit * 1000000000)) mod 32)).
    2: { unfold u8. rewrite N.mod_small by lia. lia. }
    rewrite <- E at 1. apply enc_timer; [exact I|exact B]. }
  destruct (Z.eqb_spec (d mod (10 * hour)) 0) as [E|_]; [apply (L 0x80%N 4%Z 36000%Z); [lia|reflexivity|cbn; tauto|exact E|exact H|lia]|].
  destruct (Z.eqb_spec (d mod hour) 0) as [E|_]; [apply (L 0x60%N 3%Z 3600%Z); [lia|reflexivity|cbn; tauto|exact E|exact H|lia]|].
  destruct (Z.eqb_spec (d mod (10 * minute)) 0) as [E|_]; [apply (L 0x40%N 2%Z 600%Z); [lia|reflexivity|cbn; tauto|exact E|exact H|lia]|].
  destruct (Z.eqb_spec (d mod minute) 0) as [E|_]; [apply (L 0x20%N 1%Z 60%Z); [lia|reflexivity|cbn; tauto|exact E|exact H|lia]|].
  destruct (Z.eqb_spec (d mod (2 * second)) 0) as [E|_]; [apply (L 0%N 0%Z 2%Z); [lia|reflexivity|cbn; tauto|exact E|exact H|lia]|].
  rewrite <- H. exact enc_forever.
Qed.
Lemma encodes_timer d p : encodes FTimer (VD d) p -> timer_repr d \/ d = maxint64.
Proof.
  intros E. inversion E as [| | | | |code unit k I K| | | | | |]; subst; [left|now right]. exists k, (unit * 1000000000)%Z. repeat split; try lia.
  destruct I as [H|[H|[H|[H|[H|[]]]]]]; injection H as <- <-; unfold timer_unit, hour, minute, second; lia.
Qed.
Lemma be1 v : (v < 256)%N -> be 1 v = [v].
Proof. intros V. unfold be. cbn. change (256 ^ N.of_nat 0)%N with 1%N. rewrite N.div_1_r. now rewrite N.mod_small. Qed.

Section Encode.
Variable g : N -> bool.
Variable beyond : spec_float -> N.
Lemma build_encodes s (a : sarg s) f v p b : (forall k, f = FBits k -> (k <= 8)%N) -> writes f s = true -> val_of s a = Some v -> encodes f v p -> build beyond s a = Ok (Some b) -> encodes f v b.
Proof.
  intros W8 W V E B. destruct s; try discriminate V; cbn [val_of] in V; injection V as <-; cbn [sarg] in a; cbn [build] in B.
  - injection B as <-. destruct f; try discriminate W; cbn [writes] in W.
    + apply Nat.eqb_eq in W. subst. inversion E; subst. now constructor.
    + destruct k as [|[|k]]; try discriminate W. inversion E; subst. rewrite be1; [assumption|]. specialize (W8 _ eq_refl). pose proof (N.pow_le_mono_r 2 k0 8). change (2 ^ 8)%N with 256%N in *. lia.
  - injection B as <-. destruct f; try discriminate W; cbn [writes] in W. apply N.eqb_eq in W. inversion E; subst. now rewrite (@low_bits k).
  - injection B as <-. destruct f; try discriminate W. constructor.
  - destruct f; try discriminate W. apply bind_ok in B as (e & B & B'). injection B' as <-. inversion E as [| | |ls NE F EQ| | | | | | | |]; subst.
    rewrite encode_fqdn_ok, split_join in B; [|exact NE|eapply Forall_impl; [|exact F]; cbn beta; tauto]. injection B as <-.
    replace (concat (map label_wire ls)) with (concat (map (fun l => lenN l :: l) ls)); [assumption|]. f_equal. apply map_ext_in. intros l I. rewrite Forall_forall in F.
    destruct (F _ I) as (_ & L & _). unfold label_wire, u8. now rewrite N.mod_small.
  - injection B as <-. destruct f; try discriminate W. inversion E; subst. now constructor.
  - injection B as <-. destruct f; try discriminate W. inversion E as [| | | |s S| | | | | | |]; subst.
    replace (new_timestamp (s * 1000000000)) with (be 4 (Z.to_N ((s + 2208988800) mod 2 ^ 32))); [assumption|].
    unfold new_timestamp. f_equal. unfold secs1900, time_sub, epoch1900, to_u64, second, minint64, maxint64, u32. change (2 ^ 32)%Z with 4294967296%Z in *. change (2 ^ 63)%Z with 9223372036854775808%Z.
    change (2 ^ 64)%Z with 18446744073709551616%Z.
    replace (s * 1000000000 - - 2208988800 * 1000000000)%Z with ((s + 2208988800) * 1000000000)%Z by lia.
    rewrite Z.min_r, Z.max_r by lia. rewrite (Z.mod_small ((s + 2208988800) * 1000000000)) by lia.
    apply N2Z.inj. rewrite N2Z.inj_mod, N2Z.inj_div, !Z2N.id by (try apply Z.mod_pos_bound; lia). change (Z.of_N 1000000000) with 1000000000%Z. rewrite Z.div_mul by lia. reflexivity.
  - injection B as <-. destruct f; try discriminate W. apply timer_writes. exact (encodes_timer E).
  - destruct f; try discriminate W; cbn [writes] in W. apply Nat.eqb_eq in W. subst. inversion E as [| | | | | | |k s S| | | |]; subst. injection B as <-.
    change 1000000000%Z with second. rewrite conv_whole by (try reflexivity; exact S). assumption.
  - destruct f; try discriminate W; cbn [writes] in W. apply Nat.eqb_eq in W. subst. inversion E as [| | | | | | |k s S| | | |]; subst. injection B as <-.
    change 1000000000%Z with second. rewrite conv_whole; [assumption|reflexivity|exact S|discriminate].
  - injection B as <-. destruct f; try discriminate W. inversion E; subst. unfold new_millis. rewrite Z.quot_mul by lia. rewrite Z.mod_small by assumption. assumption.
  - injection B as <-. destruct f; try discriminate W. inversion E; subst. unfold new_ddn_delay, to_u8. rewrite Z.quot_mul by lia. rewrite Z.mod_small by assumption. assumption.
  - injection B as <-. destruct f; try discriminate W. inversion E; subst. exact E.
Qed.
Definition bits_small : bool := forallb (fun '(_, f) => match f with FBits k => (k <=? 8)%N | _ => true end) formats.
Lemma bits_small_ok t k : In (t, FBits k) formats -> (k <= 8)%N.
Proof.
  assert (H : bits_small = true) by (vm_compute; reflexivity). unfold bits_small in H. revert H. generalize formats. intros tab H I.
  rewrite forallb_forall in H. specialize (H _ I). cbn beta iota in H. now apply N.leb_le.
Qed.
Theorem format_encode c s a i t f v : calls g beyond c s a (Ok (Some i)) -> exempt c = false -> con_type c = Some t -> In (t, f) formats -> val_of s a = Some v ->
  (exists p, encodes f v p) -> encodes f v (payload i).
Proof.
  intros C X T I V [p E]. pose proof (@con_checked c t f X T I) as W. rewrite (proj1 C) in W.
  assert (G : is_group s = false) by (destruct s; try reflexivity; discriminate V).
  destruct (calls_new C G) as (t' & b & _ & B & ->). cbn [new payload]. apply (@build_encodes s a f v p b); try assumption.
  intros k ->. exact (@bits_small_ok t k I).
Qed.
(** the converse: constructors write nothing else *)
Theorem format_shape c t f : con_type c = Some t -> In (t, f) formats -> exempt c = false -> forall s (a : sarg s), con_shape c = s -> exists v, val_of s a = Some v.
Proof.
  intros T I X s a S. pose proof (@con_checked c t f X T I) as W. rewrite S in W. destruct s; try (eexists; reflexivity); destruct f; discriminate W.
Qed.
End Encode.

(** * Other payloads *)
Section Other.
Variable g : N -> bool.
Lemma guards_short gs n i : forallb (guard_ok (ty i) n) gs = true -> check gs i = Ok tt \/ check gs i = Err EUnexpectedEOF.
Proof.
  intros H. induction gs as [|x r IH]; [now left|]. cbn [forallb] in H. apply andb_prop in H as [H1 H2]. destruct x as [m|u]; cbn [check guard_ok] in *.
  - destruct (length (payload i) <? m); [now right|]. now apply IH.
  - apply N.eqb_eq in H1. subst u. rewrite N.eqb_refl. cbn [negb]. now apply IH.
Qed.
Theorem format_short a i k : In (ty i, FUint k) formats -> named a (ty i) -> g (ty i) = false -> length (payload i) < k -> access g a i = Err EUnexpectedEOF.
Proof.
  intros I M G H. destruct (format_checked I M) as (l & L & R & Q).
  destruct (@guards_short _ _ i Q) as [C|C].
  - rewrite (@leaf_access g a i l L C). destruct l; try discriminate R. cbn [reads] in R. apply Nat.eqb_eq in R. subst. cbn [leaf_run]. unfold value_as_uint. rewrite G.
    destruct (Nat.ltb_spec (length (payload i)) k0); [reflexivity|lia].
  - unfold access. replace (4 * S (length (payload i))) with (S (3 + 4 * length (payload i))) by lia. rewrite run_S, C. reflexivity.
Qed.
Definition masked (t : N) : bool := (t =? T_PagingPolicyIndicator)%N || (t =? T_TGPPInterfaceType)%N.
Definition mask_check_in (tab : list (N * fmt)) (k : list N) (a : acc) : bool :=
  forallb (fun '(t, f) => if memb t k then match f with FBits _ => match look a t with Leaf (LUint 1) => negb (masked t) | Leaf LPPIndicator | Leaf LTGPPInterface => masked t | _ => false end | _ => true end else true) tab.
Lemma mask_table : forallb (fun a => mask_check_in formats (codes a) a) all_accs = true.
Proof. vm_compute. reflexivity. Qed.
Lemma mask_checked a t k : In (t, FBits k) formats -> named a t ->
  match look a t with Leaf (LUint 1) => masked t = false | Leaf LPPIndicator | Leaf LTGPPInterface => masked t = true | _ => False end.
Proof.
  intros I M. apply (proj2 (codes_ok a t)) in M.
  assert (H : mask_check_in formats (codes a) a = true) by exact (@acc_check (fun a => mask_check_in formats (codes a) a) mask_table a).
  revert H I M. generalize (codes a) formats. intros ks tab H I M. unfold mask_check_in in H. rewrite forallb_forall in H. specialize (H _ I). cbn beta iota in H.
  apply memb_spec in M. rewrite M in H. destruct (look a t) as [[[|[|j]]| | | | | | | | | | | | | | | | | | | | | | | | | | | | | | | | ]| | | |]; try discriminate; try assumption. now apply negb_true_iff.
Qed.
Theorem format_spare a i k x r : In (ty i, FBits k) formats -> named a (ty i) -> g (ty i) = false -> payload i = x :: r ->
  access g a i = Ok (VN (if masked (ty i) then x mod 2 ^ k else x))%N.
Proof.
  intros I M G P. destruct (format_checked I M) as (l & L & R & Q). pose proof (@mask_checked a (ty i) k I M) as K. rewrite L in K.
  rewrite (@leaf_access g a i l L) by (apply guards_pass with (n := fmin (FBits k)); [exact Q|rewrite P; cbn [fmin length]; lia]).
  destruct l as [[|[|j]]| | | | | | | | | | | | | | | | | | | | | | | | | | | | | | | | ]; try contradiction; rewrite K; cbn [leaf_run reads] in *.
  - unfold value_as_uint. rewrite G, P. reflexivity.
  - apply N.eqb_eq in R. subst k. rewrite P. cbn. do 2 f_equal. exact (N.land_ones x 3).
  - apply N.eqb_eq in R. subst k. rewrite P. cbn. do 2 f_equal. exact (N.land_ones x 6).
Qed.
End Other.
