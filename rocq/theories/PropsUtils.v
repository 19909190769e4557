(** Properties C26-C29: names, digit strings, PLMN identities and odd-sized integers.
    A Go string is the list of its octets; 46 is '.', 102 is 'f'. *)
From Verif Require Import Base Utils UtilsProofs Header.
Set Implicit Arguments.
Local Open Scope N_scope.

(** ** C26 *)
(** EncodeFQDN never fails: the labels of the string, each preceded by the low octet of its length. *)
Theorem C26_encode_exact : forall ls, ls <> [] -> Forall (fun l => ~ In 46 l) ls ->
  encode_fqdn (join_dot ls) = Ok (concat (map (fun l => lenN l mod 256 :: l) ls)).
Proof. intros ls NE ND. rewrite encode_fqdn_ok, split_join by assumption. reflexivity. Qed.
(** every string is such a join *)
Theorem C26_encode_all : forall s, exists ls, ls <> [] /\ Forall (fun l => ~ In 46 l) ls /\ s = join_dot ls.
Proof. intros s. exists (split_dot s). split; [apply split_dot_nonempty|]. split; [apply split_no_dot|]. now rewrite join_split. Qed.
(** DecodeFQDN returns on every octet string: it reads labels while a complete one is there. *)
Theorem C26_decode_exact : forall b, bytes b ->
  exists ls r, b = concat (map (fun l => lenN l :: l) ls) ++ r /\ Forall (fun l => lenN l < 256) ls /\
    (r = [] \/ exists x r', r = x :: r' /\ lenN r' < x) /\ decode_fqdn b = Ok (join_dot ls).
Proof. exact decode_fqdn_exact. Qed.
(** the round trip holds exactly when no label is 256 octets or longer *)
Theorem C26_roundtrip : forall ls, ls <> [] -> Forall (fun l => ~ In 46 l) ls -> Forall bytes ls ->
  (exists b, encode_fqdn (join_dot ls) = Ok b /\ decode_fqdn b = Ok (join_dot ls)) <-> Forall (fun l => lenN l < 256) ls.
Proof.
  intros ls NE ND HB. rewrite fqdn_roundtrip_iff.
  - now rewrite split_join.
  - clear NE ND. induction HB as [|l ls Hl Hls IH]; [constructor|]. destruct ls; [exact Hl|]. rewrite join_cons.
    apply bytes_app. split; [exact Hl|]. constructor; [reflexivity|exact IH].
Qed.
Theorem C26_long_label_refuted : exists s b t, bytes s /\ encode_fqdn s = Ok b /\ decode_fqdn b = Ok t /\ t <> s.
Proof. exact fqdn_long_label. Qed.
(* "epc.3gppnetwork" and the empty label list of "" *)
Example C26_some : encode_fqdn [101; 112; 99; 46; 51] = Ok [3; 101; 112; 99; 1; 51].
Proof. reflexivity. Qed.
Example C26_some_decode : decode_fqdn [3; 101; 112; 99; 1; 51; 9; 9] = Ok [101; 112; 99; 46; 51].
Proof. reflexivity. Qed.
Print Assumptions C26_encode_exact.
Print Assumptions C26_encode_all.
Print Assumptions C26_decode_exact.
Print Assumptions C26_roundtrip.
Print Assumptions C26_long_label_refuted.

(** ** C27 *)
(** a string of an odd number of digits comes back when the last digit is cut off *)
Theorem C27_odd : forall s, Forall lhex s -> Nat.even (length s) = false ->
  exists b, str_to_swapped s [102] = Ok b /\ bytes b /\ length b = S (Nat.div2 (length s)) /\
    swapped_to_str b true = s /\ swapped_to_str b false = s ++ [102].
Proof. intros s H E. destruct (bcd_odd H E) as (b & A & B & C & D & F). exists b. auto. Qed.
(** a string of an even number of digits comes back when it is not *)
Theorem C27_even : forall s, Forall lhex s -> Nat.even (length s) = true ->
  exists b, str_to_swapped s [102] = Ok b /\ bytes b /\ length b = Nat.div2 (length s) /\
    swapped_to_str b false = s /\ swapped_to_str b true = removelast s.
Proof. intros s H E. destruct (bcd_even H E) as (b & A & B & C & D & F). exists b. auto. Qed.
(** so cutting always (as UserID does) loses a digit *)
Theorem C27_always_cut_refuted : exists s b, Forall digit s /\ str_to_swapped s [102] = Ok b /\ swapped_to_str b true <> s.
Proof.
  exists [49; 50], [33]. split; [repeat constructor; discriminate|]. split; [reflexivity|]. discriminate.
Qed.
(** the only error is a character that is no hex digit; there is no panic *)
Theorem C27_errors : forall s,
  (Forall (fun c => hexval c <> None) s -> exists b, str_to_swapped s [102] = Ok b /\ length b = Nat.div2 (S (length s))) /\
  (Exists (fun c => hexval c = None) s -> str_to_swapped s [102] = Err EHex).
Proof.
  intros s. destruct (str_to_swapped_exact s) as [A B]. split; intros H.
  - apply A. apply forallb_forall. rewrite Forall_forall in H. intros c I. unfold ishex. specialize (H c I). now destruct (hexval c).
  - apply B. apply Exists_exists in H. destruct H as (c & I & E).
    destruct (forallb ishex s) eqn:F; [|reflexivity]. rewrite forallb_forall in F. specialize (F c I). unfold ishex in F. now rewrite E in F.
Qed.
(** digit k goes to the low nibble of octet k/2 when k is even and to the high nibble when it is odd *)
Theorem C27_layout : forall a b r, a < 10 -> b < 10 -> Nat.even (length r) = true -> Forall lhex r ->
  exists t, str_to_swapped r [102] = Ok t /\ str_to_swapped (48 + a :: 48 + b :: r) [102] = Ok (b * 16 + a :: t).
Proof.
  intros a b r Ha Hb E H. destruct (@hex_decode_ok (length r) r (le_n _) H E) as (raw & D & _ & _ & _).
  exists (swap raw). unfold str_to_swapped. cbn [length Nat.even]. rewrite E, D. split; [reflexivity|].
  cbn [hex_decode]. rewrite D.
  assert (V : forall x, x < 10 -> hexval (48 + x) = Some x).
  { intros x Hx. unfold hexval. destruct (N.leb_spec 48 (48 + x)), (N.leb_spec (48 + x) 57); try lia. cbn [andb]. f_equal. lia. }
  rewrite !V by assumption. cbn [bind]. unfold swap. cbn [map]. rewrite swap1_pair by lia. reflexivity.
Qed.
Example C27_some : str_to_swapped [48; 57; 49; 50; 51] [102] = Ok [0x90; 0x21; 0xf3] /\ Forall lhex [48; 57; 49; 50; 51].
Proof. split; [reflexivity|]. repeat constructor; discriminate. Qed.
Print Assumptions C27_odd.
Print Assumptions C27_even.
Print Assumptions C27_always_cut_refuted.
Print Assumptions C27_errors.
Print Assumptions C27_layout.

(** ** C28 *)
Theorem C28_roundtrip : forall mcc mnc, Forall digit mcc -> Forall digit mnc -> length mcc = 3%nat ->
  length mnc = 2%nat \/ length mnc = 3%nat ->
  exists b, encode_plmn mcc mnc = Ok b /\ length b = 3%nat /\ bytes b /\ decode_plmn b = Ok (mcc, mnc).
Proof.
  assert (W : forall l, Forall digit l -> Forall lhex l) by (intros l; apply Forall_impl; intros c H; now left).
  intros mcc mnc H1 H2 L1 L2. apply plmn_roundtrip; auto. destruct L2 as [L2|L2]; [now left|right]. split; [exact L2|].
  destruct mnc as [|a [|b [|c [|d r]]]]; try discriminate. cbn [last]. inversion H2 as [|? ? _ H3]; subst.
  inversion H3 as [|? ? _ H4]; subst. inversion H4 as [|? ? H5 _]; subst. unfold digit in H5. lia.
Qed.
(** conversely every three octets decode, and encode back to themselves *)
Theorem C28_decode_encode : forall b, bytes b -> length b = 3%nat ->
  exists mcc mnc, decode_plmn b = Ok (mcc, mnc) /\ length mcc = 3%nat /\ encode_plmn mcc mnc = Ok b.
Proof. exact plmn_decode_encode. Qed.
(** the octets: TS 24.008 10.5.1.13 *)
Theorem C28_layout : forall a b c d e f, a < 16 -> b < 16 -> c < 16 -> d < 16 -> e < 16 -> f < 16 ->
  encode_plmn (map hexchar [a; b; c]) (map hexchar [d; e; f]) = Ok [b * 16 + a; f * 16 + c; e * 16 + d] /\
  encode_plmn (map hexchar [a; b; c]) (map hexchar [d; e]) = Ok [b * 16 + a; 15 * 16 + c; e * 16 + d].
Proof. intros. split; [now apply encode_plmn3|now apply encode_plmn2]. Qed.
(** DecodePLMN panics exactly on fewer than three octets *)
Theorem C28_decode_panic_refuted : forall b, decode_plmn b = Fault <-> (length b < 3)%nat.
Proof.
  intros b. split.
  - intros F. destruct (Nat.lt_ge_cases (length b) 3) as [L|L]; [exact L|]. destruct (@decode_plmn_long b L) as (x & y & E & _). congruence.
  - exact (@decode_plmn_short b).
Qed.
(** EncodePLMN in all cases: error on a character that is no hex digit; panic when the MNC has not two
    digits and one of the strings has two or fewer; and never a check of the lengths *)
Theorem C28_encode_exact : forall mcc mnc,
  (Exists (fun c => hexval c = None) (mcc ++ mnc) -> encode_plmn mcc mnc = Err EHex) /\
  (Forall (fun c => hexval c <> None) (mcc ++ mnc) -> length mnc <> 2%nat ->
     ((length mcc <= 2)%nat \/ (length mnc <= 2)%nat -> encode_plmn mcc mnc = Fault) /\
     ((3 <= length mcc)%nat -> (3 <= length mnc)%nat -> exists b, encode_plmn mcc mnc = Ok b /\ length b = 3%nat)) /\
  (Forall (fun c => hexval c <> None) (mcc ++ mnc) -> length mnc = 2%nat ->
     exists b, encode_plmn mcc mnc = Ok b /\ length b = S (Nat.div2 (S (length mcc)))).
Proof.
  intros mcc mnc. destruct (encode_plmn_cases mcc mnc) as (A & B & C). rewrite <- forallb_app in A, B, C.
  assert (T : Forall (fun c => hexval c <> None) (mcc ++ mnc) -> forallb ishex (mcc ++ mnc) = true).
  { intros H. apply forallb_forall. rewrite Forall_forall in H. intros c I. unfold ishex. specialize (H c I). now destruct (hexval c). }
  split; [|auto]. intros H. apply A. apply Exists_exists in H. destruct H as (c & I & E).
  destruct (forallb ishex (mcc ++ mnc)) eqn:F; [|reflexivity]. rewrite forallb_forall in F. specialize (F c I). unfold ishex in F. now rewrite E in F.
Qed.
Theorem C28_encode_panic_refuted : exists mcc mnc, Forall digit mcc /\ Forall digit mnc /\ encode_plmn mcc mnc = Fault.
Proof. exists [49; 50; 51], [52]. repeat split; repeat constructor; discriminate. Qed.
Example C28_some : encode_plmn [49; 50; 51] [52; 53] = Ok [0x21; 0xf3; 0x54] /\ encode_plmn [49; 50; 51] [52; 53; 54] = Ok [0x21; 0x63; 0x54].
Proof. split; reflexivity. Qed.
Print Assumptions C28_roundtrip.
Print Assumptions C28_decode_encode.
Print Assumptions C28_layout.
Print Assumptions C28_decode_panic_refuted.
Print Assumptions C28_encode_exact.
Print Assumptions C28_encode_panic_refuted.

(** ** C29 *)
Theorem C29_u24 : forall n, uint24To32 (uint32To24 n) = n mod 2 ^ 24 /\ uint32To24 n = be 3 n.
Proof. intros n. split; [exact (u24_roundtrip n)|apply HeaderProofs.uint32To24_be]. Qed.
Theorem C29_u24_inverse : forall b, bytes b -> (length b = 3%nat -> uint32To24 (uint24To32 b) = b /\ uint24To32 b = unbe b) /\
  (length b <> 3%nat -> uint24To32 b = 0).
Proof.
  intros b H. split; [|exact (u24_wrong b)]. intros L. split; [now apply u24_inverse|].
  destruct b as [|x [|y [|z [|w r]]]]; try discriminate.
  inversion H as [|? ? A1 H3]; subst. inversion H3 as [|? ? A2 H4]; subst. inversion H4 as [|? ? A3 _]; subst.
  now apply HeaderProofs.uint24To32_unbe.
Qed.
Theorem C29_u40 : forall n, uint40To64 (uint64To40 n) = n mod 2 ^ 40 /\ uint64To40 n = be 5 n.
Proof. intros n. split; [apply u40_roundtrip|apply uint64To40_be]. Qed.
Theorem C29_u40_inverse : forall b, bytes b -> (length b = 5%nat -> uint64To40 (uint40To64 b) = b /\ uint40To64 b = unbe b) /\
  (length b <> 5%nat -> uint40To64 b = 0).
Proof.
  intros b H. split.
  - intros L. split; [now apply u40_inverse|now apply uint40To64_unbe].
  - intros D. destruct b as [|b0 [|b1 [|b2 [|b3 [|b4 [|w r]]]]]]; try reflexivity. now destruct D.
Qed.
Theorem C29_eci : forall e, e < 2 ^ 32 -> exists enb cell, parse_eci e = Ok (enb, cell) /\ cell < 256 /\ e = enb * 256 + cell.
Proof.
  intros e H. exists (e / 256), (e mod 256). split; [now apply parse_eci_ok|].
  split; [apply N.mod_lt; discriminate|]. rewrite (N.div_mod e 256) at 1 by discriminate. lia.
Qed.
Example C29_some : uint32To24 0x123456 = [0x12; 0x34; 0x56] /\ uint64To40 0x123456789a = [0x12; 0x34; 0x56; 0x78; 0x9a].
Proof. split; reflexivity. Qed.
Print Assumptions C29_u24.
Print Assumptions C29_u24_inverse.
Print Assumptions C29_u40.
Print Assumptions C29_u40_inverse.
Print Assumptions C29_eci.
