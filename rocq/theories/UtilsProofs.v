(** Proofs about Utils.v. *)
From Verif Require Import Base Bits Header HeaderProofs Utils.
Set Implicit Arguments.
Local Open Scope N_scope.

(** ** FQDN *)
Definition label_wire (l : list N) : list N := u8 (lenN l) :: l.

Lemma split_dot_nonempty s : split_dot s <> [].
Proof. destruct s as [|c r]; cbn; [discriminate|]. destruct (c =? 46); [discriminate|]. now destruct (split_dot r). Qed.
Lemma join_split s : join_dot (split_dot s) = s.
Proof.
  induction s as [|c r IH]; [reflexivity|]. cbn [split_dot]. destruct (N.eqb_spec c 46) as [->|D].
  - cbn [join_dot app]. pose proof (@split_dot_nonempty r) as NE. destruct (split_dot r); [congruence|].
    cbn [app]. f_equal. exact IH.
  - pose proof (@split_dot_nonempty r) as NE. destruct (split_dot r) as [|l ls]; [congruence|].
    destruct ls as [|l2 ls]; cbn [join_dot app] in *; [now f_equal|]. f_equal. exact IH.
Qed.
Lemma split_no_dot s : Forall (fun l => ~ In 46 l) (split_dot s).
Proof.
  induction s as [|c r IH]; cbn [split_dot].
  - constructor; [intros []|constructor].
  - destruct (N.eqb_spec c 46) as [->|D].
    + constructor; [intros []|exact IH].
    + pose proof (@split_dot_nonempty r) as NE. destruct (split_dot r) as [|l ls]; [congruence|].
      inversion IH; subst. constructor; [|assumption]. intros [?|?]; [congruence|auto].
Qed.
Lemma split_total s : length (concat (map label_wire (split_dot s))) = S (length s).
Proof.
  induction s as [|c r IH]; [reflexivity|]. cbn [split_dot]. destruct (c =? 46).
  - cbn [map concat label_wire length app]. now rewrite IH.
  - pose proof (@split_dot_nonempty r) as NE. destruct (split_dot r) as [|l ls]; [congruence|].
    cbn [map concat label_wire length app] in *. rewrite app_length in *. cbn [length] in *. lia.
Qed.
Lemma encode_loop labels : forall p r, (length (concat (map label_wire labels)) <= length r)%nat ->
  encode_fqdn_loop (p ++ r) (length p) labels =
  Ok (p ++ concat (map label_wire labels) ++ skipn (length (concat (map label_wire labels))) r).
Proof.
  induction labels as [|l ls IH]; intros p r H; cbn [encode_fqdn_loop map concat].
  - cbn. reflexivity.
  - cbn [map concat label_wire app length] in H. rewrite app_length in H.
    rewrite put_app by (cbn; lia). cbn [bind length].
    assert (E : p ++ [u8 (lenN l)] ++ skipn 1 r = (p ++ [u8 (lenN l)]) ++ skipn 1 r) by now rewrite <- app_assoc.
    rewrite E. unfold copy_from.
    assert (L : length ((p ++ [u8 (lenN l)]) ++ skipn 1 r) = (length p + length r)%nat).
    { rewrite !app_length, skipn_length. cbn [length]. lia. }
    rewrite copy_range_ok by (rewrite L; lia). cbn [bind]. rewrite L.
    rewrite firstn_all2 with (l := l) by lia.
    rewrite firstn_app_exact by (rewrite app_length; cbn; lia).
    rewrite skipn_app_plus with (k := length l) by (rewrite app_length; cbn; lia).
    rewrite skipn_skipn'.
    rewrite app_assoc. replace (length p + (length l + 1))%nat with (length ((p ++ [u8 (lenN l)]) ++ l)) by (rewrite !app_length; cbn; lia).
    rewrite IH by (rewrite skipn_length; lia).
    rewrite skipn_skipn'. cbn [label_wire app length]. rewrite app_length, <- !app_assoc. cbn [app].
    reflexivity.
Qed.
Theorem encode_fqdn_ok s : encode_fqdn s = Ok (concat (map label_wire (split_dot s))).
Proof.
  unfold encode_fqdn. pose proof (@encode_loop (split_dot s) [] (make (length s + 1))) as E. cbn [app length] in E.
  rewrite E.
  - rewrite skipn_all2; [now rewrite app_nil_r|]. rewrite split_total. unfold make. rewrite repeat_length. lia.
  - rewrite split_total. unfold make. rewrite repeat_length. lia.
Qed.

(** RFC 1035 name syntax: each label preceded by its length *)
Definition name_syntax (ls : list (list N)) : list N := concat (map (fun l => lenN l :: l) ls).
Lemma decode_loop : forall n p q acc, bytes q -> (length q < n)%nat ->
  exists ls r, q = name_syntax ls ++ r /\ Forall (fun l => lenN l < 256) ls /\
    (r = [] \/ exists x r', r = x :: r' /\ lenN r' < x) /\
    decode_fqdn_loop n (p ++ q) (length p) acc = Ok (acc ++ ls).
Proof.
  induction n as [|n IH]; intros p q acc Hq L; [lia|]. cbn [decode_fqdn_loop]. rewrite app_length.
  destruct q as [|x q].
  - exists [], []. cbn. rewrite Nat.add_0_r, Nat.leb_refl, app_nil_r. auto.
  - destruct (Nat.leb_spec (length p + length (x :: q)) (length p)) as [H|H]; [cbn in H; lia|clear H].
    rewrite index_app by reflexivity. cbn [bind].
    inversion Hq as [|? ? Hx Hq']; subst. unfold octet in Hx.
    destruct (Nat.ltb_spec (length p + length (x :: q)) (length p + N.to_nat x + 1)) as [H|H]; cbn [length] in H.
    + exists [], (x :: q). cbn. rewrite app_nil_r. split; [reflexivity|]. split; [constructor|]. split; [|reflexivity].
      right. exists x, q. split; [reflexivity|]. unfold lenN. lia.
    + set (l := firstn (N.to_nat x) q). set (q' := skipn (N.to_nat x) q).
      assert (Ll : length l = N.to_nat x) by (unfold l; rewrite firstn_length; lia).
      assert (E : p ++ x :: q = (p ++ [x]) ++ l ++ q') by (unfold l, q'; rewrite firstn_skipn, <- app_assoc; reflexivity).
      rewrite E. rewrite slice_app by (rewrite app_length; cbn; lia). cbn [bind].
      rewrite app_assoc. replace (length p + (N.to_nat x + 1))%nat with (length ((p ++ [x]) ++ l)) by (rewrite !app_length; cbn; lia).
      destruct (IH ((p ++ [x]) ++ l) q' (acc ++ [l])) as (ls & r & Eq & Fa & St & D).
      { apply bytes_skipn. exact Hq'. }
      { unfold q'. rewrite skipn_length. cbn [length] in L. lia. }
      exists (l :: ls), r. split; [|split; [|split; [exact St|]]].
      * unfold name_syntax. cbn [map concat app]. rewrite <- app_assoc. fold (name_syntax ls). rewrite <- Eq.
        unfold lenN. rewrite Ll, N2Nat.id. unfold l, q'. now rewrite firstn_skipn.
      * constructor; [unfold lenN; lia|exact Fa].
      * rewrite D. now rewrite <- app_assoc.
Qed.
Theorem decode_fqdn_exact b : bytes b -> exists ls r, b = name_syntax ls ++ r /\ Forall (fun l => lenN l < 256) ls /\
    (r = [] \/ exists x r', r = x :: r' /\ lenN r' < x) /\ decode_fqdn b = Ok (join_dot ls).
Proof.
  intros Hb. destruct (@decode_loop (S (length b)) [] b [] Hb) as (ls & r & E & F & S & D); [lia|].
  exists ls, r. do 3 (split; [assumption|]). unfold decode_fqdn. cbn [app length] in D. now rewrite D.
Qed.
(** the decomposition is unique *)
Lemma name_syntax_unique : forall ls ls' r r',
  name_syntax ls ++ r = name_syntax ls' ++ r' ->
  (r = [] \/ exists x t, r = x :: t /\ lenN t < x) -> (r' = [] \/ exists x t, r' = x :: t /\ lenN t < x) ->
  ls = ls' /\ r = r'.
Proof.
  induction ls as [|l ls IH]; intros [|l' ls'] r r' E S S'; unfold name_syntax in *; cbn [map concat app] in E.
  - auto.
  - exfalso. rewrite <- app_assoc in E. destruct S as [->|(x & t & -> & L)]; [discriminate|].
    injection E as -> ->. unfold lenN in L. rewrite app_length in L. lia.
  - exfalso. rewrite <- app_assoc in E. destruct S' as [->|(x & t & -> & L)]; [discriminate|].
    injection E as <- <-. unfold lenN in L. rewrite app_length in L. lia.
  - injection E as E1 E2. unfold lenN in E1. apply Nat2N.inj in E1.
    rewrite <- !app_assoc in E2. destruct (app_inj_len _ _ _ _ E1 E2) as [-> E3].
    destruct (IH ls' r r' E3 S S') as [-> ->]. auto.
Qed.
Lemma bytes_name ls : Forall (fun l => bytes l /\ lenN l < 256) ls -> bytes (name_syntax ls).
Proof.
  induction 1 as [|l ls [B L] _ IH]; unfold name_syntax; cbn [map concat]; [constructor|].
  apply bytes_app. split; [constructor; [exact L|exact B]|exact IH].
Qed.
Theorem decode_fqdn_name ls : Forall (fun l => bytes l /\ lenN l < 256) ls -> decode_fqdn (name_syntax ls) = Ok (join_dot ls).
Proof.
  intros H. destruct (@decode_fqdn_exact (name_syntax ls) (bytes_name H)) as (ls' & r & E & F & S & D).
  rewrite <- (app_nil_r (name_syntax ls)) in E at 1.
  destruct (@name_syntax_unique ls ls' [] r E) as [<- <-]; auto.
Qed.
Lemma split_bytes s : bytes s -> Forall bytes (split_dot s).
Proof.
  induction 1 as [|c r Hc Hr IH]; cbn [split_dot]; [repeat constructor|]. destruct (c =? 46); [constructor; [constructor|exact IH]|].
  destruct (split_dot r) as [|l ls]; [repeat constructor; auto|]. inversion IH; subst. constructor; [constructor|]; assumption.
Qed.
Theorem fqdn_roundtrip s : bytes s -> Forall (fun l => lenN l < 256) (split_dot s) ->
  exists b, encode_fqdn s = Ok b /\ decode_fqdn b = Ok s.
Proof.
  intros Hs HL. exists (name_syntax (split_dot s)). split.
  - rewrite encode_fqdn_ok. f_equal. unfold name_syntax. f_equal. apply map_ext_in. intros l I.
    unfold label_wire. rewrite u8_id; [reflexivity|]. rewrite Forall_forall in HL. auto.
  - rewrite decode_fqdn_name; [now rewrite join_split|].
    pose proof (split_bytes Hs) as B. rewrite Forall_forall in *. auto.
Qed.
(** a label of 256 octets is silently corrupted *)
Lemma fqdn_long_label : exists s b t, bytes s /\ encode_fqdn s = Ok b /\ decode_fqdn b = Ok t /\ t <> s.
Proof.
  exists (repeat 97 256). do 2 eexists. split; [apply Forall_forall; intros x I; apply repeat_spec in I; subst; reflexivity|].
  split; [apply encode_fqdn_ok|]. split; [vm_compute; reflexivity|]. vm_compute. discriminate.
Qed.

(** ** hex and BCD *)
Lemma swap1_ok x : octet x -> swap1 x = x mod 16 * 16 + x / 16.
Proof.
  intros H. apply N.eqb_eq.
  refine (@octets_all (fun x => swap1 x =? x mod 16 * 16 + x / 16) _ x H). vm_compute. reflexivity.
Qed.
Lemma swap1_octet x : octet x -> octet (swap1 x).
Proof. intros H. unfold swap1. apply u8_lt. Qed.
Lemma pair_div x y : y < 16 -> (x * 16 + y) / 16 = x.
Proof. intros H. rewrite N.div_add_l, N.div_small by lia. lia. Qed.
Lemma pair_mod x y : y < 16 -> (x * 16 + y) mod 16 = y.
Proof. intros H. rewrite (N.add_comm (x * 16) y), N.mod_add, N.mod_small by lia. reflexivity. Qed.
Lemma swap1_pair x y : x < 16 -> y < 16 -> swap1 (x * 16 + y) = y * 16 + x.
Proof.
  intros Hx Hy. rewrite swap1_ok by (unfold octet; lia). now rewrite pair_div, pair_mod.
Qed.
Lemma nibbles x : octet x -> x = x / 16 * 16 + x mod 16 /\ x / 16 < 16 /\ x mod 16 < 16.
Proof.
  unfold octet. intros H. split; [rewrite (N.div_mod x 16) at 1 by discriminate; lia|].
  split; [|apply N.mod_lt; discriminate]. apply N.div_lt_upper_bound; lia.
Qed.
Lemma swap1_invol x : octet x -> swap1 (swap1 x) = x.
Proof.
  intros H. destruct (nibbles H) as (E & A & B). rewrite E. rewrite !swap1_pair by assumption. reflexivity.
Qed.
Lemma swap_invol b : bytes b -> swap (swap b) = b.
Proof. induction 1 as [|x b Hx _ IH]; [reflexivity|]. unfold swap in *. cbn [map]. now rewrite swap1_invol, IH. Qed.
Lemma swap_bytes b : bytes b -> bytes (swap b).
Proof. induction 1; constructor; auto using swap1_octet. Qed.

(** lower-case hex digits *)
Definition lhex (c : N) : Prop := 48 <= c <= 57 \/ 97 <= c <= 102.
Definition digit (c : N) : Prop := 48 <= c <= 57.
Lemma hexval_lhex c : lhex c -> exists v, hexval c = Some v /\ v < 16 /\ hexchar v = c.
Proof.
  intros [H|H]; unfold hexval, hexchar.
  - exists (c - 48). destruct (N.leb_spec 48 c), (N.leb_spec c 57); try lia. cbn [andb].
    split; [reflexivity|]. split; [lia|]. destruct (N.ltb_spec (c - 48) 10); lia.
  - exists (c - 87). destruct (N.leb_spec 48 c), (N.leb_spec c 57); try lia. cbn [andb].
    destruct (N.leb_spec 97 c), (N.leb_spec c 102); try lia. cbn [andb].
    split; [reflexivity|]. split; [lia|]. destruct (N.ltb_spec (c - 87) 10); lia.
Qed.
Lemma hexchar_lhex v : v < 16 -> lhex (hexchar v) /\ hexval (hexchar v) = Some v.
Proof.
  intros H. assert (E : lhex (hexchar v)).
  { unfold lhex, hexchar. destruct (N.ltb_spec v 10); lia. }
  split; [exact E|]. destruct (hexval_lhex E) as (w & -> & Hw & Ew). f_equal.
  unfold hexchar in Ew. destruct (N.ltb_spec w 10), (N.ltb_spec v 10); lia.
Qed.
Lemma hexchar_inj v w : v < 16 -> w < 16 -> hexchar v = hexchar w -> v = w.
Proof. unfold hexchar. destruct (N.ltb_spec w 10), (N.ltb_spec v 10); lia. Qed.
Lemma hex_encode_pair x y r : x < 16 -> y < 16 -> hex_encode (x * 16 + y :: r) = hexchar x :: hexchar y :: hex_encode r.
Proof.
  intros Hx Hy. cbn [hex_encode]. rewrite N.shiftr_div_pow2. change 15 with (N.ones 4). rewrite N.land_ones.
  change (2 ^ 4) with 16. now rewrite pair_div, pair_mod.
Qed.
Lemma hex_encode_nibbles x r : octet x -> hex_encode (x :: r) = hexchar (x / 16) :: hexchar (x mod 16) :: hex_encode r.
Proof. intros H. destruct (nibbles H) as (E & A & B). rewrite E at 1. now apply hex_encode_pair. Qed.
Lemma hex_decode_ok : forall n s, (length s <= n)%nat -> Forall lhex s -> Nat.even (length s) = true ->
  exists raw, hex_decode s = Ok raw /\ bytes raw /\ hex_encode raw = s /\ length raw = Nat.div2 (length s).
Proof.
  induction n as [|n IH]; intros s L H E.
  - destruct s; [|cbn in L; lia]. exists []. cbn. repeat split; constructor.
  - destruct s as [|a [|b s]]; [exists []; cbn; repeat split; constructor|discriminate|].
    inversion H as [|? ? Ha H1]; subst. inversion H1 as [|? ? Hb H2]; subst.
    destruct (IH s) as (raw & D & B & En & Ln); [cbn in L; lia|exact H2|exact E|].
    destruct (hexval_lhex Ha) as (x & Ex & Bx & Cx). destruct (hexval_lhex Hb) as (y & Ey & By & Cy).
    exists (x * 16 + y :: raw). cbn [hex_decode]. rewrite Ex, Ey, D. cbn [bind].
    split; [reflexivity|]. split; [constructor; [unfold octet; lia|exact B]|].
    split; [rewrite hex_encode_pair by assumption; congruence|]. cbn [length Nat.div2]. now rewrite Ln.
Qed.
Lemma hex_encode_length b : length (hex_encode b) = (2 * length b)%nat.
Proof. induction b as [|x b IH]; cbn [hex_encode length]; [reflexivity|]. rewrite IH. lia. Qed.
Lemma removelast_snoc {A} (l : list A) x : removelast (l ++ [x]) = l.
Proof. apply removelast_last. Qed.

Theorem bcd_even s : Forall lhex s -> Nat.even (length s) = true ->
  exists b, str_to_swapped s ascii_f = Ok b /\ bytes b /\ swapped_to_str b false = s /\
    swapped_to_str b true = removelast s /\ length b = Nat.div2 (length s).
Proof.
  intros H E. destruct (@hex_decode_ok (length s) s) as (raw & D & B & En & Ln); auto.
  exists (swap raw). unfold str_to_swapped. rewrite E, D. cbn [bind]. split; [reflexivity|].
  split; [now apply swap_bytes|]. unfold swapped_to_str. rewrite swap_invol, En by exact B.
  destruct raw as [|x raw]; cbn [swap map].
  - cbn in En. subst. auto.
  - repeat split. rewrite <- Ln. cbn. unfold swap. now rewrite map_length.
Qed.
Theorem bcd_odd s : Forall lhex s -> Nat.even (length s) = false ->
  exists b, str_to_swapped s ascii_f = Ok b /\ bytes b /\ swapped_to_str b true = s /\
    swapped_to_str b false = s ++ ascii_f /\ length b = S (Nat.div2 (length s)).
Proof.
  intros H E. destruct (@hex_decode_ok (length (s ++ ascii_f)) (s ++ ascii_f)) as (raw & D & B & En & Ln); auto.
  { apply Forall_app. split; [exact H|]. unfold ascii_f. constructor; [right; lia|constructor]. }
  { rewrite app_length. cbn [length ascii_f]. rewrite Nat.add_1_r, Nat.even_succ, <- Nat.negb_even, E. reflexivity. }
  exists (swap raw). unfold str_to_swapped. rewrite E, D. cbn [bind]. split; [reflexivity|].
  split; [now apply swap_bytes|]. unfold swapped_to_str. rewrite swap_invol, En by exact B.
  assert (Ls : length (swap raw) = S (Nat.div2 (length s))).
  { unfold swap. rewrite map_length, Ln, app_length. cbn [length ascii_f]. rewrite Nat.add_1_r.
    assert (O : Nat.odd (length s) = true) by (rewrite <- Nat.negb_even, E; reflexivity).
    apply Nat.odd_spec in O. destruct O as [m O]. rewrite O.
    replace (S (2 * m + 1)) with (2 * S m)%nat by lia. rewrite Nat.add_1_r, Nat.div2_double.
    rewrite Nat.div2_succ_double. reflexivity. }
  destruct (swap raw) as [|x r] eqn:SR; [cbn in Ls; discriminate|].
  split; [apply removelast_snoc|]. split; [reflexivity|exact Ls].
Qed.
(** errors: exactly when a character is not a hex digit *)
Definition ishex (c : N) : bool := match hexval c with Some _ => true | None => false end.
Lemma hex_decode_err : forall n s, (length s <= n)%nat -> Nat.even (length s) = true ->
  (forallb ishex s = true -> exists raw, hex_decode s = Ok raw /\ length raw = Nat.div2 (length s)) /\
  (forallb ishex s = false -> hex_decode s = Err EHex).
Proof.
  induction n as [|n IH]; intros s L E.
  - destruct s; [|cbn in L; lia]. split; [exists []; auto|discriminate].
  - destruct s as [|a [|b s]]; [split; [exists []; auto|discriminate]|discriminate|].
    cbn [forallb hex_decode]. unfold ishex at 1 2 4 5.
    destruct (hexval a) as [x|]; cbn [andb]; [|split; [discriminate|reflexivity]].
    destruct (hexval b) as [y|]; cbn [andb]; [|split; [discriminate|reflexivity]].
    destruct (IH s) as [I1 I2]; [cbn in L; lia|exact E|]. split; intros F.
    + destruct (I1 F) as (raw & -> & Lr). cbn [bind]. exists (x * 16 + y :: raw). split; [reflexivity|]. cbn. now rewrite Lr.
    + now rewrite I2.
Qed.
Lemma even_snoc s : Nat.even (length s) = false -> Nat.even (length (s ++ ascii_f)) = true.
Proof. intros E. rewrite app_length. cbn [length ascii_f]. now rewrite Nat.add_1_r, Nat.even_succ, <- Nat.negb_even, E. Qed.
Theorem str_to_swapped_exact s :
  (forallb ishex s = true -> exists b, str_to_swapped s ascii_f = Ok b /\ length b = Nat.div2 (S (length s))) /\
  (forallb ishex s = false -> str_to_swapped s ascii_f = Err EHex).
Proof.
  unfold str_to_swapped. destruct (Nat.even (length s)) eqn:E.
  - destruct (@hex_decode_err (length s) s (le_n _) E) as [I1 I2]. split; intros F.
    + destruct (I1 F) as (raw & -> & L). cbn [bind]. eexists. split; [reflexivity|]. unfold swap. rewrite map_length, L.
      apply Nat.even_spec in E. destruct E as [m ->]. rewrite Nat.div2_double. now rewrite Nat.div2_succ_double.
    + now rewrite I2.
  - pose proof (even_snoc s E) as E'.
    destruct (@hex_decode_err _ (s ++ ascii_f) (le_n _) E') as [I1 I2].
    assert (FA : forallb ishex (s ++ ascii_f) = forallb ishex s) by (rewrite forallb_app; apply andb_true_r).
    rewrite FA in *. split; intros F.
    + destruct (I1 F) as (raw & -> & L). cbn [bind]. eexists. split; [reflexivity|]. unfold swap. rewrite map_length, L, app_length.
      cbn [length ascii_f]. now rewrite Nat.add_1_r.
    + now rewrite I2.
Qed.

(** ** PLMN *)
Lemma swapped2 a b : a < 16 -> b < 16 -> str_to_swapped [hexchar a; hexchar b] ascii_f = Ok [b * 16 + a].
Proof.
  intros Ha Hb. unfold str_to_swapped. cbn [length Nat.even hex_decode].
  rewrite (proj2 (hexchar_lhex Ha)), (proj2 (hexchar_lhex Hb)). cbn [bind swap map]. now rewrite swap1_pair.
Qed.
Lemma swapped3 a b c : a < 16 -> b < 16 -> c < 16 ->
  str_to_swapped [hexchar a; hexchar b; hexchar c] ascii_f = Ok [b * 16 + a; 15 * 16 + c].
Proof.
  intros Ha Hb Hc. unfold str_to_swapped. cbn [length Nat.even hex_decode app ascii_f].
  rewrite (proj2 (hexchar_lhex Ha)), (proj2 (hexchar_lhex Hb)), (proj2 (hexchar_lhex Hc)).
  change (hexval 102) with (Some 15). cbn [bind swap map]. now rewrite !swap1_pair by lia.
Qed.
Definition nibs : list N := map N.of_nat (seq 0 16).
Lemma nibs_in x : x < 16 -> In x nibs.
Proof. intros H. unfold nibs. apply in_map_iff. exists (N.to_nat x). split; [lia|]. apply in_seq. lia. Qed.
Lemma mnc3_octet c f : c < 16 -> f < 16 ->
  N.lor (N.land (15 * 16 + c) 0x0f) (N.land (u8 (N.shiftl (15 * 16 + f) 4)) 0xf0) = f * 16 + c.
Proof.
  intros Hc Hf. apply N.eqb_eq.
  assert (S : forallb (fun c => forallb (fun f => N.lor (N.land (15 * 16 + c) 0x0f) (N.land (u8 (N.shiftl (15 * 16 + f) 4)) 0xf0) =? f * 16 + c) nibs) nibs = true)
    by (vm_compute; reflexivity).
  rewrite forallb_forall in S. specialize (S c (nibs_in Hc)). rewrite forallb_forall in S. exact (S f (nibs_in Hf)).
Qed.
Lemma encode_plmn2 a b c d e : a < 16 -> b < 16 -> c < 16 -> d < 16 -> e < 16 ->
  encode_plmn (map hexchar [a; b; c]) (map hexchar [d; e]) = Ok [b * 16 + a; 15 * 16 + c; e * 16 + d].
Proof. intros. unfold encode_plmn. cbn [map]. rewrite swapped3, swapped2 by assumption. reflexivity. Qed.
Lemma encode_plmn3 a b c d e f : a < 16 -> b < 16 -> c < 16 -> d < 16 -> e < 16 -> f < 16 ->
  encode_plmn (map hexchar [a; b; c]) (map hexchar [d; e; f]) = Ok [b * 16 + a; f * 16 + c; e * 16 + d].
Proof.
  intros. unfold encode_plmn. cbn [map]. rewrite !swapped3 by assumption. cbn [bind length Nat.eqb index nth_error].
  now rewrite mnc3_octet.
Qed.
Lemma decode_plmn_nib a b c d e f r : a < 16 -> b < 16 -> c < 16 -> d < 16 -> e < 16 -> f < 16 ->
  decode_plmn (b * 16 + a :: f * 16 + c :: e * 16 + d :: r) =
  Ok (map hexchar [a; b; c], map hexchar (if f =? 15 then [d; e] else [d; e; f])).
Proof.
  intros. unfold decode_plmn. rewrite !hex_encode_pair by assumption. cbn [index nth_error bind map].
  assert (E : (hexchar f =? 102) = (f =? 15)).
  { destruct (N.eqb_spec f 15) as [->|D]; [reflexivity|]. apply N.eqb_neq. intros X. apply D.
    apply hexchar_inj; [assumption|lia|exact X]. }
  rewrite E. destruct (f =? 15); reflexivity.
Qed.
Lemma lhex_nib c : lhex c -> exists v, v < 16 /\ c = hexchar v.
Proof. intros H. destruct (hexval_lhex H) as (v & _ & L & E). eauto. Qed.
(** 3-digit MCC, 2- or 3-digit MNC whose third digit is not the filler *)
Theorem plmn_roundtrip mcc mnc : Forall lhex mcc -> Forall lhex mnc -> length mcc = 3%nat ->
  (length mnc = 2%nat \/ length mnc = 3%nat /\ last mnc 0 <> 102) ->
  exists b, encode_plmn mcc mnc = Ok b /\ length b = 3%nat /\ bytes b /\ decode_plmn b = Ok (mcc, mnc).
Proof.
  intros H1 H2 L1 L2. destruct mcc as [|a [|b [|c [|x r]]]]; try discriminate.
  inversion H1 as [|? ? A1 H3]; subst. inversion H3 as [|? ? A2 H4]; subst. inversion H4 as [|? ? A3 _]; subst.
  destruct (lhex_nib A1) as (na & Ba & ->), (lhex_nib A2) as (nb & Bb & ->), (lhex_nib A3) as (nc & Bc & ->).
  destruct mnc as [|d [|e [|f [|y r]]]]; cbn [length] in L2; try lia.
  - inversion H2 as [|? ? D1 H5]; subst. inversion H5 as [|? ? D2 _]; subst.
    destruct (lhex_nib D1) as (nd & Bd & ->), (lhex_nib D2) as (ne & Be & ->).
    exists [nb * 16 + na; 15 * 16 + nc; ne * 16 + nd].
    split; [now apply encode_plmn2|]. split; [reflexivity|]. split; [repeat constructor; unfold octet; lia|].
    rewrite decode_plmn_nib by lia. reflexivity.
  - inversion H2 as [|? ? D1 H5]; subst. inversion H5 as [|? ? D2 H6]; subst. inversion H6 as [|? ? D3 _]; subst.
    destruct (lhex_nib D1) as (nd & Bd & ->), (lhex_nib D2) as (ne & Be & ->), (lhex_nib D3) as (nf & Bf & ->).
    exists [nb * 16 + na; nf * 16 + nc; ne * 16 + nd].
    split; [now apply encode_plmn3|]. split; [reflexivity|]. split; [repeat constructor; unfold octet; lia|].
    rewrite decode_plmn_nib by lia. cbn [last] in L2.
    destruct (N.eqb_spec nf 15) as [->|]; [|reflexivity]. exfalso. destruct L2 as [?|[_ L2]]; [discriminate|]. now apply L2.
Qed.
Theorem plmn_decode_encode b : bytes b -> length b = 3%nat ->
  exists mcc mnc, decode_plmn b = Ok (mcc, mnc) /\ length mcc = 3%nat /\ encode_plmn mcc mnc = Ok b.
Proof.
  intros H L. destruct b as [|x [|y [|z [|w r]]]]; try discriminate.
  inversion H as [|? ? A1 H3]; subst. inversion H3 as [|? ? A2 H4]; subst. inversion H4 as [|? ? A3 _]; subst.
  destruct (nibbles A1) as (E1 & X1 & X2). destruct (nibbles A2) as (E2 & Y1 & Y2). destruct (nibbles A3) as (E3 & Z1 & Z2).
  rewrite E1, E2, E3. rewrite decode_plmn_nib by assumption. do 2 eexists. split; [reflexivity|]. split; [reflexivity|].
  destruct (N.eqb_spec (y / 16) 15) as [Q|Q].
  - rewrite encode_plmn2 by assumption. now rewrite Q.
  - now rewrite encode_plmn3.
Qed.
(** DecodePLMN panics exactly below 3 octets *)
Theorem decode_plmn_short b : (length b < 3)%nat -> decode_plmn b = Fault.
Proof.
  intros L. destruct b as [|x [|y [|z r]]]; cbn [length] in L; try lia; reflexivity.
Qed.
Theorem decode_plmn_long b : (3 <= length b)%nat -> exists mcc mnc, decode_plmn b = Ok (mcc, mnc) /\ length mcc = 3%nat.
Proof.
  intros L. destruct b as [|x [|y [|z r]]]; cbn [length] in L; try lia.
  do 2 eexists. split; [unfold decode_plmn; cbn [hex_encode index nth_error bind]; reflexivity|reflexivity].
Qed.
(** EncodePLMN, exactly *)
Theorem encode_plmn_cases mcc mnc :
  (forallb ishex mcc && forallb ishex mnc = false -> encode_plmn mcc mnc = Err EHex) /\
  (forallb ishex mcc && forallb ishex mnc = true -> length mnc <> 2%nat ->
     ((length mcc <= 2)%nat \/ (length mnc <= 2)%nat -> encode_plmn mcc mnc = Fault) /\
     ((3 <= length mcc)%nat -> (3 <= length mnc)%nat -> exists b, encode_plmn mcc mnc = Ok b /\ length b = 3%nat)) /\
  (forallb ishex mcc && forallb ishex mnc = true -> length mnc = 2%nat ->
     exists b, encode_plmn mcc mnc = Ok b /\ length b = S (Nat.div2 (S (length mcc)))).
Proof.
  destruct (str_to_swapped_exact mcc) as [C1 C2]. destruct (str_to_swapped_exact mnc) as [N1 N2].
  unfold encode_plmn. split; [|split].
  - intros F. destruct (forallb ishex mcc); cbn [andb] in F.
    + destruct C1 as (c & -> & _); [reflexivity|]. cbn [bind]. now rewrite N2.
    + now rewrite C2.
  - intros F D. apply andb_prop in F. destruct F as [F1 F2].
    destruct (C1 F1) as (c & -> & Lc). destruct (N1 F2) as (n & -> & Ln). cbn [bind].
    destruct (Nat.eqb_spec (length mnc) 2); [congruence|].
    assert (DC : (length c <= 1 <-> length mcc <= 2)%nat).
    { rewrite Lc. destruct mcc as [|? [|? [|? mcc]]]; cbn [length Nat.div2]; lia. }
    assert (DN : (length n <= 1 <-> length mnc <= 2)%nat).
    { rewrite Ln. destruct mnc as [|? [|? [|? mnc]]]; cbn [length Nat.div2]; lia. }
    clear Lc Ln. split.
    + intros [L|L].
      * apply DC in L. destruct c as [|c0 [|c1 c]]; cbn [length] in L; try lia; reflexivity.
      * apply DN in L. destruct c as [|c0 [|c1 c]]; try reflexivity. destruct n as [|m0 [|m1 n]]; cbn [length] in L; try lia; reflexivity.
    + intros L1 L2. destruct c as [|c0 [|c1 c]]; cbn [length] in DC; try lia. destruct n as [|m0 [|m1 n]]; cbn [length] in DN; try lia.
      cbn [index nth_error bind]. eexists. split; reflexivity.
  - intros F D. apply andb_prop in F. destruct F as [F1 F2].
    destruct (C1 F1) as (c & -> & Lc). destruct (N1 F2) as (n & -> & Ln). cbn [bind]. rewrite D. cbn [Nat.eqb].
    eexists. split; [reflexivity|]. rewrite app_length, Lc, Ln, D. cbn. lia.
Qed.

(** ** 24- and 40-bit integers, ECI *)
Theorem u24_roundtrip n : uint24To32 (uint32To24 n) = n mod 2 ^ 24.
Proof. exact (uint24_roundtrip n). Qed.
Theorem u24_inverse b : bytes b -> length b = 3%nat -> uint32To24 (uint24To32 b) = b.
Proof.
  intros H L. destruct b as [|x [|y [|z [|w r]]]]; try discriminate.
  inversion H as [|? ? A1 H3]; subst. inversion H3 as [|? ? A2 H4]; subst. inversion H4 as [|? ? A3 _]; subst.
  rewrite uint24To32_unbe, uint32To24_be by assumption. now apply be_unbe.
Qed.
Lemma u24_wrong b : length b <> 3%nat -> uint24To32 b = 0.
Proof. destruct b as [|x [|y [|z [|w r]]]]; cbn; try reflexivity. now intros []. Qed.
Lemma uint64To40_be n : uint64To40 n = be 5 n.
Proof.
  unfold uint64To40, u8. cbn [be]. rewrite !N.shiftr_div_pow2.
  change (256 ^ N.of_nat 4) with (2 ^ 32). change (256 ^ N.of_nat 3) with (2 ^ 24). change (256 ^ N.of_nat 2) with (2 ^ 16).
  change (256 ^ N.of_nat 1) with (2 ^ 8). change (256 ^ N.of_nat 0) with 1. now rewrite N.div_1_r.
Qed.
Lemma uint40To64_unbe b : bytes b -> length b = 5%nat -> uint40To64 b = unbe b.
Proof.
  intros H L. destruct b as [|b0 [|b1 [|b2 [|b3 [|b4 [|w r]]]]]]; try discriminate.
  inversion H as [|? ? A0 H1]; subst. inversion H1 as [|? ? A1 H2]; subst. inversion H2 as [|? ? A2 H3]; subst.
  inversion H3 as [|? ? A3 H4]; subst. inversion H4 as [|? ? A4 _]; subst. unfold octet in *.
  cbn [uint40To64].
  assert (E : N.lor (N.lor (N.lor (N.lor (N.shiftl b0 32) (N.shiftl b1 24)) (N.shiftl b2 16)) (N.shiftl b3 8)) b4 =
    N.lor (N.shiftl (N.lor (N.shiftl (N.lor (N.shiftl (N.lor (N.shiftl b0 8) b1) 8) b2) 8) b3) 8) b4).
  { rewrite !N.shiftl_lor, !N.shiftl_shiftl. reflexivity. }
  rewrite E. rewrite !shiftl_lor by (change (2 ^ 8) with 256; assumption).
  unfold unbe. cbn [fold_left]. change (2 ^ 8) with 256. lia.
Qed.
Theorem u40_roundtrip n : uint40To64 (uint64To40 n) = n mod 2 ^ 40.
Proof.
  rewrite uint64To40_be, uint40To64_unbe by (auto using be_bytes, be_length). rewrite unbe_be. reflexivity.
Qed.
Theorem u40_inverse b : bytes b -> length b = 5%nat -> uint64To40 (uint40To64 b) = b.
Proof. intros H L. rewrite uint64To40_be, uint40To64_unbe by assumption. now apply be_unbe. Qed.
Theorem parse_eci_ok e : e < 2 ^ 32 -> parse_eci e = Ok (e / 256, e mod 256).
Proof.
  intros H. unfold parse_eci. cbn [be index nth_error bind]. unfold getn.
  cbn [length Nat.leb Nat.ltb firstn bind].
  assert (B : [0; (e / 256 ^ N.of_nat 3) mod 256; (e / 256 ^ N.of_nat 2) mod 256; (e / 256 ^ N.of_nat 1) mod 256] = be 4 (e / 256)).
  { cbn [be]. rewrite !N.div_div by discriminate.
    change (256 * 256 ^ N.of_nat 3) with (2 ^ 32). change (256 * 256 ^ N.of_nat 2) with (256 ^ N.of_nat 3).
    change (256 * 256 ^ N.of_nat 1) with (256 ^ N.of_nat 2). change (256 * 256 ^ N.of_nat 0) with (256 ^ N.of_nat 1).
    rewrite (N.div_small e (2 ^ 32)) by exact H. reflexivity. }
  rewrite B. rewrite unbe_be_small.
  - cbn [bind]. change (256 ^ N.of_nat 0) with 1. now rewrite N.div_1_r.
  - change (256 ^ N.of_nat 4) with (2 ^ 32).
    eapply N.le_lt_trans; [|exact H]. apply N.div_le_upper_bound; [discriminate|]. lia.
Qed.

(** ** the FQDN round trip holds exactly for labels below 256 octets *)
Lemma join_cons x l ls : join_dot (x :: l :: ls) = x ++ 46 :: join_dot (l :: ls).
Proof. reflexivity. Qed.
Lemma join_length (f : list N -> N) ls : ls <> [] -> length (concat (map (fun l => f l :: l) ls)) = S (length (join_dot ls)).
Proof.
  induction ls as [|l ls IH]; [congruence|intros _]. destruct ls as [|l2 ls].
  - cbn. now rewrite app_nil_r.
  - rewrite join_cons. cbn [map concat app length]. specialize (IH ltac:(discriminate)).
    cbn [map concat app length] in IH. rewrite !app_length in *. cbn [length] in *. rewrite app_length in *. lia.
Qed.
Lemma nodot_nth l : ~ In 46 l -> forall t, nth_error (l ++ t) (length l) = nth_error t 0.
Proof. intros _ t. rewrite nth_error_app2 by lia. now rewrite Nat.sub_diag. Qed.
Lemma same_names : forall ls ls', Forall (fun l => ~ In 46 l) ls ->
  concat (map label_wire ls) = name_syntax ls' -> join_dot ls = join_dot ls' -> ls = ls'.
Proof.
  induction ls as [|l ls IH]; intros [|l' ls'] ND E J.
  - reflexivity.
  - discriminate.
  - discriminate.
  - unfold name_syntax in E. cbn [map concat label_wire app] in E. injection E as E1 E2. fold (name_syntax ls') in E2.
    inversion ND as [|? ? Nl ND']; subst.
    assert (LE : (length l' <= length l)%nat).
    { unfold lenN, u8 in E1. assert (N.of_nat (length l') <= N.of_nat (length l)); [|lia]. rewrite <- E1. apply N.mod_le. discriminate. }
    destruct (Nat.eq_dec (length l) (length l')) as [Q|Q].
    + destruct (app_inj_len _ _ _ _ Q E2) as [-> E3]. f_equal. apply IH; [assumption|assumption|].
      destruct ls as [|x ls], ls' as [|x' ls']; try discriminate; [reflexivity|].
      rewrite !join_cons in J. apply app_inv_head in J. now injection J.
    + exfalso. assert (LT : (length l' < length l)%nat) by lia.
      assert (P : exists t, join_dot (l :: ls) = l ++ t) by (destruct ls; [exists []; cbn; now rewrite app_nil_r|eexists; reflexivity]).
      destruct P as [t P]. rewrite P in J. destruct ls' as [|x' ls'].
      * cbn in J. apply (f_equal (@length N)) in J. rewrite app_length in J. lia.
      * rewrite join_cons in J. apply (f_equal (fun z => nth_error z (length l'))) in J.
        rewrite nth_error_app1 in J by exact LT. rewrite nth_error_app2, Nat.sub_diag in J by lia. cbn in J.
        apply Nl. eapply nth_error_In. exact J.
Qed.
Theorem fqdn_roundtrip_iff s : bytes s ->
  (exists b, encode_fqdn s = Ok b /\ decode_fqdn b = Ok s) <-> Forall (fun l => lenN l < 256) (split_dot s).
Proof.
  intros Hs. split; [|now apply fqdn_roundtrip]. intros (b & E & D). rewrite encode_fqdn_ok in E. injection E as <-.
  destruct (@decode_fqdn_exact (concat (map label_wire (split_dot s)))) as (ls & r & W & F & S & D').
  { apply Forall_forall. intros x I. apply in_concat in I. destruct I as (y & Iy & Ix). apply in_map_iff in Iy.
    destruct Iy as (l & <- & Il). pose proof (split_bytes Hs) as SB. rewrite Forall_forall in SB. specialize (SB l Il).
    unfold label_wire in Ix. destruct Ix as [<-|Ix]; [apply u8_lt|]. unfold bytes in SB. rewrite Forall_forall in SB. auto. }
  rewrite D' in D. injection D as D.
  destruct ls as [|l0 ls].
  - destruct S as [->|(x & t & -> & _)].
    + exfalso. apply (f_equal (@length N)) in W. rewrite split_total in W. discriminate.
    + cbn in D. subst s. cbn [split_dot] in *. constructor; [reflexivity|constructor].
  - assert (R : r = []).
    { apply (f_equal (@length N)) in W. rewrite split_total, app_length in W. unfold name_syntax in W.
      rewrite (@join_length (@lenN N)) in W by discriminate. rewrite D in W. destruct r; [reflexivity|cbn in W; lia]. }
    subst r. rewrite app_nil_r in W. rewrite (@same_names (split_dot s) (l0 :: ls)); [exact F| |exact W|].
    + apply split_no_dot.
    + rewrite join_split. congruence.
Qed.
Lemma split_join ls : ls <> [] -> Forall (fun l => ~ In 46 l) ls -> split_dot (join_dot ls) = ls.
Proof.
  induction ls as [|l ls IH]; [congruence|intros _ H]. inversion H as [|? ? Nl H']; subst.
  assert (A : forall t, split_dot (l ++ t) = match split_dot t with [] => [] | x :: r => (l ++ x) :: r end).
  { clear IH H H' ls. induction l as [|c l IHl]; intros t; cbn [app split_dot].
    - now destruct (split_dot t).
    - destruct (N.eqb_spec c 46) as [->|_]; [exfalso; apply Nl; now left|]. rewrite IHl by (intros X; apply Nl; now right).
      pose proof (@split_dot_nonempty t). now destruct (split_dot t). }
  destruct ls as [|l2 ls].
  - cbn [join_dot]. specialize (A []). rewrite app_nil_r in A. rewrite A. cbn. now rewrite app_nil_r.
  - rewrite join_cons, A. cbn [split_dot N.eqb]. change (46 =? 46) with true. cbn [app]. rewrite app_nil_r. f_equal.
    apply IH; [discriminate|exact H'].
Qed.
