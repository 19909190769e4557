(** net.ParseIP and net.IP.String: the texts that are accepted, and that what String prints is read back. *)
From Verif Require Import Base Codec NetText.
Set Implicit Arguments.

(** ** What a textual address is *)
(** a field of a dotted quad is a number below 256 without leading zeros *)
Inductive dotted : list N -> list N -> Prop :=
| dotted_intro a b c d : octet a -> octet b -> octet c -> octet d ->
    dotted (dec a ++ dot :: dec b ++ dot :: dec c ++ dot :: dec d) [a; b; c; d].
(** a group: one to four hexadecimal digits *)
Fixpoint hex_number (l : list N) (acc : N) : option N :=
  match l with [] => Some acc | c :: r => match hex_value c with Some d => hex_number r (acc * 16 + d)%N | None => None end end.
Definition group_text (s : list N) (v : N) : Prop := 1 <= length s <= 4 /\ hex_number s 0 = Some v.
(** groups separated by colons, the last one may be a dotted quad if q *)
Inductive groups (q : bool) : list N -> list N -> Prop :=
| groups_one s v : group_text s v -> groups q s [v / 256; v mod 256]%N
| groups_quad s ip : q = true -> dotted s ip -> groups q s ip
| groups_cons s v r o : group_text s v -> groups q r o -> groups q (s ++ colon :: r) (v / 256 :: v mod 256 :: o)%N.
Definition groups0 q s o := s = [] /\ o = [] \/ groups q s o.
Inductive v6_text : list N -> list N -> Prop :=
| v6_full s ip : groups true s ip -> length ip = 16 -> v6_text s ip
| v6_short a oa b ob n : groups0 false a oa -> groups0 true b ob -> length oa + n + length ob = 16 -> 0 < n ->
    v6_text (a ++ colon :: colon :: b) (oa ++ repeat 0%N n ++ ob).
Inductive address_text : list N -> list N -> Prop :=
| address_v4 s ip : dotted s ip -> address_text s (v4prefix ++ ip)
| address_v6 s ip : v6_text s ip -> address_text s ip.

(** ** Dotted quads *)
Definition digits (l : list N) : Prop := Forall (fun c => is_digit c = true) l.
Ltac nd := repeat match goal with |- context [N.ltb ?a ?b] => destruct (N.ltb_spec a b) | |- context [N.leb ?a ?b] => destruct (N.leb_spec a b) end.
Ltac Zify.zify_post_hook ::= Z.to_euclidean_division_equations.
Ltac le := repeat (apply (f_equal2 (@cons N)); [lia|]); reflexivity.
Lemma is_digit_ok c : is_digit c = true <-> (48 <= c <= 57)%N.
Proof. unfold is_digit. rewrite andb_true_iff, !N.leb_le. reflexivity. Qed.
Lemma dec_digits n : octet n -> digits (dec n).
Proof. unfold octet, dec. intros H. nd; repeat constructor; apply is_digit_ok; lia. Qed.
Lemma dec_length n : 1 <= length (dec n) <= 3.
Proof. unfold dec. nd; cbn; lia. Qed.
Lemma dec_snoc v c : (0 < v)%N -> is_digit c = true -> (v * 10 + (c - 48) <= 255)%N -> dec (v * 10 + (c - 48)) = dec v ++ [c].
Proof.
  rewrite is_digit_ok. intros V C B. unfold dec. nd; try lia; cbn [app]; le.
Qed.
Lemma dec_one c : is_digit c = true -> dec (c - 48) = [c].
Proof. rewrite is_digit_ok. intros C. unfold dec. nd; try lia. f_equal. lia. Qed.
Lemma dec_zero v : length (dec v) = 1 -> dec v = [48 + v]%N /\ (v < 10)%N.
Proof. unfold dec. nd; cbn; try lia. auto. Qed.
Lemma digit_dot c : is_digit c = true -> (c =? dot)%N = false.
Proof. rewrite is_digit_ok. intros H. apply N.eqb_neq. unfold dot. lia. Qed.
Lemma dot_digit : is_digit dot = false. Proof. reflexivity. Qed.

(** the fields of a dotted text *)
Lemma v4_digit st c r val dl fs : is_digit c = true -> (dl =? 1) && (val =? 0)%N = false -> (val * 10 + (c - 48) <= 255)%N ->
  v4_loop st (c :: r) val dl fs = v4_loop false r (val * 10 + (c - 48)) (S dl) fs.
Proof. intros H1 H2 H3. cbn [v4_loop]. rewrite H1, H2. destruct (N.ltb_spec 255 (val * 10 + (c - 48))); [lia|reflexivity]. Qed.
Lemma v4_field st v s fs : octet v -> v4_loop st (dec v ++ s) 0 0 fs = v4_loop false s v (length (dec v)) fs.
Proof.
  unfold octet. intros H. unfold dec. nd; cbn [app length].
  - rewrite v4_digit; [|apply is_digit_ok; lia|reflexivity|lia]. f_equal. lia.
  - rewrite v4_digit; [|apply is_digit_ok; lia|reflexivity|lia]. rewrite v4_digit; [|apply is_digit_ok; lia|apply andb_false_iff; right; apply N.eqb_neq; lia|lia]. f_equal. lia.
  - rewrite v4_digit; [|apply is_digit_ok; lia|reflexivity|lia]. rewrite v4_digit; [|apply is_digit_ok; lia|apply andb_false_iff; right; apply N.eqb_neq; lia|lia].
    rewrite v4_digit; [|apply is_digit_ok; lia|apply andb_false_iff; left; reflexivity|lia]. f_equal. lia.
Qed.
Lemma dec_cons v : exists c r, dec v = c :: r.
Proof. pose proof (dec_length v). destruct (dec v); cbn in *; [lia|eauto]. Qed.
Lemma v4_dot v s val dl fs : length fs < 3 -> v4_loop false (dot :: dec v ++ s) val dl fs = v4_loop true (dec v ++ s) 0 0 (fs ++ [val]).
Proof. intros L. cbn [v4_loop]. rewrite dot_digit, N.eqb_refl. destruct (dec_cons v) as (c & r & ->). cbn [app orb]. destruct (Nat.eqb_spec (length fs) 3); [lia|reflexivity]. Qed.
Lemma dotted_parses s ip : dotted s ip -> parse_v4 s = Some ip.
Proof.
  intros [a b c d A B C D]. unfold parse_v4. rewrite <- (app_nil_r (dec d)).
  rewrite v4_field, v4_dot, v4_field, v4_dot, v4_field, v4_dot, v4_field by (assumption || (cbn; lia)). reflexivity.
Qed.
(** and nothing else is accepted *)
Lemma v4_sound s : forall st val dl fs out d,
  v4_loop st s val dl fs = Some out -> length fs <= 3 ->
  (st = true /\ d = [] /\ val = 0%N /\ dl = 0 /\ s <> [] \/ st = false /\ d = dec val /\ dl = length d /\ octet val) ->
  exists rest, out = fs ++ rest /\ length out = 4 /\ Forall octet rest /\ rest <> [] /\ d ++ s = join dot (map dec rest).
Proof.
  induction s as [|c r IH]; intros st val dl fs out d H Lf St; cbn [v4_loop] in H.
  - destruct (Nat.ltb_spec (length fs) 3); [discriminate|]. injection H as <-. destruct St as [(_ & _ & _ & _ & X)|(_ & -> & _ & Ov)]; [contradiction|].
    exists [val]. rewrite app_length. cbn. rewrite app_nil_r. repeat split; auto; try discriminate. lia.
  - destruct (is_digit c) eqn:Dc.
    + destruct ((dl =? 1) && (val =? 0)%N) eqn:G; [discriminate|]. destruct (N.ltb_spec 255 (val * 10 + (c - 48))) as [|B]; [discriminate|].
      assert (P : dec (val * 10 + (c - 48)) = d ++ [c]).
      { destruct St as [(-> & -> & -> & -> & _)|(-> & -> & -> & Ov)]; [cbn [app]; now apply dec_one|]. apply dec_snoc; auto. apply N.neq_0_lt_0. intros ->. discriminate G. }
      destruct (IH _ _ _ _ _ (d ++ [c]) H Lf) as (rest & R1 & R2 & R3 & R4 & R5).
      { right. split; [reflexivity|]. split; [symmetry; exact P|]. split; [|unfold octet; lia]. rewrite app_length. cbn. destruct St as [(_ & -> & _ & -> & _)|(_ & _ & -> & _)]; cbn; lia. }
      exists rest. rewrite <- app_assoc in R5. auto.
    + destruct (N.eqb_spec c dot) as [->|]; [|discriminate]. destruct St as [(-> & _)|(-> & -> & -> & Ov)]; [discriminate|]. destruct r as [|c2 r]; [discriminate|].
      cbn [orb] in H. destruct (Nat.eqb_spec (length fs) 3) as [|NE]; [discriminate|]. destruct (IH _ _ _ _ _ [] H) as (rest & R1 & R2 & R3 & R4 & R5).
      { rewrite app_length. cbn. lia. } { left. repeat split; auto. discriminate. }
      exists (val :: rest). rewrite R1 at 1. rewrite <- app_assoc. cbn [app]. repeat split; auto; try discriminate. cbn [app] in R5. rewrite R5. destruct rest as [|x rest]; [contradiction|]. reflexivity.
Qed.
Lemma parse_v4_iff s ip : parse_v4 s = Some ip <-> dotted s ip.
Proof.
  split; [|apply dotted_parses]. intros H. destruct s as [|c s]; [discriminate H|]. destruct (@v4_sound _ _ _ _ _ _ [] H) as (rest & -> & L & F & _ & E); [cbn; lia|left; repeat split; auto; discriminate|].
  cbn [app] in *. rewrite E. destruct rest as [|a [|b [|e [|f [|? ?]]]]]; try discriminate L. repeat match goal with H : Forall _ (_ :: _) |- _ => inversion H; clear H; subst end. now constructor.
Qed.
Lemma dotted_octets s ip : dotted s ip -> length ip = 4 /\ bytes ip.
Proof. intros []. split; [reflexivity|]. repeat constructor; assumption. Qed.
Lemma dotted_string4 ip : bytes ip -> length ip = 4 -> dotted (string4 ip) ip.
Proof. destruct ip as [|a [|b [|c [|d [|? ?]]]]]; try discriminate. intros B _. repeat match goal with H : bytes (_ :: _) |- _ => inversion H; clear H; subst | H : Forall _ (_ :: _) |- _ => inversion H; clear H; subst end. now constructor. Qed.
(** a dotted text is the only one of its address *)
Lemma dotted_canonical s ip : dotted s ip -> s = string4 ip.
Proof. now intros []. Qed.

(** ** Groups *)
Lemma hex_value_bound c d : hex_value c = Some d -> (d < 16)%N.
Proof. unfold hex_value. destruct ((48 <=? c)%N && (c <=? 57)%N) eqn:A; [|destruct ((97 <=? c)%N && (c <=? 102)%N) eqn:B; [|destruct ((65 <=? c)%N && (c <=? 70)%N) eqn:C; [|discriminate]]]; intros [= <-]; rewrite andb_true_iff, !N.leb_le in *; lia. Qed.
Lemma digit_hex c : is_digit c = true -> hex_value c = Some (c - 48)%N.
Proof. unfold is_digit, hex_value. now intros ->. Qed.
Definition not_hex (r : list N) : Prop := match r with [] => True | c :: _ => hex_value c = None end.
Lemma pow16 k : (16 ^ N.of_nat (S k) = 16 * 16 ^ N.of_nat k)%N.
Proof. rewrite Nat2N.inj_succ, N.pow_succ_r'. reflexivity. Qed.
Lemma scan_complete g : forall r off acc a, off + length g <= 4 -> hex_number g acc = Some a -> (acc < 16 ^ N.of_nat off)%N -> not_hex r ->
  scan (g ++ r) off acc = Some (off + length g, a, r).
Proof.
  induction g as [|c g IH]; intros r off acc a L H B R; cbn [app].
  - injection H as <-. rewrite Nat.add_0_r. destruct r as [|c r]; cbn; [reflexivity|]. cbn in R. now rewrite R.
  - cbn [hex_number] in H. cbn [scan]. destruct (hex_value c) as [d|] eqn:E; [|discriminate]. pose proof (hex_value_bound _ E) as D. cbn [length] in L.
    assert (B' : (acc * 16 + d < 16 ^ N.of_nat (S off))%N) by (rewrite pow16; lia).
    assert (M : (16 ^ N.of_nat (S off) <= 65536)%N) by (change 65536%N with (16 ^ 4)%N; apply N.pow_le_mono_r; lia).
    destruct (Nat.ltb_spec 3 off); [lia|]. destruct (N.ltb_spec 65535 (acc * 16 + d)); [lia|]. rewrite (IH r (S off) _ a) by (auto; lia). cbn [length]. do 3 f_equal. lia.
Qed.
Lemma scan_sound s : forall off acc k a r, scan s off acc = Some (k, a, r) -> (acc <= 65535)%N ->
  exists g, s = g ++ r /\ k = off + length g /\ (g = [] \/ k <= 4) /\ hex_number g acc = Some a /\ (a <= 65535)%N /\ not_hex r.
Proof.
  induction s as [|c s IH]; intros off acc k a r H B; cbn [scan] in H.
  - injection H as <- <- <-. exists []. cbn. repeat split; auto.
  - destruct (hex_value c) as [d|] eqn:E.
    + destruct (Nat.ltb_spec 3 off); [discriminate|]. destruct (N.ltb_spec 65535 (acc * 16 + d)); [discriminate|]. destruct (IH _ _ _ _ _ H ltac:(lia)) as (g & -> & -> & G & Hn & Ba & R).
      exists (c :: g). cbn [hex_number app length]. rewrite E. repeat split; auto; try lia. right. destruct G as [->|G]; cbn; lia.
    + injection H as <- <- <-. exists []. cbn. rewrite E. repeat split; auto.
Qed.
Lemma group_value s v : group_text s v -> (v <= 65535)%N.
Proof.
  intros [L H]. pose proof (@scan_complete s [] 0 0%N v ltac:(lia) H ltac:(lia) I) as S. destruct (@scan_sound _ _ _ _ _ _ S ltac:(lia)) as (_ & _ & _ & _ & _ & B & _). exact B.
Qed.
Lemma group_scan s v r : group_text s v -> not_hex r -> scan (s ++ r) 0 0 = Some (length s, v, r).
Proof. intros [L H] R. apply (@scan_complete s r 0 0%N v); [lia|exact H|lia|exact R]. Qed.
Lemma group_cons s v : group_text s v -> exists c r d, s = c :: r /\ hex_value c = Some d.
Proof. intros [L H]. destruct s as [|c r]; cbn in L; [lia|]. cbn in H. destruct (hex_value c) as [d|] eqn:E; [eauto|discriminate]. Qed.
Lemma hex_special c d : hex_value c = Some d -> (c =? dot)%N = false /\ (c =? colon)%N = false /\ (c =? percent)%N = false.
Proof. intros H. repeat split; apply N.eqb_neq; intros ->; discriminate H. Qed.

(** the first group of a dotted quad *)
Lemma dec_group a : octet a -> exists v, group_text (dec a) v.
Proof.
  intros A. pose proof (dec_length a) as L. pose proof (dec_digits A) as D. destruct (hex_number (dec a) 0) as [v|] eqn:E; [exists v; split; [lia|exact E]|]. exfalso. revert D E. clear. generalize 0%N. induction (dec a) as [|c r IH]; intros n D; cbn; [discriminate|].
  inversion D; subst. rewrite digit_hex by assumption. now apply IH.
Qed.
Lemma groups_octets q s o : groups q s o -> 2 <= length o /\ bytes o.
Proof.
  induction 1 as [s v G|s ip _ D|s v r o G _ [IL IB]].
  - apply group_value in G. split; [reflexivity|]. repeat constructor; unfold octet; lia.
  - destruct (dotted_octets D). split; [lia|assumption].
  - apply group_value in G. cbn. split; [lia|]. repeat constructor; auto; unfold octet; lia.
Qed.
Lemma groups_head q s o : groups q s o -> exists c r d, s = c :: r /\ hex_value c = Some d.
Proof.
  intros [s' v G|s' ip _ D|s' v r o' G _].
  - exact (group_cons G).
  - destruct D as [a b c d A _ _ _]. destruct (dec_group A) as [v G]. destruct (group_cons G) as (x & r & y & E & H). rewrite E. cbn. eauto.
  - destruct (group_cons G) as (x & r' & y & E & H). rewrite E. cbn. eauto.
Qed.

Lemma loop_groups s o : groups true s o -> forall n ip ell, length ip + 2 * n = 16 -> length o <= 2 * n -> (ell <> None \/ length ip + length o = 16) ->
  v6_loop n s ip ell = Some ([], ip ++ o, ell).
Proof.
  induction 1 as [s v G|s o _ D|s v r o G R IH]; intros n ip ell Ln Lo P.
  - destruct n as [|n]; [cbn in Lo; lia|]. cbn [v6_loop]. rewrite <- (app_nil_r s), (@group_scan _ _ [] G I). destruct (Nat.eqb_spec (length s) 0); [destruct G; lia|]. reflexivity.
  - destruct (dotted_octets D) as [L4 _]. destruct n as [|n]; [lia|]. cbn [v6_loop]. pose proof (dotted_parses D) as Pq. destruct D as [a b c d A _ _ _]. destruct (dec_group A) as [v G].
    rewrite (@group_scan _ _ (dot :: dec b ++ dot :: dec c ++ dot :: dec d) G eq_refl).
    destruct (Nat.eqb_spec (length (dec a)) 0); [destruct G; lia|]. rewrite N.eqb_refl, Pq.
    destruct ell as [e|]; cbn [andb].
    + destruct (Nat.ltb_spec 16 (length ip + 4)); [lia|reflexivity].
    + destruct P as [P|P]; [now contradiction P|]. destruct (Nat.eqb_spec (length ip) 12); [|lia]. cbn [negb]. destruct (Nat.ltb_spec 16 (length ip + 4)); [lia|reflexivity].
  - destruct n as [|n]; [cbn in Lo; lia|]. cbn [v6_loop]. rewrite (@group_scan _ _ (colon :: r) G eq_refl). destruct (Nat.eqb_spec (length s) 0); [destruct G; lia|].
    change (colon =? dot)%N with false. rewrite N.eqb_refl. cbn [negb]. destruct (groups_head R) as (c & r' & d & -> & Hc). destruct (hex_special _ Hc) as (_ & -> & _).
    rewrite IH; [rewrite <- app_assoc; reflexivity|rewrite app_length; cbn in *; lia|cbn in *; lia|]. rewrite app_length. cbn in *. destruct P; [now left|right; lia].
Qed.
Lemma loop_short a oa : groups false a oa -> forall b ob n ip, groups0 true b ob -> length ip + 2 * n = 16 -> length oa + length ob <= 2 * n ->
  v6_loop n (a ++ colon :: colon :: b) ip None = Some ([], ip ++ oa ++ ob, Some (length ip + length oa)).
Proof.
  induction 1 as [s v G|s o Q _|s v r o G R IH]; [| discriminate Q|]; intros b ob n ip B Ln Lo; (destruct n as [|n]; [cbn in Lo; lia|]); cbn [v6_loop].
  - rewrite (@group_scan _ _ (colon :: colon :: b) G eq_refl). destruct (Nat.eqb_spec (length s) 0); [destruct G; lia|]. change (colon =? dot)%N with false. rewrite N.eqb_refl. cbn [negb].
    destruct B as [[-> ->]|B].
    + rewrite app_nil_r, app_length. reflexivity.
    + destruct (groups_head B) as (c & r' & d & E & _). destruct b as [|c0 b]; [discriminate E|]. rewrite (loop_groups B).
      * rewrite <- app_assoc, app_length. reflexivity.
      * rewrite app_length. cbn in *. lia.
      * cbn in *. lia.
      * left. discriminate.
  - rewrite <- app_assoc. cbn [app]. rewrite (@group_scan _ _ (colon :: r ++ colon :: colon :: b) G eq_refl). destruct (Nat.eqb_spec (length s) 0); [destruct G; lia|]. change (colon =? dot)%N with false. rewrite N.eqb_refl. cbn [negb].
    destruct (groups_head R) as (c & r' & d & E & Hc). destruct (hex_special _ Hc) as (_ & H2 & _). rewrite E at 1. cbn [app]. rewrite H2. rewrite E in IH. cbn [app] in IH.
    rewrite E. cbn [app]. rewrite (IH b ob n); [|exact B|rewrite app_length; cbn in *; lia|cbn in *; lia]. rewrite <- app_assoc, app_length. cbn. do 2 f_equal. f_equal. lia.
Qed.
Lemma loop_sound n : forall s ip ell ip' ell', v6_loop n s ip ell = Some ([], ip', ell') -> s <> [] -> length ip + 2 * n = 16 ->
  length ip' <= 16 /\
  (ell' = ell /\ (exists o, groups true s o /\ ip' = ip ++ o) \/
   ell = None /\ exists a oa b ob, s = a ++ colon :: colon :: b /\ groups false a oa /\ groups0 true b ob /\ ip' = ip ++ oa ++ ob /\ ell' = Some (length ip + length oa)).
Proof.
  induction n as [|n IH]; intros s ip ell ip' ell' H Ns Ln; cbn [v6_loop] in H; [injection H as -> _ _; contradiction|].
  destruct (scan s 0 0) as [[[off acc] r]|] eqn:S; [|discriminate]. destruct (Nat.eqb_spec off 0) as [|Off]; [discriminate|].
  destruct (@scan_sound _ _ _ _ _ _ S ltac:(lia)) as (g & -> & -> & G & Hn & _ & R). cbn [Nat.add] in *.
  assert (GT : group_text g acc) by (split; [destruct G as [->|G]; [now contradiction Off|lia]|exact Hn]).
  destruct r as [|c r1].
  - injection H as <- <-. rewrite app_length. cbn [length]. split; [lia|]. left. split; [reflexivity|]. eexists. split; [|reflexivity]. rewrite app_nil_r. now constructor.
  - destruct (N.eqb_spec c dot) as [->|Nd].
    + destruct (_ && _); [discriminate|]. destruct (Nat.ltb_spec 16 (length ip + 4)); [discriminate|]. destruct (parse_v4 (g ++ dot :: r1)) as [v4|] eqn:Q; [|discriminate]. injection H as <- <-.
      apply parse_v4_iff in Q. destruct (dotted_octets Q) as [L4 _]. rewrite app_length. split; [lia|]. left. split; [reflexivity|]. exists v4. split; [now apply groups_quad|reflexivity].
    + destruct (N.eqb_spec c colon) as [->|]; [|discriminate]. cbn [negb] in H. destruct r1 as [|c2 r2]; [discriminate|]. destruct (N.eqb_spec c2 colon) as [->|Nc].
      * destruct ell as [e|]; [discriminate|]. destruct r2 as [|c3 r3].
        -- injection H as <- <-. split; [rewrite app_length; cbn; lia|]. right. split; [reflexivity|]. exists g, [acc / 256; acc mod 256]%N, [], []. repeat split; auto; try (now left). { now constructor. } rewrite app_length. reflexivity.
        -- destruct (IH _ _ _ _ _ H) as (L & [(-> & o & Go & ->)|(X & _)]); [discriminate|rewrite app_length; cbn; lia| |discriminate X]. split; [exact L|]. right. split; [reflexivity|].
           exists g, [acc / 256; acc mod 256]%N, (c3 :: r3), o. repeat split; auto. { now constructor. } { now right. } { now rewrite <- app_assoc. } { now rewrite app_length. }
      * destruct (IH _ _ _ _ _ H) as (L & [(-> & o & Go & ->)|(X & a & oa & b & ob & E & Ga & Gb & -> & ->)]); [discriminate|rewrite app_length; cbn; lia| |]; (split; [exact L|]).
        -- left. split; [reflexivity|]. exists (acc / 256 :: acc mod 256 :: o)%N. split; [now apply groups_cons|]. now rewrite <- app_assoc.
        -- right. split; [exact X|]. exists (g ++ colon :: a), (acc / 256 :: acc mod 256 :: oa)%N, b, ob. rewrite <- app_assoc. cbn [app]. rewrite E. repeat split; auto. { now apply groups_cons. } { now rewrite <- app_assoc. } rewrite app_length. cbn. f_equal. lia.
Qed.
