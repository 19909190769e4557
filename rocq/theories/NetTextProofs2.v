(** net.ParseIP accepts exactly the textual addresses, and net.IP.String prints one. *)
From Verif Require Import Base Codec NetText NetTextProofs.
Set Implicit Arguments.
Ltac Zify.zify_post_hook ::= Z.to_euclidean_division_equations.

Lemma v6_octets s ip : v6_text s ip -> length ip = 16 /\ bytes ip.
Proof.
  intros [s' ip' G L|a oa b ob n A B L N0].
  - split; [exact L|]. now apply groups_octets in G.
  - split; [rewrite !app_length, repeat_length; lia|]. apply bytes_app. split.
    + destruct A as [[_ ->]|A]; [constructor|now apply groups_octets in A].
    + apply bytes_app. split; [apply Forall_forall; intros x X; apply repeat_spec in X; subst; reflexivity|]. destruct B as [[_ ->]|B]; [constructor|now apply groups_octets in B].
Qed.
Lemma v6_body_complete s ip : v6_text s ip -> v6_body s = Some ip.
Proof.
  intros [s' ip' G L|a oa b ob n A B L N0].
  - destruct (groups_head G) as (c & r & d & E & H). destruct (hex_special _ H) as (_ & Hc & _). unfold v6_body. rewrite E at 1. rewrite Hc. cbn [andb].
    replace (match r with [] => (s', None) | _ => (s', None) end) with (s', @None nat) by now destruct r.
    rewrite (loop_groups G) by (cbn; lia). cbn [app]. rewrite L. reflexivity.
  - assert (T : forall ip e, length ip < 16 -> Some (firstn e ip ++ make (16 - length ip) ++ skipn e ip) = (if length ip <? 16 then Some (firstn e ip ++ make (16 - length ip) ++ skipn e ip) else None)).
    { intros ip' e X. destruct (Nat.ltb_spec (length ip') 16); [reflexivity|lia]. }
    destruct A as [[-> ->]|A].
    + cbn [app]. unfold v6_body. rewrite N.eqb_refl. cbn [andb]. destruct B as [[-> ->]|B].
      * cbn in *. rewrite Nat.add_0_r in L. subst n. now rewrite app_nil_r.
      * destruct (groups_head B) as (c & r & d & E & _). destruct b as [|c0 b]; [discriminate E|]. rewrite (loop_groups B) by (try (left; discriminate); cbn in *; lia). cbn [app]. rewrite <- T by (cbn in *; lia). cbn [firstn skipn app]. unfold make.
        assert (X : 16 - length ob = n) by (cbn in L; lia). rewrite X. reflexivity.
    + pose proof (groups_octets A) as [La _]. destruct (groups_head A) as (c & r & d & E & H). destruct (hex_special _ H) as (_ & Hc & _).
      assert (X : v6_loop 8 (a ++ colon :: colon :: b) [] None = Some ([], oa ++ ob, Some (length oa))) by (apply (@loop_short _ _ A b ob 8 [] B); cbn; lia).
      unfold v6_body. rewrite E at 1. cbn [app]. rewrite Hc. cbn [andb].
      match goal with |- context [match ?l with [] => ?u | _ :: _ => ?u end] => replace (match l with [] => u | _ :: _ => u end) with u by now destruct l end.
      rewrite X. rewrite <- T by (rewrite app_length; lia). rewrite firstn_app_exact, skipn_app_exact by reflexivity. rewrite app_length. unfold make. replace (16 - (length oa + length ob)) with n by lia. reflexivity.
Qed.
Lemma v6_body_sound s ip : v6_body s = Some ip -> v6_text s ip.
Proof.
  unfold v6_body. intros H.
  assert (C : (exists r, s = colon :: colon :: r /\ match r with [] => Some (make 16) | _ => match v6_loop 8 r [] (Some 0) with Some ([], ip, ell) => if length ip <? 16 then match ell with Some e => Some (firstn e ip ++ make (16 - length ip) ++ skipn e ip) | None => None end else match ell with Some _ => None | None => Some ip end | _ => None end end = Some ip)
    \/ match v6_loop 8 s [] None with Some ([], ip, ell) => if length ip <? 16 then match ell with Some e => Some (firstn e ip ++ make (16 - length ip) ++ skipn e ip) | None => None end else match ell with Some _ => None | None => Some ip end | _ => None end = Some ip).
  { destruct s as [|x [|y r]]; [right; exact H|right; exact H|]. destruct ((x =? colon)%N && (y =? colon)%N) eqn:E; [|right; exact H]. apply andb_true_iff in E. destruct E as [E1 E2]. apply N.eqb_eq in E1, E2. subst. left. exists r. split; [reflexivity|]. destruct r; exact H. }
  clear H. destruct C as [(r & -> & H)|H].
  - destruct r as [|c r].
    + injection H as <-. apply (@v6_short [] [] [] [] 16); [now left|now left|reflexivity|lia].
    + destruct (v6_loop 8 (c :: r) [] (Some 0)) as [[[[|? ?] ip'] ell]|] eqn:E; try discriminate. apply loop_sound in E; [|discriminate|reflexivity]. destruct E as (L & [(-> & o & G & ->)|(X & _)]); [|discriminate X]. cbn [app] in *.
      destruct (Nat.ltb_spec (length o) 16); [|discriminate]. injection H as <-. cbn [firstn skipn app]. apply (@v6_short [] [] (c :: r) o (16 - length o)); [now left|now right|cbn [length]; lia|lia].
  - destruct (v6_loop 8 s [] None) as [[[[|? ?] ip'] ell]|] eqn:E; try discriminate. destruct s as [|c s]; [discriminate E|]. apply loop_sound in E; [|discriminate|reflexivity]. destruct E as (L & [(-> & o & G & ->)|(_ & a & oa & b & ob & -> & Ga & Gb & -> & ->)]); cbn [app length Nat.add] in *.
    + destruct (Nat.ltb_spec (length o) 16); [discriminate|]. injection H as <-. constructor; [exact G|lia].
    + destruct (Nat.ltb_spec (length (oa ++ ob)) 16) as [X|]; [|discriminate]. injection H as <-. rewrite firstn_app_exact, skipn_app_exact by reflexivity. rewrite app_length in X. rewrite app_length. apply (@v6_short a oa b ob (16 - (length oa + length ob))); [now right|exact Gb|lia|lia].
Qed.

(** ** The whole text *)
Definition plain (l : list N) : Prop := Forall (fun c => exists d, hex_value c = Some d) l.
Lemma group_plain s v : group_text s v -> plain s.
Proof.
  intros [_ H]. revert H. generalize 0%N. induction s as [|c s IH]; intros n H; [constructor|]. cbn in H. destruct (hex_value c) eqn:E; [|discriminate]. constructor; eauto. exact (IH _ H).
Qed.
Lemma parse_at_plain l : forall r s, plain l -> parse_addr_at (l ++ r) s = parse_addr_at r s.
Proof. induction l as [|c l IH]; intros r s P; [reflexivity|]. inversion P as [|? ? [d Hd] Pl]; subst. destruct (hex_special _ Hd) as (H1 & H2 & H3). cbn. rewrite H1, H2, H3. now apply IH. Qed.
Lemma cut_in c s : In c s -> exists a z, cut c s = (a, Some z).
Proof. induction s as [|x s IH]; cbn; [tauto|]. intros H. destruct (N.eqb_spec x c); [eauto|]. destruct H as [|H]; [contradiction|]. destruct (IH H) as (a & z & ->). eauto. Qed.
Lemma cut_out c s : ~ In c s -> cut c s = (s, None).
Proof. induction s as [|x s IH]; cbn; [reflexivity|]. intros H. destruct (N.eqb_spec x c); [exfalso; auto|]. rewrite IH by auto. reflexivity. Qed.
Lemma plain_no_percent l : plain l -> ~ In percent l.
Proof. intros P I. destruct (proj1 (Forall_forall _ _) P _ I) as [d H]. discriminate H. Qed.
Lemma dotted_no_percent s ip : dotted s ip -> ~ In percent s.
Proof.
  assert (D : forall a, octet a -> ~ In percent (dec a)) by (intros a A; destruct (dec_group A) as [v G]; apply plain_no_percent; exact (group_plain G)).
  intros [a b c d A B C E] I. repeat (rewrite in_app_iff in I; cbn [In] in I). repeat (destruct I as [I|I]; [try discriminate I; (eapply D; [|exact I]; assumption)|]); try discriminate I. eapply D; [|exact I]; assumption.
Qed.
Lemma groups_no_percent q s o : groups q s o -> ~ In percent s.
Proof.
  induction 1 as [s v G|s o _ D|s v r o G _ IH].
  - apply plain_no_percent. exact (group_plain G).
  - exact (dotted_no_percent D).
  - rewrite in_app_iff. cbn [In]. intros [I|[I|I]]; [exact (plain_no_percent (group_plain G) I)|discriminate I|contradiction].
Qed.
Lemma v6_no_percent s ip : v6_text s ip -> ~ In percent s.
Proof.
  intros [s' ip' G _|a oa b ob n A B _ _]; [exact (groups_no_percent G)|]. rewrite in_app_iff. cbn [In]. intros [I|[I|[I|I]]]; try discriminate I.
  - destruct A as [[-> _]|A]; [contradiction|exact (groups_no_percent A I)].
  - destruct B as [[-> _]|B]; [contradiction|exact (groups_no_percent B I)].
Qed.
Lemma groups_first q s o : groups q s o -> length o <> 4 -> length o <> 2 -> exists l r, s = l ++ colon :: r /\ plain l.
Proof.
  intros [s' v G|s' o' _ D|s' v r o' G _] N4 N2; [now contradiction N2| |].
  - destruct (dotted_octets D). contradiction.
  - exists s', r. split; [reflexivity|exact (group_plain G)].
Qed.
Lemma groups_false_first s o : groups false s o -> forall t, exists l r, s ++ colon :: t = l ++ colon :: r /\ plain l.
Proof.
  intros [s' v G|s' o' Q D|s' v r o' G _] t; [|discriminate Q|].
  - exists s', t. split; [reflexivity|exact (group_plain G)].
  - exists s', (r ++ colon :: t). rewrite <- app_assoc. split; [reflexivity|exact (group_plain G)].
Qed.
Lemma v6_first s ip : v6_text s ip -> exists l r, s = l ++ colon :: r /\ plain l.
Proof.
  intros [s' ip' G L|a oa b ob n A B _ _].
  - apply (groups_first G); lia.
  - destruct A as [[-> _]|A]; [exists [], (colon :: b); split; [reflexivity|constructor]|exact (groups_false_first A _)].
Qed.
Lemma parse_v6_iff s ip : parse_v6 s = Some (ip, []) <-> v6_text s ip.
Proof.
  unfold parse_v6. split.
  - destruct (in_dec N.eq_dec percent s) as [I|I].
    + destruct (cut_in _ _ I) as (a & z & ->). destruct z as [|c z]; [discriminate|]. destruct (v6_body a); discriminate.
    + rewrite (cut_out _ _ I). destruct (v6_body s) as [ip'|] eqn:E; [|discriminate]. intros [= <-]. now apply v6_body_sound.
  - intros V. rewrite (cut_out _ _ (v6_no_percent V)). now rewrite (v6_body_complete V).
Qed.
Theorem parse_ip_iff s ip : parse_ip s = Some ip <-> address_text s ip.
Proof.
  unfold parse_ip, parse_addr. split.
  - destruct (parse_addr_at s s) as [[ip' z]|] eqn:E; [|discriminate]. destruct z; [|discriminate]. intros [= <-]. revert E. generalize s at 1. intros r. induction r as [|c r IH]; cbn; [discriminate|].
    destruct (c =? dot)%N.
    + destruct (parse_v4 s) as [v4|] eqn:E; [|discriminate]. intros [= <-]. constructor. now apply parse_v4_iff.
    + destruct (c =? colon)%N; [|destruct (c =? percent)%N; [discriminate|exact IH]]. intros E. apply address_v6. now apply parse_v6_iff.
  - intros [s' ip' D|s' ip' V].
    + pose proof (dotted_parses D) as P. replace (parse_addr_at s' s') with (Some (v4prefix ++ ip', @nil N)); [reflexivity|]. destruct D as [a b c d A _ _ _]. destruct (dec_group A) as [v G]. set (t := dec a ++ _) in *. unfold t at 1. rewrite (parse_at_plain _ _ (group_plain G)). cbn. now rewrite P.
    + pose proof (proj2 (parse_v6_iff _ _) V) as P. destruct (v6_first V) as (l & r & E & Pl). replace (parse_addr_at s' s') with (Some (ip', @nil N)); [reflexivity|]. rewrite E at 1. rewrite (parse_at_plain _ _ Pl). cbn. now rewrite P.
Qed.
Lemma address_octets s ip : address_text s ip -> length ip = 16 /\ bytes ip.
Proof.
  intros [s' ip' D|s' ip' V]; [|exact (v6_octets V)]. destruct (dotted_octets D). rewrite app_length. split; [change (12 + length ip' = 16); lia|]. apply bytes_app. split; [apply v4prefix_bytes|assumption].
Qed.

(** ** Printing *)
Lemma hex_digit_value d : (d < 16)%N -> hex_value (hex_digit d) = Some d.
Proof. intros H. unfold hex_digit. destruct (N.ltb_spec d 10); unfold hex_value; nd; cbn [andb]; try lia; f_equal; lia. Qed.
Lemma append_hex_text x : (x <= 65535)%N -> group_text (append_hex x) x.
Proof.
  intros H. unfold append_hex. nd; try lia; cbn [app]; (split; [cbn; lia|]); cbn [hex_number]; rewrite !hex_digit_value by lia; f_equal; lia.
Qed.
Lemma pairs_16 (l : list N) : length l = 16 -> concat (map (fun i => [nth (2 * i) l 0; nth (2 * i + 1) l 0]%N) (seq 0 8)) = l.
Proof. intros L. do 16 (destruct l as [|? l]; [discriminate L|]). destruct l; [reflexivity|discriminate L]. Qed.
Section Print.
Variable ip : list N.
Hypothesis L : length ip = 16.
Hypothesis B : bytes ip.
Notation G i := (append_hex (group ip i)).
Definition two (i : nat) : list N := [group ip i / 256; group ip i mod 256]%N.
Lemma nth_octet n : (nth n ip 0 < 256)%N.
Proof. destruct (nth_in_or_default n ip 0%N) as [I| ->]; [|lia]. exact (proj1 (Forall_forall _ _) B _ I). Qed.
Lemma group_bound i : (group ip i <= 65535)%N.
Proof. unfold group. pose proof (nth_octet (2 * i)). pose proof (nth_octet (2 * i + 1)). lia. Qed.
Lemma two_eq i : two i = [nth (2 * i) ip 0; nth (2 * i + 1) ip 0]%N.
Proof. unfold two, group. pose proof (nth_octet (2 * i)). pose proof (nth_octet (2 * i + 1)). le. Qed.
Lemma all_two : concat (map two (seq 0 8)) = ip.
Proof.
  rewrite (map_ext _ _ two_eq). now apply pairs_16.
Qed.
Definition more (i n : nat) : list N := concat (map (fun k => colon :: G k) (seq i n)).
Lemma more_groups n : forall i, groups false (G i ++ more (S i) n) (concat (map two (seq i (S n)))).
Proof.
  induction n as [|n IH]; intros i.
  - cbn. rewrite app_nil_r. apply groups_one. apply append_hex_text, group_bound.
  - cbn [seq map concat]. unfold more. cbn [seq map concat]. fold (more (S (S i)) n). cbn [app]. apply groups_cons; [apply append_hex_text, group_bound|]. exact (IH (S i)).
Qed.
Lemma more_S i n : more i (S n) = colon :: G i ++ more (S i) n. Proof. reflexivity. Qed.
(** the printing loop away from the zeros *)
Lemma print_tail n : forall zs ze i, 0 < i -> 8 - i <= n -> (forall k, i <= k < 8 -> k <> zs) -> print6 n ip zs ze i = more i (8 - i).
Proof.
  induction n as [|n IH]; intros zs ze i Hi Hn Z; cbn [print6].
  - replace (8 - i) with 0 by lia. reflexivity.
  - destruct (Nat.leb_spec 8 i) as [H|H]; [replace (8 - i) with 0 by lia; reflexivity|]. destruct (Nat.eqb_spec i zs) as [E|_]; [exfalso; apply (Z i); lia|]. destruct (Nat.ltb_spec 0 i); [|lia].
    rewrite (IH zs ze (S i)) by (try lia; intros k Hk; apply Z; lia). replace (8 - i) with (S (8 - S i)) by lia. rewrite more_S. reflexivity.
Qed.
Definition after (ze : nat) : list N := if 8 <=? ze then [] else G ze ++ more (S ze) (8 - S ze).
Lemma print_run n : forall zs ze i, 0 < i <= zs -> zs < ze <= 8 -> 8 - i <= n -> print6 n ip zs ze i = more i (zs - i) ++ colon :: colon :: after ze.
Proof.
  induction n as [|n IH]; intros zs ze i Hi Hz Hn; cbn [print6]; [lia|]. destruct (Nat.leb_spec 8 i); [lia|]. destruct (Nat.eqb_spec i zs) as [<-|E].
  - rewrite Nat.sub_diag. unfold after. cbn [app more seq map concat]. destruct (Nat.leb_spec 8 ze); [reflexivity|]. rewrite print_tail by lia. reflexivity.
  - destruct (Nat.ltb_spec 0 i); [|lia]. rewrite IH by lia. replace (zs - i) with (S (zs - S i)) by lia. rewrite more_S. cbn [app]. now rewrite <- app_assoc.
Qed.
Lemma after_groups ze : ze <= 8 -> groups0 true (after ze) (concat (map two (seq ze (8 - ze)))).
Proof.
  intros H. unfold after. destruct (Nat.leb_spec 8 ze).
  - replace (8 - ze) with 0 by lia. now left.
  - right. replace (8 - ze) with (S (8 - S ze)) by lia. generalize (8 - S ze). intros n.
    assert (W : forall s o, groups false s o -> groups true s o). { induction 1; [now apply groups_one|discriminate|now apply groups_cons]. }
    apply W, more_groups.
Qed.
Lemma two_zero i : group ip i = 0%N -> two i = [0; 0]%N. Proof. unfold two. now intros ->. Qed.
Lemma zeros_two n : forall i, (forall k, i <= k < i + n -> group ip k = 0%N) -> concat (map two (seq i n)) = repeat 0%N (2 * n).
Proof.
  induction n as [|n IH]; intros i H; [reflexivity|]. cbn [seq map concat]. rewrite two_zero by (apply H; lia). rewrite IH by (intros k Hk; apply H; lia). replace (2 * S n) with (S (S (2 * n))) by lia. reflexivity.
Qed.
Lemma zeros_from_ok n : forall i, i <= zeros_from n ip i /\ (i <= 8 -> zeros_from n ip i <= 8) /\ forall k, i <= k < zeros_from n ip i -> group ip k = 0%N.
Proof.
  induction n as [|n IH]; intros i; cbn [zeros_from]; [repeat split; intros; lia|]. destruct (Nat.ltb_spec i 8) as [H|H]; cbn [andb]; [|repeat split; intros; lia]. destruct (N.eqb_spec (group ip i) 0) as [E|E]; [|repeat split; intros; lia].
  destruct (IH (S i)) as (A & B' & C). repeat split; try lia. intros k Hk. destruct (Nat.eq_dec k i) as [->|]; [exact E|]. apply C. lia.
Qed.
Definition run_ok zs ze := zs = 255 /\ ze = 255 \/ zs + 2 <= ze <= 8 /\ forall k, zs <= k < ze -> group ip k = 0%N.
Lemma zero_run_ok n : forall i zs ze, i + n <= 8 -> run_ok zs ze -> let '(a, b) := zero_run n ip i zs ze in run_ok a b.
Proof.
  induction n as [|n IH]; intros i zs ze Hi R; cbn [zero_run]; [exact R|]. destruct (zeros_from_ok 8 i) as (A & B' & C). destruct ((2 <=? zeros_from 8 ip i - i) && (ze - zs <? zeros_from 8 ip i - i)) eqn:E.
  - apply IH; [lia|]. right. apply andb_true_iff in E. destruct E as [E _]. apply Nat.leb_le in E. split; [specialize (B' ltac:(lia)); lia|exact C].
  - apply IH; [lia|exact R].
Qed.
Theorem string6_text : v6_text (string6 ip) ip.
Proof.
  unfold string6. pose proof (@zero_run_ok 8 0 255 255 ltac:(lia) ltac:(left; auto)) as R. destruct (zero_run 8 ip 0 255 255) as [zs ze]. destruct R as [[-> ->]|[Hz Z]].
  - change (print6 8 ip 255 255 0) with (G 0 ++ print6 7 ip 255 255 1). rewrite print_tail by lia.
    assert (W : forall s o, groups false s o -> groups true s o). { induction 1; [now apply groups_one|discriminate|now apply groups_cons]. }
    pose proof (W _ _ (more_groups 7 0)) as V. rewrite all_two in V. apply v6_full; [exact V|exact L].
  - assert (E : ip = concat (map two (seq 0 zs)) ++ repeat 0%N (2 * (ze - zs)) ++ concat (map two (seq ze (8 - ze)))).
    { transitivity (concat (map two (seq 0 8))); [symmetry; apply all_two|]. replace 8 with (zs + ((ze - zs) + (8 - ze))) at 1 by lia. rewrite !seq_app, !map_app, !concat_app. rewrite (@zeros_two (ze - zs)) by (intros k Hk; apply Z; lia). replace (0 + zs + (ze - zs)) with ze by lia. reflexivity. }
    assert (L2 : length (concat (map two (seq 0 zs))) + 2 * (ze - zs) + length (concat (map two (seq ze (8 - ze)))) = 16).
    { pose proof (f_equal (@length N) E) as E'. rewrite !app_length, repeat_length in E'. lia. }
    assert (V : v6_text ((match zs with O => [] | S m => G 0 ++ more 1 m end) ++ colon :: colon :: after ze) (concat (map two (seq 0 zs)) ++ repeat 0%N (2 * (ze - zs)) ++ concat (map two (seq ze (8 - ze))))).
    { apply v6_short; [|apply after_groups; lia|exact L2|lia]. destruct zs as [|m]; [now left|right; exact (more_groups m 0)]. }
    rewrite <- E in V.
    replace (print6 8 ip zs ze 0) with ((match zs with O => [] | S m => G 0 ++ more 1 m end) ++ colon :: colon :: after ze); [exact V|].
    destruct zs as [|m].
    + change (print6 8 ip 0 ze 0) with ([colon; colon] ++ (if 8 <=? ze then [] else G ze ++ print6 7 ip 0 ze (S ze))). unfold after. destruct (Nat.leb_spec 8 ze); [reflexivity|]. rewrite print_tail by lia. reflexivity.
    + change (print6 8 ip (S m) ze 0) with (G 0 ++ print6 7 ip (S m) ze 1). rewrite print_run by lia. rewrite <- app_assoc. do 3 f_equal. lia.
Qed.
(** the run of zeros replaced by :: is the first of the longest *)
Lemma zeros_from_max n : forall i b, 8 - i <= n -> i <= b <= 8 -> (forall k, i <= k < b -> group ip k = 0%N) -> b <= zeros_from n ip i.
Proof.
  induction n as [|n IH]; intros i b Hn Hb Z; cbn [zeros_from]; [lia|]. destruct (Nat.eq_dec b i) as [->|D].
  - destruct (zeros_from_ok (S n) i) as (A & _). exact A.
  - destruct (Nat.ltb_spec i 8); [|lia]. rewrite (Z i) by lia. cbn [andb N.eqb]. apply IH; try lia. intros k Hk. apply Z. lia.
Qed.
Definition best (i zs ze : nat) : Prop := forall a b, a < i -> a + 2 <= b <= 8 -> (forall k, a <= k < b -> group ip k = 0%N) -> b - a <= ze - zs /\ (b - a = ze - zs -> zs <= a).
Lemma zero_run_best n : forall i zs ze, i + n <= 8 -> best i zs ze -> (ze - zs <> 0 -> zs < i) -> let '(a, b) := zero_run n ip i zs ze in best (i + n) a b.
Proof.
  induction n as [|n IH]; intros i zs ze Hi R S; cbn [zero_run]; [now rewrite Nat.add_0_r|]. replace (i + Datatypes.S n) with (Datatypes.S i + n) by lia.
  destruct ((2 <=? zeros_from 8 ip i - i) && (ze - zs <? zeros_from 8 ip i - i)) eqn:E.
  - apply andb_true_iff in E. destruct E as [E1 E2]. apply Nat.leb_le in E1. apply Nat.ltb_lt in E2. apply IH; [lia| |lia]. intros a b Ha Hb Z. destruct (Nat.eq_dec a i) as [->|D].
    + split; [|lia]. assert (b <= zeros_from 8 ip i) by (apply zeros_from_max; auto; lia). lia.
    + destruct (R a b ltac:(lia) Hb Z). lia.
  - apply IH; [lia| |lia]. intros a b Ha Hb Z. destruct (Nat.eq_dec a i) as [->|D]; [|apply R; auto; lia].
    assert (b <= zeros_from 8 ip i) by (apply zeros_from_max; auto; lia). apply andb_false_iff in E. destruct E as [E|E]; [apply Nat.leb_gt in E; lia|apply Nat.ltb_ge in E]. lia.
Qed.
Lemma more_join n : forall i, G i ++ more (S i) n = join colon (map (fun k => G k) (seq i (S n))).
Proof. induction n as [|n IH]; intros i; [cbn; now rewrite app_nil_r|]. rewrite more_S, IH. reflexivity. Qed.
Theorem string6_form :
  (forall a b, a + 2 <= b <= 8 -> ~ forall k, a <= k < b -> group ip k = 0%N) /\ string6 ip = join colon (map (fun k => G k) (seq 0 8)) \/
  exists zs ze, zs + 2 <= ze <= 8 /\ (forall k, zs <= k < ze -> group ip k = 0%N) /\
    (forall a b, a + 2 <= b <= 8 -> (forall k, a <= k < b -> group ip k = 0%N) -> b - a <= ze - zs /\ (b - a = ze - zs -> zs <= a)) /\
    string6 ip = join colon (map (fun k => G k) (seq 0 zs)) ++ colon :: colon :: join colon (map (fun k => G k) (seq ze (8 - ze))).
Proof.
  unfold string6. pose proof (@zero_run_ok 8 0 255 255 ltac:(lia) ltac:(left; auto)) as R. pose proof (@zero_run_best 8 0 255 255 ltac:(lia) ltac:(intros a b Ha; lia) ltac:(lia)) as M. destruct (zero_run 8 ip 0 255 255) as [zs ze]. cbn [Nat.add] in M. destruct R as [[-> ->]|[Hz Z]].
  - left. split; [intros a b Hb Zr; destruct (M a b ltac:(lia) Hb Zr); lia|]. change (print6 8 ip 255 255 0) with (G 0 ++ print6 7 ip 255 255 1). rewrite print_tail by lia. exact (more_join 7 0).
  - right. exists zs, ze. split; [exact Hz|]. split; [exact Z|]. split; [intros a b Hb Zr; apply M; auto; lia|].
    assert (A : after ze = join colon (map (fun k => G k) (seq ze (8 - ze)))).
    { unfold after. destruct (Nat.leb_spec 8 ze); [replace (8 - ze) with 0 by lia; reflexivity|]. rewrite more_join. do 3 f_equal. lia. }
    rewrite <- A. destruct zs as [|m].
    + change (print6 8 ip 0 ze 0) with ([colon; colon] ++ (if 8 <=? ze then [] else G ze ++ print6 7 ip 0 ze (S ze))). unfold after. destruct (Nat.leb_spec 8 ze); [reflexivity|]. rewrite print_tail by lia. reflexivity.
    + change (print6 8 ip (S m) ze 0) with (G 0 ++ print6 7 ip (S m) ze 1). rewrite print_run by lia. rewrite <- more_join, <- app_assoc. do 3 f_equal. lia.
Qed.
End Print.
Theorem ip_string_text ip : (length ip = 4 \/ length ip = 16) -> bytes ip -> exists x, to16 (Some ip) = Some x /\ address_text (ip_string (Some ip)) x.
Proof.
  intros L B. unfold ip_string. cbn [octs]. destruct L as [L|L].
  - exists (v4prefix ++ ip). cbn [to16]. rewrite L. split; [reflexivity|]. rewrite to4_4 by exact L. destruct ip as [|a ip]; [discriminate L|]. rewrite L. cbn [Nat.eqb orb]. constructor. now apply dotted_string4.
  - exists ip. rewrite to16_16 by exact L. split; [reflexivity|]. replace (match ip with [] => _ | _ => _ end) with (match to4 (Some ip) with Some v4 => string4 v4 | None => string6 ip end) by (destruct ip as [|a ip]; [discriminate L|rewrite L; reflexivity]).
    destruct (to4 (Some ip)) as [v4|] eqn:E; [|apply address_v6; now apply string6_text]. cbn [to4] in E. rewrite L in E. cbn [Nat.eqb] in E. destruct (list_eq_dec N.eq_dec (firstn 12 ip) v4prefix) as [P|]; [|discriminate]. injection E as <-.
    rewrite <- (firstn_skipn 12 ip) at 2. rewrite P. constructor. apply dotted_string4; [now apply bytes_skipn|rewrite skipn_length; lia].
Qed.
