(** Payload codecs of Fields3.v, continued: Header Enrichment, Redirect Information, MAC Address, UP IP Resource Information, Trace Information. *)
From Verif Require Import Base Codec Codec2 Fields3 FieldsSpec3 FieldsProofs1 FieldsProofs3 FieldsProofs3b Utils UtilsProofs.
Set Implicit Arguments.

(** * Header Enrichment *)
Ltac che := cbn [he_type he_namelen he_name he_vallen he_val].
Lemma henr_total b : returns (henr_parse b).
Proof.
  unfold henr_parse. destruct (Nat.ltb_spec (length b) 2); [right; eauto|]. destruct b as [|t [|nl q]]; try (cbn [length] in *; lia).
  change (index (t :: nl :: q) 0) with (Ok t). change (index (t :: nl :: q) 1) with (Ok nl). cbn [bind]. apply returns_bind; [apply rd_returns|]. intros [name o] _.
  apply returns_bind; [apply rd8s_returns|]. intros [[vl v] o'] _. left; eauto.
Qed.
Lemma henr_parse_wire f r : henr_wf f -> henr_parse (henr_wire f ++ r) = Ok f.
Proof.
  destruct f as [t nl name vl v]. unfold henr_wf, henr_wire, henr_parse. che. intros (Ht & Hn & Hv & -> & ->).
  change (([t] ++ seg8 true name ++ seg8 true v) ++ r) with ([t; lenN name] ++ (name ++ seg8 true v) ++ r). rewrite <- !app_assoc.
  rewrite need_app by (cbn; lia). change (index ([t; lenN name] ++ ?q) 0) with (Ok t). change (index ([t; lenN name] ++ ?q) 1) with (Ok (lenN name)). unfold bind at 1 2.
  change (rd ?n ?b 2) with (rd n b (length [t; lenN name])). rewrite lenN_nat, rd_app by reflexivity. unfold bind at 1. rewrite app_assoc. fwd2. reflexivity.
Qed.
Lemma henr_parse_inv b f : bytes b -> henr_parse b = Ok f -> henr_wf f /\ exists r, bytes r /\ b = henr_wire f ++ r.
Proof.
  intros Hb H. unfold henr_parse in H. destruct (Nat.ltb_spec (length b) 2); [discriminate|]. destruct b as [|t [|nl q]]; try (cbn [length] in *; lia).
  change (index (t :: nl :: q) 0) with (Ok t) in H. change (index (t :: nl :: q) 1) with (Ok nl) in H. unfold bind at 1 2 in H.
  inversion Hb as [|? ? Ht Hb1]; subst. inversion Hb1 as [|? ? Hn Hq]; subst. clear Hb Hb1.
  apply bind_ok in H. destruct H as ([name o] & E & H). change (t :: nl :: q) with ([t; nl] ++ q) in *. change (rd ?n ?b 2) with (rd n b (length [t; nl])) in E.
  apply rd_inv in E; [|exact Hq]. clear Hq. destruct E as (q1 & -> & L & Bn & Hq & ->).
  cbv beta iota in H. rewrite (app_assoc [t; nl] name q1) in *. inv2 H Hq.
  injection H as <-. unfold henr_wf, henr_wire. che.
  assert (En : nl = lenN name) by (unfold lenN; lia). subst nl. split.
  - split; [exact Ht|]. split; [split; [exact Bn|exact Hn]|]. split; [exact P|]. auto.
  - eexists. split; [exact Hq|]. cbn [seg8]. rewrite <- !app_assoc. reflexivity.
Qed.
(** lengths are taken modulo 256 by the constructor: only that many octets are copied *)
Definition cut256 (s : list N) : list N := firstn (N.to_nat (lenN s mod 256)) s.
Lemma cut256_len s : lenN (cut256 s) = (lenN s mod 256)%N.
Proof.
  unfold cut256, lenN. rewrite firstn_length. assert (N.of_nat (length s) mod 256 <= N.of_nat (length s))%N by (apply N.mod_le; discriminate). lia.
Qed.
Lemma cut256_le s : length (cut256 s) <= length s.
Proof. unfold cut256. rewrite firstn_length. lia. Qed.
Lemma cut256_short s : (lenN s < 256)%N -> cut256 s = s.
Proof. intros H. unfold cut256. rewrite N.mod_small by exact H. rewrite lenN_nat. apply firstn_all. Qed.
Lemma cp8s_cut s b o : cp8s true (u8 (lenN s)) s b o = cp8s true (lenN (cut256 s)) (cut256 s) b o.
Proof.
  unfold cp8s, u8. rewrite cut256_len. destruct (put b o _); cbn [bind]; try reflexivity. unfold copy_range. rewrite (Nat.add_comm (o + 1)), Nat.add_sub.
  unfold cut256. rewrite firstn_firstn, Nat.min_id. reflexivity.
Qed.
Lemma skipn_make n k : skipn n (make k) = make (k - n).
Proof. unfold make. revert k. induction n as [|n IH]; intros [|k]; cbn; auto. Qed.
Lemma in_firstn {A} n (l : list A) x : In x (firstn n l) -> In x l.
Proof. intros I. rewrite <- (firstn_skipn n l). apply in_or_app. now left. Qed.
Lemma new_henr_marshal t n v : bytes n -> bytes v -> let f := new_henr t (cut256 n) (cut256 v) in
  henr_marshal (new_henr t n v) = Ok (henr_wire f ++ make (length n - length (cut256 n) + (length v - length (cut256 v)))) /\ (octet t -> henr_wf f).
Proof.
  intros Bn Bv. cbn zeta. pose proof (cut256_le n). pose proof (cut256_le v). split.
  - unfold henr_marshal, henr_marshal_to, henr_marshal_len, new_henr, henr_wire. che.
    change (3 + length n + length v) with (1 + (2 + length n + length v)). rewrite put0. destruct (Nat.ltb_spec (length (make (1 + (2 + length n + length v)))) 2) as [L|_]; [rewrite make_length in L; lia|].
    cbn [bind]. change (cp8s ?c ?x ?s ?b 1) with (cp8s c x s b (length [t])). rewrite cp8s_cut. rewrite cp8s_ok by (lens2; lia). cbn [bind].
    rewrite cp8s_cut. rewrite cp8s_ok by (lens2; lia). cbn [bind]. f_equal. rewrite <- !app_assoc. do 3 f_equal. rewrite !skipn_make. f_equal. lens2. lia.
  - intros Ot. unfold henr_wf, new_henr. che. unfold u8. rewrite !cut256_len, !N.mod_mod by discriminate. split; [exact Ot|].
    assert (Z : forall s, bytes s -> short true 256 (cut256 s)).
    { intros s B. split; [unfold cut256; apply Forall_forall; intros x I; unfold bytes in B; rewrite Forall_forall in B; apply B; exact (in_firstn _ _ _ I)|]. rewrite cut256_len. apply N.mod_lt. discriminate. }
    auto.
Qed.
Lemma new_henr_roundtrip t n v : octet t -> bytes n -> bytes v ->
  exists w, henr_marshal (new_henr t n v) = Ok w /\ henr_parse w = Ok (new_henr t (cut256 n) (cut256 v)).
Proof.
  intros Ot Bn Bv. destruct (new_henr_marshal t Bn Bv) as [-> W]. eexists. split; [reflexivity|]. apply henr_parse_wire. auto.
Qed.

(** * Redirect Information *)
Lemma redir_shape b : (length b < 3 /\ redir_parse b = Err EUnexpectedEOF) \/ exists t h l q, b = t :: h :: l :: q /\
  let n := unbe [h; l] in
  redir_parse b = if length q <? N.to_nat n then Err EUnexpectedEOF else
    if (n =? 0)%N then Ok {| ri_type := t; ri_len := 0; ri_addr := []; ri_olen := 0; ri_other := [] |} else
    if length q <? 2 + N.to_nat n then Err EUnexpectedEOF else
    Ok {| ri_type := t; ri_len := n; ri_addr := firstn (N.to_nat n) q; ri_olen := n; ri_other := firstn (N.to_nat n) (skipn 2 q) |}.
Proof.
  destruct b as [|t [|h [|l q]]]; [left; cbn; auto|left; cbn; auto|left; cbn; auto|]. right. exists t, h, l, q. split; [reflexivity|]. cbn zeta.
  unfold redir_parse. change (length (t :: h :: l :: q) <? 3) with false. cbn match. change (index (t :: h :: l :: q) 0) with (Ok t). unfold bind at 1.
  change (getr 2 (t :: h :: l :: q) 1 (1 + 2)) with (Ok (unbe [h; l])). change (getr 2 (t :: h :: l :: q) 1 3) with (Ok (unbe [h; l])). unfold bind at 1.
  generalize (unbe [h; l]) as n. intros n. cbn [Nat.add length]. change (S (S (S (length q))) <? S (S (S (N.to_nat n)))) with (length q <? N.to_nat n).
  destruct (Nat.ltb_spec (length q) (N.to_nat n)) as [?|H]; [reflexivity|].
  unfold slice. change ((3 <=? S (S (S (N.to_nat n)))) && (S (S (S (N.to_nat n))) <=? length (t :: h :: l :: q))) with (N.to_nat n <=? length q).
  destruct (Nat.leb_spec (N.to_nat n) (length q)); [|lia]. unfold bind at 1 2. cbn [Nat.sub skipn].
  destruct (N.eqb_spec n 0) as [->|NZ]; [cbn [N.to_nat Nat.sub firstn]; reflexivity|].
  change (S (S (S (length q))) <? S (S (S (S (S (N.to_nat n)))))) with (length q <? S (S (N.to_nat n))).
  destruct (Nat.ltb_spec (length q) (S (S (N.to_nat n)))); [reflexivity|].
  change ((5 <=? S (S (S (S (S (N.to_nat n)))))) && (S (S (S (S (S (N.to_nat n))))) <=? length (t :: h :: l :: q))) with (S (S (N.to_nat n)) <=? length q).
  destruct (Nat.leb_spec (S (S (N.to_nat n))) (length q)); [|lia]. cbn [bind Nat.sub]. now rewrite Nat.sub_0_r.
Qed.
Lemma redir_total b : returns (redir_parse b).
Proof.
  destruct (redir_shape b) as [[_ ->]|(t & h & l & q & -> & ->)]; [right; eauto|]. destruct (length q <? _); [right; eauto|]. destruct (_ =? 0)%N; [left; eauto|].
  destruct (length q <? _); [right; eauto|left; eauto].
Qed.
(** exact: the address is the announced one; the "other address" is the same number of octets, starting two octets after the start of the address *)
Lemma redir_ok b f : bytes b -> (redir_parse b = Ok f <-> exists t n q, octet t /\ (n < 65536)%N /\ bytes q /\ b = [t] ++ be 2 n ++ q /\
  ((n = 0%N /\ f = {| ri_type := t; ri_len := 0; ri_addr := []; ri_olen := 0; ri_other := [] |}) \/
   (n <> 0%N /\ 2 + N.to_nat n <= length q /\
    f = {| ri_type := t; ri_len := n; ri_addr := firstn (N.to_nat n) q; ri_olen := n; ri_other := firstn (N.to_nat n) (skipn 2 q) |}))).
Proof.
  intros Hb. split.
  - intros H. destruct (redir_shape b) as [[_ E]|(t & h & l & q & -> & E)]; [congruence|]. cbn zeta in E. rewrite E in H. clear E.
    inversion Hb as [|? ? Ht Hb1]; subst. inversion Hb1 as [|? ? Hh Hb2]; subst. inversion Hb2 as [|? ? Hl Hq]; subst.
    exists t, (unbe [h; l]), q. split; [exact Ht|]. rewrite unbe2 in *. split; [unfold octet in *; lia|]. split; [exact Hq|]. split; [now rewrite be2_bytes by assumption|].
    destruct (length q <? _) eqn:?; [discriminate|]. destruct (N.eqb_spec (h * 256 + l) 0) as [Z|NZ]; [left; split; [exact Z|congruence]|].
    right. split; [exact NZ|]. destruct (Nat.ltb_spec (length q) (2 + N.to_nat (h * 256 + l))); [discriminate|]. split; [assumption|]. congruence.
  - intros (t & n & q & Ot & Hn & Hq & -> & C).
    assert (Ed : exists h l, octet h /\ octet l /\ n = (h * 256 + l)%N).
    { exists (n / 256)%N, (n mod 256)%N. unfold octet. split; [apply N.div_lt_upper_bound; lia|]. split; [apply N.mod_lt; discriminate|]. rewrite (N.div_mod n 256) at 1 by discriminate. lia. }
    destruct Ed as (h & l & Hh & Hl & ->). rewrite be2_bytes by assumption. change ([t] ++ [h; l] ++ q) with (t :: h :: l :: q).
    destruct (redir_shape (t :: h :: l :: q)) as [[L _]|(t' & h' & l' & q' & E & ->)]; [cbn [length] in L; lia|]. injection E as <- <- <- <-. cbn zeta. rewrite unbe2.
    destruct C as [[-> ->]|(NZ & L & ->)].
    + cbn [N.to_nat N.eqb Nat.ltb Nat.leb]. destruct (Nat.ltb_spec (length q) 0); [lia|reflexivity].
    + destruct (Nat.ltb_spec (length q) (N.to_nat (h * 256 + l))); [lia|]. destruct (N.eqb_spec (h * 256 + l) 0); [contradiction|]. destruct (Nat.ltb_spec (length q) (2 + N.to_nat (h * 256 + l))); [lia|reflexivity].
Qed.
Lemma redir_wire_parse t a c r : octet t -> bytes (redir_wire t a c ++ r) -> (lenN a < 65536)%N ->
  redir_parse (redir_wire t a c ++ r) = Ok (match a with
    | [] => {| ri_type := t; ri_len := 0; ri_addr := []; ri_olen := 0; ri_other := [] |}
    | _ => {| ri_type := t; ri_len := lenN a; ri_addr := a; ri_olen := lenN a; ri_other := firstn (length a) (skipn 2 (a ++ seg16 true c ++ r)) |} end).
Proof.
  intros Ot B L. apply redir_ok; [exact B|]. exists t, (lenN a), (a ++ seg16 true c ++ r). split; [exact Ot|]. split; [exact L|].
  assert (E : redir_wire t a c ++ r = [t] ++ be 2 (lenN a) ++ a ++ seg16 true c ++ r) by (unfold redir_wire; cbn [seg16]; now rewrite <- !app_assoc).
  rewrite E in B. apply bytes_app in B. destruct B as [_ B]. apply bytes_app in B. destruct B as [_ B]. split; [exact B|]. split; [exact E|].
  destruct a as [|x a]; [left; split; reflexivity|]. right. split; [unfold lenN; cbn [length]; lia|]. rewrite lenN_nat. split.
  - lens2. lia.
  - now rewrite firstn_app, Nat.sub_diag, firstn_all, firstn_O, app_nil_r.
Qed.
Lemma new_redir_marshal t a c r : (lenN a < 65536)%N -> (lenN c < 65536)%N -> new_redir_ie t (a :: c :: r) = Ok (redir_wire t a c).
Proof.
  intros La Lc. unfold new_redir_ie, new_redir, redir_marshal, redir_marshal_to, redir_marshal_len. cbn [ri_type ri_len ri_addr ri_olen ri_other]. unfold u16. rewrite !N.mod_small by assumption. rewrite !lenN_nat.
  replace (3 + length a + 2 + length c) with (1 + (2 + length a + (2 + length c))) by lia. rewrite make_length. destruct (Nat.ltb_spec (1 + (2 + length a + (2 + length c))) 1); [lia|].
  rewrite put0. unfold bind at 1. cbn zeta. destruct (Nat.ltb_spec (1 + (2 + length a + (2 + length c))) (1 + length a)); [lia|].
  change (put ([t] ++ ?z) 1 ?s) with (put ([t] ++ z) (length [t]) s). rewrite put_seg by (lens2; lia). unfold bind at 1.
  change (1 + 2) with (length ([t] ++ be 2 (lenN a))). rewrite copy_seg by (lens2; lia). unfold bind at 1.
  replace (length ([t] ++ be 2 (lenN a)) + length a) with (length (([t] ++ be 2 (lenN a)) ++ a)) by (lens2; lia).
  unfold redir_wire. destruct c as [|x c].
  - rewrite put_seg by (lens2; lia). f_equal. rewrite skipn_all_nil by (lens2; lia). rewrite app_nil_r. cbn [seg16]. now rewrite <- !app_assoc, app_nil_r.
  - match goal with |- context [?x <? ?y] => destruct (Nat.ltb_spec x y) as [K|_]; [revert K; lens2; lia|] end.
    rewrite put_seg by (lens2; lia). unfold bind at 1. match goal with |- context [copy_range (?w ++ ?z) ?lo ?hi ?s] => replace lo with (length w) by (lens2; lia) end.
    rewrite copy_seg by (lens2; lia). f_equal. rewrite skipn_all_nil by (lens2; lia). rewrite app_nil_r. cbn [seg16]. now rewrite <- !app_assoc.
Qed.
Lemma new_redir_marshal1 t a : (lenN a < 65536)%N -> new_redir_ie t [a] = Ok (redir_wire t a []).
Proof. intros L. rewrite <- (@new_redir_marshal t a [] []) by (exact L || reflexivity). reflexivity. Qed.
(** whatever the lengths, the constructor does not panic once it is given an address *)
Lemma redir_marshal_total f : exists w, redir_marshal f = Ok w /\ length w = redir_marshal_len f.
Proof.
  unfold redir_marshal, redir_marshal_to, redir_marshal_len. wl3_start. destruct (ri_other f);
  (repeat first [wl3 | match goal with
    | |- context [if ?x <? ?y then _ else _] => destruct (Nat.ltb_spec x y); [lia|]
    | |- context [copy_range ?b ?lo ?hi ?s] => let b' := fresh "b" in let L := fresh "L" in destruct (@copy_range_len b lo hi s) as (b' & -> & L); [lia..|cbn [bind]] end]);
  (eexists; split; [reflexivity|]; lia).
Qed.
Lemma new_redir_fault t addrs : (new_redir_ie t addrs = Fault <-> addrs = []) /\ (addrs <> [] -> exists w, new_redir_ie t addrs = Ok w).
Proof.
  unfold new_redir_ie. destruct addrs as [|a [|c r]]; cbn [new_redir]; [split; [tauto|congruence]| |];
    match goal with |- context [redir_marshal ?f] => destruct (redir_marshal_total f) as (w & -> & _) end; (split; [split; discriminate|eauto]).
Qed.

(** * MAC Address *)
Ltac cma := cbn [ma_flags ma_src ma_dst ma_usrc ma_udst].
Lemma macaddr_total b : returns (macaddr_parse b).
Proof. unfold macaddr_parse. tot. Qed.
Lemma macaddr_parse_wire f r : macaddr_wf f -> 2 <= length (macaddr_wire f ++ r) -> macaddr_parse (macaddr_wire f ++ r) = Ok f.
Proof.
  destruct f as [fl s d us ud]. unfold macaddr_wf, macaddr_wire, macaddr_parse. cma. intros (Hfl & H1 & H2 & H3 & H4) L.
  destruct (Nat.ltb_spec (length (([fl] ++ optb (N.testbit fl 0) s ++ optb (N.testbit fl 1) d ++ optb (N.testbit fl 2) us ++ optb (N.testbit fl 3) ud) ++ r)) 2); [lia|].
  rewrite <- !app_assoc. rewrite index0_app. unfold bind at 1. bits. enter fl. repeat fwd1. reflexivity.
Qed.
Lemma macaddr_parse_inv b f : bytes b -> macaddr_parse b = Ok f -> macaddr_wf f /\ 2 <= length b /\ exists r, bytes r /\ b = macaddr_wire f ++ r.
Proof.
  intros Hb H. unfold macaddr_parse in H. destruct (Nat.ltb_spec (length b) 2) as [|L]; [discriminate|]. start_inv fl q Hb H. repeat inv1 H Hq. injection H as <-.
  unfold macaddr_wf, macaddr_wire. cma. split; [auto|]. split; [exact L|]. eexists. split; [exact Hq|]. now rewrite <- !app_assoc.
Qed.
Lemma wrmac_ok c v w z : present c 6 v -> length (optb c v) <= length z -> wrmac c v (w ++ z) (length w) = Ok ((w ++ optb c v) ++ skipn (length (optb c v)) z, length (w ++ optb c v)).
Proof.
  intros P L. rewrite <- (@wrb_ok c 6 v w z P L). unfold wrmac, wrb. destruct c; [|reflexivity]. destruct P as (x & -> & Lx & _). cbn [octs].
  unfold slice. rewrite Lx. change ((0 <=? 6) && (6 <=? 6)) with true. cbn [bind Nat.sub skipn]. rewrite firstn_all2 by lia. reflexivity.
Qed.
Lemma macaddr_marshal_wire f : macaddr_wf f -> macaddr_marshal f = Ok (macaddr_wire f) /\ macaddr_marshal_len f = length (macaddr_wire f).
Proof.
  destruct f as [fl s d us ud]. unfold macaddr_wf, macaddr_wire, macaddr_marshal, macaddr_marshal_to, macaddr_marshal_len. cma. intros (Hfl & H1 & H2 & H3 & H4). bits. pres.
  split; [|lens2; cbn; lia].
  match goal with |- context [make ?n] => replace n with (1 + (len_if (N.testbit fl 0) 6 + len_if (N.testbit fl 1) 6 + len_if (N.testbit fl 2) 6 + len_if (N.testbit fl 3) 6)) by lia end.
  match goal with |- context [length (make ?n) <? 1] => destruct (Nat.ltb_spec (length (make n)) 1) as [L|_]; [rewrite make_length in L; lia|] end.
  rewrite put0. cbn [bind]. change (wrmac ?c ?s ?b 1) with (wrmac c s b (length [fl])).
  do 4 (rewrite wrmac_ok by (assumption || lenlia); cbn [bind]). wr_done.
Qed.
Lemma new_macaddr_bits s d us ud : let w := ma_flags (new_macaddr s d us ud) in
  octet w /\ N.testbit w 0 = notnil s /\ N.testbit w 1 = notnil d /\ N.testbit w 2 = notnil us /\ N.testbit w 3 = notnil ud.
Proof. cbn [new_macaddr ma_flags]. destruct (notnil s), (notnil d), (notnil us), (notnil ud); repeat split; reflexivity. Qed.
Definition mac_arg (a : bslice) : Prop := forall x, a = Some x -> length x = 6 /\ bytes x.
Lemma new_macaddr_roundtrip s d us ud : mac_arg s -> mac_arg d -> mac_arg us -> mac_arg ud ->
  exists w, macaddr_marshal (new_macaddr s d us ud) = Ok w /\
    (macaddr_parse w = Ok (new_macaddr s d us ud) <-> ~ (s = None /\ d = None /\ us = None /\ ud = None)).
Proof.
  intros A1 A2 A3 A4. pose proof (new_macaddr_bits s d us ud) as (O & B0 & B1 & B2 & B3).
  assert (Z : forall a, mac_arg a -> present (notnil a) 6 a) by (intros [x|] A; [exists x; destruct (A x eq_refl); auto|reflexivity]).
  assert (W : macaddr_wf (new_macaddr s d us ud)). { unfold macaddr_wf. rewrite B0, B1, B2, B3. cbn [new_macaddr ma_src ma_dst ma_usrc ma_udst]. auto 10. }
  destruct (macaddr_marshal_wire W) as [-> _]. eexists. split; [reflexivity|]. split.
  - intros P (-> & -> & -> & ->). discriminate.
  - intros NE. rewrite <- (app_nil_r (macaddr_wire _)). apply macaddr_parse_wire; [exact W|]. rewrite app_nil_r. unfold macaddr_wire. rewrite B0, B1, B2, B3. cbn [new_macaddr ma_src ma_dst ma_usrc ma_udst].
    destruct s as [x|]; [destruct (A1 _ eq_refl) as [L _]; cbn [notnil optb octs]; rewrite !app_length, L; cbn [length]; lia|].
    destruct d as [x|]; [destruct (A2 _ eq_refl) as [L _]; cbn [notnil optb octs]; rewrite !app_length, L; cbn [length]; lia|].
    destruct us as [x|]; [destruct (A3 _ eq_refl) as [L _]; cbn [notnil optb octs]; rewrite !app_length, L; cbn [length]; lia|].
    destruct ud as [x|]; [destruct (A4 _ eq_refl) as [L _]; cbn [notnil optb octs]; rewrite !app_length, L; cbn [length]; lia|]. elim NE; auto.
Qed.
(** an address of fewer than six octets makes the encoder panic *)
Lemma wrmac_len c a b o : o + len_if c 6 <= length b -> (c = true /\ length (octs a) < 6 /\ wrmac c a b o = Fault) \/
  ((c = true -> 6 <= length (octs a)) /\ exists b', wrmac c a b o = Ok (b', o + len_if c 6) /\ length b' = length b).
Proof.
  unfold wrmac, len_if. destruct c; intros H; [|right; split; [discriminate|rewrite Nat.add_0_r; eauto]].
  destruct (Nat.ltb_spec (length b) (o + 6)); [lia|]. unfold slice. change (0 <=? 6) with true. rewrite andb_true_l. destruct (Nat.leb_spec 6 (length (octs a))).
  - right. split; [auto|]. cbn [bind]. match goal with |- context [copy_range b ?lo ?hi ?s] => destruct (@copy_range_len b lo hi s) as (b' & -> & L); [lia..|] end. cbn [bind]. eauto.
  - left. auto.
Qed.
Lemma new_macaddr_fault s d us ud : (macaddr_marshal (new_macaddr s d us ud) = Fault <-> exists x, In (Some x) [s; d; us; ud] /\ length x < 6) /\
  (macaddr_marshal (new_macaddr s d us ud) <> Fault -> exists w, macaddr_marshal (new_macaddr s d us ud) = Ok w).
Proof.
  pose proof (new_macaddr_bits s d us ud) as (_ & B0 & B1 & B2 & B3). unfold macaddr_marshal, macaddr_marshal_to, macaddr_marshal_len. bits. rewrite B0, B1, B2, B3. cbn [new_macaddr ma_src ma_dst ma_usrc ma_udst].
  clear B0 B1 B2 B3. wl3_start. do 2 wl3.
  assert (Y : forall a, notnil a = true -> length (octs a) < 6 -> In a [s; d; us; ud] -> exists x, In (Some x) [s; d; us; ud] /\ length x < 6) by (intros [x|] N Lx I; [eauto|discriminate]).
  destruct (@wrmac_len (notnil s) s b 1) as [(N & Lx & ->)|(K1 & b1 & -> & L1)]; [lia|cbn [bind]; split; [split; [intros _; apply (Y s); cbn; auto|auto]|congruence]|]. cbn [bind].
  match goal with |- context [wrmac (notnil d) d ?b ?o] => destruct (@wrmac_len (notnil d) d b o) as [(N & Lx & ->)|(K2 & b2 & -> & L2)] end; [lia|cbn [bind]; split; [split; [intros _; apply (Y d); cbn; auto|auto]|congruence]|]. cbn [bind].
  match goal with |- context [wrmac (notnil us) us ?b ?o] => destruct (@wrmac_len (notnil us) us b o) as [(N & Lx & ->)|(K3 & b3 & -> & L3)] end; [lia|cbn [bind]; split; [split; [intros _; apply (Y us); cbn; auto|auto]|congruence]|]. cbn [bind].
  match goal with |- context [wrmac (notnil ud) ud ?b ?o] => destruct (@wrmac_len (notnil ud) ud b o) as [(N & Lx & ->)|(K4 & b4 & -> & L4)] end; [lia|cbn [bind]; split; [split; [intros _; apply (Y ud); cbn; auto 10|auto]|congruence]|]. cbn [bind].
  split; [|eauto]. split; [discriminate|]. intros (x & I & Lx). exfalso.
  destruct I as [->|[->|[->|[->|[]]]]]; [specialize (K1 eq_refl); cbn [octs] in K1; lia|specialize (K2 eq_refl); cbn [octs] in K2; lia|specialize (K3 eq_refl); cbn [octs] in K3; lia|specialize (K4 eq_refl); cbn [octs] in K4; lia].
Qed.
