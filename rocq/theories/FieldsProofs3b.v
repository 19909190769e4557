(** Payload codecs of Fields3.v, continued: encoding an Outer Header Creation, Node ID, User ID. *)
From Verif Require Import Base Codec Codec2 Fields3 FieldsSpec3 FieldsProofs1 FieldsProofs3 Utils UtilsProofs.
Set Implicit Arguments.

(** writers on arbitrary fields, one step; the length of the buffer is known from the context *)
Ltac wl3 :=
  let b' := fresh "b" in let L := fresh "L" in
  match goal with
  | |- context [wrb ?c ?n ?s ?b ?o] => destruct (@wrb_len c n s b o) as (b' & -> & L); [lia|cbn [bind]]
  | |- context [wrn ?c ?n ?s ?b ?o] => destruct (@wrn_len c n s b o) as (b' & -> & L); [lia|cbn [bind]]
  | |- context [cpb ?c ?n ?s ?b ?o] => destruct (@cpb_len c n s b o) as (b' & -> & L); [lia|cbn [bind]]
  | |- context [cpn ?c ?n ?s ?b ?o] => destruct (@cpn_len c n s b o) as (b' & -> & L); [lia|cbn [bind]]
  | |- context [cp8s ?c ?n ?s ?b ?o] => destruct (@cp8s_len c n s b o) as (b' & -> & L); [lia|cbn [bind]]
  | |- context [cp16s ?c ?n ?s ?b ?o] => destruct (@cp16s_len c n s b o) as (b' & -> & L); [lia|cbn [bind]]
  | |- context [put ?b ?o ?s] => destruct (@put_len b o s) as (b' & -> & L); [rewrite ?be_length; cbn [length]; lia|cbn [bind]]
  | |- context [if length ?z <? ?n then _ else _] => destruct (Nat.ltb_spec (length z) n); [lia|]
  end.
Ltac wl3_start := match goal with |- context [make ?n] => let L := fresh "L" in let z := fresh "z" in pose proof (make_length n) as L; set (z := make n) in *; clearbody z end.

(** * Outer Header Creation, encoding *)
Lemma ohc_marshal_total f : exists w, ohc_marshal f = Ok w /\ length w = ohc_marshal_len f.
Proof. unfold ohc_marshal, ohc_marshal_to, ohc_marshal_len. wl3_start. repeat wl3. eexists. split; [reflexivity|]. lia. Qed.
Lemma put0_any s n m : n = length s + m -> put (make n) 0 s = Ok (s ++ make m).
Proof.
  intros ->. change 0 with (length (@nil N)) at 1. change (make (length s + m)) with ([] ++ make (length s + m)). rewrite put_seg by (rewrite make_length; lia).
  unfold make. now rewrite repeat_app, skipn_app, skipn_all2, repeat_length, Nat.sub_diag by (rewrite repeat_length; lia).
Qed.
(** the encoding of the tags: the three low-order octets, where octet 5 (rather than 6) says so *)
Definition ohc_tags (f : ohc) : list N :=
  let h := (oh_desc f / 256)%N in opts (N.testbit h 6) (skipn 1 (be 4 (oh_ctag f))) ++ opts (N.testbit h 7) (skipn 1 (be 4 (oh_stag f))).
Lemma ohc_marshal_wire f : ohc_wf f -> let h := (oh_desc f / 256)%N in
  N.testbit h 6 || N.testbit h 7 = false \/ N.testbit h 2 || N.testbit h 3 = false ->
  ohc_marshal f = Ok (ohc_wire f ++ ohc_tags f) /\ ohc_marshal_len f = length (ohc_wire f ++ ohc_tags f).
Proof.
  destruct f as [d teid v4 v6 port ct st]. unfold ohc_wf, ohc_wire, ohc_tags. coh. intros (Hd & H1 & H2 & H3 & H4) T.
  assert (LEN : ohc_marshal_len {| oh_desc := d; oh_teid := teid; oh_v4 := v4; oh_v6 := v6; oh_port := port; oh_ctag := ct; oh_stag := st |} =
    length (be 2 d) + (len_if (N.testbit (d / 256) 0 || N.testbit (d / 256) 1) 4 + len_if (N.testbit (d / 256) 0 || N.testbit (d / 256) 2 || N.testbit (d / 256) 4) 4 +
     len_if (N.testbit (d / 256) 1 || N.testbit (d / 256) 3 || N.testbit (d / 256) 5) 16 + len_if (N.testbit (d / 256) 2 || N.testbit (d / 256) 3) 2 + len_if (N.testbit (d / 256) 6) 3 + len_if (N.testbit (d / 256) 7) 3)).
  { unfold ohc_marshal_len. coh. rewrite (oct5_ok Hd). ohbits. rewrite be_length. lia. }
  unfold ohc_marshal, ohc_marshal_to. coh.
  assert (C3 : length (skipn 1 (be 4 ct)) = 3) by reflexivity. assert (D3 : length (skipn 1 (be 4 st)) = 3) by reflexivity.
  generalize dependent (skipn 1 (be 4 ct)). generalize dependent (skipn 1 (be 4 st)). intros st3 D3 ct3 C3.
  split; [|rewrite LEN; lens2; rewrite C3, D3; lia].
  rewrite LEN. rewrite (oct5_ok Hd). ohbits.
  match goal with |- context [length (make ?n) <? 2] => destruct (Nat.ltb_spec (length (make n)) 2) as [L|_]; [rewrite make_length, be_length in L; lia|] end.
  erewrite put0_any by reflexivity. cbn [bind]. change (cpn ?c 4 ?v ?b 2) with (cpn c 4 v b (length (be 2 d))).
  assert (S1 : N.testbit (d / 256) 6 = true -> length ct3 = 3) by auto.
  assert (S2 : N.testbit (d / 256) 7 = true -> length st3 = 3) by auto.
  do 3 wr2. destruct T as [T|T].
  - wr2. apply orb_false_elim in T. destruct T as [T6 T7]. rewrite T6, T7. cbn [cpb opts bind]. f_equal. rewrite skipn_all_nil by (lens2; lia).
    rewrite !app_nil_r, <- !app_assoc. reflexivity.
  - rewrite T. cbn [cpn bind optn]. do 2 (rewrite cps_ok by (assumption || (lens2; rewrite ?C3, ?D3; lia)); cbn [bind]). f_equal. rewrite skipn_all_nil by (lens2; rewrite C3, D3; cbn [len_if]; lia). rewrite app_nil_r, <- !app_assoc. reflexivity.
Qed.

(** * Node ID *)
Lemma node_id_shape b : (length b < 2 /\ node_id_value b = Err EUnexpectedEOF) \/ exists t q, b = t :: q /\ q <> [] /\
  node_id_value b = (if (t =? 0)%N then Ok (NodeIP (to4 (Some q))) else if (t =? 1)%N then Ok (NodeIP (to16 (Some q)))
                     else if (t =? 2)%N then s <- decode_fqdn q ;; Ok (NodeName s) else Err (EInvalidNodeID t)).
Proof.
  destruct b as [|t [|x q]]; [left; cbn; auto|left; cbn; auto|]. right. exists t, (x :: q). split; [reflexivity|]. split; [discriminate|reflexivity].
Qed.
Lemma decode_fqdn_returns b : bytes b -> exists s, decode_fqdn b = Ok s.
Proof. intros H. destruct (decode_fqdn_exact H) as (ls & r & _ & _ & _ & ->). eauto. Qed.
Lemma node_id_total b : bytes b -> returns (node_id_value b).
Proof.
  intros Hb. destruct (node_id_shape b) as [[_ ->]|(t & q & -> & _ & ->)]; [right; eauto|].
  destruct (t =? 0)%N; [left; eauto|]. destruct (t =? 1)%N; [left; eauto|]. destruct (t =? 2)%N; [|right; eauto].
  inversion Hb; subst. destruct (@decode_fqdn_returns q) as [s ->]; [assumption|]. left; eexists; reflexivity.
Qed.
(** when the decoder succeeds, and with what *)
Lemma node_id_ok b v : bytes b -> (node_id_value b = Ok v <->
  exists t q, b = t :: q /\ q <> [] /\
    ((t = 0%N /\ v = NodeIP (to4 (Some q))) \/ (t = 1%N /\ v = NodeIP (to16 (Some q))) \/ (t = 2%N /\ exists s, decode_fqdn q = Ok s /\ v = NodeName s))).
Proof.
  intros Hb. destruct (node_id_shape b) as [[L E]|(t & q & -> & NE & E)]; rewrite E.
  - split; [discriminate|]. intros (t & q & -> & NE & _). destruct q; [congruence|cbn [length] in L; lia].
  - split.
    + intros H. exists t, q. split; [reflexivity|]. split; [exact NE|]. destruct (N.eqb_spec t 0); [left; split; congruence|].
      destruct (N.eqb_spec t 1); [right; left; split; congruence|]. destruct (N.eqb_spec t 2); [|discriminate].
      right; right. split; [assumption|]. apply bind_ok in H. destruct H as (s & D & H). exists s. split; [exact D|congruence].
    + intros (t' & q' & E' & _ & C). injection E' as <- <-. destruct C as [[-> ->]|[[-> ->]|[-> (s & D & ->)]]]; try reflexivity. cbn [N.eqb Pos.eqb]. now rewrite D.
Qed.
Lemma copy_from1 p0 s n : length s = n -> copy_from (p0 :: make n) 1 s = Ok (p0 :: s).
Proof.
  intros L. unfold copy_from. change (p0 :: make n) with ([p0] ++ make n). rewrite app_length, make_length. change 1 with (length [p0]) at 1. change (length [p0] + n) with (length [p0] + n).
  rewrite copy_seg by (rewrite ?make_length; lia). rewrite skipn_all_nil by (rewrite make_length; lia). now rewrite app_nil_r.
Qed.
Lemma to4_nil_copy p0 n : copy_from (p0 :: make n) 1 [] = Ok (p0 :: make n).
Proof. unfold copy_from, copy_range. cbn [length]. rewrite Nat.leb_refl. cbn [Nat.leb andb]. rewrite firstn_nil. reflexivity. Qed.
Lemma new_node_id_v4 ip v6 fqdn : new_node_id (Some ip) v6 fqdn = Ok (Some (0%N :: match to4 ip with Some x => x | None => make 4 end)).
Proof.
  unfold new_node_id. change (put (make 5) 0 [0%N]) with (Ok (0%N :: make 4)). unfold bind at 1. destruct (to4 ip) as [x|] eqn:E; cbn [octs].
  - rewrite (copy_from1 0%N x (to4_len _ E)). reflexivity.
  - rewrite to4_nil_copy. reflexivity.
Qed.
Lemma new_node_id_v6 ip fqdn : new_node_id None (Some ip) fqdn = Ok (Some (1%N :: match to16 ip with Some x => x | None => make 16 end)).
Proof.
  unfold new_node_id. change (put (make 17) 0 [1%N]) with (Ok (1%N :: make 16)). unfold bind at 1. destruct (to16 ip) as [x|] eqn:E; cbn [octs].
  - rewrite (copy_from1 1%N x (to16_len _ E)). reflexivity.
  - rewrite to4_nil_copy. reflexivity.
Qed.
Lemma fqdn_payload s : (p <- put (make (2 + length s)) 0 [2%N] ;; e <- encode_fqdn s ;; p <- copy_from p 1 e ;; Ok (Some p)) = Ok (Some (2%N :: concat (map label_wire (split_dot s)))).
Proof.
  change (put (make (2 + length s)) 0 [2%N]) with (Ok (2%N :: make (S (length s)))). unfold bind at 1. rewrite encode_fqdn_ok. unfold bind at 1.
  rewrite copy_from1 by apply split_total. reflexivity.
Qed.
Lemma new_node_id_fqdn s : s <> [] -> new_node_id None None s = Ok (Some (2%N :: concat (map label_wire (split_dot s)))).
Proof. intros NE. destruct s as [|c s]; [congruence|]. exact (fqdn_payload (c :: s)). Qed.
Lemma node_v4_value x : length x = 4 -> node_id_value (0%N :: x) = Ok (NodeIP (Some x)).
Proof. intros L. destruct x as [|? x]; [discriminate|]. destruct x as [|? x]; [discriminate|]. unfold node_id_value. cbn -[to4]. now rewrite to4_4 by exact L. Qed.
Lemma node_v6_value x : length x = 16 -> node_id_value (1%N :: x) = Ok (NodeIP (Some x)).
Proof. intros L. destruct x as [|? x]; [discriminate|]. destruct x as [|? x]; [discriminate|]. unfold node_id_value. cbn -[to16]. now rewrite to16_16 by exact L. Qed.
Lemma node_fqdn_value s : s <> [] -> bytes s -> exists t, node_id_value (2%N :: concat (map label_wire (split_dot s))) = Ok (NodeName t) /\
  (t = s <-> Forall (fun l => (lenN l < 256)%N) (split_dot s)).
Proof.
  intros NE Hs. assert (B : bytes (concat (map label_wire (split_dot s)))).
  { apply Forall_forall. intros x I. apply in_concat in I. destruct I as (y & Iy & Ix). apply in_map_iff in Iy. destruct Iy as (l & <- & Il).
    pose proof (split_bytes Hs) as SB. rewrite Forall_forall in SB. specialize (SB l Il). destruct Ix as [<- |Ix].
    - unfold octet, u8. apply N.mod_lt. discriminate.
    - unfold bytes in SB. rewrite Forall_forall in SB. auto. }
  destruct (decode_fqdn_returns B) as [t D]. exists t. split.
  - destruct (node_id_shape (2%N :: concat (map label_wire (split_dot s)))) as [[L _]|(t' & q & E & _ & ->)].
    + cbn [length] in L. rewrite split_total in L. lia.
    + injection E as <- <-. cbn [N.eqb Pos.eqb]. now rewrite D.
  - rewrite <- (fqdn_roundtrip_iff Hs). split.
    + intros ->. eexists. split; [apply encode_fqdn_ok|exact D].
    + intros (b & E & D'). rewrite encode_fqdn_ok in E. congruence.
Qed.
Lemma heuristic_name s : s <> [] -> new_node_id_heuristic s None = new_node_id None None s.
Proof. destruct s; [congruence|reflexivity]. Qed.
Lemma heuristic_ip s ip : s <> [] -> notnil ip = true -> new_node_id_heuristic s ip = match to4 ip with Some _ => new_node_id (Some ip) None [] | None => new_node_id None (Some ip) [] end.
Proof.
  intros NE N. destruct s as [|c s]; [congruence|]. destruct ip as [x|]; [|discriminate]. unfold new_node_id_heuristic, new_node_id.
  destruct (to4 (Some x)); reflexivity.
Qed.

(** * User ID *)
Lemma userid_total b : returns (userid_parse b).
Proof. unfold userid_parse. tot; try apply rd8s_returns. Qed.
Lemma userid_parse_wire fl i e m n r : userid_octets_ok fl i e m n -> userid_parse (userid_wire fl i e m n ++ r) = Ok (userid_decoded fl i e m n).
Proof.
  intros (Hfl & H1 & H2 & H3 & H4). unfold userid_parse, userid_wire. rewrite <- !app_assoc. rewrite need_app by (cbn; lia).
  rewrite index0_app. cbn [bind]. bits. change (rd8s ?c ?b 1) with (rd8s c b (length [fl])). repeat fwd2. unfold userid_decoded.
  assert (Z : forall c (s : list N), short c 256 s -> (if c then lenN s else 0%N) = lenN s /\ (if c then swapped_to_str s true else []) = swapped_to_str s true).
  { intros [] s S; [auto|]. cbn in S. subst s. auto. }
  destruct (Z _ _ H1) as [-> ->], (Z _ _ H2) as [-> ->], (Z _ _ H3) as [-> ->], (Z _ _ H4) as [-> _]. reflexivity.
Qed.
Lemma userid_parse_inv b f : bytes b -> userid_parse b = Ok f -> exists fl i e m n r, userid_octets_ok fl i e m n /\ f = userid_decoded fl i e m n /\ b = userid_wire fl i e m n ++ r.
Proof.
  intros Hb H. unfold userid_parse in H. destruct (length b <? 1); [discriminate|]. start_inv fl q Hb H.
  change (rd8s ?c ?b 1) with (rd8s c b (length [fl])) in H. repeat inv2 H Hq. injection H as <-.
  exists fl, v, v0, v1, v2, q3. split; [|split].
  - unfold userid_octets_ok. auto.
  - unfold userid_decoded.
    assert (Z : forall c (s : list N), short c 256 s -> (if c then lenN s else 0%N) = lenN s /\ (if c then swapped_to_str s true else []) = swapped_to_str s true).
    { intros [] s S; [auto|]. cbn in S. subst s. auto. }
    destruct (Z _ _ P) as [-> ->], (Z _ _ P0) as [-> ->], (Z _ _ P1) as [-> ->], (Z _ _ P2) as [-> _]. reflexivity.
  - unfold userid_wire. now rewrite <- !app_assoc.
Qed.
(** MarshalTo in a sufficient buffer *)
Lemma cpbcd_step {X} c n s b o (K K' : list N -> nat -> res X) : o + len_if c (1 + N.to_nat n) <= length b ->
  (forall b', length b' = length b -> K b' (o + len_if c (1 + N.to_nat n)) = K' b' (o + len_if c (1 + N.to_nat n))) ->
  ('(b', o') <- cpbcd c n s b o ;; K b' o') = (v <- bcd_octets c s ;; '(b', o') <- cp8s c n v b o ;; K' b' o').
Proof.
  intros L H. unfold cpbcd, cp8s, bcd_octets. destruct c; cbn [len_if] in *.
  - destruct (put b o [n]) as [b1| | |] eqn:E.
    + cbn [bind]. destruct (str_to_swapped s ascii_f) as [v| | |]; cbn [bind]; trivial. destruct (copy_range b1 (o + 1) (o + 1 + N.to_nat n) v) as [b2| | |] eqn:E2; cbn [bind]; trivial.
      rewrite <- Nat.add_assoc. apply H. unfold put in E. destruct (Nat.leb_spec (o + length [n]) (length b)); [|discriminate]. injection E as <-.
      unfold copy_range in E2. match type of E2 with (if ?t then _ else _) = _ => destruct t eqn:T end; [|discriminate]. apply andb_prop in T as [T1 T2]. apply Nat.leb_le in T1, T2. injection E2 as <-.
      cbn [length] in *. rewrite !app_length, !firstn_length, !skipn_length, !app_length in *. cbn [length] in *. rewrite !firstn_length, !skipn_length in *. lia.
    + exfalso. rewrite put_ok in E by (cbn [length]; lia). discriminate.
    + exfalso. rewrite put_ok in E by (cbn [length]; lia). discriminate.
    + exfalso. rewrite put_ok in E by (cbn [length]; lia). discriminate.
  - cbn [bind]. rewrite Nat.add_0_r in H. now apply H.
Qed.
Lemma userid_pre_ok f b : userid_marshal_len f <= length b -> userid_marshal_to f b = userid_pre f b.
Proof.
  intros L. unfold userid_marshal_len in L. unfold userid_marshal_to, userid_pre. cbv zeta in *. destruct (length b <? 1); [reflexivity|].
  rewrite put_ok by (cbn [length]; lia). cbn [bind]. set (b0 := _ ++ _). assert (L0 : length b0 = length b) by (unfold b0; rewrite !app_length, firstn_length, skipn_length; cbn [length]; lia). clearbody b0.
  apply cpbcd_step; [lia|]. intros b1 L1.
  apply cpbcd_step; [lia|]. intros b2 L2.
  apply cpbcd_step; [lia|]. intros b3 L3. reflexivity.
Qed.
Lemma userid_marshal_eq f : userid_marshal f = userid_pre f (make (userid_marshal_len f)).
Proof. apply userid_pre_ok. unfold make. rewrite repeat_length. lia. Qed.
(** encoding: any field whose BCD strings are hexadecimal *)
Definition hexstr (s : list N) : Prop := forallb ishex s = true.
Lemma bcd_field_cases c s : (c = true /\ ~ hexstr s /\ bcd_field c s = Ok None) \/
  ((c = true -> hexstr s) /\ exists v, bcd_octets c s = Ok v /\ bcd_field c s = Ok (Some (if c then u8 (lenN v) else 0%N, if c then s else [])) /\ length v = len_if c (Nat.div2 (S (length s)))).
Proof.
  unfold bcd_field, bcd_octets, hexstr. destruct c; [|right; split; [discriminate|exists []; auto]].
  destruct (str_to_swapped_exact s) as [H1 H2]. destruct (forallb ishex s).
  - right. split; [auto|]. destruct (H1 eq_refl) as (v & -> & L). exists v. cbn [len_if]. auto.
  - left. split; [reflexivity|]. split; [discriminate|]. now rewrite H2.
Qed.
Lemma userid_marshal_hex f : let fl := ui_flags f in
  (has1 fl = true -> hexstr (ui_imsi f)) -> (has2 fl = true -> hexstr (ui_imei f)) -> (has3 fl = true -> hexstr (ui_msisdn f)) ->
  exists w, userid_marshal f = Ok w /\ length w = userid_marshal_len f.
Proof.
  destruct f as [fl il i el e ml m nl n]. cbn [ui_flags ui_imsi ui_imei ui_msisdn]. intros H1 H2 H3. rewrite userid_marshal_eq. unfold userid_pre, userid_marshal_len.
  cbn [ui_flags ui_imsilen ui_imsi ui_imeilen ui_imei ui_msisdnlen ui_msisdn ui_nailen ui_nai].
  destruct (bcd_field_cases (has1 fl) i) as [(C & N & _)|(_ & v1 & -> & _)]; [elim (N (H1 C))|]. cbn [bind].
  destruct (bcd_field_cases (has2 fl) e) as [(C & N & _)|(_ & v2 & -> & _)]; [elim (N (H2 C))|]. cbn [bind].
  destruct (bcd_field_cases (has3 fl) m) as [(C & N & _)|(_ & v3 & -> & _)]; [elim (N (H3 C))|]. cbn [bind].
  wl3_start. repeat wl3. eexists. split; [reflexivity|]. lia.
Qed.
Lemma new_userid_fault fl i e m n : 
  (new_userid_ie fl i e m n = Fault <-> (has1 fl = true /\ ~ hexstr i) \/ (has2 fl = true /\ ~ hexstr e) \/ (has3 fl = true /\ ~ hexstr m)) /\
  (new_userid_ie fl i e m n <> Fault -> exists w, new_userid_ie fl i e m n = Ok w).
Proof.
  unfold new_userid_ie, new_userid.
  destruct (bcd_field_cases (has1 fl) i) as [(C1 & N1 & ->)|(H1 & v1 & _ & -> & _)]; cbn [bind]; [split; [split; auto|congruence]|].
  destruct (bcd_field_cases (has2 fl) e) as [(C2 & N2 & ->)|(H2 & v2 & _ & -> & _)]; cbn [bind]; [split; [split; auto|congruence]|].
  destruct (bcd_field_cases (has3 fl) m) as [(C3 & N3 & ->)|(H3 & v3 & _ & -> & _)]; cbn [bind]; [split; [split; auto|congruence]|].
  match goal with |- context [userid_marshal ?f] => destruct (@userid_marshal_hex f) as (w & -> & _); cbn [ui_flags ui_imsi ui_imei ui_msisdn];
    [intros C; rewrite C; auto|intros C; rewrite C; auto|intros C; rewrite C; auto|] end.
  split; [|eauto]. split; [discriminate|]. intros [[C N]|[[C N]|[C N]]]; elim N; auto.
Qed.
(** what comes back of a BCD string *)
Definition bcd_back (s : list N) : list N := if Nat.even (length s) then removelast s else s.
Lemma bcd_back_same s : bcd_back s = s <-> (s = [] \/ Nat.odd (length s) = true).
Proof.
  unfold bcd_back. rewrite <- Nat.negb_even. destruct (Nat.even (length s)) eqn:E; [|split; auto]. split.
  - intros H. left. destruct s as [|x s]; [reflexivity|]. exfalso. apply (f_equal (@length N)) in H. rewrite (@app_removelast_last N (x :: s) x) in H at 2 by discriminate.
    rewrite app_length in H. cbn [length] in H. lia.
  - intros [->|H]; [reflexivity|discriminate].
Qed.
Definition bcd_arg (c : bool) (s : list N) : Prop := c = true -> Forall lhex s /\ (lenN s <= 510)%N.
Lemma bcd_arg_ok c s : bcd_arg c s -> exists v, bcd_octets c s = Ok v /\ bcd_field c s = Ok (Some (lenN v, if c then s else [])) /\ short c 256 v /\
  (if c then swapped_to_str v true else []) = if c then bcd_back s else [].
Proof.
  intros A. destruct c; [|exists []; repeat split]. destruct (A eq_refl) as [F L]. unfold bcd_octets, bcd_field, bcd_back.
  destruct (Nat.even (length s)) eqn:E.
  - destruct (bcd_even F E) as (b & -> & B & _ & C & Lb). exists b. assert (lenN b < 256)%N.
    { unfold lenN in *. rewrite Lb. pose proof (Nat.div2_odd (length s)). destruct (Nat.odd (length s)); cbn [Nat.b2n] in *; lia. }
    unfold u8. rewrite N.mod_small by assumption. cbn [short]. auto.
  - destruct (bcd_odd F E) as (b & -> & B & C & _ & Lb). exists b. assert (lenN b < 256)%N.
    { unfold lenN in *. rewrite Lb. pose proof (Nat.div2_odd (length s)). unfold Nat.odd in H. rewrite E in H. cbn [negb Nat.b2n] in H. lia. }
    unfold u8. rewrite N.mod_small by assumption. cbn [short]. auto.
Qed.
Lemma new_userid_roundtrip fl i e m n : octet fl -> bcd_arg (N.testbit fl 0) i -> bcd_arg (N.testbit fl 1) e -> bcd_arg (N.testbit fl 2) m ->
  (N.testbit fl 3 = true -> bytes n /\ (lenN n < 256)%N) ->
  exists w f, new_userid_ie fl i e m n = Ok w /\ userid_parse w = Ok f /\ ui_flags f = fl /\
    ui_imsi f = (if N.testbit fl 0 then bcd_back i else []) /\ ui_imei f = (if N.testbit fl 1 then bcd_back e else []) /\
    ui_msisdn f = (if N.testbit fl 2 then bcd_back m else []) /\ ui_nai f = if N.testbit fl 3 then n else [].
Proof.
  intros Ofl A1 A2 A3 A4. destruct (bcd_arg_ok A1) as (v1 & O1 & F1 & S1 & B1). destruct (bcd_arg_ok A2) as (v2 & O2 & F2 & S2 & B2). destruct (bcd_arg_ok A3) as (v3 & O3 & F3 & S3 & B3).
  assert (S4 : short (N.testbit fl 3) 256 (if N.testbit fl 3 then n else [])) by (destruct (N.testbit fl 3); [now apply A4|reflexivity]).
  assert (U4 : (if N.testbit fl 3 then u8 (lenN n) else 0%N) = lenN (if N.testbit fl 3 then n else [])).
  { destruct (N.testbit fl 3); [|reflexivity]. unfold u8. apply N.mod_small. now apply A4. }
  exists (userid_wire fl v1 v2 v3 (if N.testbit fl 3 then n else [])). eexists. split; [|split].
  - unfold new_userid_ie, new_userid. bits. rewrite F1. unfold bind at 2. rewrite F2. unfold bind at 2. rewrite F3. unfold bind at 2. unfold bind at 1. rewrite U4. clear U4.
    rewrite userid_marshal_eq. unfold userid_pre, userid_marshal_len. cbn [ui_flags ui_imsilen ui_imsi ui_imeilen ui_imei ui_msisdnlen ui_msisdn ui_nailen ui_nai]. bits.
    assert (Z : forall c s v, bcd_octets c s = Ok v -> bcd_octets c (if c then s else []) = Ok v) by (intros [] s v; auto).
    rewrite (Z _ _ _ O1), (Z _ _ _ O2), (Z _ _ _ O3). rewrite !lenN_nat.
    match goal with |- context [make ?k] => replace k with (1 + (length (seg8 (N.testbit fl 0) v1) + length (seg8 (N.testbit fl 1) v2) + length (seg8 (N.testbit fl 2) v3) + length (seg8 (N.testbit fl 3) (if N.testbit fl 3 then n else [])))) by (lens2; lia) end.
    match goal with |- context [length (make ?n) <? 1] => destruct (Nat.ltb_spec (length (make n)) 1) as [L|_]; [rewrite make_length in L; lia|] end.
    rewrite put0. cbn [bind]. change (cp8s ?c ?n ?s ?b 1) with (cp8s c n s b (length [fl])). repeat wr2. unfold userid_wire. wr_done2.
  - rewrite <- (app_nil_r (userid_wire _ _ _ _ _)). apply userid_parse_wire. repeat split; assumption.
  - unfold userid_decoded. cbn [ui_flags ui_imsi ui_imei ui_msisdn ui_nai]. split; [reflexivity|]. rewrite <- B1, <- B2, <- B3.
    assert (Z : forall c (s : list N), short c 256 s -> swapped_to_str s true = if c then swapped_to_str s true else []) by (intros [] s S; [auto|cbn in S; subst s; auto]).
    auto.
Qed.
