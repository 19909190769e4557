(** Further lemmas and witnesses for the message properties. *)
From Coq Require Import String Permutation.
From Verif Require Import Base Bits IETypes IE Spec IEProofs IEProofs2 IEWf Header HeaderSpec HeaderProofs Message MsgSpec MsgProofs MsgProofs2 MsgTables IENames MsgNames MsgProps.
Set Implicit Arguments.
Local Open Scope list_scope.

(** ** which field an IE type goes to, by name *)
Definition routeT (k : kind) (t : N) : option nat :=
  match lookup t (k_switch k) with Some (ASet n) | Some (AApp n) => Some n | None => None end.
(** the one field whose decoder case does not match its name *)
Definition misrouted (k : kind) (t : N) (f : string) : bool :=
  String.eqb (k_name k) "SessionModificationResponse" && (t =? 264)%N && String.eqb f "PacketRateStatusReport".
Definition routes_by_name (k : kind) (t : N) : bool :=
  forallb (fun n => match nth_error (k_fields k) n with
    | Some (f, _) => Bool.eqb (field_for (k_name k) t f && negb (misrouted k t f))
                       (match routeT k t with Some m => Nat.eqb m n | None => false end)
    | None => true end) (seq 0 (length (k_fields k))).
Lemma routes_checked : forallb (fun k => forallb (routes_by_name k) (map fst ie_type_names)) kinds = true.
Proof. vm_compute. reflexivity. Qed.
Lemma switch_known : forallb (fun k => forallb (fun c => existsb (fun p => (fst p =? fst c)%N) ie_type_names) (k_switch k)) kinds = true.
Proof. vm_compute. reflexivity. Qed.

Lemma field_for_known msg t f : field_for msg t f = true -> In t (map fst ie_type_names).
Proof.
  unfold field_for. intros H. apply existsb_exists in H. destruct H as (p & I & H).
  destruct (N.eqb_spec (fst p) t) as [E|]; [|discriminate]. subst. now apply in_map.
Qed.
Theorem route_iff_name k t n f b : In k kinds -> nth_error (k_fields k) n = Some (f, b) ->
  (routeT k t = Some n <-> field_for (k_name k) t f = true /\ misrouted k t f = false).
Proof.
  intros I F.
  assert (Step : In t (map fst ie_type_names) ->
    (routeT k t = Some n <-> field_for (k_name k) t f = true /\ misrouted k t f = false)).
  { intros It. pose proof (proj1 (forallb_forall _ _) routes_checked k I) as H. cbv beta in H.
    pose proof (proj1 (forallb_forall _ _) H t It) as H2. unfold routes_by_name in H2.
    assert (L : n < length (k_fields k)) by (apply nth_error_Some; congruence).
    pose proof (proj1 (forallb_forall _ _) H2 n) as H3. cbv beta in H3. rewrite F in H3.
    rewrite in_seq in H3. assert (L' : 0 <= n < 0 + length (k_fields k)) by lia. apply H3 in L'.
    apply Bool.eqb_prop in L'. clear - L'.
    destruct (field_for (k_name k) t f), (misrouted k t f), (routeT k t) as [m|]; cbn in L';
      try (destruct (Nat.eqb_spec m n)); split; try intros [? ?]; try intros ?; try split; congruence. }
  split.
  - intros R. apply Step; [|exact R]. unfold routeT in R.
    destruct (lookup t (k_switch k)) as [a|] eqn:L; [|discriminate]. apply lookup_in in L.
    pose proof (proj1 (forallb_forall _ _) switch_known k I) as H. cbv beta in H.
    pose proof (proj1 (forallb_forall _ _) H _ L) as H2. cbv beta in H2. cbn [fst] in H2. apply existsb_exists in H2.
    destruct H2 as (p & Ip & E). apply N.eqb_eq in E. subst. now apply in_map.
  - intros R. apply Step; [|exact R]. destruct R as [R _]. eapply field_for_known; eauto.
Qed.
Lemma misrouted_witness :
  In K_SessionModificationResponse kinds /\ exists n b,
  nth_error (k_fields K_SessionModificationResponse) n = Some ("PacketRateStatusReport"%string, b) /\
  In (264%N, "PacketRateStatusReportWithinSessionModificationResponse"%string) ie_type_names /\
  (forall i, ty i = 264%N -> route K_SessionModificationResponse i = None) /\
  (forall i, ty i = 252%N -> route K_SessionModificationResponse i = Some n).
Proof.
  split; [unfold kinds, dispatch; cbn; tauto|]. exists 12, true.
  split; [vm_compute; reflexivity|]. split.
  - assert (E : existsb (fun p => (fst p =? 264)%N && String.eqb (snd p) "PacketRateStatusReportWithinSessionModificationResponse") ie_type_names = true) by (vm_compute; reflexivity).
    apply existsb_exists in E. destruct E as ((t, s) & I & E). apply andb_prop in E. cbn in E. destruct E as [E1 E2].
    apply N.eqb_eq in E1. apply String.eqb_eq in E2. now subst.
  - split; intros i T; unfold route; rewrite T; vm_compute; reflexivity.
Qed.

(** ** C21 witnesses *)
Definition dup_bytes : list N := [0x20;1;0;20; 0;0;1;0; 0;96;0;4;1;2;3;4; 0;96;0;4;5;6;7;8]%N.
Lemma ie_lost_witness : exists b k m h is, bytes b /\ parse_msg default_grouped b = Ok (k, m) /\
  hwire h b /\ wires default_grouped is (h_payload h) /\ length (body_ies m) < length is.
Proof.
  exists dup_bytes. eexists. eexists.
  set (h := mkH 0x20 1 20 0 1 0 (skipn 8 dup_bytes)).
  exists h, [mkIE 96 4 0 [1;2;3;4]%N []; mkIE 96 4 0 [5;6;7;8]%N []].
  assert (B : bytes dup_bytes) by (repeat constructor).
  split; [exact B|]. split; [vm_compute; reflexivity|]. split.
  - apply parse_header_iff; [exact B|vm_compute; reflexivity].
  - split; [|vm_compute; lia].
    change (h_payload h) with ((be 2 96 ++ be 2 4) ++ [1;2;3;4]%N ++ (be 2 96 ++ be 2 4) ++ [5;6;7;8]%N ++ []).
    rewrite app_assoc. constructor.
    { constructor; try (intros; reflexivity); try (intros [=]); try (repeat constructor). }
    rewrite app_assoc. constructor; [|constructor].
    { constructor; try (intros; reflexivity); try (intros [=]); try (repeat constructor). }
Qed.
Lemma octet_dropped_witness : exists b k m h, bytes b /\ parse_msg default_grouped b = Ok (k, m) /\
  hwire h b /\ h_payload h = [255]%N /\ body_ies m = [] /\ exists e, parseMultiIEs default_grouped (h_payload h) = Err e.
Proof.
  exists [0x20;1;0;5;0;0;1;0;255]%N. eexists. eexists. exists (mkH 0x20 1 5 0 1 0 [255]%N).
  assert (B : bytes [0x20;1;0;5;0;0;1;0;255]%N) by (repeat constructor).
  split; [exact B|]. split; [vm_compute; reflexivity|]. split.
  - apply parse_header_iff; [exact B|vm_compute; reflexivity].
  - split; [reflexivity|]. split; [vm_compute; reflexivity|]. eexists. vm_compute. reflexivity.
Qed.

(** ** C22 *)
Lemma reencode_witness : exists b k m b' m1 e, bytes b /\ parse_msg default_grouped b = Ok (k, m) /\
  msg_marshal default_grouped k m = Ok (b', m1) /\ parse_msg default_grouped b' = Err e.
Proof.
  exists [0x20;1;0;13; 0;0;1;0; 0;192;0;1;2; 0;96;0;4]%N.
  eexists. eexists. eexists. eexists. eexists. split; [repeat constructor|].
  split; [vm_compute; reflexivity|]. split; vm_compute; reflexivity.
Qed.

Section P.
Variable g : N -> bool.

Theorem parse_marshal_msg b h is : bytes b -> hwire h b -> wires g is (h_payload h) ->
  exists k m b' m1 m', k = kind_of (h_type h) /\ m = message_of k h is /\ parse_msg g b = Ok (k, m) /\
    msg_marshal g k m = Ok (b', m1) /\ parse_msg g b' = Ok (k, m') /\
    m_f m' = m_f m /\ m_ies m' = m_ies m /\
    h_flags (m_h m') = h_flags h /\ h_type (m_h m') = h_type h /\ h_seid (m_h m') = h_seid h /\
    h_seq (m_h m') = h_seq h /\ h_prio (m_h m') = h_prio h /\
    exists m2, msg_marshal g k m' = Ok (b', m2).
Proof.
  intros Hb HW WW. set (k := kind_of (h_type h)).
  pose proof (@kind_consistent k (kind_of_in _)) as C.
  destruct (@msg_parse_marshal g k C b h is Hb HW WW) as (E0 & b' & m' & E1 & E2 & F1 & F2 & F3 & F4 & F5 & F6 & F7 & F8).
  exists k, (message_of k h is), b'. eexists. exists m'. split; [reflexivity|]. split; [reflexivity|].
  assert (Lb : 2 <= length b). { destruct (Nat.lt_ge_cases (length b) 2); [|lia]. exfalso. apply (hwire_long HW). left. lia. }
  destruct (parse_msg_eq g b Lb) as (c & Nc & P). rewrite (hwire_type HW) in Nc. injection Nc as <-.
  split; [rewrite P; fold k; now rewrite E0|]. split; [exact E1|].
  assert (P' : parse_msg g b' = Ok (k, m')).
  { assert (Sh : shaped k (message_of k h is)) by apply message_of_typed.
    rewrite (msg_marshal_ok g C Sh (message_of_no_nil k h is)) in E1. injection E1 as E1.
    assert (Lb' : 2 <= length b').
    { rewrite <- E1, henc_length, h_mlen_base. unfold hbase. destruct (N.odd _); lia. }
    destruct (parse_msg_eq g b' Lb') as (c & Nc & P').
    assert (c = h_type h) as ->. { rewrite <- E1 in Nc. unfold henc in Nc. cbn in Nc. congruence. }
    rewrite P'. fold k. now rewrite E2. }
  split; [exact P'|]. auto 12.
Qed.

(** also when the payload ends in a bare IE header, provided decoding keeps the wire order *)
Theorem parse_marshal_in_order b k m h is : bytes b -> parse_msg g b = Ok (k, m) -> hwire h b ->
  2 <= length (h_payload h) -> accepteds g is (h_payload h) -> body_ies m = is ->
  exists b' m1 m', msg_marshal g k m = Ok (b', m1) /\ parse_msg g b' = Ok (k, m') /\
    m_f m' = m_f m /\ m_ies m' = m_ies m /\ skipn (hbase h) b' = skipn (hbase h) b.
Proof.
  intros Hb E HW L A B.
  apply parse_msg_iff in E; [|exact Hb]. destruct E as (h0 & HW0 & -> & E).
  pose proof (hwire_inj HW HW0) as <-. set (k := kind_of (h_type h)) in *.
  destruct E as [[? _]|[_ (is0 & A0 & ->)]]; [lia|].
  pose proof (@kind_consistent k (kind_of_in _)) as C.
  assert (Sh : shaped k (message_of k h is0)) by apply message_of_typed.
  pose proof (msg_marshal_ok g C Sh (message_of_no_nil k h is0)) as M.
  assert (Hp : bytes (h_payload h)) by (inversion HW; assumption).
  assert (PM : parseMultiIEs g (h_payload h) = Ok is) by now apply parseMulti_iff.
  assert (PM0 : parseMultiIEs g (h_payload h) = Ok is0) by now apply parseMulti_iff.
  assert (is0 = is) as -> by congruence.
  assert (EN : encs g is = h_payload h).
  { unfold encs. now apply enc_accepteds. }
  set (f := final_header g (message_of k h is)) in *.
  assert (R : h_ranges h) by (inversion HW; subst; repeat split; assumption). destruct R as (R1 & R2 & R3).
  assert (PF : h_payload f = h_payload h). { change (h_payload f) with (encs g (body_ies (message_of k h is))). now rewrite B, EN. }
  assert (HWF : hwire (hnorm f) (henc f)).
  { apply hnorm_wire; try assumption. rewrite PF. exact Hp. }
  exists (henc f). eexists. exists (message_of k (hnorm f) is).
  split; [exact M|]. split.
  - apply parse_msg_iff; [eapply hwire_bytes; eauto|]. exists (hnorm f). split; [exact HWF|]. split; [reflexivity|].
    right. cbn [hnorm h_payload]. rewrite PF. eauto.
  - split; [reflexivity|]. split; [reflexivity|].
    assert (S1 : forall h b, hwire h b -> skipn (hbase h) b = h_payload h).
    { clear. intros h b W. inversion W; subst; unfold hbase; cbn [h_flags h_payload];
        match goal with H : N.odd _ = _ |- _ => rewrite H end; reflexivity. }
    rewrite (S1 h b HW). rewrite <- PF. change (h_payload f) with (h_payload (hnorm f)).
    rewrite <- (S1 _ _ HWF). reflexivity.
Qed.

(** ** C24 *)
Theorem marshal_lengths k m : In k kinds -> shaped k m -> Forall no_nil (m_f m) ->
  exists b m1 n, msg_marshal g k m = Ok (b, m1) /\ msg_len g k (with_h m (with_payload (m_h m) [])) = Ok n /\
    length b = n /\ n = (if N.odd (h_flags (m_h m)) then 16 else 8) + list_sum (map (mlen g) (body_ies m)) /\
    firstn 2 (skipn 2 b) = be 2 (N.of_nat n - 4) /\
    skipn (if N.odd (h_flags (m_h m)) then 16 else 8) b = concat (map (enc g) (body_ies m)).
Proof.
  intros I Sh Nn. pose proof (@kind_consistent k I) as C.
  exists (henc (final_header g m)). do 2 eexists. split; [now apply msg_marshal_ok|].
  split; [apply (@msg_len_ok g k C); assumption|].
  change (body_ies (with_h m (with_payload (m_h m) []))) with (body_ies m). cbn [with_h m_h]. 
  change (hbase (with_payload (m_h m) [])) with (hbase (m_h m)).
  split; [|split; [reflexivity|split]].
  - rewrite henc_length, final_header_mlen. reflexivity.
  - unfold henc. cbn [app firstn skipn]. rewrite final_length.
    rewrite <- (@be_cast 2 65536%N (N.of_nat _ - 4)) by reflexivity. reflexivity.
  - unfold henc, hbase. change (h_flags (final_header g m)) with (h_flags (m_h m)).
    unfold has_seid. change (h_flags (final_header g m)) with (h_flags (m_h m)). rewrite has1_odd.
    destruct (N.odd (h_flags (m_h m))); reflexivity.
Qed.
End P.

(** ** C25 *)
Definition nil_tolerant : list string :=
  ["AssociationReleaseRequest"; "AssociationReleaseResponse"; "NodeReportResponse"; "SessionSetDeletionRequest";
   "SessionSetDeletionResponse"; "VersionNotSupportedResponse"; "SessionDeletionRequest"]%string.
Definition tolerantb (k : kind) : bool := existsb (String.eqb (k_name k)) nil_tolerant.
Lemma tolerant_checked : forallb (fun k => Bool.eqb (tolerantb k)
  (match k_ctor k, k_setlen k with CFields _, None => true | _, _ => false end)) kinds = true.
Proof. vm_compute. reflexivity. Qed.
Lemma tolerantb_iff k : tolerantb k = true <-> In (k_name k) nil_tolerant.
Proof.
  unfold tolerantb. rewrite existsb_exists. split.
  - intros (s & I & E). apply String.eqb_eq in E. now subst.
  - intros I. exists (k_name k). split; [exact I|]. apply String.eqb_refl.
Qed.
Section Nil.
Variable g : N -> bool.
Theorem new_with_nil k a params ies : In k kinds -> length params = length (k_fields k) -> In None ies ->
  (In (k_name k) nil_tolerant -> exists m, msg_new g k a params ies = Ok m /\ m_ies m = ies) /\
  (~ In (k_name k) nil_tolerant -> msg_new g k a params ies = Fault).
Proof.
  intros I L Nl. pose proof (@kind_consistent k I) as C.
  pose proof (proj1 (forallb_forall _ _) tolerant_checked k I) as T. cbv beta in T. apply Bool.eqb_prop in T.
  split; intros H.
  - apply tolerantb_iff in H. rewrite H in T. destruct (k_ctor k) as [fs|] eqn:E; [|discriminate].
    destruct (k_setlen k) eqn:S; [discriminate|].
    destruct (@new_fields g k C a params ies fs E L (or_introl S)) as [N _]. eexists. split; [exact N|reflexivity].
  - assert (T' : tolerantb k = false). { destruct (tolerantb k) eqn:B; [|reflexivity]. now apply tolerantb_iff in B. }
    rewrite T' in T. destruct (k_ctor k) as [fs|] eqn:E.
    + apply (@new_nil_fields g k C a params ies fs E L); [|exact Nl]. destruct (k_setlen k); [discriminate|discriminate].
    + eapply new_nil_switch; eauto.
Qed.
Theorem generic_add_nil m ies : shaped K_Generic m -> In None ies -> generic_add_ie g K_Generic m ies = Fault.
Proof.
  intros Sh I. unfold generic_add_ie.
  assert (N0 : m_f m = []).
  { unfold shaped in Sh. cbn in Sh. destruct (m_f m); [reflexivity|discriminate]. }
  eapply set_length_fault.
  - apply kind_consistent. unfold kinds. apply in_app_iff. right. now left.
  - unfold shaped in *. cbn [m_f]. exact Sh.
  - cbn [m_f]. rewrite N0. constructor.
  - reflexivity.
  - cbn [m_ies]. apply in_app_iff. now right.
Qed.
(** encoding skips nil in the IEs slice *)
Theorem marshal_skips_nil k m : In k kinds -> shaped k m -> Forall no_nil (m_f m) ->
  let m0 := mkM (m_h m) (m_f m) (map Some (present (m_ies m))) in
  msg_len g k m = msg_len g k m0 /\
  exists b m1 m2, msg_marshal g k m = Ok (b, m1) /\ msg_marshal g k m0 = Ok (b, m2).
Proof.
  intros I Sh Nn m0. pose proof (@kind_consistent k I) as C.
  assert (B : body_ies m0 = body_ies m) by (unfold body_ies, m0; cbn [m_f m_ies]; now rewrite present_map_Some).
  split.
  - rewrite !(@msg_len_ok g k C) by assumption. now rewrite B.
  - do 3 eexists. split; [now apply msg_marshal_ok|].
    assert (F : final_header g m0 = final_header g m) by (unfold final_header; now rewrite B). rewrite <- F.
    now apply msg_marshal_ok.
Qed.
(** nil inside a slice field panics *)
Lemma fields_len_nil fs l : In (FMany l) fs -> In None l -> fields_len g fs (seq 0 (length fs)) = Fault.
Proof.
  intros I Nl.
  assert (G : forall pre, fields_len g (pre ++ fs) (seq (length pre) (length fs)) = Fault).
  { induction fs as [|v fs IH]; [destruct I|]. intros pre. cbn [length seq fields_len].
    rewrite nth_error_app2, Nat.sub_diag by lia. cbn [nth_error].
    assert (D : (exists n, field_len g v = Ok n) \/ field_len g v = Fault).
    { destruct v as [[i|]|x]; cbn [field_len]; eauto. clear.
      destruct (split_nil x) as [->|(p & q & ->)]; [left; rewrite sum_len_ok; eauto|right; apply sum_len_fault]. }
    destruct I as [->|I].
    - cbn [field_len]. destruct (split_nil l) as [E|(p & q & ->)]; [|now rewrite sum_len_fault].
      rewrite E in Nl. apply in_map_iff in Nl. destruct Nl as (? & ? & _). discriminate.
    - destruct D as [(n & ->)| ->]; [|reflexivity]. cbn [bind]. specialize (IH I (pre ++ [v])).
      rewrite app_length, <- app_assoc in IH. cbn [length app] in IH.
      replace (length pre + 1) with (S (length pre)) in IH by lia. now rewrite IH. }
  exact (G []).
Qed.
Theorem slice_nil_faults k m l : In k kinds -> shaped k m -> In (FMany l) (m_f m) -> In None l ->
  msg_len g k m = Fault /\ msg_marshal g k m = Fault.
Proof.
  intros I Sh If Nl. pose proof (@kind_consistent k I) as C.
  assert (E : msg_len g k m = Fault).
  { unfold msg_len. rewrite (c_count k C), <- (@shaped_length k m Sh). now rewrite (@fields_len_nil _ l If Nl). }
  split; [exact E|]. unfold msg_marshal. now rewrite E.
Qed.

(** ** C43 *)
Theorem unmarshal_reuse k m0 b h is : In k kinds -> shaped k m0 -> bytes b -> hwire h b ->
  (length (h_payload h) < 2 -> msg_unmarshal g k m0 b = Ok (with_h m0 h)) /\
  (2 <= length (h_payload h) -> accepteds g is (h_payload h) ->
     k_name k <> "Generic"%string -> msg_unmarshal g k m0 b = Ok (absorb_all k is (with_h m0 h))) /\
  (2 <= length (h_payload h) -> accepteds g is (h_payload h) ->
     k_name k = "Generic"%string -> msg_unmarshal g k m0 b = Ok (message_of k h is)).
Proof.
  intros I Sh Hb HW. pose proof (@kind_consistent k I) as C.
  assert (Hp : bytes (h_payload h)) by (inversion HW; assumption).
  assert (M : forall k, In k kinds -> (k_name k = "Generic"%string <-> k_mode k = IReplace)).
  { assert (X : forallb (fun k => Bool.eqb (String.eqb (k_name k) "Generic") (match k_mode k with IReplace => true | _ => false end)) kinds = true)
      by (vm_compute; reflexivity).
    intros k' I'. pose proof (proj1 (forallb_forall _ _) X k' I') as Y. cbv beta in Y. apply Bool.eqb_prop in Y.
    destruct (String.eqb_spec (k_name k') "Generic"), (k_mode k'); split; congruence. }
  rewrite (@msg_unmarshal_eq g k C m0 b Sh).
  assert (E : parse_header b = Ok h) by now apply parse_header_iff. rewrite E. cbn [bind].
  split; [|split].
  - intros L. destruct (Nat.ltb_spec (length (h_payload h)) 2); [reflexivity|lia].
  - intros L A G. destruct (Nat.ltb_spec (length (h_payload h)) 2); [lia|].
    apply parseMulti_iff in A; [|exact Hp]. rewrite A. cbn [bind]. destruct (k_mode k) eqn:Md; [reflexivity|].
    now apply M in Md.
  - intros L A G. destruct (Nat.ltb_spec (length (h_payload h)) 2); [lia|].
    apply parseMulti_iff in A; [|exact Hp]. rewrite A. cbn [bind]. apply (M k I) in G. rewrite G. f_equal.
    destruct (c_replace k C G) as [F _].
    unfold message_of. rewrite F. cbn [fields_of]. f_equal. now rewrite (@replace_unrouted k C G).
Qed.
(** a receiver whose IE fields are all empty behaves like a fresh one *)
Theorem unmarshal_fresh k m0 b : In k kinds -> m_f m0 = m_f (zero_msg k zero_header) -> m_ies m0 = [] ->
  msg_unmarshal g k m0 b = msg_parse g k b.
Proof.
  intros I F E. pose proof (@kind_consistent k I) as C.
  assert (Sh : shaped k m0). { unfold shaped. rewrite F. apply (zero_shaped k zero_header). }
  rewrite (@msg_unmarshal_eq g k C m0 b Sh). unfold msg_parse.
  rewrite (@msg_unmarshal_eq g k C (zero_msg k zero_header) b (zero_shaped k zero_header)).
  destruct (parse_header b) as [h| | |]; try reflexivity. cbn [bind].
  assert (W : with_h m0 h = with_h (zero_msg k zero_header) h).
  { unfold with_h. rewrite F, E. reflexivity. }
  now rewrite W.
Qed.
Lemma reuse_witness : exists k m0 b m m', In k kinds /\ msg_parse default_grouped k b = Ok m /\
  msg_unmarshal default_grouped k m0 b = Ok m' /\ (exists b0, msg_parse default_grouped k b0 = Ok m0) /\ body_ies m <> body_ies m'.
Proof.
  exists K_HeartbeatRequest. eexists. exists [0x20;1;0;4;0;0;1;0]%N. do 2 eexists.
  split; [unfold kinds, dispatch; cbn; tauto|]. split; [vm_compute; reflexivity|].
  split; [|split; [exists dup_bytes; vm_compute; reflexivity|]]; [vm_compute; reflexivity|vm_compute; discriminate].
Qed.
End Nil.

(** ** C47 *)
Lemma typename_checked : forallb (fun p => let k := kind_of (fst p) in
  Bool.eqb (k_isreq k) (snd (snd p)) &&
  (String.eqb (k_name k) "AssociationUpdateResponse" || String.eqb (k_name k) "SessionSetDeletionResponse" ||
   match k_typename k with Some s => String.eqb s (snd (fst (snd p))) | None => false end)) ts_messages = true.
Proof. vm_compute. reflexivity. Qed.

Lemma ts_in c v : assocN c ts_messages = Some v -> In (c, v) ts_messages.
Proof. apply lookup_in. Qed.
Lemma is_request_ok c n s r : assocN c ts_messages = Some (n, s, r) -> k_isreq (kind_of c) = r.
Proof.
  intros H. apply ts_in in H. pose proof (proj1 (forallb_forall _ _) typename_checked _ H) as T. cbv beta zeta in T.
  apply andb_prop in T. destruct T as [T _]. now apply Bool.eqb_prop in T.
Qed.
Lemma typename_wrong : exists c n s r, assocN c ts_messages = Some (n, s, r) /\ k_typename (kind_of c) <> Some s.
Proof. exists 8%N. do 3 eexists. split; [vm_compute; reflexivity|]. vm_compute. discriminate. Qed.
Lemma typename_table : forallb (fun p => let k := kind_of (fst p) in
  match k_typename k with Some s => String.eqb s (if (fst p =? 8)%N then "Association Update Request"
     else if (fst p =? 15)%N then "Node Report Response" else snd (fst (snd p))) | None => false end) ts_messages = true.
Proof. vm_compute. reflexivity. Qed.
Lemma typename_exact c n s r : assocN c ts_messages = Some (n, s, r) ->
  k_typename (kind_of c) = Some (if (c =? 8)%N then "Association Update Request"%string
                                 else if (c =? 15)%N then "Node Report Response"%string else s).
Proof.
  intros H. apply ts_in in H. pose proof (proj1 (forallb_forall _ _) typename_table _ H) as T. cbv beta zeta in T.
  cbn [fst snd] in T. destruct (k_typename (kind_of c)); [|discriminate]. apply String.eqb_eq in T. now subst.
Qed.
Lemma message_of_nth k h is n f multi : nth_error (k_fields k) n = Some (f, multi) ->
  nth_error (m_f (message_of k h is)) n =
    Some (if multi then FMany (map Some (filter (belongs k n) is)) else FOne (last_opt (filter (belongs k n) is))).
Proof. intros E. cbn [message_of m_f]. rewrite fields_of_nth, E. reflexivity. Qed.
Lemma msg_len_payload g k m p : msg_len g k (with_h m (with_payload (m_h m) p)) = msg_len g k m.
Proof.
  unfold msg_len. cbn [with_h m_f m_h m_ies]. destruct (fields_len g (m_f m) (k_count k)); try reflexivity. cbn [bind].
  f_equal. rewrite !h_mlen_base. cbn [with_payload h_payload]. change (hbase (with_payload (m_h m) p)) with (hbase (m_h m)). lia.
Qed.
Lemma marshal_to_exact g k : consistent k = true -> forall m b, shaped k m -> Forall no_nil (m_f m) ->
  (length b < hbase (m_h m) + lens g (body_ies m) -> msg_marshal_to g k m b = Fault) /\
  (hbase (m_h m) + lens g (body_ies m) <= length b -> exists o m1, msg_marshal g k m = Ok (o, m1) /\
     msg_marshal_to g k m b = Ok (o ++ skipn (length o) b, m1)).
Proof.
  intros C m b Sh Nn. split; intros L.
  - now apply msg_marshal_to_short.
  - do 2 eexists. split; [now apply msg_marshal_ok|]. rewrite msg_marshal_to_fits by assumption.
    now rewrite henc_length, final_header_mlen.
Qed.
Lemma new_params_nil g k a params ies fs : consistent k = true -> k_ctor k = CFields fs ->
  length params = length (k_fields k) -> ies = map Some (present ies) ->
  exists m, msg_new g k a params ies = Ok m /\ m_f m = map FOne params.
Proof.
  intros C E L H. destruct (@new_fields g k C a params ies fs E L (or_intror H)) as [N _]. eexists. split; [exact N|reflexivity].
Qed.
