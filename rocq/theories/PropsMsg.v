(** Properties C19-C25, C43 (messages), C47, C48: PFCP messages.
    A [kind] (MsgTables.v) is the transcription of one message file; [kinds] lists all 24 of them.
    [hwire] and [wires] are the declarative wire formats (HeaderSpec.v, Spec.v); [message_of k h is]
    (MsgSpec.v) says which field each IE of the body belongs in. *)
From Coq Require Import String Permutation.
From Verif Require Import Base IETypes IE Spec Header HeaderSpec Message MsgSpec MsgProofs MsgProofs2 MsgTables IENames MsgNames MsgProps MsgProps2.
Local Open Scope list_scope.

(** ** C19  message.Parse is total *)
Theorem C19_parse_total : forall g b, bytes b ->
  (exists r, parse_msg g b = Ok r) \/ (exists e, parse_msg g b = Err e).
Proof. exact parse_msg_returns. Qed.
Print Assumptions C19_parse_total.
(** and so is the decoder of each message type, whatever the type octet *)
Theorem C19_parse_each_total : forall g k b, In k kinds -> bytes b ->
  (exists m, msg_parse g k b = Ok m) \/ (exists e, msg_parse g k b = Err e).
Proof. exact parse_any_returns. Qed.
Print Assumptions C19_parse_each_total.
(** exactly what is accepted and what it becomes *)
Theorem C19_parse_exact : forall g b k m, bytes b ->
  (parse_msg g b = Ok (k, m) <->
   exists h, hwire h b /\ k = kind_of (h_type h) /\
     ((length (h_payload h) < 2 /\ m = message_of k h []) \/
      (2 <= length (h_payload h) /\ exists is, accepteds g is (h_payload h) /\ m = message_of k h is))).
Proof. exact parse_msg_iff. Qed.
Print Assumptions C19_parse_exact.

(** ** C20  message.Parse dispatches on the type octet *)
Theorem C20_dispatch : forall g b k m, bytes b -> parse_msg g b = Ok (k, m) ->
  exists c, nth_error b 1 = Some c /\ msg_type m = c /\ k_name k = ts_name c /\ k = kind_of c.
Proof. exact parse_msg_dispatch. Qed.
Print Assumptions C20_dispatch.
Theorem C20_names : forall c, k_name (kind_of c) = ts_name c.
Proof. exact kind_of_name. Qed.
Print Assumptions C20_names.
Theorem C20_distinct : map k_name kinds = nodup string_dec (map k_name kinds).
Proof. exact names_distinct. Qed.
Print Assumptions C20_distinct.

(** ** C21  no IE is lost in decoding *)
Theorem C21_refuted_duplicate : exists b k m h is, bytes b /\ parse_msg default_grouped b = Ok (k, m) /\
  hwire h b /\ wires default_grouped is (h_payload h) /\ length (body_ies m) < length is.
Proof. exact ie_lost_witness. Qed.
Print Assumptions C21_refuted_duplicate.
Theorem C21_refuted_octet : exists b k m h, bytes b /\ parse_msg default_grouped b = Ok (k, m) /\
  hwire h b /\ h_payload h = [255]%N /\ body_ies m = [] /\ exists e, parseMultiIEs default_grouped (h_payload h) = Err e.
Proof. exact octet_dropped_witness. Qed.
Print Assumptions C21_refuted_octet.
(** if no single-valued field is sent twice, the message holds exactly the IEs of the body; the order
    within a field is wire order by [field_of] *)
Theorem C21_exact : forall k h is, consistent k = true -> singles_once k is ->
  Permutation (body_ies (message_of k h is)) is.
Proof. exact no_ie_lost. Qed.
Print Assumptions C21_exact.
Theorem C21_all_kinds : forall k, In k kinds -> consistent k = true.
Proof. exact kind_consistent. Qed.
Print Assumptions C21_all_kinds.
Theorem C21_field_contents : forall k h is n f multi, nth_error (k_fields k) n = Some (f, multi) ->
  nth_error (m_f (message_of k h is)) n =
    Some (if multi then FMany (map Some (filter (belongs k n) is)) else FOne (last_opt (filter (belongs k n) is))).
Proof. exact message_of_nth. Qed.
Print Assumptions C21_field_contents.

(** ** C22  decode/encode is idempotent *)
Theorem C22_refuted : exists b k m b' m1 e, bytes b /\ parse_msg default_grouped b = Ok (k, m) /\
  msg_marshal default_grouped k m = Ok (b', m1) /\ parse_msg default_grouped b' = Err e.
Proof. exact reencode_witness. Qed.
Print Assumptions C22_refuted.
(** true whenever the body is a sequence of complete IEs *)
Theorem C22_exact : forall g b h is, bytes b -> hwire h b -> wires g is (h_payload h) ->
  exists k m b' m1 m', k = kind_of (h_type h) /\ m = message_of k h is /\ parse_msg g b = Ok (k, m) /\
    msg_marshal g k m = Ok (b', m1) /\ parse_msg g b' = Ok (k, m') /\
    m_f m' = m_f m /\ m_ies m' = m_ies m /\
    h_flags (m_h m') = h_flags h /\ h_type (m_h m') = h_type h /\ h_seid (m_h m') = h_seid h /\
    h_seq (m_h m') = h_seq h /\ h_prio (m_h m') = h_prio h /\
    exists m2, msg_marshal g k m' = Ok (b', m2).
Proof. exact parse_marshal_msg. Qed.
Print Assumptions C22_exact.
(** and whenever the IEs arrived in struct order *)
Theorem C22_in_order : forall g b k m h is, bytes b -> parse_msg g b = Ok (k, m) -> hwire h b ->
  2 <= length (h_payload h) -> accepteds g is (h_payload h) -> body_ies m = is ->
  exists b' m1 m', msg_marshal g k m = Ok (b', m1) /\ parse_msg g b' = Ok (k, m') /\
    m_f m' = m_f m /\ m_ies m' = m_ies m /\ skipn (hbase h) b' = skipn (hbase h) b.
Proof. exact parse_marshal_in_order. Qed.
Print Assumptions C22_in_order.

(** ** C23  encode/decode is the identity on constructed messages *)
Theorem C23_constructor : forall g k, consistent k = true -> forall a params ies, well_given k params ies ->
  exists m, msg_new g k a params ies = Ok m /\ typed k m /\
    m_h m = with_length (ctor_header k a) (wire_length g (ctor_header k a) (body_ies m)) /\
    match k_ctor k with
    | CSwitch _ => m_f m = m_f (message_of k zero_header (present ies)) /\
                   m_ies m = m_ies (message_of k zero_header (present ies))
    | CFields _ => m_f m = map FOne params /\ m_ies m = ies
    end.
Proof. exact new_typed. Qed.
Print Assumptions C23_constructor.
Theorem C23_roundtrip : forall g k a params ies, In k (map snd dispatch) ->
  (a_type a < 256)%N -> (a_fo a < 256)%N -> (a_mp a < 256)%N -> (a_pri a < 256)%N ->
  (a_seid a < 2 ^ 64)%N -> (a_seq a < 2 ^ 24)%N ->
  well_given k params ies ->
  Forall (fun i => exists b, wire g i b) (present params ++ present ies) ->
  exists m b m1 m',
    msg_new g k a params ies = Ok m /\ msg_marshal g k m = Ok (b, m1) /\ parse_msg g b = Ok (k, m') /\
    m_f m' = m_f m /\ m_ies m' = map Some (present (m_ies m)) /\
    h_flags (m_h m') = h_flags (m_h m) /\ h_type (m_h m') = h_type (m_h m) /\ h_length (m_h m') = h_length (m_h m) /\
    h_seid (m_h m') = h_seid (m_h m) /\ h_seq (m_h m') = h_seq (m_h m) /\ h_prio (m_h m') = h_prio (m_h m).
Proof. exact constructor_roundtrip. Qed.
Print Assumptions C23_roundtrip.
Theorem C23_generic : forall g a ies, assocN (a_type a) ts_messages = None ->
  (a_type a < 256)%N -> (a_fo a < 256)%N -> (a_mp a < 256)%N -> (a_pri a < 256)%N ->
  (a_seid a < 2 ^ 64)%N -> (a_seq a < 2 ^ 24)%N ->
  ies = map Some (present ies) -> Forall (fun i => exists b, wire g i b) (present ies) ->
  exists m b m1 m',
    msg_new g K_Generic a [] ies = Ok m /\ msg_marshal g K_Generic m = Ok (b, m1) /\ parse_msg g b = Ok (K_Generic, m') /\
    m_ies m = ies /\ m_ies m' = ies /\
    h_type (m_h m') = a_type a /\ h_seid (m_h m') = a_seid a /\ h_seq (m_h m') = a_seq a.
Proof. exact generic_roundtrip. Qed.
Print Assumptions C23_generic.
Example C23_sample : let k := K_HeartbeatRequest in let ts := mkIE 96 4 0 [1;2;3;4]%N [] in
  In k (map snd dispatch) /\ well_given k [Some ts; None] [Some (new 19 [1%N])] /\
  exists m b m1, msg_new default_grouped k (mkA 0 0 0 0 7 0) [Some ts; None] [Some (new 19 [1%N])] = Ok m /\
    msg_marshal default_grouped k m = Ok (b, m1) /\
    b = [0x20;1;0;17;0;0;7;0; 0;96;0;4;1;2;3;4; 0;19;0;1;1]%N.
Proof.
  cbv zeta. split; [unfold dispatch; cbn; tauto|]. split.
  - cbn. split; [reflexivity|]. split; [|split; [repeat constructor|now right]].
    intros [|[|n]] i H; cbn in H; try discriminate; [injection H as <-; reflexivity|destruct n; discriminate].
  - do 3 eexists. split; [vm_compute; reflexivity|]. split; vm_compute; reflexivity.
Qed.

(** ** C24  message length fields are right *)
Theorem C24_lengths : forall g k m, In k kinds -> shaped k m -> Forall no_nil (m_f m) ->
  exists b m1 n, msg_marshal g k m = Ok (b, m1) /\ msg_len g k (with_h m (with_payload (m_h m) [])) = Ok n /\
    length b = n /\ n = (if N.odd (h_flags (m_h m)) then 16 else 8) + list_sum (map (mlen g) (body_ies m)) /\
    firstn 2 (skipn 2 b) = be 2 (N.of_nat n - 4) /\
    skipn (if N.odd (h_flags (m_h m)) then 16 else 8) b = concat (map (IEProofs.enc g) (body_ies m)).
Proof. exact marshal_lengths. Qed.
Print Assumptions C24_lengths.
Theorem C24_payload_independent : forall g k m p, msg_len g k (with_h m (with_payload (m_h m) p)) = msg_len g k m.
Proof. exact msg_len_payload. Qed.
Print Assumptions C24_payload_independent.
Theorem C24_set_length : forall g k m, consistent k = true -> shaped k m -> Forall no_nil (m_f m) ->
  (k_setlen k = None \/ m_ies m = map Some (present (m_ies m))) ->
  msg_set_length g k m =
    Ok (with_h m (with_length (m_h m) ((N.of_nat (hbase (m_h m) + lens g (body_ies m)) - 4) mod 65536)%N)).
Proof. exact set_length_ok. Qed.
Print Assumptions C24_set_length.
(** MarshalTo writes exactly MarshalLen octets at the front of the buffer, and panics if it is shorter *)
Theorem C24_marshal_to : forall g k, consistent k = true -> forall m b, shaped k m -> Forall no_nil (m_f m) ->
  (length b < hbase (m_h m) + lens g (body_ies m) -> msg_marshal_to g k m b = Fault) /\
  (hbase (m_h m) + lens g (body_ies m) <= length b -> exists o m1, msg_marshal g k m = Ok (o, m1) /\
     msg_marshal_to g k m b = Ok (o ++ skipn (length o) b, m1)).
Proof. exact marshal_to_exact. Qed.
Print Assumptions C24_marshal_to.

(** ** C25  constructors and nil IEs *)
Theorem C25_exact : forall g k a params ies, In k kinds -> length params = length (k_fields k) -> In None ies ->
  (In (k_name k) nil_tolerant -> exists m, msg_new g k a params ies = Ok m /\ m_ies m = ies) /\
  (~ In (k_name k) nil_tolerant -> msg_new g k a params ies = Fault).
Proof. exact new_with_nil. Qed.
Print Assumptions C25_exact.
Theorem C25_refuted : forall g a, msg_new g K_HeartbeatRequest a [None; None] [None] = Fault /\
  msg_new g K_SessionEstablishmentRequest a (repeat None 18) [None] = Fault.
Proof. exact (fun g a => conj eq_refl eq_refl). Qed.
Print Assumptions C25_refuted.
(** nil given for a positional parameter is always fine *)
Theorem C25_params : forall g k a params ies fs, consistent k = true -> k_ctor k = CFields fs ->
  length params = length (k_fields k) -> ies = map Some (present ies) ->
  exists m, msg_new g k a params ies = Ok m /\ m_f m = map FOne params.
Proof. exact new_params_nil. Qed.
Print Assumptions C25_params.
Theorem C25_generic_add : forall g m ies, shaped K_Generic m -> In None ies -> generic_add_ie g K_Generic m ies = Fault.
Proof. exact generic_add_nil. Qed.
Print Assumptions C25_generic_add.
Theorem C25_marshal_skips_nil : forall g k m, In k kinds -> shaped k m -> Forall no_nil (m_f m) ->
  let m0 := mkM (m_h m) (m_f m) (map Some (present (m_ies m))) in
  msg_len g k m = msg_len g k m0 /\
  exists b m1 m2, msg_marshal g k m = Ok (b, m1) /\ msg_marshal g k m0 = Ok (b, m2).
Proof. exact marshal_skips_nil. Qed.
Print Assumptions C25_marshal_skips_nil.
Theorem C25_slice_nil_faults : forall g k m l, In k kinds -> shaped k m -> In (FMany l) (m_f m) -> In None l ->
  msg_len g k m = Fault /\ msg_marshal g k m = Fault.
Proof. exact slice_nil_faults. Qed.
Print Assumptions C25_slice_nil_faults.

(** ** C43 (messages)  UnmarshalBinary on a used receiver *)
Theorem C43_message_refuted : exists k m0 b m m', In k kinds /\ msg_parse default_grouped k b = Ok m /\
  msg_unmarshal default_grouped k m0 b = Ok m' /\ (exists b0, msg_parse default_grouped k b0 = Ok m0) /\ body_ies m <> body_ies m'.
Proof. exact reuse_witness. Qed.
Print Assumptions C43_message_refuted.
(** exactly: slice fields are appended to, single fields keep their old IE unless a new one came *)
Theorem C43_message_exact : forall g k m0 b h is, In k kinds -> shaped k m0 -> bytes b -> hwire h b ->
  (length (h_payload h) < 2 -> msg_unmarshal g k m0 b = Ok (with_h m0 h)) /\
  (2 <= length (h_payload h) -> accepteds g is (h_payload h) ->
     k_name k <> "Generic"%string -> msg_unmarshal g k m0 b = Ok (absorb_all k is (with_h m0 h))) /\
  (2 <= length (h_payload h) -> accepteds g is (h_payload h) ->
     k_name k = "Generic"%string -> msg_unmarshal g k m0 b = Ok (message_of k h is)).
Proof. exact unmarshal_reuse. Qed.
Print Assumptions C43_message_exact.
Theorem C43_message_fresh : forall g k m0 b, In k kinds -> m_f m0 = m_f (zero_msg k zero_header) -> m_ies m0 = [] ->
  msg_unmarshal g k m0 b = msg_parse g k b.
Proof. exact unmarshal_fresh. Qed.
Print Assumptions C43_message_fresh.

(** ** C47  names and request/response *)
Theorem C47_is_request : forall c n s r, assocN c ts_messages = Some (n, s, r) -> k_isreq (kind_of c) = r.
Proof. exact is_request_ok. Qed.
Print Assumptions C47_is_request.
Theorem C47_name_refuted : exists c n s r, assocN c ts_messages = Some (n, s, r) /\ k_typename (kind_of c) <> Some s.
Proof. exact typename_wrong. Qed.
Print Assumptions C47_name_refuted.
Theorem C47_name_exact : forall c n s r, assocN c ts_messages = Some (n, s, r) ->
  k_typename (kind_of c) = Some (if (c =? 8)%N then "Association Update Request"%string
                                 else if (c =? 15)%N then "Node Report Response"%string else s).
Proof. exact typename_exact. Qed.
Print Assumptions C47_name_exact.

(** ** C48  every IE type lands in the field named after it *)
Theorem C48_refuted : In K_SessionModificationResponse kinds /\ exists n b,
  nth_error (k_fields K_SessionModificationResponse) n = Some ("PacketRateStatusReport"%string, b) /\
  In (264%N, "PacketRateStatusReportWithinSessionModificationResponse"%string) ie_type_names /\
  (forall i, ty i = 264%N -> route K_SessionModificationResponse i = None) /\
  (forall i, ty i = 252%N -> route K_SessionModificationResponse i = Some n).
Proof. exact misrouted_witness. Qed.
Print Assumptions C48_refuted.
(** that is the only exception *)
Theorem C48_exact : forall k t n f b, In k kinds -> nth_error (k_fields k) n = Some (f, b) ->
  (routeT k t = Some n <-> field_for (k_name k) t f = true /\ misrouted k t f = false).
Proof. exact route_iff_name. Qed.
Print Assumptions C48_exact.
