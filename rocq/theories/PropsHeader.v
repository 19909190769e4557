(** Properties C15-C18: the message header.  [hwire h b] (HeaderSpec.v) is the declarative wire
    format; [h_marshal], [parse_header], ... (Header.v) model message/header.go. *)
From Verif Require Import Base Header HeaderSpec HeaderProofs.
Set Implicit Arguments.
Local Open Scope N_scope.

(** ** C15  header round-trip *)
Theorem C15_new_header_roundtrip : forall ver fo mp s mtype seid seq pri p,
  ver < 256 -> mtype < 256 -> seid < 2 ^ 64 -> seq < 2 ^ 24 -> pri < 256 -> bytes p ->
  let h := new_header ver (flag fo) (flag mp) (flag s) mtype (if s then seid else 0) seq pri p in
  exists b, h_marshal h = Ok b /\ parse_header b = Ok h.
Proof. exact new_header_roundtrip. Qed.
Print Assumptions C15_new_header_roundtrip.
(** for any header value at all: exactly what comes back *)
Theorem C15_roundtrip_exact : forall h, h_flags h < 256 -> h_type h < 256 -> h_prio h < 256 -> bytes (h_payload h) ->
  exists b, h_marshal h = Ok b /\
    parse_header b = Ok (mkH (h_flags h) (h_type h) (u16 (h_length h))
                             (if N.odd (h_flags h) then u64 (h_seid h) else 0)
                             (h_seq h mod 2 ^ 24) (h_prio h) (h_payload h)).
Proof. exact header_roundtrip. Qed.
Print Assumptions C15_roundtrip_exact.
Theorem C15_decode_encode : forall b h, bytes b -> parse_header b = Ok h -> h_marshal h = Ok b.
Proof. exact header_decode_encode. Qed.
Print Assumptions C15_decode_encode.
Theorem C15_length_field : forall ver fo mp s mtype seid seq pri p, ver < 256 ->
  let h := new_header ver (flag fo) (flag mp) (flag s) mtype seid seq pri p in
  h_length h = (N.of_nat (h_mlen h) - 4) mod 65536.
Proof. exact new_header_length. Qed.
Print Assumptions C15_length_field.
Theorem C15_getters : forall ver fo mp s mtype seid seq pri p, ver < 256 ->
  let h := new_header ver (flag fo) (flag mp) (flag s) mtype seid seq pri p in
  has_fo h = fo /\ has_mp h = mp /\ has_seid h = s /\ h_flags h / 32 = ver mod 8 /\
  h_message_type h = mtype /\ h_sequence h = seq /\ h_get_seid h = (if s then seid else 0) /\
  h_payload h = p.
Proof. exact new_header_getters. Qed.
Print Assumptions C15_getters.
(** MarshalTo writes exactly MarshalLen octets and panics on any shorter buffer *)
Theorem C15_marshal_to_fits : forall h b, (h_mlen h <= length b)%nat ->
  exists s, h_marshal h = Ok s /\ length s = h_mlen h /\ h_marshal_to h b = Ok (s ++ skipn (h_mlen h) b).
Proof. exact h_marshal_to_marshal. Qed.
Print Assumptions C15_marshal_to_fits.
Theorem C15_marshal_to_short : forall h b, (length b < h_mlen h)%nat -> h_marshal_to h b = Fault.
Proof. exact h_marshal_to_short. Qed.
Print Assumptions C15_marshal_to_short.

Example C15_sample : parse_header [33; 50; 0; 14; 0; 0; 0; 0; 0; 0; 0; 7; 0; 1; 2; 0; 170; 187] =
  Ok (new_header 1 0 0 1 50 7 258 0 [170; 187]).
Proof. vm_compute. reflexivity. Qed.

(** ** C16  ParseHeader is total; its Length field is ignored *)
Theorem C16_total : forall b, bytes b ->
  (exists h, parse_header b = Ok h /\ hwire h b) \/
  (parse_header b = Err EUnexpectedEOF /\
   ((length b < 8)%nat \/ (length b < 16)%nat /\ exists fl r, b = fl :: r /\ N.odd fl = true)).
Proof. exact parse_header_total. Qed.
Print Assumptions C16_total.
Theorem C16_exact : forall b h, bytes b -> (parse_header b = Ok h <-> hwire h b).
Proof. exact parse_header_iff. Qed.
Print Assumptions C16_exact.
Theorem C16_unambiguous : forall h k b, hwire h b -> hwire k b -> h = k.
Proof. exact hwire_inj. Qed.
Print Assumptions C16_unambiguous.
Theorem C16_length_refuted_long : exists b h, bytes b /\ parse_header b = Ok h /\
  N.of_nat (length (h_payload h)) > h_length h.
Proof. exact payload_overruns. Qed.
Print Assumptions C16_length_refuted_long.
Theorem C16_length_refuted_short : exists b h, bytes b /\ parse_header b = Ok h /\ lenN b < h_length h.
Proof. exact payload_underruns. Qed.
Print Assumptions C16_length_refuted_short.
(** the payload is everything after the header, whatever Length says *)
Theorem C16_payload_exact : forall b h, bytes b -> parse_header b = Ok h ->
  h_payload h = skipn (if N.odd (h_flags h) then 16 else 8)%nat b.
Proof. exact header_length_ignored. Qed.
Print Assumptions C16_payload_exact.

(** ** C17  SetMP sets the FO flag instead of MP; NewHeader's priority is not MP() *)
Theorem C17_set_mp_refuted : exists h p, p < 16 /\
  has_mp (h_set_mp h p) = false /\ has_fo h = false /\ has_fo (h_set_mp h p) = true.
Proof. exact set_mp_sets_fo. Qed.
Print Assumptions C17_set_mp_refuted.
Theorem C17_new_header_refuted : exists pri, pri < 16 /\ h_mp (new_header 1 0 1 1 50 7 1 pri []) <> pri.
Proof. exact new_header_loses_mp. Qed.
Print Assumptions C17_new_header_refuted.
Theorem C17_set_mp_exact : forall h p, p < 256 ->
  has_mp (h_set_mp h p) = has_mp h /\ has_fo (h_set_mp h p) = true /\ has_seid (h_set_mp h p) = has_seid h /\
  h_mp (h_set_mp h p) = p mod 16.
Proof. exact set_mp_exact. Qed.
Print Assumptions C17_set_mp_exact.
Theorem C17_new_header_exact : forall ver fo mp s mtype seid seq pri p, pri < 256 ->
  h_mp (new_header ver fo mp s mtype seid seq pri p) = pri / 16.
Proof. exact new_header_mp. Qed.
Print Assumptions C17_new_header_exact.

(** ** C18  SEID and sequence number survive the wire *)
Theorem C18_set_seid : forall h x, h_flags h < 256 -> h_type h < 256 -> h_prio h < 256 -> bytes (h_payload h) -> x < 2 ^ 64 ->
  h_get_seid (h_set_seid h x) = x /\
  has_mp (h_set_seid h x) = has_mp h /\ has_fo (h_set_seid h x) = has_fo h /\
  exists b h', h_marshal (h_set_seid h x) = Ok b /\ parse_header b = Ok h' /\ h_get_seid h' = x /\
     h_sequence h' = h_sequence h mod 2 ^ 24 /\ h_payload h' = h_payload h.
Proof. exact set_seid_exact. Qed.
Print Assumptions C18_set_seid.
Theorem C18_seid_clear : forall h, N.odd (h_flags h) = false -> h_get_seid h = 0.
Proof. exact seid_clear. Qed.
Print Assumptions C18_seid_clear.
Theorem C18_sequence : forall h, h_flags h < 256 -> h_type h < 256 -> h_prio h < 256 -> bytes (h_payload h) ->
  exists b h', h_marshal h = Ok b /\ parse_header b = Ok h' /\ h_sequence h' = h_sequence h mod 2 ^ 24.
Proof. exact sequence_wire. Qed.
Print Assumptions C18_sequence.
Theorem C18_set_sequence : forall h x, h_sequence (h_set_sequence h x) = x.
Proof. exact (fun h x => eq_refl). Qed.
Print Assumptions C18_set_sequence.
Example C18_sample : h_flags (new_header 1 0 0 0 50 0 9 0 [1;2;3]) < 256 /\
  h_get_seid (h_set_seid (new_header 1 0 0 0 50 0 9 0 [1;2;3]) 77) = 77.
Proof. vm_compute. auto. Qed.
