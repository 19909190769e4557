(** Properties C01-C14: the generic IE codec.
    [wire g i b] (Spec.v) is the declarative wire format; [parse], [marshal], ... (IE.v) model the
    code.  [g] is any pure predicate installed as IsGrouped; [default_grouped] is the built-in one. *)
From Verif Require Import Base IETypes IE Spec IEProofs IEProofs2 IEWf IEWitness IEProps.
Local Open Scope N_scope.

(** ** C01  ie.Parse is total *)
Theorem C01_parse_total : forall g b, bytes b ->
  (exists i, parse g b = Ok i) \/ (exists e, parse g b = Err e).
Proof. exact parse_returns. Qed.
Print Assumptions C01_parse_total.

(** Exactly what is accepted: a wire element, possibly followed by anything, or a bare header. *)
Theorem C01_parse_exact : forall g b i, bytes b ->
  (parse g b = Ok i <-> exists b1 rest, b = b1 ++ rest /\ accepted g i b1 rest).
Proof. exact parse_iff. Qed.
Print Assumptions C01_parse_exact.

(** ** C02  ParseMultiIEs is total and tiles its input *)
Theorem C02_parseMulti_total : forall g b, bytes b ->
  (exists is, parseMultiIEs g b = Ok is) \/ (exists e, parseMultiIEs g b = Err e).
Proof. exact parseMulti_returns. Qed.
Print Assumptions C02_parseMulti_total.

Theorem C02_parseMulti_tiles : forall g b is, bytes b -> parseMultiIEs g b = Ok is ->
  exists bs, Forall2 (fun i x => marshal g i = Ok x /\ mlen g i = length x /\ (4 <= length x)%nat) is bs
             /\ concat bs = b.
Proof. exact parseMulti_tiles. Qed.
Print Assumptions C02_parseMulti_tiles.

(** ** C03  decode then encode is byte exact *)
Theorem C03_parse_marshal : forall g b i, bytes b -> parse g b = Ok i ->
  marshal g i = Ok (firstn (mlen g i) b) /\ (4 <= mlen g i <= length b)%nat.
Proof. exact parse_then_marshal. Qed.
Print Assumptions C03_parse_marshal.

(** ** C04  encode then decode is the identity *)
Theorem C04_marshal_parse : forall g i b, wire g i b ->
  marshal g i = Ok b /\ forall rest, bytes rest -> parse g (b ++ rest) = Ok i.
Proof. exact wire_roundtrip. Qed.
Print Assumptions C04_marshal_parse.

(** well-formedness is decidable: it is exactly the check [wfb] on the element's own fields *)
Theorem C04_wellformed_iff : forall g i, (exists b, wire g i b) <-> wfb g i = true.
Proof. exact wellformed_iff. Qed.
Print Assumptions C04_wellformed_iff.

(** constructors give well-formed elements *)
Theorem C04_new_wf : forall g t p, t < 0x8000 -> g t = false -> bytes p -> lenN p < 65536 ->
  wire g (new t p) (be 2 t ++ be 2 (lenN p) ++ p).
Proof. exact new_wire. Qed.
Print Assumptions C04_new_wf.
Theorem C04_new_vendor_wf : forall g t e p, 0x8000 <= t < 65536 -> g t = false -> e < 65536 -> bytes p ->
  lenN p + 2 < 65536 -> wire g (new_vendor t e p) (be 2 t ++ be 2 (lenN p + 2) ++ be 2 e ++ p).
Proof. exact new_vendor_wire. Qed.
Print Assumptions C04_new_vendor_wf.
Theorem C04_new_grouped_wf : forall g t e ies,
  g t = true -> t < 65536 -> e < 65536 -> (t < 0x8000 -> e = 0) ->
  Forall (fun c => exists b, wire g c b) (somes ies) ->
  N.of_nat (list_sum (map (mlen g) (somes ies))) + 2 < 65536 ->
  exists i b, new_grouped g t e ies = Ok (Some i) /\ wire g i b /\ ty i = t /\ eid i = e /\ children i = somes ies.
Proof. exact new_grouped_wf. Qed.
Print Assumptions C04_new_grouped_wf.

Example C04_sample : wire default_grouped sample (enc default_grouped sample) /\ length (enc default_grouped sample) = 32%nat.
Proof. split; [apply wfb_wire; vm_compute; reflexivity|vm_compute; reflexivity]. Qed.

(** ** C05  lists decode unambiguously *)
Theorem C05_list_roundtrip : forall g is b, wires g is b -> parseMultiIEs g b = Ok is.
Proof. exact parseMulti_wires. Qed.
Print Assumptions C05_list_roundtrip.
Theorem C05_list_marshal : forall g is, Forall (fun i => exists b, wire g i b) is ->
  exists bs, Forall2 (fun i b => marshal g i = Ok b) is bs /\ parseMultiIEs g (concat bs) = Ok is.
Proof. exact list_marshal_parse. Qed.
Print Assumptions C05_list_marshal.
Theorem C05_injective : forall g is js b, wires g is b -> wires g js b -> is = js.
Proof. exact wires_inj. Qed.
Print Assumptions C05_injective.
Theorem C05_prefix_code : forall g i j b c r s, wire g i b -> wire g j c -> bytes r -> bytes s ->
  b ++ r = c ++ s -> i = j /\ b = c /\ r = s.
Proof. exact wire_prefix_free. Qed.
Print Assumptions C05_prefix_code.

(** ** C06  truncated elements are rejected: false for the bare header, true for every other cut *)
Theorem C06_truncation_refuted :
  exists i b k, wire default_grouped i b /\ (k < length b)%nat /\
    exists j, parse default_grouped (firstn k b) = Ok j.
Proof. exact truncated_header_accepted. Qed.
Print Assumptions C06_truncation_refuted.
Theorem C06_truncation_exact : forall g i b k, wire g i b -> (k < length b)%nat ->
  parse g (firstn k b) =
  if (k <? hdr (ty i))%nat then Err EUnexpectedEOF
  else if (k =? hdr (ty i))%nat then Ok (mkIE (ty i) (len i) (eid i) [] [])
  else Err EUnexpectedEOF.
Proof. exact parse_cut. Qed.
Print Assumptions C06_truncation_exact.
Theorem C06_list_truncation_exact : forall g is b i c k, wires g is b -> wire g i c -> (0 < k < length c)%nat ->
  parseMultiIEs g (b ++ firstn k c) =
  if (k =? hdr (ty i))%nat then Ok (is ++ [mkIE (ty i) (len i) (eid i) [] []]) else Err EUnexpectedEOF.
Proof. exact parseMulti_cut. Qed.
Print Assumptions C06_list_truncation_exact.

(** ** C07  MarshalLen is exact and Marshal never fails *)
Theorem C07_marshal_never_fails : forall g i, exists b, marshal g i = Ok b /\ length b = mlen g i.
Proof. exact marshal_never_fails. Qed.
Print Assumptions C07_marshal_never_fails.
Theorem C07_marshal_to_frame : forall g i b b', marshal g i = Ok b -> (length b <= length b')%nat ->
  marshal_to g i b' = Ok (b ++ skipn (length b) b').
Proof. exact marshal_to_frame. Qed.
Print Assumptions C07_marshal_to_frame.

(** ** C08  MarshalTo into a short buffer: panics *)
Theorem C08_short_buffer_refuted :
  exists i b, (length b < mlen default_grouped i)%nat /\ marshal_to default_grouped i b = Fault.
Proof. exact short_buffer_panics. Qed.
Print Assumptions C08_short_buffer_refuted.
(** exactly: non-grouped elements error below 4 octets and panic otherwise *)
Theorem C08_plain_tiny : forall g i b, (length b < 4)%nat -> marshal_to g i b = Err EInvalidLength.
Proof. exact marshal_to_tiny. Qed.
Print Assumptions C08_plain_tiny.
Theorem C08_plain_short : forall g i b, g (ty i) = false -> (4 <= length b < mlen g i)%nat -> marshal_to g i b = Fault.
Proof. exact marshal_to_plain_short. Qed.
Print Assumptions C08_plain_short.
(** the silent case: never with the built-in grouped types, but possible with a vendor one *)
Theorem C08_short_never_succeeds : forall g i, (forall t, g t = true -> vendor t = false) ->
  forall b, (length b < mlen g i)%nat -> forall s, marshal_to g i b <> Ok s.
Proof. exact marshal_to_short. Qed.
Print Assumptions C08_short_never_succeeds.
Theorem C08_default_short_never_succeeds : forall i b, (length b < mlen default_grouped i)%nat ->
  forall s, marshal_to default_grouped i b <> Ok s.
Proof. exact default_short. Qed.
Print Assumptions C08_default_short_never_succeeds.
Theorem C08_short_silent_refuted :
  exists (g : N -> bool) i b s, (length b < mlen g i)%nat /\ marshal_to g i b = Ok s.
Proof. exact short_buffer_silent. Qed.
Print Assumptions C08_short_silent_refuted.

(** ** C09  Length field set by constructors *)
Theorem C09_length_refuted :
  exists t p, bytes p /\ default_grouped t = false /\
    N.of_nat (mlen default_grouped (new t p)) <> len (new t p) + 4.
Proof. exact length_wraps. Qed.
Print Assumptions C09_length_refuted.
Theorem C09_length_exact : forall g t e p, g t = false ->
  len (new_vendor t e p) = (N.of_nat (mlen g (new_vendor t e p)) - 4) mod 65536.
Proof. exact new_vendor_length. Qed.
Print Assumptions C09_length_exact.
Theorem C09_length_new : forall g t p, g t = false ->
  len (new t p) = (N.of_nat (mlen g (new t p)) - 4) mod 65536.
Proof. exact new_length. Qed.
Print Assumptions C09_length_new.
Theorem C09_length_grouped : forall g t e ies i, g t = true -> new_grouped g t e ies = Ok (Some i) ->
  len i = (N.of_nat (mlen g i) - 4) mod 65536.
Proof. exact new_grouped_length. Qed.
Print Assumptions C09_length_grouped.
(** New with a grouped type and a raw payload encodes a Length for octets it does not emit *)
Theorem C09_new_grouped_type_refuted :
  exists t p b, default_grouped t = true /\ marshal default_grouped (new t p) = Ok b /\
    N.of_nat (length b) <> len (new t p) + 4.
Proof. exact new_on_grouped_type. Qed.
Print Assumptions C09_new_grouped_type_refuted.

(** ** C10  grouped elements stay coherent under Add/Remove *)
Theorem C10_edits_coherent : forall g es i, g (ty i) = true -> coherent g i ->
  exists j, fold_left (apply_edit g) es (Ok i) = Ok j /\
    ty j = ty i /\ eid j = eid i /\
    children j = fold_left list_edit es (children i) /\ coherent g j.
Proof. exact edits_ok. Qed.
Print Assumptions C10_edits_coherent.
Theorem C10_new_grouped_coherent : forall g t e ies i, new_grouped g t e ies = Ok (Some i) -> coherent g i.
Proof. exact new_grouped_coherent. Qed.
Print Assumptions C10_new_grouped_coherent.
Theorem C10_wire_coherent : forall g i b, wire g i b -> g (ty i) = true -> coherent g i.
Proof. exact wire_coherent. Qed.
Print Assumptions C10_wire_coherent.
(** and hence encodable/decodable while it fits the 16-bit Length *)
Theorem C10_coherent_wellformed : forall g i, g (ty i) = true -> ty i < 65536 -> eid i < 65536 ->
  (ty i < 0x8000 -> eid i = 0) -> coherent g i ->
  Forall (fun c => exists b, wire g c b) (children i) -> lenN (payload i) + 2 < 65536 ->
  exists b, wire g i b.
Proof. exact coherent_wellformed. Qed.
Print Assumptions C10_coherent_wellformed.
Example C10_sample : default_grouped (ty pdr) = true /\ coherent default_grouped pdr /\
  exists j, fold_left (apply_edit default_grouped) [EAdd [new T_PDRID [0;7]]; ERemove T_PDI; EAdd [pdi; pdi]] (Ok pdr) = Ok j
    /\ map ty (children j) = [T_PDRID; T_PDI; T_PDI] /\ len j = 24.
Proof. split; [reflexivity|]. split; [split; reflexivity|]. eexists. split; [vm_compute; reflexivity|]. split; reflexivity. Qed.

(** ** C11  Remove and FindByType *)
Theorem C11_remove_exact : forall g i typ, g (ty i) = true ->
  exists j, remove g i typ = Ok j /\ ty j = ty i /\ eid j = eid i /\
    children j = filter (fun c => negb (ty c =? typ)) (children i).
Proof. exact remove_exact. Qed.
Print Assumptions C11_remove_exact.
Theorem C11_remove_then_find : forall g i j typ, g (ty i) = true -> remove g i typ = Ok j ->
  find_by_type g j typ = Err EIENotFound /\
  (forall u, u <> typ -> find_by_type g j u = find_by_type g i u) /\
  remove g j typ = Ok j.
Proof. exact remove_then_find. Qed.
Print Assumptions C11_remove_then_find.
Theorem C11_find_first : forall g i typ c, g (ty i) = true ->
  (find_by_type g i typ = Ok c <->
   exists pre post, children i = pre ++ c :: post /\ ty c = typ /\ Forall (fun x => ty x <> typ) pre).
Proof. exact find_by_type_hit. Qed.
Print Assumptions C11_find_first.
Theorem C11_find_none : forall g i typ, g (ty i) = true ->
  (find_by_type g i typ = Err EIENotFound <-> Forall (fun x => ty x <> typ) (children i)).
Proof. exact find_by_type_miss. Qed.
Print Assumptions C11_find_none.

(** ** C12  non-grouped elements are left alone *)
Theorem C12_plain_noop : forall g i ies typ, g (ty i) = false ->
  add g i ies = Ok i /\ remove g i typ = Ok i /\ find_by_type g i typ = Err EInvalidType.
Proof. exact plain_noop. Qed.
Print Assumptions C12_plain_noop.
Example C12_sample : default_grouped (ty si) = false. Proof. reflexivity. Qed.

(** ** C13  editing a nested child: the parent's Length and Payload go stale *)
Theorem C13_nested_edit_refuted :
  coherent default_grouped pdr /\ coherent default_grouped pdi /\
  exists pdi' b,
    find_by_type default_grouped pdr T_PDI = Ok pdi /\
    add default_grouped pdi [Some (new T_NetworkInstance [97])] = Ok pdi' /\
    marshal default_grouped (with_children pdr [pdi']) = Ok b /\
    parse default_grouped b <> Ok (with_children pdr [pdi']) /\
    (exists e, parse default_grouped b = Err e).
Proof. exact nested_edit_breaks_parent. Qed.
Print Assumptions C13_nested_edit_refuted.
(** in general: whenever the children's encoded size changed, no octets at all decode to the tree *)
Theorem C13_stale_parent : forall g p cs b, g (ty p) = true -> bytes b ->
  length (concat (map (enc g) cs)) <> length (payload p) ->
  parse g b <> Ok (with_children p cs).
Proof. exact stale_parent_unparsable. Qed.
Print Assumptions C13_stale_parent.
(** the way to repair it: call Add with no arguments on each ancestor, innermost first *)
Theorem C13_repair : forall g p cs, g (ty p) = true ->
  exists q, add g (with_children p cs) [] = Ok q /\ coherent g q /\ children q = cs.
Proof. exact add_nothing_repairs. Qed.
Print Assumptions C13_repair.

(** ** C14  scalar values *)
Theorem C14_uint_roundtrip : forall g k t v, g t = false -> v < 256 ^ N.of_nat k ->
  value_as_uint g k (new_uint k t v) = Ok v.
Proof. exact value_as_uint_new. Qed.
Print Assumptions C14_uint_roundtrip.
Theorem C14_uint_exact : forall g k i,
  value_as_uint g k i =
  if g (ty i) then Err (EInvalidTypeT (ty i))
  else if (length (payload i) <? k)%nat then Err EUnexpectedEOF
  else Ok (unbe (firstn k (payload i))).
Proof. exact value_as_uint_exact. Qed.
Print Assumptions C14_uint_exact.
Theorem C14_string_roundtrip : forall g t s, g t = false -> value_as_string g (new_string t s) = Ok s.
Proof. exact value_as_string_new. Qed.
Print Assumptions C14_string_roundtrip.
(** over the wire as well *)
Theorem C14_uint_wire : forall g k t v b, t < 0x8000 -> g t = false -> (k <= 8)%nat -> v < 256 ^ N.of_nat k ->
  marshal g (new_uint k t v) = Ok b ->
  exists i, parse g b = Ok i /\ value_as_uint g k i = Ok v.
Proof. exact uint_wire. Qed.
Print Assumptions C14_uint_wire.

(** ** C43  UnmarshalBinary on a used receiver (IE part) *)
Theorem C43_receiver_refuted :
  exists i0 b i, bytes b /\ parse default_grouped b = Ok i /\ unmarshalBinary default_grouped i0 b <> Ok i.
Proof. exact receiver_stale. Qed.
Print Assumptions C43_receiver_refuted.
Theorem C43_receiver_exact : forall g i0 b, bytes b ->
  unmarshalBinary g i0 b =
  bind (parse g b) (fun i =>
   let cut := (length b <=? hdr (ty i))%nat in
   Ok (mkIE (ty i) (len i) (if vendor (ty i) then eid i else eid i0)
         (if cut then payload i0 else payload i)
         (if cut then children i0 else if g (ty i) then children i else children i0))).
Proof. exact unmarshalBinary_receiver. Qed.
Print Assumptions C43_receiver_exact.
