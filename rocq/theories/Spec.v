(** Wire-format specification of PFCP information elements, written independently of the
    encoder and decoder in IE.v (3GPP TS 29.244, 8.1.1):

      octets 1-2  Type (bit 16 set = vendor specific)
      octets 3-4  Length of everything after octet 4
      octets 5-6  Enterprise ID, only if vendor specific
      then        the value; for a grouped type, a sequence of IEs.

    Only the record [ie] and the big-endian notation [be] are shared with the model. *)
From Verif Require Import Base IE.

(** Bit 16 of the type. *)
Definition is_vendor (t : N) : Prop := (0x8000 <= t)%N.

(** The octets before the value, for type [t], Length field [l], enterprise id [e]. *)
Inductive wire_header (t l e : N) : list N -> Prop :=
| wh_3gpp   : (t < 0x8000)%N -> (l < 65536)%N -> e = 0%N ->
    wire_header t l e (be 2 t ++ be 2 l)
| wh_vendor : (0x8000 <= t < 65536)%N -> (2 <= l < 65536)%N -> (e < 65536)%N ->
    wire_header t l e (be 2 t ++ be 2 l ++ be 2 e).

(** Number of value octets announced by the Length field. *)
Definition announced (t l : N) : nat := N.to_nat (if (t <? 0x8000)%N then l else l - 2).

Section Wire.
Variable grouped : N -> bool.

(** [wire i b]: b is a well-formed encoding of exactly the element i. *)
Inductive wire : ie -> list N -> Prop :=
| wire_ie t l e cs h body :
    wire_header t l e h ->
    bytes body ->
    length body = announced t l ->
    (grouped t = true -> wires cs body) ->
    (grouped t = false -> cs = []) ->
    wire (mkIE t l e body cs) (h ++ body)
(** [wires is b]: b is the concatenation of encodings of the elements is, in order. *)
with wires : list ie -> list N -> Prop :=
| wires_nil : wires [] []
| wires_cons i b is bs : wire i b -> wires is bs -> wires (i :: is) (b ++ bs).

(** [accepted i b rest]: what the decoder in fact takes from [b ++ rest].  It is [wire] with one
    extra case, [acc_cut]: when the input ends right after the header octets the element is
    accepted with an empty value whatever its Length field announces. *)
Inductive accepted : ie -> list N -> list N -> Prop :=
| acc_full t l e cs h body rest :
    wire_header t l e h ->
    bytes body ->
    length body = announced t l ->
    (grouped t = true -> accepteds cs body) ->
    (grouped t = false -> cs = []) ->
    accepted (mkIE t l e body cs) (h ++ body) rest
| acc_cut t l e h :
    wire_header t l e h ->
    accepted (mkIE t l e [] []) h []
with accepteds : list ie -> list N -> Prop :=
| accs_nil : accepteds [] []
| accs_cons i b is rest : accepted i b rest -> accepteds is rest -> accepteds (i :: is) (b ++ rest).
End Wire.

Scheme wire_mut := Minimality for wire Sort Prop
  with wires_mut := Minimality for wires Sort Prop.
Scheme accepted_mut := Minimality for accepted Sort Prop
  with accepteds_mut := Minimality for accepteds Sort Prop.
