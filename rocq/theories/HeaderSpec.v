(** Wire format of the PFCP message header (3GPP TS 29.244, 7.2.2), independent of the encoder
    and decoder in Header.v:

      octet 1      version (bits 8-6), spare, FO (bit 3), MP (bit 2), S (bit 1)
      octet 2      message type
      octets 3-4   length of everything after octet 4
      8 octets     SEID, present iff S = 1
      3 octets     sequence number
      1 octet      message priority (bits 8-5) / spare
      then         the message body. *)
From Verif Require Import Base Header.
Set Implicit Arguments.
Local Open Scope N_scope.

(** [hwire h b]: b is an encoding of exactly the header h, whatever its Length field says. *)
Inductive hwire : header -> list N -> Prop :=
| hw_session fl tp ln sd sq pr body :
    fl < 256 -> N.odd fl = true -> tp < 256 -> ln < 65536 -> sd < 2 ^ 64 -> sq < 2 ^ 24 -> pr < 256 ->
    bytes body ->
    hwire (mkH fl tp ln sd sq pr body) ([fl; tp] ++ be 2 ln ++ be 8 sd ++ be 3 sq ++ [pr] ++ body)
| hw_node fl tp ln sq pr body :
    fl < 256 -> N.odd fl = false -> tp < 256 -> ln < 65536 -> sq < 2 ^ 24 -> pr < 256 ->
    bytes body ->
    hwire (mkH fl tp ln 0 sq pr body) ([fl; tp] ++ be 2 ln ++ be 3 sq ++ [pr] ++ body).

(** octets before the body *)
Definition hsize (fl : N) : nat := if N.odd fl then 16 else 8.
(** the Length field tells the truth about b *)
Definition length_right (h : header) (b : list N) : Prop := h_length h + 4 = lenN b.
