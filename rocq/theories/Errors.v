(** Errors: their texts, MustAPNDNN, and the vocabulary that says when each of them may appear. *)
From Coq Require Import String.
From Verif Require Import Base IETypes IE Access AccTable AccRun HeaderText.
Set Implicit Arguments.

(** Error() of the errors, ie/errors.go:14-22,31-33,41-43; errors.New in ie/f-teid.go:82 is the only error built inline.  ErrTooShortToParse
    (ie/errors.go:14) is used nowhere.  io.ErrUnexpectedEOF is the standard library's; the texts of encoding/hex are not modelled. *)
Definition err_text (e : err) : option string :=
  (match e with
   | EUnexpectedEOF => Some "unexpected EOF"
   | EInvalidLength => Some "length value is invalid"
   | EInvalidType => Some "invalid type"
   | EIENotFound => Some "could not find the specified IE in a grouped IE"
   | EMalformed => Some "malformed IE"
   | EElementNotFound => Some "element not found"
   | EInvalidTypeT t => Some ("got invalid type: " ++ fmt_d t)
   | EInvalidNodeID x => Some ("got invalid NodeID: " ++ fmt_d x)
   | EHex => None
   | EOther => Some "cannot determine which value to return. Use LocalFTEID or LocalFTEIDN instead"
   end)%string.

(** MustAPNDNN, ie/apn-dnn.go:23-26: the error is dropped, and APNDNN returns the empty string with it *)
Definition must_apndnn (g : N -> bool) (i : ie) : res (list N) :=
  match access g A_APNDNN i with
  | Ok (VS s) => Ok s
  | Ok _ => Fault
  | Err _ => Ok []
  | Fault => Fault
  | Fuel => Fuel
  end.

(** * Vocabulary *)
(** somewhere in b stand an octet of at least 128 and any other, a Length of 0 or 1 in two octets, and two octets more: the header of a
    vendor-specific element too short for its Enterprise ID *)
Definition short_vendor (b : list N) : Prop :=
  exists pre t1 t0 l e1 e0 post, b = pre ++ t1 :: t0 :: 0%N :: l :: e1 :: e0 :: post /\ (128 <= t1)%N /\ (l < 2)%N.
(** what decoding b may return *)
Definition dec_err (b : list N) (e : err) : Prop := e = EUnexpectedEOF \/ (e = EInvalidLength /\ short_vendor b).

Section G.
Variable g : N -> bool.
(** j is i, or an element that decoding the payload of i finds, or decoding the payload of such an element, and so on *)
Inductive inside : ie -> ie -> Prop :=
| inside_here i : inside i i
| inside_child i is x j : parseMultiIEs g (payload i) = Ok is -> In x is -> inside x j -> inside i j.

(** what an accessor on i may return *)
Inductive acc_err (i : ie) : err -> Prop :=
| ae_eof : acc_err i EUnexpectedEOF
| ae_absent : acc_err i EIENotFound
| ae_length : short_vendor (payload i) -> acc_err i EInvalidLength
| ae_type j : inside i j -> acc_err i (EInvalidTypeT (ty j))
| ae_malformed j x r : inside i j -> ty j = T_FQCSID -> payload j = x :: r -> (48 <= x)%N -> acc_err i EMalformed
| ae_node j x r : inside i j -> ty j = T_NodeID -> payload j = x :: r -> (3 <= x)%N -> acc_err i (EInvalidNodeID x)
| ae_other j : inside i j -> ty j = T_CreatedTrafficEndpoint -> acc_err i EOther.
End G.
