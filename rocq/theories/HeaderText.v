(** The text of a header: (h *Header) String, message/header.go:207-218.  fmt's verbs as documented: %d decimal, %t true or false, %#x of a number 0x and
    hexadecimal digits without superfluous zeros, %#016x 0x and 16 digits (the width counts digits when padding is by zeros), %#x of octets 0x and two
    digits each, nothing at all for none.  Lower-case letters. *)
From Coq Require Import String Ascii DecimalString DecimalN HexadecimalString HexadecimalN.
From Verif Require Import Base Header TypeString.
Local Open Scope string_scope.
Local Open Scope N_scope.

Definition fmt_t (b : bool) : string := if b then "true" else "false".
Definition fmt_d (n : N) : string := format_int n.
Definition fmt_x (n : N) : string := "0x" ++ HexadecimalString.NilEmpty.string_of_uint (N.to_hex_uint n).
Definition hex_digit (d : N) : ascii := ascii_of_N (if d <? 10 then 48 + d else 87 + d).
Fixpoint fixed_hex (w : nat) (n : N) : string :=
  match w with O => "" | S w => fixed_hex w (n / 16) ++ String (hex_digit (n mod 16)) "" end.
Definition fmt_016x (n : N) : string := "0x" ++ fixed_hex 16 n.
Fixpoint octets_hex (b : list N) : string := match b with nil => "" | x :: r => fixed_hex 2 x ++ octets_hex r end.
Definition fmt_xs (b : list N) : string := match b with nil => "" | _ => "0x" ++ octets_hex b end.
(** message/header.go:207-218 *)
Definition h_string (h : header) : string :=
  "{Version: " ++ fmt_d (h_version h) ++ ", Flags: {FO: " ++ fmt_t (has_fo h) ++ ", MP: " ++ fmt_t (has_mp h) ++ ", S: " ++ fmt_t (has_seid h) ++
  "}, Type: " ++ fmt_d (h_type h) ++ ", Length: " ++ fmt_d (h_length h) ++ ", SEID: " ++ fmt_016x (h_seid h) ++
  ", SequenceNumber: " ++ fmt_x (h_seq h) ++ ", MessagePriority: " ++ fmt_d (h_prio h) ++ ", Payload: " ++ fmt_xs (h_payload h) ++ "}".
