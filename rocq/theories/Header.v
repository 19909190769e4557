(** Model of message/header.go and message/misc.go. *)
From Verif Require Import Base.
Set Implicit Arguments.
Local Open Scope N_scope.

(** type Header struct, message/header.go:13-22 *)
Record header := mkH {
  h_flags : N;         (* Flags uint8 *)
  h_type : N;          (* Type uint8 *)
  h_length : N;        (* Length uint16 *)
  h_seid : N;          (* SEID uint64 *)
  h_seq : N;           (* SequenceNumber uint32 *)
  h_prio : N;          (* MessagePriority uint8 *)
  h_payload : list N   (* Payload []byte *)
}.

(** HasFO / HasMP / HasSEID, message/header.go:51-63 *)
Definition has_fo (h : header) : bool := has3 (h_flags h).
Definition has_mp (h : header) : bool := has2 (h_flags h).
Definition has_seid (h : header) : bool := has1 (h_flags h).

(** SetLength, message/header.go:151-156: uint16 additions *)
Definition h_set_length (h : header) : header :=
  let l := u16 (4 + lenN (h_payload h)) in
  let l := if has_seid h then u16 (l + 8) else l in
  mkH (h_flags h) (h_type h) l (h_seid h) (h_seq h) (h_prio h) (h_payload h).

(** NewHeader, message/header.go:25-37.  uint8 shifts drop the high bits. *)
Definition new_header (ver fo mp s mtype seid seq pri : N) (payload : list N) : header :=
  h_set_length
    (mkH (N.lor (N.lor (N.lor (u8 (N.shiftl (N.land ver 0x7) 5)) (u8 (N.shiftl fo 2)))
                       (u8 (N.shiftl mp 1))) s)
         mtype 0 seid seq pri payload).
(** NewHeaderNodeRelated, message/header.go:40-42 *)
Definition new_header_node (ver mtype seq : N) (payload : list N) : header :=
  new_header ver 0 0 0 mtype 0 seq 0 payload.
(** NewHeaderSessionRelated, message/header.go:45-48: identical to NewHeader *)
Definition new_header_session := new_header.

(** MarshalLen, message/header.go:141-148 *)
Definition h_mlen (h : header) : nat :=
  (8 + length (h_payload h) + (if has_seid h then 8 else 0))%nat.

(** uint32To24, message/misc.go:14-16: []byte{uint8(n >> 16), uint8(n >> 8), uint8(n)} *)
Definition uint32To24 (n : N) : list N := [u8 (N.shiftr n 16); u8 (N.shiftr n 8); u8 n].
(** uint24To32, message/misc.go:7-12 *)
Definition uint24To32 (b : list N) : N :=
  match b with
  | [b0; b1; b2] => N.lor (N.lor (N.shiftl b0 16) (N.shiftl b1 8)) b2
  | _ => 0
  end.

(** MarshalTo, message/header.go:75-91 *)
Definition h_marshal_to (h : header) (b : list N) : res (list N) :=
  b <- put b 0 [h_flags h] ;;
  b <- put b 1 [h_type h] ;;
  b <- put b 2 (be 2 (h_length h)) ;;
  let offset := 4%nat in
  '(b, offset) <- (if has_seid h
                   then b <- put b offset (be 8 (h_seid h)) ;; Ok (b, (offset + 8)%nat)
                   else Ok (b, offset)) ;;
  b <- copy_range b offset (offset + 3) (uint32To24 (h_seq h)) ;;
  b <- put b (offset + 3) [h_prio h] ;;
  copy_range b (offset + 4) (h_mlen h) (h_payload h).
(** Marshal, message/header.go:66-72 *)
Definition h_marshal (h : header) : res (list N) := h_marshal_to h (make (h_mlen h)).

(** UnmarshalBinary, message/header.go:103-138, on receiver [h0] *)
Definition h_unmarshal (h0 : header) (b : list N) : res header :=
  let l := length b in
  if (l <? 8)%nat then Err EUnexpectedEOF else
  fl <- index b 0 ;;
  tp <- index b 1 ;;
  ln <- getr 2 b 2 4 ;;
  let offset := 4%nat in
  '(sd, offset) <-
    (if has1 fl then
       if (l <? offset + 8)%nat then Err EUnexpectedEOF else
       sd <- getr 8 b offset (offset + 8) ;; Ok (sd, (offset + 8)%nat)
     else Ok (h_seid h0, offset)) ;;
  if (l <? offset + 4)%nat then Err EUnexpectedEOF else
  sq <- slice b offset (offset + 3) ;;
  pr <- index b (offset + 3) ;;
  let offset := (offset + 4)%nat in
  if negb (N.to_nat ln + offset =? l)%nat then
    p <- from b offset ;; Ok (mkH fl tp ln sd (uint24To32 sq) pr p)
  else if (l <? offset + N.to_nat ln)%nat then Err EUnexpectedEOF
  else p <- slice b offset (offset + N.to_nat ln) ;; Ok (mkH fl tp ln sd (uint24To32 sq) pr p).

Definition zero_header : header := mkH 0 0 0 0 0 0 [].
(** ParseHeader, message/header.go:94-100 *)
Definition parse_header (b : list N) : res header := h_unmarshal zero_header b.

(** Version, message/header.go:159-161 *)
Definition h_version (h : header) : N := 1.
(** MessageType, message/header.go:164-166 *)
Definition h_message_type (h : header) : N := h_type h.
(** seid, message/header.go:168-173 *)
Definition h_get_seid (h : header) : N := if has_seid h then h_seid h else 0.
(** SetSEID, message/header.go:176-179 *)
Definition h_set_seid (h : header) (x : N) : header :=
  mkH (N.lor (h_flags h) 0x01) (h_type h) (h_length h) x (h_seq h) (h_prio h) (h_payload h).
(** Sequence / SetSequenceNumber, message/header.go:182-189 *)
Definition h_sequence (h : header) : N := h_seq h.
Definition h_set_sequence (h : header) (x : N) : header :=
  mkH (h_flags h) (h_type h) (h_length h) (h_seid h) x (h_prio h) (h_payload h).
(** SetMP, message/header.go:193-196: Flags |= 1<<2; MessagePriority = (mp << 4) & 0xf0 *)
Definition h_set_mp (h : header) (mp : N) : header :=
  mkH (N.lor (h_flags h) (N.shiftl 1 2)) (h_type h) (h_length h) (h_seid h) (h_seq h)
      (N.land (u8 (N.shiftl mp 4)) 0xf0) (h_payload h).
(** MP, message/header.go:202-204 *)
Definition h_mp (h : header) : N := N.shiftr (N.land (h_prio h) 0xf0) 4.
