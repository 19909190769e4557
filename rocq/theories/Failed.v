(** UnmarshalBinary and what it leaves in its receiver, also when it fails.  IE.v, Header.v and Message.v return the receiver only on success;
    here every call gives the error (None for nil) and the receiver afterwards.  [Fault] is still a panic. *)
From Coq Require Import String.
From Verif Require Import Base IETypes IE Header Message MsgTables.
Set Implicit Arguments.
Local Open Scope list_scope.

(** error returned, receiver afterwards *)
Definition out (A : Type) : Type := res (option err * A).

Section Failed.
Variable g : N -> bool.

(** (i *IE) UnmarshalBinary, ie/ie.go:514-556.  ParseMultiIEs returns nil with an error (:504-506), and :549 assigns it. *)
Definition ie_unmarshal (i0 : ie) (b : list N) : out ie :=
  let l := length b in
  if l <? 4 then Ok (Some EUnexpectedEOF, i0) else
  t <- getr 2 b 0 2 ;;
  ln <- getr 2 b 2 4 ;;
  let i := mkIE t ln (eid i0) (payload i0) (children i0) in
  let body (i : ie) (offset fin : nat) : out ie :=
    if l <=? offset then Ok (None, i) else
    if l <? offset + fin then Ok (Some EUnexpectedEOF, i) else
    p <- slice b offset (offset + fin) ;;
    let i := mkIE (ty i) (len i) (eid i) p (children i) in
    if g (ty i) then
      match parseMultiIEs g p with
      | Ok cs => Ok (None, mkIE (ty i) (len i) (eid i) p cs)
      | Err e => Ok (Some e, mkIE (ty i) (len i) (eid i) p [])
      | Fault => Fault
      | Fuel => Fuel
      end
    else Ok (None, i) in
  if vendor t then
    if l <? 6 then Ok (Some EUnexpectedEOF, i) else
    if N.to_nat ln <? 2 then Ok (Some EInvalidLength, i) else
    e <- getr 2 b 4 6 ;;
    body (mkIE t ln e (payload i0) (children i0)) 6 (N.to_nat ln - 2)
  else body i 4 (N.to_nat ln).

(** (h *Header) UnmarshalBinary, message/header.go:103-138 *)
Definition header_unmarshal (h0 : header) (b : list N) : out header :=
  let l := length b in
  if l <? 8 then Ok (Some EUnexpectedEOF, h0) else
  fl <- index b 0 ;;
  tp <- index b 1 ;;
  ln <- getr 2 b 2 4 ;;
  let h := mkH fl tp ln (h_seid h0) (h_seq h0) (h_prio h0) (h_payload h0) in
  let rest (h : header) (offset : nat) : out header :=
    if l <? offset + 4 then Ok (Some EUnexpectedEOF, h) else
    sq <- slice b offset (offset + 3) ;;
    pr <- index b (offset + 3) ;;
    let h := mkH fl tp ln (h_seid h) (uint24To32 sq) pr (h_payload h) in
    let offset := offset + 4 in
    if negb (N.to_nat ln + offset =? l) then p <- from b offset ;; Ok (None, mkH fl tp ln (h_seid h) (h_seq h) (h_prio h) p)
    else if l <? offset + N.to_nat ln then Ok (Some EUnexpectedEOF, h)
    else p <- slice b offset (offset + N.to_nat ln) ;; Ok (None, mkH fl tp ln (h_seid h) (h_seq h) (h_prio h) p) in
  if has_seid h then
    if l <? 4 + 8 then Ok (Some EUnexpectedEOF, h) else
    sd <- getr 8 b 4 (4 + 8) ;;
    rest (mkH fl tp ln sd (h_seq h0) (h_prio h0) (h_payload h0)) (4 + 8)
  else rest h 4.

(** A message value whose embedded *Header may be nil: as a literal &X{} has it, and as UnmarshalBinary leaves it when ParseHeader fails. *)
Record pmsg := mkP { p_h : option header; p_f : list fval; p_ies : list (option ie) }.
Definition with_header (p : pmsg) (h : header) : msg := mkM h (p_f p) (p_ies p).
Definition held (m : msg) : pmsg := mkP (Some (m_h m)) (m_f m) (m_ies m).
(** &X{} *)
Definition empty (k : kind) : pmsg := mkP None (m_f (zero_msg k zero_header)) [].

(** UnmarshalBinary of every message, pfd-management-request.go:90-115 and the same in the other files; generic.go:91-106.  ParseHeader returns nil
    with an error (message/header.go:96-98). *)
Definition p_unmarshal (k : kind) (p : pmsg) (b : list N) : out pmsg :=
  match parse_header b with
  | Fault => Fault
  | Fuel => Fuel
  | Err e => Ok (Some e, mkP None (p_f p) (p_ies p))
  | Ok h =>
      let p := mkP (Some h) (p_f p) (p_ies p) in
      if length (h_payload h) <? 2 then Ok (None, p) else
      match parseMultiIEs g (h_payload h), k_mode k with
      | Fault, _ => Fault
      | Fuel, _ => Fuel
      | Err e, IReplace => Ok (Some e, mkP (Some h) (p_f p) [])
      | Err e, IAppend => Ok (Some e, p)
      | Ok ies, IReplace => Ok (None, mkP (Some h) (p_f p) (map Some ies))
      | Ok ies, IAppend => m <- store_all (k_switch k) (with_header p h) ies ;; Ok (None, held m)
      end
  end.
(** The other methods read fields of the embedded Header (h.Flags in HasSEID, h.Type, h.SequenceNumber, h.Length) and so dereference nil. *)
Definition deref {A} (p : pmsg) (f : msg -> res A) : res A := match p_h p with Some h => f (with_header p h) | None => Fault end.
Definition p_len (k : kind) (p : pmsg) : res nat := deref p (msg_len g k).
Definition p_marshal (k : kind) (p : pmsg) : res (list N * pmsg) := deref p (fun m => '(b, m) <- msg_marshal g k m ;; Ok (b, held m)).
Definition p_set_length (k : kind) (p : pmsg) : res pmsg := deref p (fun m => m <- msg_set_length g k m ;; Ok (held m)).
Definition p_type (p : pmsg) : res N := deref p (fun m => Ok (msg_type m)).
Definition p_seid (p : pmsg) : res N := deref p (fun m => Ok (msg_seid m)).
Definition p_seq (p : pmsg) : res N := deref p (fun m => Ok (msg_seq m)).

(** one receiver given one datagram after another, errors ignored (logged, say) *)
Fixpoint p_feed (k : kind) (p : pmsg) (ds : list (list N)) : res pmsg :=
  match ds with [] => Ok p | d :: r => '(_, p) <- p_unmarshal k p d ;; p_feed k p r end.
Fixpoint ie_feed (i : ie) (ds : list (list N)) : res ie :=
  match ds with [] => Ok i | d :: r => '(_, i) <- ie_unmarshal i d ;; ie_feed i r end.
End Failed.
