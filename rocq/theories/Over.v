(** Writing into a slice with spare capacity, and what is in memory afterwards, also after an error or a panic.
    IE.MarshalTo, Header.MarshalTo and MarshalTo of messages again, on a slice of length L of a memory M that goes on to
    the slice's capacity.  b[lo:hi] may reach past len(b), up to the capacity; b[i], b[lo:] and len(b) do not. *)
From Verif Require Import Base IETypes IE Header Message.
Set Implicit Arguments.

(** the memory afterwards, and how the call ended *)
Definition wr : Type := list N * res unit.
Definition wthen (x : wr) (k : list N -> wr) : wr := match snd x with Ok _ => k (fst x) | _ => x end.
Definition write (M : list N) (lo : nat) (s : list N) : list N := firstn lo M ++ s ++ skipn (lo + length s) M.
(** binary.BigEndian.PutUintN(b[lo:lo+n], v) *)
Definition wput (M : list N) (lo : nat) (s : list N) : wr := if lo + length s <=? length M then (write M lo s, Ok tt) else (M, Fault).
(** b[k] = x *)
Definition wset (L : nat) (M : list N) (k : nat) (x : N) : wr := if k <? L then (write M k [x], Ok tt) else (M, Fault).
(** copy(b[lo:hi], src) *)
Definition wcopy (M : list N) (lo hi : nat) (src : list N) : wr :=
  if (lo <=? hi) && (hi <=? length M) then (write M lo (firstn (hi - lo) src), Ok tt) else (M, Fault).

Section G.
Variable g : N -> bool.
(** (IE) MarshalTo, ie/ie.go:568-595 *)
Fixpoint w_ie (i : ie) (L : nat) (M : list N) : wr :=
  if L <? 4 then (M, Err EInvalidLength) else
  wthen (wput M 0 (be 2 (ty i))) (fun M =>
  wthen (wput M 2 (be 2 (len i))) (fun M =>
  let full := vendor (ty i) && (6 <=? L) in
  wthen (if full then wput M 4 (be 2 (eid i)) else (M, Ok tt)) (fun M =>
  let offset := if full then 6 else 4 in
  if g (ty i) then
    (fix go (cs : list ie) (offset : nat) (M : list N) : wr :=
       match cs with
       | [] => (M, Ok tt)
       | c :: cs' =>
           if offset <=? L then                          (* b[offset:] *)
             let r := w_ie c (L - offset) (skipn offset M) in
             wthen (firstn offset M ++ fst r, snd r) (fun M => go cs' (offset + mlen g c) M)
           else (M, Fault)
       end) (children i) offset M
  else wcopy M offset (mlen g i) (payload i)))).
(** (Header) MarshalTo, message/header.go:75-91 *)
Definition w_header (h : header) (L : nat) (M : list N) : wr :=
  wthen (wset L M 0 (h_flags h)) (fun M =>
  wthen (wset L M 1 (h_type h)) (fun M =>
  wthen (wput M 2 (be 2 (h_length h))) (fun M =>
  wthen (if has_seid h then wput M 4 (be 8 (h_seid h)) else (M, Ok tt)) (fun M =>
  let offset := if has_seid h then 12 else 4 in
  wthen (wcopy M offset (offset + 3) (uint32To24 (h_seq h))) (fun M =>
  wthen (wset L M (offset + 3) (h_prio h)) (fun M =>
  wcopy M (offset + 4) (h_mlen h) (h_payload h))))))).
(** MarshalTo of a message (message/*.go; Message.v: msg_marshal_to): the IEs go into a payload of their own, made to measure,
    before Header.MarshalTo writes to the buffer; a panic in that first part leaves the buffer alone. *)
Definition w_msg (k : kind) (m : msg) (L : nat) (M : list N) : wr :=
  let m := with_h m (with_payload (m_h m) []) in
  match
    (l <- msg_len g k m ;;
     let p := make (l - h_mlen (m_h m)) in
     st <- write_fields g (p, O) (m_f m) (k_write k) ;;
     '(p, offset) <- write_nil g st (m_ies m) ;;
     Ok (h_set_length (with_payload (m_h m) p)))
  with
  | Ok h => w_header h L M
  | Err e => (M, Err e)
  | Fault => (M, Fault)
  | Fuel => (M, Fuel)
  end.
End G.
(** the result when L is the whole memory *)
Definition settled (x : wr) : res (list N) := match snd x with Ok _ => Ok (fst x) | Err e => Err e | Fault => Fault | Fuel => Fuel end.
