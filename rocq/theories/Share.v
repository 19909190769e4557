(** Several goroutines calling Marshal on the same message value.

    Every message file has the same Marshal, MarshalTo and MarshalLen (message/heartbeat-request.go:37-79, 121-139), which keep the
    encoded IEs in m.Header.Payload and the length in m.Header.Length while they run.  A call is a little program over this shared
    memory; each read or write of Payload (the slice), of the array behind it or of Length is one step, and the steps of several
    calls interleave freely.

    Simplifications: memory is sequentially consistent, a slice is read or written in one step, and so are the octets written by
    MarshalTo of one IE (if it fails, the octets already written are not kept).  The message has its IEs [ies] in the order in which
    MarshalTo writes them and its other Header fields do not change. *)
From Verif Require Import Base IETypes IE Header.

(** the memory the calls share *)
Record shared := mkS {
  s_ref : option nat;          (* Header.Payload: nil or the whole of an array *)
  s_length : N;                (* Header.Length *)
  s_arrays : list (list N)     (* the arrays made so far *)
}.
Definition contents (s : shared) (a : option nat) : list N :=
  match a with Some n => nth n (s_arrays s) [] | None => [] end.
Definition plen (s : shared) : nat := length (contents s (s_ref s)).        (* len(h.Payload) *)
Definition set_ref (s : shared) (a : option nat) : shared := mkS a (s_length s) (s_arrays s).
Definition set_len (s : shared) (x : N) : shared := mkS (s_ref s) x (s_arrays s).
Fixpoint set_nth (n : nat) (x : list N) (l : list (list N)) : list (list N) :=
  match l, n with [], _ => [] | _ :: r, O => x :: r | y :: r, S n => y :: set_nth n x r end.
Definition set_array (s : shared) (a : option nat) (x : list N) : shared :=
  match a with Some n => mkS (s_ref s) (s_length s) (set_nth n x (s_arrays s)) | None => s end.
Definition alloc (s : shared) (n : nat) : shared :=
  mkS (Some (length (s_arrays s))) (s_length s) (s_arrays s ++ [make n]).

(** where a call is; [z] is the size of the buffer it will return *)
Inductive pc :=
| Len1                                              (* Marshal: m.MarshalLen(), reading len(Payload) in Header.MarshalLen *)
| Len2 (n1 : nat)                                   (* and once more to subtract it *)
| Nil (z : nat)                                     (* MarshalTo: if m.Header.Payload != nil *)
| Clear (z : nat)                                   (* m.Header.Payload = nil *)
| Size1 (z : nat) | Size2 (z n1 : nat) | Size3 (z n1 n2 : nat)   (* m.MarshalLen() - m.Header.MarshalLen() *)
| Make (z n : nat)                                  (* m.Header.Payload = make(...) *)
| Load (z off : nat) (i : ie) (r : list ie)         (* m.Payload[offset:] *)
| Store (z off : nat) (i : ie) (r : list ie) (a : option nat)    (* i.MarshalTo(...) *)
| Set1 (z : nat) | Set2 (z n : nat)                 (* Header.SetLength: h.Length = uint16(4 + len(h.Payload)) *)
| Add1 (z : nat) | Add2 (z : nat) (x : N)           (* h.Length += 8 *)
| Out1 (z : nat) | Out2 (z : nat) (x : N) | Out3 (z : nat) (x : N) (n : nat)
| Out4 (z : nat) (x : N) (n : nat) (a : option nat) (* Header.MarshalTo: Length, MarshalLen(), Payload, copy *)
| Fin (r : res (list N)).

Section Share.
Variable g : N -> bool.
Variable h : header.          (* Flags, Type, SEID, SequenceNumber, MessagePriority *)
Variable ies : list ie.

Definition base : nat := if has_seid h then 16 else 8.
Definition body_len : nat := fold_left (fun l i => l + mlen g i) ies 0.
(** make([]byte, n) with n an int: a negative n panics *)
Definition sized (n : Z) (k : nat -> pc) : pc := if (n <? 0)%Z then Fin Fault else k (Z.to_nat n).
Definition next (z off : nat) (r : list ie) : pc := match r with [] => Set1 z | i :: r => Load z off i r end.

(** Header.MarshalTo, message/header.go:75-91, where h.Length is x, h.MarshalLen() is based on len(h.Payload) = n and h.Payload holds p *)
Definition emit (x : N) (n : nat) (p : list N) (b : list N) : res (list N) :=
  b <- put b 0 [h_flags h] ;;
  b <- put b 1 [h_type h] ;;
  b <- put b 2 (be 2 x) ;;
  let offset := 4%nat in
  '(b, offset) <- (if has_seid h
                   then b <- put b offset (be 8 (h_seid h)) ;; Ok (b, (offset + 8)%nat)
                   else Ok (b, offset)) ;;
  b <- copy_range b offset (offset + 3) (uint32To24 (h_seq h)) ;;
  b <- put b (offset + 3) [h_prio h] ;;
  copy_range b (offset + 4) (8 + n + (if has_seid h then 8 else 0))%nat p.

(** one step; the line numbers are those of message/heartbeat-request.go and message/header.go *)
Definition step (s : shared) (p : pc) : shared * pc :=
  match p with
  | Len1 => (s, Len2 (plen s))                                                                            (* :38, :122 *)
  | Len2 n1 => (s, sized (Z.of_nat (base + n1) - Z.of_nat (plen s) + Z.of_nat body_len) Nil)                (* :38, :122-138 *)
  | Nil z => (s, match s_ref s with None => Size1 z | Some _ => Clear z end)                              (* :48 *)
  | Clear z => (set_ref s None, Size1 z)                                                                  (* :49 *)
  | Size1 z => (s, Size2 z (plen s))                                                                      (* :51, :122 *)
  | Size2 z n1 => (s, Size3 z n1 (plen s))                                                                (* :51, :122 *)
  | Size3 z n1 n2 => (s, sized (Z.of_nat (base + n1) - Z.of_nat n2 + Z.of_nat body_len - Z.of_nat (base + plen s)) (Make z)) (* :51, header.go:142 *)
  | Make z n => (alloc s n, next z 0 ies)                                                                 (* :51 *)
  | Load z off i r => (s, Store z off i r (s_ref s))                                                      (* :55, :61, :71 *)
  | Store z off i r a =>                                                                                  (* :55-59, :61-65, :71-74 *)
      match from (contents s a) off with
      | Ok t => match marshal_to g i t with
                | Ok t' => (set_array s a (firstn off (contents s a) ++ t'), next z (off + mlen g i) r)
                | Err e => (s, Fin (Err e))
                | Fault => (s, Fin Fault)
                | Fuel => (s, Fin Fuel)
                end
      | Err e => (s, Fin (Err e))
      | Fault => (s, Fin Fault)
      | Fuel => (s, Fin Fuel)
      end
  | Set1 z => (s, Set2 z (plen s))                                                                        (* header.go:152 *)
  | Set2 z n => (set_len s (u16 (4 + N.of_nat n)), if has_seid h then Add1 z else Out1 z)                 (* header.go:152-153 *)
  | Add1 z => (s, Add2 z (s_length s))                                                                    (* header.go:154 *)
  | Add2 z x => (set_len s (u16 (x + 8)), Out1 z)                                                         (* header.go:154 *)
  | Out1 z => (s, Out2 z (s_length s))                                                                    (* header.go:78 *)
  | Out2 z x => (s, Out3 z x (plen s))                                                                    (* header.go:88 *)
  | Out3 z x n => (s, Out4 z x n (s_ref s))                                                               (* header.go:88 *)
  | Out4 z x n a => (s, Fin (emit x n (contents s a) (make z)))                                           (* header.go:76-88 *)
  | Fin r => (s, Fin r)
  end.

(** several calls: a schedule names the call that makes the next step *)
Fixpoint replace (n : nat) (p : pc) (l : list pc) : list pc :=
  match l, n with [], _ => [] | _ :: r, O => p :: r | y :: r, S n => y :: replace n p r end.
Definition tick (s : shared) (ps : list pc) (t : nat) : shared * list pc :=
  match nth_error ps t with
  | Some p => let '(s', p') := step s p in (s', replace t p' ps)
  | None => (s, ps)
  end.
Fixpoint run (s : shared) (ps : list pc) (sched : list nat) : shared * list pc :=
  match sched with [] => (s, ps) | t :: r => let '(s', ps') := tick s ps t in run s' ps' r end.
End Share.
