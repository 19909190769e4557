(** Model of package ie's generic part: ie/ie.go:298-685 and ie/ie_grouped.go.
    Every function takes the grouped predicate [g] explicitly (isGroupedFun,
    ie/ie_grouped.go:99-111), so results hold for every pure predicate. *)
From Verif Require Import Base IETypes.

(** type IE struct, ie/ie.go:298-305.  Simplification: nil and empty slices are
    both [[]]; ChildIEs holds values, not pointers (a nil child, which only direct
    field assignment or Add(nil) can introduce, is handled at Add below). *)
Inductive ie := mkIE {
  ty : N;              (* Type IEType (uint16) *)
  len : N;             (* Length uint16 *)
  eid : N;             (* EnterpriseID uint16 *)
  payload : list N;    (* Payload []byte *)
  children : list ie   (* ChildIEs []*IE *)
}.

Definition zeroIE : ie := mkIE 0 0 0 [] [].   (* &IE{} *)

(** IsVendorSpecific, ie/ie.go:626-632: Type&0x8000 != 0 *)
Definition vendor (t : N) : bool := negb (N.land t 0x8000 =? 0)%N.

(** octets of the fixed part: 4, plus 2 for a vendor-specific type
    (ie/ie.go:520-534, 573-580, 599-602) *)
Definition hdr (t : N) : nat := if vendor t then 6 else 4.

(** SetLength, ie/ie.go:615-623: uint16(l + len(i.Payload)) *)
Definition set_length (i : ie) : ie :=
  mkIE (ty i) (u16 ((if vendor (ty i) then 2 else 0) + lenN (payload i)))
       (eid i) (payload i) (children i).

(** New, ie/ie.go:308-316 *)
Definition new (t : N) (data : list N) : ie := set_length (mkIE t 0 0 data []).
(** NewVendorSpecificIE, ie/ie.go:319-328 *)
Definition new_vendor (t e : N) (data : list N) : ie := set_length (mkIE t 0 e data []).

Section Grouped.
Variable g : N -> bool.   (* isGroupedFun *)

(** MarshalLen, ie/ie.go:598-612 *)
Fixpoint mlen (i : ie) : nat :=
  let l := 4 in
  let l := if vendor (ty i) then l + 2 else l in
  if g (ty i) then fold_left (fun a c => a + mlen c) (children i) l
  else l + length (payload i).

(** MarshalTo, ie/ie.go:568-595.  The buffer is passed in and the new contents returned;
    a child's MarshalTo(b[offset:]) rewrites the tail of the buffer. *)
Fixpoint marshal_to (i : ie) (b : list N) : res (list N) :=
  let l := length b in
  if l <? 4 then Err EInvalidLength else
  b <- put b 0 (be 2 (ty i)) ;;
  b <- put b 2 (be 2 (len i)) ;;
  let offset := 4 in
  '(b, offset) <- (if vendor (ty i) && (6 <=? l)
                   then b <- put b 4 (be 2 (eid i)) ;; Ok (b, offset + 2)
                   else Ok (b, offset)) ;;
  if g (ty i) then
    (fix go (cs : list ie) (offset : nat) (b : list N) : res (list N) :=
       match cs with
       | [] => Ok b
       | c :: cs' =>
           s <- from b offset ;;
           s' <- marshal_to c s ;;
           go cs' (offset + mlen c) (firstn offset b ++ s')
       end) (children i) offset b
  else copy_range b offset (mlen i) (payload i).

(** Marshal, ie/ie.go:559-565 *)
Definition marshal (i : ie) : res (list N) := marshal_to i (make (mlen i)).

(** UnmarshalBinary on receiver [i0] (ie/ie.go:514-556), with fuel for the mutual
    recursion through ParseMultiIEs, and ParseMultiIEs (ie/ie.go:496-511).
    The receiver is returned only on success (its partial update on error is not modelled). *)
Fixpoint unmarshal (n : nat) (i0 : ie) (b : list N) {struct n} : res ie :=
  match n with
  | O => Fuel
  | S n =>
    let l := length b in
    if l <? 4 then Err EUnexpectedEOF else
    t <- getr 2 b 0 2 ;;
    ln <- getr 2 b 2 4 ;;
    let offset := 4 in
    let fin := N.to_nat ln in
    '(e, offset, fin) <-
      (if vendor t then
         if l <? 6 then Err EUnexpectedEOF else
         if fin <? 2 then Err EInvalidLength else
         e <- getr 2 b 4 6 ;; Ok (e, offset + 2, fin - 2)
       else Ok (eid i0, offset, fin)) ;;
    if l <=? offset then Ok (mkIE t ln e (payload i0) (children i0)) else
    if l <? offset + fin then Err EUnexpectedEOF else
    p <- slice b offset (offset + fin) ;;
    if g t then
      cs <- parse_multi n p ;; Ok (mkIE t ln e p cs)
    else Ok (mkIE t ln e p (children i0))
  end
with parse_multi (n : nat) (b : list N) {struct n} : res (list ie) :=
  match n with
  | O => Fuel
  | S n =>
    if length b =? 0 then Ok [] else
    i <- unmarshal n zeroIE b ;;           (* Parse(b), ie/ie.go:480-486 *)
    b' <- from b (mlen i) ;;               (* b = b[i.MarshalLen():] *)
    is <- parse_multi n b' ;;
    Ok (i :: is)
  end.

(** Parse, ie/ie.go:480-486 *)
Definition parse (b : list N) : res ie := unmarshal (S (S (length b))) zeroIE b.
(** ParseMultiIEs, ie/ie.go:496-511 *)
Definition parseMultiIEs (b : list N) : res (list ie) := parse_multi (S (S (length b))) b.
(** UnmarshalBinary, ie/ie.go:514-556 *)
Definition unmarshalBinary (i0 : ie) (b : list N) : res ie := unmarshal (S (S (length b))) i0 b.

(** The loop shared by newGroupedIE and Add: append each child's serialization to Payload.
    In Add an unserializable child is skipped (ie/ie_grouped.go:144-150). *)
Fixpoint append_serialized (acc : list N) (cs : list ie) : res (list N) :=
  match cs with
  | [] => Ok acc
  | c :: cs' =>
      match marshal c with
      | Ok s => append_serialized (acc ++ s) cs'
      | Err _ => append_serialized acc cs'
      | Fault => Fault
      | Fuel => Fuel
      end
  end.

(** newGroupedIE, ie/ie.go:664-685: nil children are skipped; a child that cannot be
    marshalled makes the constructor return nil. *)
Fixpoint new_grouped_loop (i : ie) (ies : list (option ie)) : res (option ie) :=
  match ies with
  | [] => Ok (Some (set_length i))
  | None :: r => new_grouped_loop i r
  | Some c :: r =>
      match marshal c with
      | Ok s => new_grouped_loop
                  (mkIE (ty i) (len i) (eid i) (payload i ++ s) (children i ++ [c])) r
      | Err _ => Ok None
      | Fault => Fault
      | Fuel => Fuel
      end
  end.
Definition new_grouped (t e : N) (ies : list (option ie)) : res (option ie) :=
  new_grouped_loop (new_vendor t e []) ies.

(** All non-nil, or a nil dereference (ie.Marshal() on a nil *IE panics in MarshalLen). *)
Fixpoint all_some (l : list (option ie)) : res (list ie) :=
  match l with
  | [] => Ok []
  | None :: _ => Fault
  | Some c :: r => r' <- all_some r ;; Ok (c :: r')
  end.

(** Add, ie/ie_grouped.go:137-152 *)
Definition add (i : ie) (ies : list (option ie)) : res ie :=
  if negb (g (ty i)) then Ok i else
  new <- all_some ies ;;
  let cs := children i ++ new in
  p <- append_serialized [] cs ;;
  Ok (set_length (mkIE (ty i) (len i) (eid i) p cs)).

(** Remove, ie/ie_grouped.go:155-179, with newChildren as the Go slice it is: made with
    len(ChildIEs) nil entries, shortened by one per match, written at idx. *)
Fixpoint remove_loop (typ : N) (cs : list ie) (arr : list (option ie)) (idx : nat) (p : list N)
  : res (list (option ie) * list N) :=
  match cs with
  | [] => Ok (arr, p)
  | c :: cs' =>
      if (ty c =? typ)%N then
        if length arr =? 0 then Fault
        else remove_loop typ cs' (firstn (length arr - 1) arr) idx p
      else
        if idx <? length arr then
          let arr' := firstn idx arr ++ Some c :: skipn (S idx) arr in
          match marshal c with
          | Ok s => remove_loop typ cs' arr' (S idx) (p ++ s)
          | Err _ => remove_loop typ cs' arr' (S idx) p
          | Fault => Fault
          | Fuel => Fuel
          end
        else Fault
  end.
Definition remove (i : ie) (typ : N) : res ie :=
  if negb (g (ty i)) then Ok i else
  '(arr, p) <- remove_loop typ (children i) (repeat None (length (children i))) 0 [] ;;
  cs <- all_some arr ;;      (* a leftover nil entry would be a nil child *)
  Ok (set_length (mkIE (ty i) (len i) (eid i) p cs)).

(** FindByType, ie/ie_grouped.go:185-196 *)
Fixpoint find_loop (typ : N) (cs : list ie) : res ie :=
  match cs with
  | [] => Err EIENotFound
  | c :: r => if (ty c =? typ)%N then Ok c else find_loop typ r
  end.
Definition find_by_type (i : ie) (typ : N) : res ie :=
  if negb (g (ty i)) then Err EInvalidType else find_loop typ (children i).

(** ValueAsUint8/16/32/64, ie/ie.go:371-416 *)
Definition value_as_uint (k : nat) (i : ie) : res N :=
  if g (ty i) then Err (EInvalidTypeT (ty i)) else
  if length (payload i) <? k then Err EUnexpectedEOF else
  getr k (payload i) 0 k.
(** ValueAsString, ie/ie.go:419-425; a Go string is its octets *)
Definition value_as_string (i : ie) : res (list N) :=
  if g (ty i) then Err (EInvalidTypeT (ty i)) else Ok (payload i).
(** ValueAsGrouped, ie/ie.go:447-456 *)
Definition value_as_grouped (i : ie) : res (list ie) :=
  if negb (g (ty i) || vendor (ty i)) then Err (EInvalidTypeT (ty i)) else
  if length (children i) <? 1 then parseMultiIEs (payload i) else Ok (children i).

End Grouped.

(** newUint8ValIE..newUint64ValIE, ie/ie.go:634-654; newStringIE, ie/ie.go:656-658 *)
Definition new_uint (k : nat) (t v : N) : ie := new t (be k v).
Definition new_string (t : N) (s : list N) : ie := new t s.
