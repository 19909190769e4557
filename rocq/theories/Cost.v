(** The generic codec of IE.v with a count of its work.
    Counted: calls of UnmarshalBinary on an IE (each but the outermost makes one IE, in Parse) and calls of MarshalLen.
    Everything else done between two such calls takes a bounded number of steps, apart from the copies of octets and the
    growth of the slice of IEs by append, which are not counted. *)
From Verif Require Import Base IETypes IE.

(** calls of UnmarshalBinary, calls of MarshalLen, result *)
Definition counted (A : Type) : Type := (nat * nat * res A)%type.
Definition lift {A} (r : res A) : counted A := (0, 0, r).
Definition cbind {A B} (x : counted A) (k : A -> counted B) : counted B :=
  let '(c, v, r) := x in
  match r with
  | Ok a => let '(c', v', r') := k a in (c + c', v + v', r')
  | Err e => (c, v, Err e)
  | Fault => (c, v, Fault)
  | Fuel => (c, v, Fuel)
  end.
Definition call : counted unit := (1, 0, Ok tt).
Definition decoded {A} (x : counted A) : res A := snd x.
Definition calls {A} (x : counted A) : nat := fst (fst x).
Definition visits {A} (x : counted A) : nat := snd (fst x).

Section Cost.
Variable g : N -> bool.

(** MarshalLen, ie/ie.go:598-612: one call, and one for each child of a grouped IE *)
Fixpoint mlen_visits (i : ie) : nat :=
  S (if g (ty i) then fold_left (fun a c => a + mlen_visits c) (children i) 0 else 0).
Definition mlen_c (i : ie) : counted nat := (0, mlen_visits i, Ok (mlen g i)).

(** UnmarshalBinary and ParseMultiIEs, ie/ie.go:496-556 *)
Fixpoint unmarshal_c (n : nat) (i0 : ie) (b : list N) {struct n} : counted ie :=
  match n with
  | O => lift Fuel
  | S n =>
    cbind call (fun _ =>
    let l := length b in
    if l <? 4 then lift (Err EUnexpectedEOF) else
    cbind (lift (getr 2 b 0 2)) (fun t =>
    cbind (lift (getr 2 b 2 4)) (fun ln =>
    let offset := 4 in
    let fin := N.to_nat ln in
    cbind (lift
      (if vendor t then
         if l <? 6 then Err EUnexpectedEOF else
         if fin <? 2 then Err EInvalidLength else
         e <- getr 2 b 4 6 ;; Ok (e, offset + 2, fin - 2)
       else Ok (eid i0, offset, fin))) (fun '(e, offset, fin) =>
    if l <=? offset then lift (Ok (mkIE t ln e (payload i0) (children i0))) else
    if l <? offset + fin then lift (Err EUnexpectedEOF) else
    cbind (lift (slice b offset (offset + fin))) (fun p =>
    if g t then
      cbind (parse_multi_c n p) (fun cs => lift (Ok (mkIE t ln e p cs)))
    else lift (Ok (mkIE t ln e p (children i0))))))))
  end
with parse_multi_c (n : nat) (b : list N) {struct n} : counted (list ie) :=
  match n with
  | O => lift Fuel
  | S n =>
    if length b =? 0 then lift (Ok []) else
    cbind (unmarshal_c n zeroIE b) (fun i =>
    cbind (mlen_c i) (fun m =>
    cbind (lift (from b m)) (fun b' =>
    cbind (parse_multi_c n b') (fun is =>
    lift (Ok (i :: is))))))
  end.
(** Parse and ParseMultiIEs, ie/ie.go:480-511 *)
Definition parse_c (b : list N) : counted ie := unmarshal_c (S (S (length b))) zeroIE b.
Definition parseMultiIEs_c (b : list N) : counted (list ie) := parse_multi_c (S (S (length b))) b.

(** MarshalTo into a buffer with room, ie/ie.go:568-595: MarshalLen of the IE itself, or of each child after its MarshalTo *)
Fixpoint marshal_to_visits (i : ie) : nat :=
  if g (ty i) then fold_left (fun a c => a + marshal_to_visits c + mlen_visits c) (children i) 0 else mlen_visits i.
(** Marshal, ie/ie.go:559-565 *)
Definition marshal_visits (i : ie) : nat := mlen_visits i + marshal_to_visits i.
End Cost.
Arguments unmarshal_c : simpl never.
Arguments parse_multi_c : simpl never.
