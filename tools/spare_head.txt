(** Slices with spare capacity.  In Go, b[lo:hi] may reach past len(b), up to cap(b); b[i], b[lo:]
    and len(b) do not.  The payload of an IE that was parsed out of a receive buffer has such spare
    capacity: the rest of the datagram, and then whatever earlier datagrams left in the buffer.
    Everywhere else in this model a slice expression past len is Fault; here are the decoders
    of Fields1.v to Fields4.v and the accessors again, on a slice of length L at the start of a
    memory M that extends to the slice's capacity.
    Written by tools/genspare.py from Fields1.v to Fields4.v: the comments with the lines of the Go
    text are the ones found there. *)
From Verif Require Import Base IETypes IE Bits Codec Codec2 Utils Fields1 Time Fields2 Fields3 Fields4 Access AccTable AccRun.
Set Implicit Arguments.

(** the loop over a string p in ie/pfd-contents.go:302-315,327-341,353-367, where p is a slice of length Lp of Mp (Fields4.v: pfd_items) *)
Fixpoint citems_from (fuel : nat) (Lp : nat) (Mp : list N) (s : nat) : res (list (list N)) :=
  match fuel with
  | O => Fuel
  | S fuel =>
      let e := s + 2 in
      if Lp <=? e then Ok [] else
      l <- getr 2 Mp s e ;;
      if Lp <? e + N.to_nat l then Ok [] else
      a <- slice Mp e (e + N.to_nat l) ;;
      r <- citems_from fuel Lp Mp (s + (2 + N.to_nat l)) ;; Ok (a :: r)
  end.
Definition citems (Lp : nat) (Mp : list N) : res (list (list N)) := citems_from (S Lp) Lp Mp 0.

Section Cap.
Variable L : nat.
Variable M : list N.
(** [if len(b) < k { return io.ErrUnexpectedEOF }] *)
Notation "'room' k ;; r" := (if L <? k then Err EUnexpectedEOF else r) (at level 61, k at next level, right associativity).
(** b[i], and the bounds check of b[lo:] *)
Definition cindex (i : nat) : res N := if i <? L then index M i else Fault.
Definition cfrom (lo : nat) : res unit := if lo <=? L then Ok tt else Fault.
(** the idioms of Codec.v and Codec2.v *)
Definition crd (n o : nat) : res (list N * nat) := room (o + n) ;; x <- slice M o (o + n) ;; Ok (x, o + n).
Definition crdb (c : bool) n o (d : bslice) : res (bslice * nat) := if c then '(x, o) <- crd n o ;; Ok (Some x, o) else Ok (d, o).
Definition crdn (c : bool) n o (d : N) : res (N * nat) := if c then '(x, o) <- crd n o ;; Ok (unbe x, o) else Ok (d, o).
Definition crds (c : bool) n o (d : list N) : res (list N * nat) := if c then crd n o else Ok (d, o).
Definition crdf (n o : nat) : res (list N * nat) := _ <- cfrom o ;; room (o + n) ;; x <- slice M o (o + n) ;; Ok (x, o + n).
Definition crdsf (c : bool) n o (d : list N) : res (list N * nat) := if c then crdf n o else Ok (d, o).
Definition crdnf (c : bool) n o (d : N) : res (N * nat) := if c then '(x, o) <- crdf n o ;; Ok (unbe x, o) else Ok (d, o).
Definition crd8s (c : bool) (o : nat) : res (N * list N * nat) :=
  if c then room (o + 1) ;; n <- cindex o ;; '(s, o) <- crd (N.to_nat n) (o + 1) ;; Ok (n, s, o) else Ok (0%N, [], o).

