(** Memory model of the generic codec: byte arrays in a heap, slices into them.  Parse keeps slices
    of its argument (ie/ie.go:488-495, 544), Marshal allocates (ie/ie.go:560).  The functions of
    IE.v again, reading and writing through slices.
    Simplified: reslicing past len (up to cap) is Fault, as in the rest of the model, so a slice has
    no cap; IE structs themselves are values, since the codec never writes a struct it did not make. *)
From Verif Require Import Base IETypes IE Header Message MsgTables.

Definition heap := list (list N).                     (* array number -> contents *)
Record sl := mkSl { arr : nat; off : nat; slen : nat }.
Definition array (h : heap) (a : nat) : list N := nth a h [].
(** the octets seen through a slice *)
Definition rd (h : heap) (s : sl) : list N := firstn (slen s) (skipn (off s) (array h (arr s))).
(** the slice lies inside its array (an empty one, such as nil, needs no array) *)
Definition valid (h : heap) (s : sl) : Prop :=
  slen s = 0 \/ arr s < length h /\ off s + slen s <= length (array h (arr s)).
(** s[lo:hi] and s[lo:] *)
Definition sub (s : sl) (lo hi : nat) : res sl :=
  if (lo <=? hi) && (hi <=? slen s) then Ok (mkSl (arr s) (off s + lo) (hi - lo)) else Fault.
Definition tail (s : sl) (lo : nat) : res sl :=
  if lo <=? slen s then Ok (mkSl (arr s) (off s + lo) (slen s - lo)) else Fault.
(** overwrite part of an array *)
Definition splice (a : list N) (p : nat) (bs : list N) : list N := firstn p a ++ bs ++ skipn (p + length bs) a.
Definition poke (h : heap) (s : sl) (lo : nat) (bs : list N) : heap :=
  upd h (arr s) (splice (array h (arr s)) (off s + lo) bs).
(** PutUint16 and the like through a slice *)
Definition hput (h : heap) (s : sl) (lo : nat) (bs : list N) : res heap :=
  if lo + length bs <=? slen s then Ok (poke h s lo bs) else Fault.
(** copy(s[lo:hi], src): memmove, so src is read before anything is written *)
Definition hcopy (h : heap) (s : sl) (lo hi : nat) (src : list N) : res heap :=
  if (lo <=? hi) && (hi <=? slen s) then Ok (poke h s lo (firstn (hi - lo) src)) else Fault.
(** make([]byte, n) *)
Definition halloc (h : heap) (n : nat) : heap * sl := (h ++ [make n], mkSl (length h) 0 n).
Definition nil_slice : sl := mkSl 0 0 0.

(** an IE in memory: Payload is a slice *)
Inductive sie := mkSIE { sty : N; sln : N; seid : N; spay : sl; skids : list sie }.
(** the IE seen in a given memory *)
Fixpoint view (h : heap) (i : sie) : ie :=
  mkIE (sty i) (sln i) (seid i) (rd h (spay i)) (map (view h) (skids i)).
(** every slice reachable from an IE *)
Fixpoint slices (i : sie) : list sl := spay i :: flat_map slices (skids i).
Definition zeroSIE : sie := mkSIE 0 0 0 nil_slice [].

Section G.
Variable g : N -> bool.

(** MarshalLen, ie/ie.go:598-612 *)
Fixpoint smlen (i : sie) : nat :=
  let l := 4 in
  let l := if vendor (sty i) then l + 2 else l in
  if g (sty i) then fold_left (fun a c => a + smlen c) (skids i) l
  else l + slen (spay i).

(** MarshalTo, ie/ie.go:568-595 *)
Fixpoint smarshal_to (i : sie) (b : sl) (h : heap) : res heap :=
  let l := slen b in
  if l <? 4 then Err EInvalidLength else
  h <- hput h b 0 (be 2 (sty i)) ;;
  h <- hput h b 2 (be 2 (sln i)) ;;
  let offset := 4 in
  '(h, offset) <- (if vendor (sty i) && (6 <=? l)
                   then h <- hput h b 4 (be 2 (seid i)) ;; Ok (h, offset + 2)
                   else Ok (h, offset)) ;;
  if g (sty i) then
    (fix go (cs : list sie) (offset : nat) (h : heap) : res heap :=
       match cs with
       | [] => Ok h
       | c :: cs' =>
           s <- tail b offset ;;
           h <- smarshal_to c s h ;;
           go cs' (offset + smlen c) h
       end) (skids i) offset h
  else hcopy h b offset (smlen i) (rd h (spay i)).

(** Marshal, ie/ie.go:559-565 *)
Definition smarshal (i : sie) (h : heap) : res (sl * heap) :=
  let '(h, b) := halloc h (smlen i) in
  h <- smarshal_to i b h ;; Ok (b, h).

(** UnmarshalBinary, ie/ie.go:514-556, and ParseMultiIEs, ie/ie.go:496-511; memory is only read *)
Fixpoint sunmarshal (h : heap) (n : nat) (i0 : sie) (b : sl) {struct n} : res sie :=
  match n with
  | O => Fuel
  | S n =>
    let l := slen b in
    if l <? 4 then Err EUnexpectedEOF else
    t <- getr 2 (rd h b) 0 2 ;;
    ln <- getr 2 (rd h b) 2 4 ;;
    let offset := 4 in
    let fin := N.to_nat ln in
    '(e, offset, fin) <-
      (if vendor t then
         if l <? 6 then Err EUnexpectedEOF else
         if fin <? 2 then Err EInvalidLength else
         e <- getr 2 (rd h b) 4 6 ;; Ok (e, offset + 2, fin - 2)
       else Ok (seid i0, offset, fin)) ;;
    if l <=? offset then Ok (mkSIE t ln e (spay i0) (skids i0)) else
    if l <? offset + fin then Err EUnexpectedEOF else
    p <- sub b offset (offset + fin) ;;
    if g t then
      cs <- sparse_multi h n p ;; Ok (mkSIE t ln e p cs)
    else Ok (mkSIE t ln e p (skids i0))
  end
with sparse_multi (h : heap) (n : nat) (b : sl) {struct n} : res (list sie) :=
  match n with
  | O => Fuel
  | S n =>
    if slen b =? 0 then Ok [] else
    i <- sunmarshal h n zeroSIE b ;;
    b' <- tail b (smlen i) ;;
    is <- sparse_multi h n b' ;;
    Ok (i :: is)
  end.
(** Parse, ie/ie.go:480-486; ParseMultiIEs, ie/ie.go:496-511 *)
Definition sparse (h : heap) (b : sl) : res sie := sunmarshal h (S (S (slen b))) zeroSIE b.
Definition sparseMultiIEs (h : heap) (b : sl) : res (list sie) := sparse_multi h (S (S (slen b))) b.
(** message.Parse, message/message.go:60-122: the header's payload is b[offset:]
    (message/header.go:139-150), and the IEs are parsed from it *)
Definition sparse_body (h : heap) (b : sl) : res (header * list sie) :=
  hd <- parse_header (rd h b) ;;
  p <- tail b (slen b - length (h_payload hd)) ;;
  if (slen p <? 2)%nat then Ok (hd, []) else
  is <- sparseMultiIEs h p ;; Ok (hd, is).

(** New, ie/ie.go:308-316: Payload is the caller's slice *)
Definition snew (t : N) (data : sl) : sie :=
  mkSIE t (u16 ((if vendor t then 2 else 0) + N.of_nat (slen data))) 0 data [].
(** newGroupedIE, ie/ie.go:664-685 (append never reuses anyone else's array: the slice it extends
    starts as make([]byte, 0)); here one new array for the payload *)
Fixpoint smarshal_all (cs : list sie) (acc : list N) (h : heap) : res (list N * heap) :=
  match cs with
  | [] => Ok (acc, h)
  | c :: cs => '(s, h) <- smarshal c h ;; smarshal_all cs (acc ++ rd h s) h
  end.
Definition snew_grouped (t e : N) (cs : list sie) (h : heap) : res (sie * heap) :=
  '(p, h) <- smarshal_all cs [] h ;;
  Ok (mkSIE t (u16 ((if vendor t then 2 else 0) + lenN p)) e (mkSl (length h) 0 (length p)) cs, h ++ [p]).
(** A message's Marshal, e.g. message/pfd-management-request.go:42-78: the result array, then the new
    array for Header.Payload, the IEs written one after the other into the latter (the list holds
    the non-nil ones in the order the code writes them), then Header.MarshalTo, which writes
    through b only (p is another array, so it is read as a value).  Returns b and the payload slice
    left in the message. *)
Fixpoint sbody_to (p : sl) (is : list sie) (offset : nat) (h : heap) : res heap :=
  match is with
  | [] => Ok h
  | i :: is =>
      t <- tail p offset ;;
      h <- smarshal_to i t h ;;
      sbody_to p is (offset + smlen i) h
  end.
Definition smsg_marshal (hd : header) (is : list sie) (h : heap) : res (sl * sl * heap) :=
  let n := list_sum (map smlen is) in
  let '(h, b) := halloc h (h_mlen (with_payload hd []) + n) in
  let '(h, p) := halloc h n in
  h <- sbody_to p is 0 h ;;
  b' <- h_marshal_to (h_set_length (with_payload hd (rd h p))) (rd h b) ;;
  Ok (b, p, poke h b 0 b').
End G.

(** Later writes by the program: one octet through a slice it holds *)
Inductive write := W (s : sl) (pos : nat) (v : N).
Definition do_write (h : heap) (w : write) : heap :=
  let '(W s pos v) := w in if pos <? slen s then poke h s pos [v] else h.
Definition do_writes (h : heap) (ws : list write) : heap := fold_left do_write ws h.
Definition through (w : write) : sl := let '(W s _ _) := w in s.
Definition disjoint (s b : sl) : Prop :=
  slen s = 0 \/ slen b = 0 \/ arr s <> arr b \/ off s + slen s <= off b \/ off b + slen b <= off s.
(** s lies inside b *)
Definition within (s b : sl) : Prop := slen s = 0 \/ arr s = arr b /\ off b <= off s /\ off s + slen s <= off b + slen b.
