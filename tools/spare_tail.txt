End Cap.

(** * The case bodies of Access.v *)
Definition cfparse (k : fkind) (L : nat) (M : list N) : res val :=
  match k with
@FPARSE@
  end.

(** A payload of length L at the start of M *)
Section Leaf.
Variable L : nat.
Variable M : list N.
Notation "'room' k ;; r" := (if L <? k then Err EUnexpectedEOF else r) (at level 61, k at next level, right associativity).
(** utils.go:155-177 (Utils.v: decode_fqdn_loop) *)
Fixpoint cfqdn_loop (n : nat) (offset : nat) (fqdn : list (list N)) : res (list (list N)) :=
  match n with
  | O => Fuel
  | S n =>
      if L <=? offset then Ok fqdn else
      x <- cindex L M offset ;;
      let l := N.to_nat x in
      if L <? offset + l + 1 then Ok fqdn else
      s <- slice M (offset + 1) (offset + l + 1) ;;
      cfqdn_loop n (offset + (l + 1)) (fqdn ++ [s])
  end.
Definition cdecode_fqdn : res (list N) := ls <- cfqdn_loop (S L) 0 [] ;; Ok (join_dot ls).
(** ie/ie.go:464-473 *)
Definition ctimestamp : res Z := room 4 ;; x <- getr 4 M 0 4 ;; Ok (Z.of_N (u32 (x + (4294967296 - 2208988800))) * second)%Z.
(** ie/failed-rule-id.go:51-78 *)
Definition cfailed_rule_id : res N :=
  t <- cindex L M 0 ;;
  if (t =? 0)%N then room 3 ;; getr 2 M 1 3
  else if (t =? 1)%N || (t =? 2)%N || (t =? 3)%N then room 5 ;; getr 4 M 1 5
  else if (t =? 4)%N then room 2 ;; cindex L M 1
  else Ok 0%N.
(** ie/flow-information.go:90-113: binary.BigEndian.Uint16(i.Payload[1:3]) without a check of the length *)
Definition cflow_description : res (list N) :=
  l <- getr 2 M 1 3 ;;
  room (N.to_nat l) ;;
  slice M 3 (N.to_nat (u16 (3 + l))).
(** ie/fq-csid.go:81-105,108-134.  The loop goes on while offset+2 > len(i.Payload), so it only ends by slicing past the
    capacity; one unit of fuel per round. *)
Definition cnode_id_type : res N := x <- cindex L M 0 ;; Ok (N.land (N.shiftr x 4) 0x0f).
Definition cnode_address : res (list N * list N) :=
  t <- cnode_id_type ;;
  if (t =? 0)%N || (t =? 2)%N then room 6 ;; x <- slice M 1 5 ;; Ok (x, skipn 5 M)
  else if (t =? 1)%N then room 18 ;; x <- slice M 1 17 ;; Ok (x, skipn 17 M)
  else Err EMalformed.
Fixpoint ccsids_loop (n offset : nat) (got : list N) : res (list N) :=
  match n with
  | O => Fuel
  | S n => if L <? offset + 2 then x <- getr 2 M offset (offset + 2) ;; ccsids_loop n (offset + 2) (got ++ [x]) else Ok got
  end.
Definition ccsids : res (list N) :=
  t <- cnode_id_type ;;
  offset <- (if (t =? 0)%N || (t =? 2)%N then Ok 5 else if (t =? 1)%N then Ok 17 else Err EMalformed) ;;
  ccsids_loop (S (length M)) offset [].
(** ie/tsn-bridge-id.go:35-66 *)
Definition ctsn_bridge_id : res (list N * list N) :=
  x <- cindex L M 0 ;;
  if negb (has1 x) then Ok ([], []) else
  if negb (L =? 7) && (L <? 9) then Err EUnexpectedEOF else
  if L =? 7 then y <- slice M 1 7 ;; Ok (y, skipn 7 M) else y <- slice M 1 9 ;; Ok (y, skipn 9 M).
End Leaf.
(** ie/node-id.go:77-113 *)
Definition cnode_body (L : nat) (M : list N) : res node_id :=
  t <- cindex L M 0 ;;
  _ <- cfrom L 1 ;;
  let q := firstn (L - 1) (skipn 1 M) in
  if (t =? 0)%N then Ok (NodeIP (to4 (Some q)))
  else if (t =? 1)%N then Ok (NodeIP (to16 (Some q)))
  else if (t =? 2)%N then s <- cdecode_fqdn (L - 1) (skipn 1 M) ;; Ok (NodeName s)
  else Err (EInvalidNodeID t).

(** * Decoding: an IE and the spare capacity of its payload *)
Definition cie : Type := ie * list N.
Section Run.
Variable g : N -> bool.
(** UnmarshalBinary (ie/ie.go:514-556) and ParseMultiIEs (ie/ie.go:496-511) on the first L octets of M, as in IE.v.
    The payload is b[offset:end] (ie/ie.go:544): its capacity is the rest of M.  A payload that is not assigned is nil. *)
Fixpoint cunmarshal (n : nat) (L : nat) (M : list N) {struct n} : res cie :=
  match n with
  | O => Fuel
  | S n =>
    if L <? 4 then Err EUnexpectedEOF else
    t <- getr 2 M 0 2 ;;
    ln <- getr 2 M 2 4 ;;
    let offset := 4 in
    let fin := N.to_nat ln in
    '(e, offset, fin) <-
      (if vendor t then
         if L <? 6 then Err EUnexpectedEOF else
         if fin <? 2 then Err EInvalidLength else
         e <- getr 2 M 4 6 ;; Ok (e, offset + 2, fin - 2)
       else Ok (0%N, offset, fin)) ;;
    if L <=? offset then Ok (mkIE t ln e [] [], []) else
    if L <? offset + fin then Err EUnexpectedEOF else
    p <- slice M offset (offset + fin) ;;
    if g t then
      cs <- cparse_multi n fin (skipn offset M) ;; Ok (mkIE t ln e p (map fst cs), skipn (offset + fin) M)
    else Ok (mkIE t ln e p [], skipn (offset + fin) M)
  end
with cparse_multi (n : nat) (L : nat) (M : list N) {struct n} : res (list cie) :=
  match n with
  | O => Fuel
  | S n =>
    if L =? 0 then Ok [] else
    x <- cunmarshal n L M ;;
    _ <- cfrom L (mlen g (fst x)) ;;
    r <- cparse_multi n (L - mlen g (fst x)) (skipn (mlen g (fst x)) M) ;;
    Ok (x :: r)
  end.
Definition cparse (L : nat) (M : list N) : res cie := cunmarshal (S (S L)) L M.
Definition cparseMultiIEs (L : nat) (M : list N) : res (list cie) := cparse_multi (S (S L)) L M.

(** * Accessors *)
(** Results: CV is a number, a string, a time or a struct; CB is a slice b with spare capacity r; CIEs are IEs. *)
Inductive cval := CV (v : val) | CB (b r : list N) | CIEs (l : list cie).
Definition plain (x : cval) : val := match x with CV v => v | CB b _ => VB b | CIEs l => VIEs (map fst l) end.

(** Case bodies; the ones not listed do not slice: i.Payload[k], or binary.BigEndian.UintN(i.Payload), which is bounded by len.
    A struct read by way of its fields is taken for a value: its own slices are not sliced again by any accessor
    other than ParseCTAGFields(x.CTAG), where x.CTAG is nil. *)
Definition cleaf_run (l : leaf) (x : cie) : res cval :=
  let i := fst x in
  let L := length (payload i) in
  let M := payload i ++ snd x in
  let cv r := v <- r ;; Ok (CV v) in
  match l with
  | LFQDN => if g (ty i) then Err (EInvalidTypeT (ty i)) else cv (as_s (cdecode_fqdn L M))
  | LTime => if g (ty i) then Err (EInvalidTypeT (ty i)) else cv (as_t (ctimestamp L M))
  | LPayload => Ok (CB (payload i) (snd x))
  | LChildren => is <- cparseMultiIEs L M ;; Ok (CIEs is)
  | LFields k => cv (cfparse k L M)
  | LSecs32 => cv (as_d (x <- getr 4 M 0 4 ;; Ok (Z.of_N x * second)%Z))
  | LMillis32 => cv (as_d (x <- getr 4 M 0 4 ;; Ok (Z.of_N x * 1000000)%Z))
  | LNanos64 => cv (as_d (x <- getr 8 M 0 8 ;; Ok (to_i64 x)))
  | LSecs16 => cv (as_d (x <- getr 2 M 0 2 ;; Ok (Z.of_N x * second)%Z))
  | LAuri => cv (as_n (x <- getr 2 M 0 2 ;; Ok (N.land x 0x7fff)))
  | LApplyAction => if L <? 1 then Err EUnexpectedEOF else Ok (CB (payload i) (snd x))
  | LFailedRuleID => cv (as_n (cfailed_rule_id L M))
  | LFlowDescription => cv (as_s (cflow_description L M))
  | LNodeAddress => '(b, r) <- cnode_address L M ;; Ok (CB b r)
  | LCSIDs => y <- ccsids L M ;; Ok (CV (VNs y))
  | LExponent => cv (as_n (getr 4 M 8 12))
  | LNFInstanceID => b <- slice M 0 16 ;; Ok (CB b (skipn 16 M))
  | LNodeID => cv (as_node (cnode_body L M))
  | LSNSSAI => b <- slice M 0 4 ;; Ok (CB b (skipn 4 M))
  | LTSNBridgeID => '(b, r) <- ctsn_bridge_id L M ;; Ok (CB b r)
  | _ => cv (leaf_run g l i)
  end.
Definition cpost_run (f : post) (x : cie) (v : cval) : res cval :=
  let cv r := v <- r ;; Ok (CV v) in
  match f, v with
  | PU40 lo hi, CB b r => x <- slice (b ++ r) lo hi ;; Ok (CV (VN (uint40To64 x)))
  | PPolicyID, CB b r =>
      if length b <? 1 then Err EUnexpectedEOF else n <- index b 0 ;;
      if length b <? N.to_nat n + 1 then Err EUnexpectedEOF else cv (as_s (slice (b ++ r) 1 (N.to_nat n + 1)))
  | PPoolID, CB b r =>
      if length b <? 2 then Err EUnexpectedEOF else n <- getr 2 (b ++ r) 0 2 ;;
      if length b <? N.to_nat n + 2 then Err EUnexpectedEOF else cv (as_s (slice (b ++ r) 2 (N.to_nat n + 2)))
  | PSD, CB b r => x <- slice (b ++ r) 1 4 ;; Ok (CV (VN (utils_uint24To32 x)))
  | POwnFQDN, CV (VS _) => cv (as_s (cdecode_fqdn (length (payload (fst x))) (payload (fst x) ++ snd x)))
  | _, _ => cv (post_run f (fst x) (plain v))
  end.
Fixpoint csearch (p : cie -> bool) (f : cie -> res cval) (l : list cie) : res cval :=
  match l with
  | [] => Err EIENotFound
  | x :: r => if p x then f x else csearch p f r
  end.
Fixpoint crun (n : nat) (a : acc) (x : cie) : res cval :=
  match n with
  | O => Fuel
  | S n =>
      let d := acc_def a in
      _ <- check (guards d) (fst x) ;;
      match lookup (cases d) (dflt d) (ty (fst x)) with
      | Leaf l => cleaf_run l x
      | Via c ts b =>
          v <- crun n c x ;;
          match v with CIEs l => csearch (fun y => memb (ty (fst y)) ts) (fun y => crun n b y) l | _ => Fault end
      | ViaOwn c ts b =>
          v <- crun n c x ;;
          match v with CIEs l => csearch (fun y => memb (ty (fst x)) ts) (fun y => crun n b y) l | _ => Fault end
      | Then c f => v <- crun n c x ;; cpost_run f x v
      | OrElse c d =>
          v <- crun n c x ;;
          match plain v with VS [] => crun n d x | VS _ => Ok v | _ => Fault end
      end
  end.
(** i.a() for an element i parsed out of a longer buffer, as its caller sees it *)
Definition caccess (a : acc) (x : cie) : res val := v <- crun (4 * S (length (payload (fst x)))) a x ;; Ok (plain v).
End Run.
