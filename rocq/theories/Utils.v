(** Model of internal/utils/utils.go.  A Go string is the list of its octets. *)
From Verif Require Import Base Header.
Set Implicit Arguments.
Local Open Scope N_scope.

(** encoding/hex (standard library): fromHexChar accepts 0-9a-fA-F; EncodeToString is lower case. *)
Definition hexval (c : N) : option N :=
  if (48 <=? c) && (c <=? 57) then Some (c - 48)
  else if (97 <=? c) && (c <=? 102) then Some (c - 87)
  else if (65 <=? c) && (c <=? 70) then Some (c - 55)
  else None.
(** hex.DecodeString; its two error values (bad character, odd length) are both [EHex] *)
Fixpoint hex_decode (s : list N) : res (list N) :=
  match s with
  | [] => Ok []
  | a :: b :: r =>
      match hexval a, hexval b with
      | Some x, Some y => t <- hex_decode r ;; Ok (x * 16 + y :: t)
      | _, _ => Err EHex
      end
  | [_] => Err EHex
  end.
Definition hexchar (x : N) : N := if x <? 10 then 48 + x else 87 + x.
(** hex.EncodeToString *)
Fixpoint hex_encode (b : list N) : list N :=
  match b with [] => [] | x :: r => hexchar (N.shiftr x 4) :: hexchar (N.land x 15) :: hex_encode r end.

(** swap, utils.go:50-57: ((raw[n] >> 4) & 0xf) + ((raw[n] << 4) & 0xf0), in uint8 *)
Definition swap1 (x : N) : N := u8 (N.land (N.shiftr x 4) 0xf + N.land (u8 (N.shiftl x 4)) 0xf0).
Definition swap (raw : list N) : list N := map swap1 raw.

(** StrToSwappedBytes, utils.go:18-31 *)
Definition str_to_swapped (s filler : list N) : res (list N) :=
  raw <- (if Nat.even (length s) then hex_decode s else hex_decode (s ++ filler)) ;;
  Ok (swap raw).
(** SwappedBytesToStr, utils.go:37-48; s[:len(s)-1] *)
Definition swapped_to_str (raw : list N) (cut : bool) : list N :=
  match raw with
  | [] => []
  | _ => let s := hex_encode (swap raw) in if cut then removelast s else s
  end.

(** Uint24To32, Uint32To24, utils.go:62-73: same code as message/misc.go:7-16 (Header.v) *)
Definition utils_uint24To32 := uint24To32.
Definition utils_uint32To24 := uint32To24.
(** Uint40To64, utils.go:77-82 *)
Definition uint40To64 (b : list N) : N :=
  match b with
  | [b0; b1; b2; b3; b4] =>
      N.lor (N.lor (N.lor (N.lor (N.shiftl b0 32) (N.shiftl b1 24)) (N.shiftl b2 16)) (N.shiftl b3 8)) b4
  | _ => 0
  end.
(** Uint64To40, utils.go:86-88 *)
Definition uint64To40 (n : N) : list N :=
  [u8 (N.shiftr n 32); u8 (N.shiftr n 24); u8 (N.shiftr n 16); u8 (N.shiftr n 8); u8 n].

Definition ascii_f : list N := [102].
(** EncodePLMN, utils.go:91-114 *)
Definition encode_plmn (mcc mnc : list N) : res (list N) :=
  c <- str_to_swapped mcc ascii_f ;;
  n <- str_to_swapped mnc ascii_f ;;
  if (length mnc =? 2)%nat then Ok (c ++ n) else
  c0 <- index c 0 ;;
  c1 <- index c 1 ;;
  n1 <- index n 1 ;;
  n0 <- index n 0 ;;
  Ok [c0; N.lor (N.land c1 0x0f) (N.land (u8 (N.shiftl n1 4)) 0xf0); n0].
(** DecodePLMN, utils.go:117-126 *)
Definition decode_plmn (b : list N) : res (list N * list N) :=
  let raw := hex_encode b in
  r1 <- index raw 1 ;;
  r0 <- index raw 0 ;;
  r3 <- index raw 3 ;;
  r5 <- index raw 5 ;;
  r4 <- index raw 4 ;;
  r2 <- index raw 2 ;;
  Ok ([r1; r0; r3], if negb (r2 =? 102) then [r5; r4; r2] else [r5; r4]).

(** ParseECI, utils.go:129-135 *)
Definition parse_eci (eci : N) : res (N * N) :=
  let buf := be 4 eci in
  cell <- index buf 3 ;;
  b0 <- index buf 0 ;;
  b1 <- index buf 1 ;;
  b2 <- index buf 2 ;;
  enb <- getn 4 [0; b0; b1; b2] ;;
  Ok (enb, cell).

(** strings.Split(s, ".") (standard library): always at least one piece *)
Fixpoint split_dot (s : list N) : list (list N) :=
  match s with
  | [] => [[]]
  | c :: r =>
      if c =? 46 then [] :: split_dot r
      else match split_dot r with l :: ls => (c :: l) :: ls | [] => [[c]] end
  end.
(** strings.Join(l, ".") *)
Fixpoint join_dot (l : list (list N)) : list N :=
  match l with [] => [] | [x] => x | x :: r => x ++ 46 :: join_dot r end.

(** EncodeFQDN, utils.go:139-151 *)
Fixpoint encode_fqdn_loop (b : list N) (offset : nat) (labels : list (list N)) : res (list N) :=
  match labels with
  | [] => Ok b
  | label :: r =>
      let l := length label in
      b <- put b offset [u8 (lenN label)] ;;
      b <- copy_from b (offset + 1) label ;;
      encode_fqdn_loop b (offset + (l + 1)) r
  end.
Definition encode_fqdn (fqdn : list N) : res (list N) :=
  encode_fqdn_loop (make (length fqdn + 1)) 0 (split_dot fqdn).

(** DecodeFQDN, utils.go:155-177.  The endless for loop is run with fuel; [Fuel] is shown unreachable. *)
Fixpoint decode_fqdn_loop (n : nat) (b : list N) (offset : nat) (fqdn : list (list N)) : res (list (list N)) :=
  match n with
  | O => Fuel
  | S n =>
      let max := length b in
      if (max <=? offset)%nat then Ok fqdn else
      x <- index b offset ;;
      let l := N.to_nat x in
      if (max <? offset + l + 1)%nat then Ok fqdn else
      s <- slice b (offset + 1) (offset + l + 1) ;;
      decode_fqdn_loop n b (offset + (l + 1)) (fqdn ++ [s])
  end.
Definition decode_fqdn (b : list N) : res (list N) :=
  ls <- decode_fqdn_loop (S (length b)) b 0 [] ;; Ok (join_dot ls).
