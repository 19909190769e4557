(** The part of Go in which UnmarshalBinary, MarshalTo and MarshalLen of the XxxFields structs (ie/*.go) are written:
    syntax and meaning. GoFields.v holds the bodies of these methods, translated statement by statement from the text
    of the source by tools/gengo.py. The meaning of a method is what it leaves in the struct and in the buffer,
    whichever way it ends: nil, an error or a panic.
    Slices are values here, as in the rest of the model (Alias.v and Share.v treat sharing); a slice past the length is a panic (Spare.v and Over.v treat spare capacity). *)
From Coq Require Import String.
From Verif Require Import Base Codec Utils Time Fields2 Fields3 Access Reuse.
Set Implicit Arguments.

(** * Values *)
Inductive gval :=
| GI (n : nat)                (* int, never negative *)
| GN (n : N)                  (* uint8, uint16, uint32, uint64 *)
| GB (b : bslice)             (* []byte, net.IP, net.HardwareAddr *)
| GS (s : list N)             (* string, as octets *)
| GL (l : list (list N))      (* []string, []net.HardwareAddr *)
| GT (z : Z)                  (* time.Time, as in Time.v *)
| GNil.                       (* nil as the result of an error type *)

(** * Syntax *)
Inductive exp :=
| EInt (n : nat)              (* a constant of type int *)
| ENum (n : N)                (* a constant of an unsigned type *)
| EVar (x : string)           (* a local variable *)
| EFld (x : string)           (* f.x *)
| EBuf                        (* b, the argument *)
| ENil
| ELen (a : exp)              (* len(a) *)
| EToInt (a : exp)            (* int(a) *)
| EU (w : N) (a : exp)        (* uintw(a) *)
| EAdd (a b : exp) | ESub (a b : exp) | EMul (a b : exp) (* on int *)
| EIdx (a i : exp)            (* a[i] *)
| ESlice (a lo hi : exp)      (* a[lo:hi] *)
| EFrom (a lo : exp)          (* a[lo:] *)
| EBE (k : nat) (a : exp)     (* binary.BigEndian.Uint(8k)(a) *)
| EAnd (a b : exp) | EOr (a b : exp) | EShr (a : exp) (k : N)
| EShl (w : N) (a : exp) (k : N) (* a << k with a of w bits *)
| EStr (a : exp)              (* string(a) *)
| EBytes (a : exp)            (* []byte(a), net.IP(a) *)
| ETo4 (a : exp) | ETo16 (a : exp)
| EMake (n : nat)             (* make([]byte, n), make(net.HardwareAddr, n) *)
| EApp (a b : exp)            (* append(a, b) *)
| EFromBcd (a : exp)          (* utils.SwappedBytesToStr(a, true) *)
| EToBcd (a : exp)            (* utils.StrToSwappedBytes(a, "f"), an error ends the method *)
| EToPlmn (a b : exp)         (* utils.EncodePLMN(a, b), an error ends the method *)
| ENtp (a : exp)              (* time.Unix(int64(a-2208988800), 0) *)
| ESince (a : exp).           (* uint64(a.Sub(time.Date(1900, time.January, 1, 0, 0, 0, 0, time.UTC)))/1000000000 *)

Inductive cond :=
| CLt (a b : exp) | CLe (a b : exp) (* on int *)
| CNe (a b : exp)             (* on unsigned numbers *)
| CHas (k : nat) (a : exp)    (* has1stBit to has8thBit *)
| CNotNil (a : exp)           (* a != nil *)
| CEmpty (a : exp)            (* a == "" *)
| CNot (a : cond) | CAnd (a b : cond) | COr (a b : cond).

Inductive stmt :=
| SSkip
| SSeq (a b : stmt)
| SBlock (a : stmt)           (* { a }: the variables declared in a are not seen after it *)
| SLet (x : string) (e : exp) (* x := e, x = e *)
| SSet (x : string) (e : exp) (* f.x = e *)
| SPlmn (x y : string) (e : exp) (* f.x, f.y, err = utils.DecodePLMN(e); if err != nil { return err } *)
| SCopyF (x : string) (e : exp) (* copy(f.x, e) *)
| SPutB (i e : exp)           (* b[i] = e *)
| SPut (k : nat) (lo hi e : exp) (* binary.BigEndian.PutUint(8k)(b[lo:hi], e) *)
| SPutV (k : nat) (x : string) (e : exp) (* binary.BigEndian.PutUint(8k)(x, e), x a local slice *)
| SCopyB (lo hi e : exp)      (* copy(b[lo:hi], e) *)
| SIf (c : cond) (s : stmt)
| SLoop (s : stmt)            (* for { s } *)
| SRange (x y : string) (s : stmt) (* for _, x := range f.y { s } *)
| SBreak
| SRet (e : exp)              (* return e *)
| SEof.                       (* return io.ErrUnexpectedEOF *)

(** * Meaning *)
Definition store := list (string * gval).
Fixpoint look (x : string) (s : store) : option gval :=
  match s with [] => None | (y, v) :: s => if String.eqb x y then Some v else look x s end.
Fixpoint upd (x : string) (v : gval) (s : store) : store :=
  match s with [] => [(x, v)] | (y, w) :: s => if String.eqb x y then (y, v) :: s else (y, w) :: upd x v s end.

(** the members of the struct, the local variables and the octets of the argument *)
Record state := St { flds : store; vars : store; buf : list N }.
Definition setf x v (s : state) : state := St (upd x v (flds s)) (vars s) (buf s).
Definition setv x v (s : state) : state := St (flds s) (upd x v (vars s)) (buf s).
Definition setb b (s : state) : state := St (flds s) (vars s) b.

(** Fault is also the answer for a term that is not well typed; no such term occurs in GoFields.v *)
Definition of_look (o : option gval) : res gval := match o with Some v => Ok v | None => Fault end.
Definition int (v : gval) : res nat := match v with GI n => Ok n | _ => Fault end.
Definition num (v : gval) : res N := match v with GN n => Ok n | _ => Fault end.
(** the octets of a slice or string *)
Definition oct (v : gval) : res (list N) := match v with GB o => Ok (octs o) | GS s => Ok s | _ => Fault end.
(** the value of x as a number of w bits *)
Definition wrap (w : N) (x : N) : N := if (w =? 8)%N then u8 x else if (w =? 16)%N then u16 x else if (w =? 32)%N then u32 x else u64 x.
Definition has (k : nat) (x : N) : bool :=
  match k with
  | 1 => has1 x | 2 => has2 x | 3 => has3 x | 4 => has4 x | 5 => has5 x | 6 => has6 x | 7 => has7 x | _ => has8 x
  end.

Fixpoint eval (s : state) (e : exp) : res gval :=
  match e with
  | EInt n => Ok (GI n)
  | ENum n => Ok (GN n)
  | EVar x => of_look (look x (vars s))
  | EFld x => of_look (look x (flds s))
  | EBuf => Ok (GB (Some (buf s)))
  | ENil => Ok GNil
  | ELen a => v <- eval s a ;; x <- oct v ;; Ok (GI (List.length x))
  | EToInt a => v <- eval s a ;; x <- num v ;; Ok (GI (N.to_nat x))
  | EU w a => v <- eval s a ;; match v with GN x => Ok (GN (wrap w x)) | GI n => Ok (GN (wrap w (N.of_nat n))) | _ => Fault end
  | EAdd a b => v <- eval s a ;; x <- int v ;; w <- eval s b ;; y <- int w ;; Ok (GI (x + y))
  | ESub a b => v <- eval s a ;; x <- int v ;; w <- eval s b ;; y <- int w ;; Ok (GI (x - y))
  | EMul a b => v <- eval s a ;; x <- int v ;; w <- eval s b ;; y <- int w ;; Ok (GI (x * y))
  | EIdx a i => v <- eval s a ;; x <- oct v ;; w <- eval s i ;; j <- int w ;; r <- index x j ;; Ok (GN r)
  | ESlice a lo hi => v <- eval s a ;; x <- oct v ;; w <- eval s lo ;; i <- int w ;; w <- eval s hi ;; j <- int w ;; r <- slice x i j ;; Ok (GB (Some r))
  | EFrom a lo => v <- eval s a ;; x <- oct v ;; w <- eval s lo ;; i <- int w ;; r <- from x i ;; Ok (GB (Some r))
  | EBE k a => v <- eval s a ;; x <- oct v ;; r <- getn k x ;; Ok (GN r)
  | EAnd a b => v <- eval s a ;; x <- num v ;; w <- eval s b ;; y <- num w ;; Ok (GN (N.land x y))
  | EOr a b => v <- eval s a ;; x <- num v ;; w <- eval s b ;; y <- num w ;; Ok (GN (N.lor x y))
  | EShr a k => v <- eval s a ;; x <- num v ;; Ok (GN (N.shiftr x k))
  | EShl w a k => v <- eval s a ;; x <- num v ;; Ok (GN (wrap w (N.shiftl x k)))
  | EStr a => v <- eval s a ;; x <- oct v ;; Ok (GS x)
  | EBytes a => v <- eval s a ;; match v with GB o => Ok (GB o) | GS x => Ok (GB (Some x)) | _ => Fault end
  | ETo4 a => v <- eval s a ;; match v with GB o => Ok (GB (to4 o)) | _ => Fault end
  | ETo16 a => v <- eval s a ;; match v with GB o => Ok (GB (to16 o)) | _ => Fault end
  | EMake n => Ok (GB (Some (make n)))
  | EApp a b => v <- eval s a ;; w <- eval s b ;; y <- oct w ;; match v with GL l => Ok (GL (l ++ [y])) | _ => Fault end
  | EFromBcd a => v <- eval s a ;; x <- oct v ;; Ok (GS (swapped_to_str x true))
  | EToBcd a => v <- eval s a ;; x <- oct v ;; r <- str_to_swapped x ascii_f ;; Ok (GB (Some r))
  | EToPlmn a b => v <- eval s a ;; x <- oct v ;; w <- eval s b ;; y <- oct w ;; r <- encode_plmn x y ;; Ok (GB (Some r))
  | ENtp a => v <- eval s a ;; x <- num v ;; Ok (GT (time_of_ntp64 x))
  | ESince a => v <- eval s a ;; match v with GT z => Ok (GN (secs1900 z)) | _ => Fault end
  end.

Fixpoint test (s : state) (c : cond) : res bool :=
  match c with
  | CLt a b => v <- eval s a ;; x <- int v ;; w <- eval s b ;; y <- int w ;; Ok (x <? y)
  | CLe a b => v <- eval s a ;; x <- int v ;; w <- eval s b ;; y <- int w ;; Ok (x <=? y)
  | CNe a b => v <- eval s a ;; x <- num v ;; w <- eval s b ;; y <- num w ;; Ok (negb (x =? y)%N)
  | CHas k a => v <- eval s a ;; x <- num v ;; Ok (has k x)
  | CNotNil a => v <- eval s a ;; match v with GB o => Ok (notnil o) | _ => Fault end
  | CEmpty a => v <- eval s a ;; match v with GS x => Ok (negb (nonempty x)) | _ => Fault end
  | CNot a => x <- test s a ;; Ok (negb x)
  | CAnd a b => x <- test s a ;; y <- test s b ;; Ok (x && y)
  | COr a b => x <- test s a ;; y <- test s b ;; Ok (x || y)
  end.

(** how a statement ends: falling through, by break, or by leaving the method *)
Inductive out :=
| Next (s : state)
| Brk (s : state)
| Done (s : state) (r : res gval).
Definition fails {A} (s : state) (r : res A) (k : A -> out) : out :=
  match r with Ok a => k a | Err e => Done s (Err e) | Fault => Done s Fault | Fuel => Done s Fuel end.
(** binary.BigEndian.PutUint(8k)(b[i:j], x) *)
Definition put_be (k : nat) (b : list N) (i j : nat) (x : N) : res (list N) :=
  d <- slice b i j ;; if List.length d <? k then Fault else put b i (be k x).

(** the variables of s after a block entered in s: declarations are added at the end of the store *)
Fixpoint cut (a b : store) : store := match a, b with _ :: a, x :: b => x :: cut a b | _, _ => [] end.
Definition leave (s s' : state) : state := St (flds s') (cut (vars s) (vars s')) (buf s').
Definition within (s : state) (o : out) : out := match o with Next s' => Next (leave s s') | Brk s' => Brk (leave s s') | Done s' r => Done s' r end.

(** n bounds the number of iterations of each loop of the form for { } *)
Fixpoint exec (n : nat) (c : stmt) (s : state) {struct c} : out :=
  match c with
  | SSkip => Next s
  | SSeq a b => match exec n a s with Next s => exec n b s | o => o end
  | SBlock a => within s (exec n a s)
  | SLet x e => fails s (eval s e) (fun v => Next (setv x v s))
  | SSet x e => fails s (eval s e) (fun v => match look x (flds s) with Some _ => Next (setf x v s) | None => Done s Fault end)
  | SPlmn x y e => fails s (v <- eval s e ;; p <- oct v ;; decode_plmn p) (fun '(m, n) => Next (setf y (GS n) (setf x (GS m) s)))
  | SCopyF x e =>
      fails s (v <- eval s e ;; oct v) (fun p =>
        match look x (flds s) with Some (GB d) => Next (setf x (GB (over_slice d p)) s) | _ => Done s Fault end)
  | SPutB i e => fails s (v <- eval s e ;; x <- num v ;; w <- eval s i ;; i <- int w ;; put (buf s) i [x]) (fun b => Next (setb b s))
  | SPut k lo hi e =>
      fails s (w <- eval s lo ;; i <- int w ;; w <- eval s hi ;; j <- int w ;; v <- eval s e ;; x <- num v ;;
               put_be k (buf s) i j x) (fun b => Next (setb b s))
  | SPutV k x e =>
      fails s (w <- of_look (look x (vars s)) ;; d <- oct w ;; v <- eval s e ;; y <- num v ;; put d 0 (be k y)) (fun p => Next (setv x (GB (Some p)) s))
  | SCopyB lo hi e =>
      fails s (w <- eval s lo ;; i <- int w ;; w <- eval s hi ;; j <- int w ;; v <- eval s e ;; x <- oct v ;; copy_range (buf s) i j x) (fun b => Next (setb b s))
  | SIf c a => fails s (test s c) (fun x => if x then exec n a s else Next s)
  | SLoop a =>
      (fix loop (k : nat) (s : state) {struct k} : out :=
         match k with
         | O => Done s Fuel
         | S k => match exec n a s with Next s => loop k s | Brk s => Next s | Done s r => Done s r end
         end) n s
  | SRange x y a =>
      match look y (flds s) with
      | Some (GL l) =>
          (fix range (l : list (list N)) (s : state) {struct l} : out :=
             match l with
             | [] => Next s
             | p :: l => match exec n a (setv x (GS p) s) with Next s => range l s | Brk s => Next s | Done s r => Done s r end
             end) l s
      | _ => Done s Fault
      end
  | SBreak => Brk s
  | SRet e => fails s (eval s e) (fun v => Done s (Ok v))
  | SEof => Done s (Err EUnexpectedEOF)
  end.

(** a method: the struct and the buffer it leaves, and what it returns *)
Definition call (n : nat) (c : stmt) (f : store) (b : list N) : state * res gval :=
  match exec n c (St f [] b) with Done s r => (s, r) | Next s => (s, Fault) | Brk s => (s, Fault) end.
