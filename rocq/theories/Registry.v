(** The grouped-type registry shared between goroutines: ie/ie_grouped.go:8-133, and the generic
    codec of ie/ie.go written so that each IsGrouped() call is a separate question, answered by the
    registry as it is at that moment.  Programs that ask: *)
From Verif Require Import Base IETypes IE Header Message MsgTables.

Inductive prog (A : Type) : Type :=
| Done (r : res A)
| Ask (t : N) (k : bool -> prog A).   (* IsGrouped() on an IE of type t, ie/ie_grouped.go:131-133 *)
Arguments Done {A} _. Arguments Ask {A} _ _.
Fixpoint pbind {A B} (p : prog A) (f : A -> prog B) : prog B :=
  match p with
  | Done (Ok a) => f a
  | Done (Err e) => Done (Err e)
  | Done Fault => Done Fault
  | Done Fuel => Done Fuel
  | Ask t k => Ask t (fun x => pbind (k x) f)
  end.
Notation "x <~ r ;; k" := (pbind r (fun x => k)) (at level 61, r at next level, right associativity).
Notation "' p <~ r ;; k" := (pbind r (fun p => k)) (at level 61, p pattern, r at next level, right associativity).
Definition ret {A} (a : A) : prog A := Done (Ok a).

(** MarshalLen, ie/ie.go:598-612 *)
Fixpoint mlen_p (i : ie) : prog nat :=
  let l := 4 in
  let l := if vendor (ty i) then l + 2 else l in
  Ask (ty i) (fun gr =>
    if gr then
      (fix go (cs : list ie) (l : nat) : prog nat :=
         match cs with [] => ret l | c :: cs' => m <~ mlen_p c ;; go cs' (l + m) end) (children i) l
    else ret (l + length (payload i))).

(** MarshalTo, ie/ie.go:568-595 *)
Fixpoint marshal_to_p (i : ie) (b : list N) : prog (list N) :=
  let l := length b in
  if l <? 4 then Done (Err EInvalidLength) else
  b <~ Done (put b 0 (be 2 (ty i))) ;;
  b <~ Done (put b 2 (be 2 (len i))) ;;
  let offset := 4 in
  '(b, offset) <~ Done (if vendor (ty i) && (6 <=? l)
                        then b <- put b 4 (be 2 (eid i)) ;; Ok (b, offset + 2)
                        else Ok (b, offset)) ;;
  Ask (ty i) (fun gr =>
    if gr then
      (fix go (cs : list ie) (offset : nat) (b : list N) : prog (list N) :=
         match cs with
         | [] => ret b
         | c :: cs' =>
             s <~ Done (from b offset) ;;
             s' <~ marshal_to_p c s ;;
             m <~ mlen_p c ;;
             go cs' (offset + m) (firstn offset b ++ s')
         end) (children i) offset b
    else m <~ mlen_p i ;; Done (copy_range b offset m (payload i))).

(** Marshal, ie/ie.go:559-565 *)
Definition marshal_p (i : ie) : prog (list N) := n <~ mlen_p i ;; marshal_to_p i (make n).

(** UnmarshalBinary, ie/ie.go:514-556, and ParseMultiIEs, ie/ie.go:496-511 *)
Fixpoint unmarshal_p (n : nat) (i0 : ie) (b : list N) {struct n} : prog ie :=
  match n with
  | O => Done Fuel
  | S n =>
    let l := length b in
    if l <? 4 then Done (Err EUnexpectedEOF) else
    t <~ Done (getr 2 b 0 2) ;;
    ln <~ Done (getr 2 b 2 4) ;;
    let offset := 4 in
    let fin := N.to_nat ln in
    '(e, offset, fin) <~
      Done (if vendor t then
         if l <? 6 then Err EUnexpectedEOF else
         if fin <? 2 then Err EInvalidLength else
         e <- getr 2 b 4 6 ;; Ok (e, offset + 2, fin - 2)
       else Ok (eid i0, offset, fin)) ;;
    if l <=? offset then ret (mkIE t ln e (payload i0) (children i0)) else
    if l <? offset + fin then Done (Err EUnexpectedEOF) else
    p <~ Done (slice b offset (offset + fin)) ;;
    Ask t (fun gr =>
      if gr then
        cs <~ parse_multi_p n p ;; ret (mkIE t ln e p cs)
      else ret (mkIE t ln e p (children i0)))
  end
with parse_multi_p (n : nat) (b : list N) {struct n} : prog (list ie) :=
  match n with
  | O => Done Fuel
  | S n =>
    if length b =? 0 then ret [] else
    i <~ unmarshal_p n zeroIE b ;;
    m <~ mlen_p i ;;
    b' <~ Done (from b m) ;;
    is <~ parse_multi_p n b' ;;
    ret (i :: is)
  end.
(** Parse, ie/ie.go:480-486 *)
Definition parse_p (b : list N) : prog ie := unmarshal_p (S (S (length b))) zeroIE b.
(** ParseMultiIEs, ie/ie.go:496-511 *)
Definition parseMultiIEs_p (b : list N) : prog (list ie) := parse_multi_p (S (S (length b))) b.
(** message.Parse, message/message.go:60-122, over the UnmarshalBinary of Message.v *)
Definition parse_msg_p (b : list N) : prog (kind * msg) :=
  if (length b <? 2)%nat then Done (Err EUnexpectedEOF) else
  c <~ Done (index b 1) ;;
  let k := match lookup c dispatch with Some k => k | None => K_Generic end in
  h <~ Done (parse_header b) ;;
  if (length (h_payload h) <? 2)%nat then ret (k, zero_msg k h) else
  ies <~ parseMultiIEs_p (h_payload h) ;;
  m <~ Done (match k_mode k with
             | IReplace => Ok (mkM h (m_f (zero_msg k zero_header)) (map Some ies))
             | IAppend => store_all (k_switch k) (mkM h (m_f (zero_msg k zero_header)) (m_ies (zero_msg k zero_header))) ies
             end) ;;
  ret (k, m).

(** The registry may be different at each question: [o n] is what it holds at question n. *)
Fixpoint run {A} (o : nat -> N -> bool) (n : nat) (p : prog A) : res A * nat :=
  match p with Done r => (r, n) | Ask t k => run o (S n) (k (o n t)) end.
(** types are only added (AddGroupedIEType) *)
Definition growing (o : nat -> N -> bool) : Prop := forall n m t, n <= m -> o n t = true -> o m t = true.

(** ** Goroutines: sync.RWMutex, the map, the function variable *)
(** isGroupedFun: the default closure (ie/ie_grouped.go:99-104), another function (pure, run in one
    step here), or nil *)
Inductive fn := FDefault | FUser (f : N -> bool) | FNil.

Section Machine.
Variable A : Type.
Inductive task :=
| KAdd (ts : list N)        (* AddGroupedIEType(ts...) *)
| KSet (f : fn)             (* SetIsGroupedFun(f) *)
| KProg (p : prog A).       (* code that asks IsGrouped() *)

(** where a goroutine is *)
Inductive tstate :=
| TIdle
| TProg (p : prog A)                        (* about to return, or to load isGroupedFun *)
| TCall (t : N) (k : bool -> prog A) (f : fn)     (* isGroupedFun loaded, not yet entered *)
| TWantR (t : N) (k : bool -> prog A)       (* in the closure: before mu.RLock() *)
| TGotR (t : N) (k : bool -> prog A)        (* holds the read lock *)
| TReading (t : N) (k : bool -> prog A)     (* the map read is going on *)
| TRead (p : prog A)                        (* map read finished, before mu.RUnlock() *)
| TAdd (ts : list N)                        (* AddGroupedIEType before mu.Lock() *)
| TAddWait (ts : list N)                    (* announced as the writer, waiting for readers *)
| TAddGot (ts : list N)                     (* holds the write lock; ts still to be stored *)
| TWriting (t : N) (ts : list N)            (* the map write of t is going on *)
| TSet (f : fn) | TSetWait (f : fn) | TSetGot (f : fn) | TSetDone.

Record thread := mkT { at_ : tstate; queue : list task; out : list (prog A * res A); cur : option (prog A) }.
Record sys := mkS {
  reg : N -> bool;      (* the keys of defaultGroupedIEMap *)
  fvar : fn;            (* the variable isGroupedFun *)
  readers : nat;        (* read locks held *)
  pending : bool;       (* a writer is announced or holds the lock: RLock and Lock wait *)
  threads : list thread;
  panicked : bool;      (* a nil function was called *)
}.
Definition start (g : N -> bool) (qs : list (list task)) : sys :=
  mkS g FDefault 0 false (map (fun q => mkT TIdle q [] None) qs) false.

(** goroutine [h] performs its next operation.  sync.RWMutex: Lock first excludes other writers and
    new readers, then waits for the readers present; RLock waits while a writer is announced. *)
Definition step (h : nat) (s : sys) : option sys :=
  match nth_error (threads s) h with
  | None => None
  | Some (mkT a q o c) =>
    let to a' := upd (threads s) h (mkT a' q o c) in
    let go a' := Some (mkS (reg s) (fvar s) (readers s) (pending s) (to a') (panicked s)) in
    match a with
    | TIdle =>
        match q with
        | [] => None
        | KAdd ts :: q' => Some (mkS (reg s) (fvar s) (readers s) (pending s) (upd (threads s) h (mkT (TAdd ts) q' o None)) (panicked s))
        | KSet f :: q' => Some (mkS (reg s) (fvar s) (readers s) (pending s) (upd (threads s) h (mkT (TSet f) q' o None)) (panicked s))
        | KProg p :: q' => Some (mkS (reg s) (fvar s) (readers s) (pending s) (upd (threads s) h (mkT (TProg p) q' o (Some p))) (panicked s))
        end
    | TProg (Done r) =>
        match c with
        | Some p => Some (mkS (reg s) (fvar s) (readers s) (pending s) (upd (threads s) h (mkT TIdle q (o ++ [(p, r)]) None)) (panicked s))
        | None => None
        end
    | TProg (Ask t k) => go (TCall t k (fvar s))                      (* ie_grouped.go:132, no lock held *)
    | TCall t k FDefault => go (TWantR t k)
    | TCall t k (FUser f) => go (TProg (k (f t)))
    | TCall t k FNil => Some (mkS (reg s) (fvar s) (readers s) (pending s) (to TIdle) true)
    | TWantR t k => if pending s then None                            (* ie_grouped.go:100 *)
        else Some (mkS (reg s) (fvar s) (S (readers s)) (pending s) (to (TGotR t k)) (panicked s))
    | TGotR t k => go (TReading t k)                                  (* ie_grouped.go:102 *)
    | TReading t k => go (TRead (k (reg s t)))
    | TRead p => Some (mkS (reg s) (fvar s) (pred (readers s)) (pending s) (to (TProg p)) (panicked s))
    | TAdd ts => if pending s then None                               (* ie_grouped.go:118 *)
        else Some (mkS (reg s) (fvar s) (readers s) true (to (TAddWait ts)) (panicked s))
    | TAddWait ts => if readers s =? 0 then go (TAddGot ts) else None
    | TAddGot (t :: ts) => go (TWriting t ts)                         (* ie_grouped.go:120-122 *)
    | TWriting t ts => Some (mkS (fun u => (u =? t)%N || reg s u) (fvar s) (readers s) (pending s) (to (TAddGot ts)) (panicked s))
    | TAddGot [] => Some (mkS (reg s) (fvar s) (readers s) false (to TIdle) (panicked s))
    | TSet f => if pending s then None                                (* ie_grouped.go:109 *)
        else Some (mkS (reg s) (fvar s) (readers s) true (to (TSetWait f)) (panicked s))
    | TSetWait f => if readers s =? 0 then go (TSetGot f) else None
    | TSetGot f => Some (mkS (reg s) f (readers s) (pending s) (to TSetDone) (panicked s))   (* :111 *)
    | TSetDone => Some (mkS (reg s) (fvar s) (readers s) false (to TIdle) (panicked s))
    end
  end.

Inductive exec : sys -> list nat -> sys -> Prop :=
| exec_nil s : exec s [] s
| exec_cons s h s1 w s2 : step h s = Some s1 -> exec s1 w s2 -> exec s (h :: w) s2.
Definition blocked (s : sys) : Prop := forall h, step h s = None.
Definition finished (s : sys) : Prop := forall h x, nth_error (threads s) h = Some x -> at_ x = TIdle /\ queue x = [].

(** two goroutines in the map at once, at least one writing: Go aborts the process *)
Definition map_clash (s : sys) : Prop :=
  exists h h' x x' t ts, h <> h' /\ nth_error (threads s) h = Some x /\ nth_error (threads s) h' = Some x' /\
    at_ x = TWriting t ts /\ ((exists t' k, at_ x' = TReading t' k) \/ exists t' ts', at_ x' = TWriting t' ts').
(** one goroutine about to load isGroupedFun while another is about to store it *)
Definition var_race (s : sys) : Prop :=
  exists h h' x x' t k f, h <> h' /\ nth_error (threads s) h = Some x /\ nth_error (threads s) h' = Some x' /\
    at_ x = TProg (Ask t k) /\ at_ x' = TSetGot f.
End Machine.
Arguments KAdd {A}. Arguments KSet {A}. Arguments KProg {A}.
Arguments TIdle {A}. Arguments TProg {A}. Arguments TCall {A}. Arguments TWantR {A}. Arguments TGotR {A}.
Arguments TReading {A}. Arguments TRead {A}. Arguments TAdd {A}. Arguments TAddWait {A}. Arguments TAddGot {A}.
Arguments TWriting {A}. Arguments TSet {A}. Arguments TSetWait {A}. Arguments TSetGot {A}. Arguments TSetDone {A}.
Arguments mkT {A}. Arguments at_ {A}. Arguments queue {A}. Arguments out {A}. Arguments cur {A}.
Arguments mkS {A}. Arguments reg {A}. Arguments fvar {A}. Arguments readers {A}. Arguments pending {A}.
Arguments threads {A}. Arguments panicked {A}. Arguments start {A}. Arguments step {A}. Arguments exec {A}.
Arguments blocked {A}. Arguments finished {A}. Arguments map_clash {A}. Arguments var_race {A}.
