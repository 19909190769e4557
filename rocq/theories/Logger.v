(** Model of internal/logger/logger.go (re-exported by logger.go:18-37) and of the call that
    message.Parse makes to it (message/message.go:113-115), as goroutines interleaving over one
    non-reentrant mutex.  Each call is the list of its atomic operations; a schedule is the list of
    the goroutines picked.  Trusted: sync.Mutex is a lock (no owner, Lock waits until it is free,
    Unlock of a free one is a fatal error), and *log.Logger's own methods return.  Simplified: the
    deferred Unlock is written at the end of the call; the text of a log line is not kept. *)
From Verif Require Import Base IETypes IE Message MsgTables.

(** a *log.Logger is a number; logger 0 is the package's initial one, logger.go:18 *)
Record shared := mkSh {
  cur : nat;                (* the variable logger, internal/logger/logger.go:18 *)
  next : nat;               (* the next *log.Logger that log.New returns *)
  muted : list nat;         (* loggers whose output is io.Discard *)
  lines : list nat;         (* loggers that printed a visible line, oldest first *)
}.
Definition sh0 : shared := mkSh 0 1 [] [].

Inductive call :=
| CSetLogger (l : option nat)       (* None: nil *)
| CEnableLogging (l : option nat)
| CDisableLogging
| CLogf
| CParse (b : list N).              (* message.Parse(b) *)

(** the atomic operations *)
Inductive op :=
| OStd                      (* log.Println on the standard logger *)
| OLock | OUnlock           (* logMu *)
| OSet (l : option nat)     (* logger = l, or = log.New(os.Stderr, ...) for nil *)
| OGet                      (* load the variable logger *)
| OMute                     (* SetOutput(io.Discard) on the logger loaded *)
| OPrint                    (* Printf on the logger loaded *)
| ORet (c : call).          (* the call returns to the caller *)

(** setLogger, internal/logger/logger.go:64-73 *)
Definition set_logger (l : option nat) : list op := [OLock; OSet l; OUnlock].
(** SetLogger, internal/logger/logger.go:29-35 *)
Definition set_logger_ops (l : option nat) : list op :=
  (match l with None => [OStd] | Some _ => [] end) ++ set_logger l.
(** EnableLogging, internal/logger/logger.go:45-50 *)
Definition enable_logging_ops (l : option nat) : list op := [OLock] ++ set_logger l ++ [OUnlock].
(** DisableLogging, internal/logger/logger.go:57-62 *)
Definition disable_logging_ops : list op := [OLock; OGet; OMute; OUnlock].
(** Logf, internal/logger/logger.go:75-80 *)
Definition logf_ops : list op := [OLock; OGet; OPrint; OUnlock].
(** message.Parse logs exactly when it falls in the default case, message/message.go:61-115 *)
Definition logs (b : list N) : bool :=
  match b with
  | _ :: c :: _ => match lookup c dispatch with Some _ => false | None => true end
  | _ => false
  end.

Definition ops (c : call) : list op :=
  match c with
  | CSetLogger l => set_logger_ops l
  | CEnableLogging l => enable_logging_ops l
  | CDisableLogging => disable_logging_ops
  | CLogf => logf_ops
  | CParse b => if logs b then logf_ops else []
  end.
(** a goroutine making these calls one after another *)
Definition code (cs : list call) : list op := flat_map (fun c => ops c ++ [ORet c]) cs.

(** ** The machine *)
Record thread := mkT { reg : nat; todo : list op }.
(** the effect of a call on the shared state, recorded for the statements only *)
Inductive eff := ESet (l : option nat) | EMute | EPrint.
Record sys := mkS {
  locked : bool;                  (* logMu *)
  sh : shared;
  threads : list thread;
  fatal : bool;                   (* "sync: unlock of unlocked mutex" *)
  returned : list (nat * call);   (* history: calls returned, by goroutine *)
  hist : list (nat * eff);        (* history: effects, by goroutine *)
}.
Definition start (ps : list (list call)) : sys :=
  mkS false sh0 (map (fun p => mkT 0 (code p)) ps) false [] [].

Definition set_sh (l : option nat) (s : shared) : shared :=
  match l with
  | Some l => mkSh l (next s) (muted s) (lines s)
  | None => mkSh (next s) (S (next s)) (muted s) (lines s)
  end.
Definition mute_sh (r : nat) (s : shared) : shared := mkSh (cur s) (next s) (r :: muted s) (lines s).
Definition print_sh (r : nat) (s : shared) : shared :=
  mkSh (cur s) (next s) (muted s) (if existsb (Nat.eqb r) (muted s) then lines s else lines s ++ [r]).

(** goroutine t performs its next operation; None when it has none left or must wait *)
Definition step (t : nat) (s : sys) : option sys :=
  match nth_error (threads s) t with
  | None => None
  | Some (mkT r []) => None
  | Some (mkT r (o :: k)) =>
    let go l x r f ret h := Some (mkS l x (upd (threads s) t (mkT r k)) f ret h) in
    match o with
    | OStd => go (locked s) (sh s) r (fatal s) (returned s) (hist s)
    | OLock => if locked s then None else go true (sh s) r (fatal s) (returned s) (hist s)
    | OUnlock => go false (sh s) r (fatal s || negb (locked s)) (returned s) (hist s)
    | OSet l => go (locked s) (set_sh l (sh s)) r (fatal s) (returned s) (hist s ++ [(t, ESet l)])
    | OGet => go (locked s) (sh s) (cur (sh s)) (fatal s) (returned s) (hist s)
    | OMute => go (locked s) (mute_sh r (sh s)) r (fatal s) (returned s) (hist s ++ [(t, EMute)])
    | OPrint => go (locked s) (print_sh r (sh s)) r (fatal s) (returned s) (hist s ++ [(t, EPrint)])
    | ORet c => go (locked s) (sh s) r (fatal s) (returned s ++ [(t, c)]) (hist s)
    end
  end.

(** an execution: the goroutines picked, each able to move when picked *)
Inductive exec : sys -> list nat -> sys -> Prop :=
| exec_nil s : exec s [] s
| exec_cons s t s1 w s2 : step t s = Some s1 -> exec s1 w s2 -> exec s (t :: w) s2.

Definition blocked (s : sys) : Prop := forall t, step t s = None.
Definition finished (s : sys) : Prop := forall t x, nth_error (threads s) t = Some x -> todo x = [].
Definition enables (c : call) : bool := match c with CEnableLogging _ => true | _ => false end.

(** ** The calls one at a time: what each does to the shared state when nothing else runs *)
Definition seq_eff (s : shared) (e : eff) : shared :=
  match e with ESet l => set_sh l s | EMute => mute_sh (cur s) s | EPrint => print_sh (cur s) s end.
Definition effs (c : call) : list eff :=
  match c with
  | CSetLogger l | CEnableLogging l => [ESet l]
  | CDisableLogging => [EMute]
  | CLogf => [EPrint]
  | CParse b => if logs b then [EPrint] else []
  end.
Definition mine (t : nat) (h : list (nat * eff)) : list eff :=
  map snd (filter (fun x => fst x =? t) h).
Definition calls_of (t : nat) (h : list (nat * call)) : list call :=
  map snd (filter (fun x => fst x =? t) h).
