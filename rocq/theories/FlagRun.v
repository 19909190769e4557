(** Running the bool methods described in FlagTable.v, the flag methods of the XxxFields structs, and ValidateApplyAction. *)
From Verif Require Import Base IETypes IE Bits Codec Fields1 Access AccTable AccRun Flags FlagTable.
Set Implicit Arguments.

Definition flag_run (g : N -> bool) (f : flag) (i : ie) : res bool := fdef_run g (flag_def f) i.

(** HasX and SetXFlag of a struct, as functions of its Flags member; the methods are cited in FlagTable.v *)
Definition sflag_kind (s : sflag) : fkind := fst (fst (sflag_def s)).
Definition has_flag (s : sflag) (x : N) : bool := hasn (snd (fst (sflag_def s))) x.
Definition set_flag (s : sflag) (x : N) : N := N.lor x (snd (sflag_def s)).

(** || and && of calls that may panic: the second call is made only if it is needed *)
Definition orr (a b : res bool) : res bool := x <- a ;; if x then Ok true else b.
Definition andr (a b : res bool) : res bool := x <- a ;; if x then b else Ok false.
Definition notr (a : res bool) : res bool := x <- a ;; Ok (negb x).
(** the loop counting the true values, ie/apply-action.go:57-62 *)
Fixpoint count_true (l : list bool) : nat := match l with [] => 0 | true :: r => S (count_true r) | false :: r => count_true r end.
(** ie/apply-action.go:51-90; nil is Ok tt *)
Definition validate_apply_action (g : N -> bool) (i : ie) : res unit :=
  if negb (ty i =? T_ApplyAction)%N then Err (EInvalidTypeT (ty i)) else
  let has f := flag_run g f i in
  drop <- has B_HasDROP ;; forw <- has B_HasFORW ;; buff <- has B_HasBUFF ;; ipma <- has B_HasIPMA ;; ipmd <- has B_HasIPMD ;;
  if negb (count_true [drop; forw; buff; ipma; ipmd] =? 1) then Err EMalformed else
  c1 <- andr (orr (has B_HasNOCP) (has B_HasBDPN)) (notr (has B_HasBUFF)) ;;
  if c1 then Err EMalformed else
  c2 <- andr (has B_HasDUPL) (notr (orr (has B_HasDROP) (orr (has B_HasFORW) (orr (has B_HasBUFF) (has B_HasNOCP))))) ;;
  if c2 then Err EMalformed else
  c3 <- andr (has B_HasDFRT) (notr (has B_HasFORW)) ;;
  if c3 then Err EMalformed else
  c4 <- andr (has B_HasDDPN) (notr (orr (has B_HasDROP) (has B_HasBUFF))) ;;
  if c4 then Err EMalformed else Ok tt.
