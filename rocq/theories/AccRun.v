(** Running the accessors described in AccTable.v. *)
From Verif Require Import Base IETypes IE Bits Codec Fields1 Access AccTable.
Set Implicit Arguments.

(** for _, x := range ies { if p(x) { return f(x) } }; return zero, ErrIENotFound *)
Fixpoint search (p : ie -> bool) (f : ie -> res val) (l : list ie) : res val :=
  match l with
  | [] => Err EIENotFound
  | x :: r => if p x then f x else search p f r
  end.

Section Run.
Variable g : N -> bool.

(** The result of accessor a on i.  n bounds the number of nested calls. *)
Fixpoint run (n : nat) (a : acc) (i : ie) : res val :=
  match n with
  | O => Fuel
  | S n =>
      let d := acc_def a in
      _ <- check (guards d) i ;;
      match lookup (cases d) (dflt d) (ty i) with
      | Leaf l => leaf_run g l i
      | Via c ts b =>
          v <- run n c i ;;
          match v with VIEs l => search (fun x => memb (ty x) ts) (fun x => run n b x) l | _ => Fault end
      | ViaOwn c ts b =>
          v <- run n c i ;;
          match v with VIEs l => search (fun x => memb (ty i) ts) (fun x => run n b x) l | _ => Fault end
      | Then c f => v <- run n c i ;; post_run f i v
      | OrElse c d =>
          v <- run n c i ;;
          match v with VS [] => run n d i | VS _ => Ok v | _ => Fault end
      end
  end.

(** Every accessor: enough fuel for the payload at hand (AccProofs.v: more makes no difference). *)
Definition access (a : acc) (i : ie) : res val := run (4 * S (length (payload i))) a i.

(** LocalFTEIDN, ie/created-traffic-endpoint.go:47-72; c counts the F-TEIDs seen *)
Fixpoint nth_fteid (n c : Z) (l : list ie) : res val :=
  match l with
  | [] => Err EIENotFound
  | x :: r =>
      if (ty x =? T_FTEID)%N then
        if (c + 1 =? n)%Z then access A_FTEID x else nth_fteid n (c + 1) r
      else nth_fteid n c r
  end.
Definition local_fteid_n (n : Z) (i : ie) : res val :=
  if (n <? 1)%Z then Err EIENotFound else
  if (ty i =? T_CreatedTrafficEndpoint)%N then
    v <- access A_CreatedTrafficEndpoint i ;;
    match v with VIEs l => nth_fteid n 0 l | _ => Fault end
  else Err (EInvalidTypeT (ty i)).
End Run.
