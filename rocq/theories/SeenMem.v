(** The accessors on an IE in memory (Alias.v): AccRun.v again, with results that may be slices. *)
From Verif Require Import Base IETypes IE Bits Codec Fields1 Access AccTable AccRun Seen.
From Verif Require Import Alias.
Set Implicit Arguments.

(** Results of accessors: SV is a number, string, time or a struct of those; SB is a slice; SIEs are
    IEs whose payloads are slices; SF is a struct decoded from the payload p (Seen.v). *)
Inductive sval := SV (v : val) | SB (s : sl) | SIEs (l : list sie) | SF (v : list N -> fields) (p : sl).
(** what the holder reads from it in a given memory *)
Definition shown (h : heap) (x : sval) : val :=
  match x with
  | SV v => v
  | SB s => VB (rd h s)
  | SIEs l => VIEs (map (view h) l)
  | SF v p => VF (v (rd h p))
  end.

Section Run.
Variable g : N -> bool.
Variable h : heap.

(** ie/fq-csid.go:81-105, the FQCSID case *)
Definition snode_address (p : sl) : res sl :=
  t <- node_id_type (rd h p) ;;
  if (t =? 0)%N || (t =? 2)%N then if slen p <? 6 then Err EUnexpectedEOF else sub p 1 5
  else if (t =? 1)%N then if slen p <? 18 then Err EUnexpectedEOF else sub p 1 17
  else Err EMalformed.
(** ie/tsn-bridge-id.go:35-66, the TSNBridgeID case *)
Definition stsn_bridge_id (p : sl) : res sl :=
  x <- index (rd h p) 0 ;;
  if negb (has1 x) then Ok nil_slice else
  if negb (slen p =? 7) && (slen p <? 9) then Err EUnexpectedEOF else
  if slen p =? 7 then sub p 1 7 else sub p 1 9.

(** Case bodies.  The ones not listed make numbers, times and strings (string(...), String(),
    DecodeFQDN), that is, copies. *)
Definition sleaf_run (l : leaf) (i : sie) : res sval :=
  let p := spay i in
  match l with
  | LPayload => Ok (SB p)                                                   (* return i.Payload, nil *)
  | LApplyAction => if slen p <? 1 then Err EUnexpectedEOF else Ok (SB p)   (* ie/apply-action.go:29-58 *)
  | LChildren => is <- sparseMultiIEs g h p ;; Ok (SIEs is)                 (* return ParseMultiIEs(i.Payload) *)
  | LFields k => v <- fseen k (rd h p) ;; Ok (SF v p)                       (* return ParseXxxFields(i.Payload) *)
  | LNodeAddress => s <- snode_address p ;; Ok (SB s)
  | LNFInstanceID => s <- sub p 0 16 ;; Ok (SB s)                           (* ie/nf-instance-id.go:24 *)
  | LSNSSAI => s <- sub p 0 4 ;; Ok (SB s)                                  (* ie/s-nssai.go:29 *)
  | LTSNBridgeID => s <- stsn_bridge_id p ;; Ok (SB s)
  | _ => v <- leaf_run g l (view h i) ;; Ok (SV v)
  end.
Fixpoint ssearch (p : sie -> bool) (f : sie -> res sval) (l : list sie) : res sval :=
  match l with
  | [] => Err EIENotFound
  | x :: r => if p x then f x else ssearch p f r
  end.
(** the bodies that use another accessor's result return numbers, strings and VLAN tags, copies *)
Fixpoint srun (n : nat) (a : acc) (i : sie) : res sval :=
  match n with
  | O => Fuel
  | S n =>
      let d := acc_def a in
      _ <- check (guards d) (view h i) ;;
      match lookup (cases d) (dflt d) (sty i) with
      | Leaf l => sleaf_run l i
      | Via c ts b =>
          v <- srun n c i ;;
          match v with SIEs l => ssearch (fun x => memb (sty x) ts) (fun x => srun n b x) l | _ => Fault end
      | ViaOwn c ts b =>
          v <- srun n c i ;;
          match v with SIEs l => ssearch (fun x => memb (sty i) ts) (fun x => srun n b x) l | _ => Fault end
      | Then c f => v <- srun n c i ;; x <- post_run f (view h i) (shown h v) ;; Ok (SV x)
      | OrElse c d =>
          v <- srun n c i ;;
          match shown h v with VS [] => srun n d i | VS _ => Ok v | _ => Fault end
      end
  end.
Definition saccess (a : acc) (i : sie) : res sval := srun (4 * S (slen (spay i))) a i.
End Run.
