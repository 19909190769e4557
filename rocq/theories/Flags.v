(** The bool methods of *IE (ie/*.go).  Like the accessors they are written in a few idioms; each is described by data in FlagTable.v
    and run by [flag_run].  A failing accessor makes the method return false; a panicking one makes it panic. *)
From Verif Require Import Base IETypes IE Bits Codec Utils Fields1 Time Fields2 Fields3 Fields4 Access AccTable AccRun.
Set Implicit Arguments.

(** has1stBit ... has8thBit, ie/misc.go:7-37 *)
Definition hasn (b : N) (x : N) : bool :=
  match b with
  | 1 => has1 x | 2 => has2 x | 3 => has3 x | 4 => has4 x | 5 => has5 x | 6 => has6 x | 7 => has7 x | 8 => has8 x
  | _ => false
  end%N.

(** HasTEID, HasIPv4, HasIPv6, HasPortNumber, HasCTag, HasSTag, IsN19, IsN6, IsLLSSMCTEID of OuterHeaderCreationFields *)
Inductive ohp := OH_TEID | OH_IPv4 | OH_IPv6 | OH_Port | OH_CTag | OH_STag | OH_N19 | OH_N6 | OH_LLSSM.
(** ie/outer-header-creation.go:498-568 *)
Definition oh_pred (p : ohp) (f : ohc) : bool :=
  let o5 := oct5 (oh_desc f) in
  let o6 := u8 (N.land (oh_desc f) 0x00ff) in
  match p with
  | OH_TEID => oh_has_teid o5 | OH_IPv4 => oh_has_v4 o5 | OH_IPv6 => oh_has_v6 o5 | OH_Port => oh_has_port o5 | OH_CTag => has7 o5 | OH_STag => has8 o5
  | OH_N19 => has1 o6 | OH_N6 => has2 o6 | OH_LLSSM => has3 o6
  end.

(** the Flags member of an XxxFields struct (0 for the structs without one) *)
Definition flags_of (f : fields) : N :=
  match f with
  | F_fteid f => ft_flags f | F_fseid f => fs_flags f | F_ueip f => ue_flags f | F_altip f => ai_flags f | F_srcip f => si_flags f | F_ulip f => ul_flags f
  | F_mptcp f => mp_flags f | F_pmf f => pm_flags f | F_rpeer f => rg_flags f | F_mcast f => mc_flags f | F_volm f => vm_flags f | F_vol3 f => v3_flags f
  | F_nue f => nu_flags f | F_delays f => dy_flags f | F_prate f => pr_flags f | F_dlfl f => dm_flags f | F_prstat f => ps_flags f | F_tag f => tg_flags f
  | F_sdf f => sd_flags f | F_userid f => ui_flags f | F_macaddr f => ma_flags f | F_upri f => up_flags f | F_pfdc f => pc_flags f
  | F_ohc _ | F_henr _ | F_redir _ | F_trace _ | F_macl _ => 0
  end.

(** bodies *)
Inductive fbody :=
| BFalse                                      (* return false *)
| BPay (m k : nat) (b : N)                    (* if len(i.Payload) < m: false; return hasB(i.Payload[k]) *)
| BPayAndNot (m k : nat) (b c : N)            (* ... hasB(i.Payload[k]) && !hasC(i.Payload[k]) *)
| BTop (m : nat) (want : bool)                (* ... (i.Payload[0] >> 7) & 0x01 == 1 (or != 1) *)
| BVal (a : acc) (b : N)                      (* v, err := i.A(); if err: false; return hasB(v) *)
| BOct (a : acc) (m k : nat) (b : N)          (* v, err := i.A(); if err: false; if len(v) < m: false; return hasB(v[k]) *)
| BFld (a : acc) (b : N)                      (* v, err := i.A(); if err: false; return v.HasX(), which is hasB(v.Flags) *)
| BOhc (a : acc) (p : ohp)                    (* v, err := i.A(); if err: false; return v.HasX() of OuterHeaderCreationFields *)
| BLen (m : nat) (b : fbody).                 (* if len(i.Payload) < m: false; b *)
Record fdef := mkfdef { fguards : list guard; fcases : list (list N * fbody); fdflt : fbody }.
Fixpoint flookup (cs : list (list N * fbody)) (d : fbody) (t : N) : fbody :=
  match cs with [] => d | (ts, b) :: r => if memb t ts then b else flookup r d t end.
(** guards of a bool method: false instead of an error *)
Fixpoint fcheck (gs : list guard) (i : ie) : bool :=
  match gs with
  | [] => true
  | GLen n :: r => if length (payload i) <? n then false else fcheck r i
  | GType t :: r => if negb (ty i =? t)%N then false else fcheck r i
  end.
(** if err != nil { return false } *)
Definition on_ok (r : res val) (k : val -> res bool) : res bool :=
  match r with Ok v => k v | Err _ => Ok false | Fault => Fault | Fuel => Fuel end.

Section Run.
Variable g : N -> bool.
Fixpoint fbody_run (b : fbody) (i : ie) : res bool :=
  let p := payload i in
  match b with
  | BFalse => Ok false
  | BPay m k b => if length p <? m then Ok false else x <- index p k ;; Ok (hasn b x)
  | BPayAndNot m k b c => if length p <? m then Ok false else x <- index p k ;; Ok (hasn b x && negb (hasn c x))
  | BTop m want => if length p <? m then Ok false else x <- index p 0 ;; Ok (Bool.eqb (N.land (N.shiftr x 7) 0x01 =? 1)%N want)
  | BVal a b => on_ok (access g a i) (fun v => match v with VN x => Ok (hasn b x) | _ => Fault end)
  | BOct a m k b => on_ok (access g a i) (fun v => match v with VB x => if length x <? m then Ok false else y <- index x k ;; Ok (hasn b y) | _ => Fault end)
  | BFld a b => on_ok (access g a i) (fun v => match v with VF f => Ok (hasn b (flags_of f)) | _ => Fault end)
  | BOhc a p => on_ok (access g a i) (fun v => match v with VF (F_ohc f) => Ok (oh_pred p f) | _ => Fault end)
  | BLen m b => if length p <? m then Ok false else fbody_run b i
  end.
Definition fdef_run (d : fdef) (i : ie) : res bool :=
  if fcheck (fguards d) i then fbody_run (flookup (fcases d) (fdflt d) (ty i)) i else Ok false.
End Run.
