(** Properties of the bool methods of *IE, of the flag methods of the XxxFields structs, and of ValidateApplyAction. *)
From Verif Require Import Base IETypes IE Bits Codec Fields1 Fields3 FieldsSpec3 Access AccTable AccRun AccProofs5 Spec IEProofs Flags FlagTable FlagRun FlagSpec FlagProofs FlagProofs2 FlagProofs3.

(** C73: a flag method returns the bit that TS 29.244 assigns to the flag (FlagSpec.layout, written from the specification), and false if the
    payload is shorter than the IE can be; g is any registration in which the type is not grouped. *)
Theorem C73_bit g f i k b : bytes (payload i) -> g (ty i) = false -> position layout f (ty i) = Some (k, b) ->
  flag_run g f i = Ok (if length (payload i) <? Nat.max (S k) (shortest (ty i)) then false else N.testbit (nth k (payload i) 0%N) (b - 1)).
Proof. exact (@layout_bit g f i k b). Qed.
Print Assumptions C73_bit.
(** HasTTC and HasSCI of a DL Flow Level Marking, and HasIPv4 and HasIPv6 of an IP Version, read each other's bit. *)
Theorem C73_swapped_exact g f i k b : bytes (payload i) -> g (ty i) = false -> position swapped f (ty i) = Some (k, b) ->
  flag_run g f i = Ok (if length (payload i) <? S k then false else N.testbit (nth k (payload i) 0%N) (2 - b)).
Proof. exact (@swapped_bit g f i k b). Qed.
Print Assumptions C73_swapped_exact.
Theorem C73_swapped_refuted : exists f i b, bytes (payload i) /\ default_grouped (ty i) = false /\ position swapped f (ty i) = Some (0, b) /\
  flag_run default_grouped f i = Ok (negb (N.testbit (nth 0 (payload i) 0%N) (b - 1))).
Proof. exists B_HasIPv4, (new T_IPVersion [1%N]), 1%N. split; [repeat constructor; reflexivity|]. split; [reflexivity|]. split; reflexivity. Qed.
Print Assumptions C73_swapped_refuted.
(** Different flags of one IE type are different bits. *)
Theorem C73_distinct f f' t p : position layout f t = Some p -> position layout f' t = Some p -> f = f'.
Proof. exact (@layout_distinct f f' t p). Qed.
Print Assumptions C73_distinct.
(** Every flag method is covered by the tables. *)
Theorem C73_covers f : exists t, position layout f t <> None \/ position swapped f t <> None \/ exists fs, In (t, fs) special /\ In f fs.
Proof. exact (layout_covers f). Qed.
Print Assumptions C73_covers.
Example C73_ex : position layout B_HasTEBUR T_UsageReportTrigger = Some (2, 2%N) /\ flag_run default_grouped B_HasTEBUR (new T_UsageReportTrigger [0; 0; 2]%N) = Ok true /\
  flag_run default_grouped B_HasPERIO (new T_UsageReportTrigger [1]%N) = Ok false.
Proof. repeat split; reflexivity. Qed.

(** C74: on a group the method returns the flag of the first child of the type it looks for; false if there is none or the payload is no list of IEs. *)
Theorem C74_group g f i c l : bytes (payload i) -> In (ty i, c, l) inside -> position layout f l <> None ->
  flag_run g f i = match parseMultiIEs g (payload i) with
    | Ok is => match find (fun x => (ty x =? c)%N) is with Some x => flag_run g f x | None => Ok false end
    | _ => Ok false
    end.
Proof.
  intros Hb I P. rewrite (@inside_flag g f i c l Hb I P). unfold first_of, children_of.
  destruct (parseMultiIEs g (payload i)); [|reflexivity..].
  assert (E : forall l, find (fun x => memb (ty x) [c]) l = find (fun x => (ty x =? c)%N) l); [|now rewrite E].
  intros l0. induction l0 as [|x r IH]; [reflexivity|]. cbn [find]. rewrite IH. unfold memb. cbn [existsb]. now rewrite orb_false_r.
Qed.
Print Assumptions C74_group.
(** In particular for a group given by its children. *)
Theorem C74_children g f i c l is : wires g is (payload i) -> In (ty i, c, l) inside -> position layout f l <> None ->
  flag_run g f i = match find (fun x => (ty x =? c)%N) is with Some x => flag_run g f x | None => Ok false end.
Proof. intros W I P. pose proof (IEProofs.wires_bytes W) as Hb. rewrite (@C74_group g f i c l Hb I P), (@IEProofs.parseMulti_wires g is _ W). reflexivity. Qed.
Print Assumptions C74_children.
Example C74_ex : flag_run default_grouped B_HasFORW (mkIE T_CreateFAR 14 0 [0; 108; 0; 4; 0; 0; 0; 1; 0; 44; 0; 2; 2; 0]%N []) = Ok true /\
  In (T_CreateFAR, T_ApplyAction, T_ApplyAction) inside.
Proof. split; [vm_compute; reflexivity|now left]. Qed.

(** C75: a method called on any other IE returns false. *)
Theorem C75_elsewhere g f i : bytes (payload i) -> position layout f (ty i) = None -> position swapped f (ty i) = None ->
  (forall c l, In (ty i, c, l) inside -> position layout f l = None) -> (forall fs, In (ty i, fs) special -> ~ In f fs) -> flag_run g f i = Ok false.
Proof. exact (@other_flag g f i). Qed.
Print Assumptions C75_elsewhere.
Example C75_ex : flag_run default_grouped B_HasFORW (new T_ReportType [255%N]) = Ok false.
Proof. reflexivity. Qed.

(** C76: the methods that combine bits.  [bit_at i k b]: bit b (from 1) of octet k of the payload. *)
Theorem C76_ue_ipv4 g i : ty i = T_UEIPAddress -> flag_run g B_HasIPv4 i = Ok (if length (payload i) <? 1 then false else bit_at i 0 2 && negb (bit_at i 0 5)).
Proof. exact (@ueip_v4 g i). Qed.
Print Assumptions C76_ue_ipv4.
(** HasIPv6 of a UE IP Address is suppressed by CHOOSE IPV4 (bit 5), not by CHOOSE IPV6 (bit 6). *)
Theorem C76_ue_ipv6_exact g i : ty i = T_UEIPAddress -> flag_run g B_HasIPv6 i = Ok (if length (payload i) <? 1 then false else bit_at i 0 1 && negb (bit_at i 0 5)).
Proof. exact (@ueip_v6 g i). Qed.
Print Assumptions C76_ue_ipv6_exact.
Theorem C76_ue_ipv6_refuted : exists i, bytes (payload i) /\ ty i = T_UEIPAddress /\ flag_run default_grouped B_HasIPv6 i <> Ok (bit_at i 0 1 && negb (bit_at i 0 6)).
Proof. exists (new T_UEIPAddress [0x21%N]). split; [repeat constructor; reflexivity|]. split; [reflexivity|]. intros H. discriminate H. Qed.
Print Assumptions C76_ue_ipv6_refuted.
(** TS 29.244 8.2.54: bit 8 set means the URR is predefined in the UP function; the methods report the opposite. *)
Theorem C76_urr_cp_exact g i : ty i = T_URRID -> flag_run g B_IsAllocatedByCPFunction i = Ok (if length (payload i) <? 1 then false else bit_at i 0 8).
Proof. exact (@urr_cp g i). Qed.
Print Assumptions C76_urr_cp_exact.
Theorem C76_urr_up_exact g i : ty i = T_URRID -> flag_run g B_IsAllocatedByUPFunction i = Ok (if length (payload i) <? 1 then false else negb (bit_at i 0 8)).
Proof. exact (@urr_up g i). Qed.
Print Assumptions C76_urr_up_exact.
Theorem C76_fseid g i : bytes (payload i) -> ty i = T_FSEID ->
  flag_run g B_HasIPv4 i = Ok (is_ok (fseid_parse (payload i)) && bit_at i 0 2) /\ flag_run g B_HasIPv6 i = Ok (is_ok (fseid_parse (payload i)) && bit_at i 0 1).
Proof. intros Hb T. split; [exact (@fseid_v4 g i Hb T)|exact (@fseid_v6 g i Hb T)]. Qed.
Print Assumptions C76_fseid.
Theorem C76_fteid g i : bytes (payload i) -> ty i = T_FTEID ->
  flag_run g B_HasIPv4 i = Ok (is_ok (fteid_parse (payload i)) && bit_at i 0 1) /\ flag_run g B_HasIPv6 i = Ok (is_ok (fteid_parse (payload i)) && bit_at i 0 2).
Proof. intros Hb T. split; [exact (@fteid_v4 g i Hb T)|exact (@fteid_v6 g i Hb T)]. Qed.
Print Assumptions C76_fteid.
Theorem C76_ohc g f i : bytes (payload i) -> ty i = T_OuterHeaderCreation -> In f ohc_flags ->
  flag_run g f i = match ohc_parse (payload i) with Ok _ => Ok (ohc_bit f i) | Err _ => Ok false | Fault => Fault | Fuel => Fuel end.
Proof. exact (@ohc_flag g f i). Qed.
Print Assumptions C76_ohc.
Example C76_ex : flag_run default_grouped B_HasIPv4 (new T_OuterHeaderCreation [1; 0; 0; 0; 0; 9; 127; 0; 0; 1]%N) = Ok true /\
  flag_run default_grouped B_IsN6 (new T_OuterHeaderCreation [1; 2; 0; 0; 0; 9; 127; 0; 0; 1]%N) = Ok true /\
  flag_run default_grouped B_HasIPv6 (new T_FTEID [2; 0; 0; 0; 1]%N) = Ok false.
Proof. repeat split; reflexivity. Qed.

(** C77: HasMAC panics on an empty TSN Bridge ID and the methods on an Outer Header Creation panic when its decoder does; no other call panics,
    and every call comes back. *)
Theorem C77_panic_exact g f i : bytes (payload i) -> (flag_run g f i = Fault <->
  (f = B_HasMAC /\ ty i = T_TSNBridgeID /\ payload i = []) \/
  (In f [B_HasTEID; B_HasIPv4; B_HasIPv6; B_HasPortNumber; B_HasCTag; B_HasSTag; B_IsN19; B_IsN6; B_IsLLSSMCTEID] /\ ty i = T_OuterHeaderCreation /\ ohc_parse (payload i) = Fault)).
Proof. exact (@flag_fault g f i). Qed.
Print Assumptions C77_panic_exact.
Theorem C77_answers g f i : bytes (payload i) -> flag_run g f i = Fault \/ exists b, flag_run g f i = Ok b.
Proof. intros Hb. destruct (@flag_outcome g f i Hb) as [[E _]|[E _]]; auto. Qed.
Print Assumptions C77_answers.
Theorem C77_total_refuted : exists w i, bytes w /\ parse default_grouped w = Ok i /\ flag_run default_grouped B_HasTEID i = Fault /\
  exists w' i', bytes w' /\ parse default_grouped w' = Ok i' /\ flag_run default_grouped B_HasMAC i' = Fault.
Proof.
  exists [0; 84; 0; 5; 0; 0x40; 1; 2; 3]%N, (mkIE 84 5 0 [0; 0x40; 1; 2; 3]%N []). split; [repeat constructor; reflexivity|]. split; [reflexivity|]. split; [vm_compute; reflexivity|].
  exists [0; 198; 0; 0]%N, (mkIE 198 0 0 [] []). split; [repeat constructor; reflexivity|]. split; reflexivity.
Qed.
Print Assumptions C77_total_refuted.

(** C78: SetXFlag of a struct sets the bit that HasX reads, the one the specification gives to the flag, and changes no other. *)
Theorem C78_set_has s x : has_flag s (set_flag s x) = true.
Proof. exact (set_has s x). Qed.
Print Assumptions C78_set_has.
Theorem C78_set_others s s' x : sflag_kind s' = sflag_kind s -> s' <> s -> has_flag s' (set_flag s x) = has_flag s' x.
Proof. exact (@set_other s s' x). Qed.
Print Assumptions C78_set_others.
Theorem C78_positions s : exists b, In (b, s) (concat slayout) /\ (forall x, has_flag s x = N.testbit x (b - 1)) /\ forall x j, N.testbit (set_flag s x) j = (j =? b - 1)%N || N.testbit x j.
Proof.
  destruct (slayout_all s) as [b I]. exists b. split; [exact I|]. rewrite <- (@slayout_bit s b I). split; [exact (has_flag_bit s)|exact (set_flag_bits s)].
Qed.
Print Assumptions C78_positions.
Theorem C78_octet s x : octet x -> octet (set_flag s x).
Proof. exact (@set_octet s x). Qed.
Print Assumptions C78_octet.
Example C78_ex : set_flag S_SDFFilter_FL 0x01 = 0x09%N /\ has_flag S_SDFFilter_FD 0x09 = true /\ sflag_kind S_SDFFilter_FL = sflag_kind S_SDFFilter_FD /\ S_SDFFilter_FD <> S_SDFFilter_FL.
Proof. repeat split; try reflexivity. discriminate. Qed.

(** C45: ValidateApplyAction accepts exactly the consistent actions of TS 29.244 8.2.26. [flag_set i k b]: octet k is there and its bit b is set. *)
Theorem C45_validate g i : bytes (payload i) -> ty i = T_ApplyAction ->
  let o := flag_set i 0 in let p := flag_set i 1 in
  (validate_apply_action g i = Ok tt <->
    (exists b, In b [1; 2; 3; 6; 7]%N /\ forall b', In b' [1; 2; 3; 6; 7]%N -> (o b' = true <-> b' = b)) /\
    (o 4%N = true \/ p 2%N = true -> o 3%N = true) /\
    (o 5%N = true -> o 1%N = true \/ o 2%N = true \/ o 3%N = true \/ o 4%N = true) /\
    (o 8%N = true -> o 2%N = true) /\
    (p 3%N = true -> o 1%N = true \/ o 3%N = true)).
Proof. intros Hb T. destruct (@validate_spec g i Hb T) as [[A E]|[A E]]; unfold action_ok in A; cbn zeta in *; rewrite E; split; intros X; trivial; [discriminate|contradiction]. Qed.
Print Assumptions C45_validate.
Theorem C45_refuses g i : bytes (payload i) -> ty i = T_ApplyAction -> validate_apply_action g i = Ok tt \/ validate_apply_action g i = Err EMalformed.
Proof. intros Hb T. destruct (@validate_spec g i Hb T) as [[_ E]|[_ E]]; auto. Qed.
Print Assumptions C45_refuses.
Theorem C45_type g i : ty i <> T_ApplyAction -> validate_apply_action g i = Err (EInvalidTypeT (ty i)).
Proof. exact (@validate_type g i). Qed.
Print Assumptions C45_type.
Example C45_ex : validate_apply_action default_grouped (new T_ApplyAction [0x0c; 0x02]%N) = Ok tt /\ validate_apply_action default_grouped (new T_ApplyAction [0x03]%N) = Err EMalformed /\
  validate_apply_action default_grouped (new T_ApplyAction []) = Err EMalformed.
Proof. repeat split; reflexivity. Qed.
