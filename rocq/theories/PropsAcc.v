(** Properties C39 and C69-C72: the value accessors. *)
From Verif Require Import Base IETypes IE Spec IEProofs IEProofs2 Codec Fields1 Fields2 Access AccTable AccRun AccProofs AccProofs2 AccProofs3 AccProofs4 AccProofs5 AccProofs6.

(** ** C39: an accessor called on a group returns the value of the first child of an accepted type *)
(** i is any element whatever; ts are the types the accessor looks for at i's type *)
Theorem C39_first_match g a i c ts b : bytes (payload i) -> look a (ty i) = Via c ts b ->
  access g a i = if length (payload i) <? least a then Err EUnexpectedEOF else
    (is <- parseMultiIEs g (payload i) ;; match find (fun x => memb (ty x) ts) is with Some x => access g b x | None => Err EIENotFound end).
Proof. exact (@access_via g a i c ts b). Qed.
Print Assumptions C39_first_match.
(** the same accessor is applied to the child (LocalFTEID: FTEID), and it has code for that child's type *)
Theorem C39_same_accessor a t c ts b : look a t = Via c ts b -> (b = a \/ (a = A_LocalFTEID /\ b = A_FTEID)) /\ forall t', In t' ts -> look b t' <> Leaf LInvalid.
Proof. intros L. split; [exact (@via_same a t c ts b L)|exact (@via_known a t c ts b L)]. Qed.
Print Assumptions C39_same_accessor.
(** a group built from well-formed children: a value comes back iff the first child of an accepted type has it *)
Theorem C39_of_built_group g a t e ies i c ts b v : new_grouped g t e ies = Ok (Some i) -> Forall (fun x => wire g x (enc g x)) (somes ies) ->
  look a t = Via c ts b ->
  (access g a i = Ok v <-> exists x, find (fun x => memb (ty x) ts) (somes ies) = Some x /\ access g b x = Ok v).
Proof. exact (@access_new_grouped g a t e ies i c ts b v). Qed.
Print Assumptions C39_of_built_group.
(** the same for whatever payload is the concatenation of well-formed children (so also after Add and Remove) *)
Theorem C39_of_children g a i c ts b is v : wires g is (payload i) -> look a (ty i) = Via c ts b ->
  (access g a i = Ok v <-> exists x, find (fun x => memb (ty x) ts) is = Some x /\ access g b x = Ok v).
Proof. exact (@access_wires_ok g a i c ts b is v). Qed.
Print Assumptions C39_of_children.
(** every call comes back: the number of nested calls is bounded by the payload *)
Theorem C39_terminates g a i : bytes (payload i) -> access g a i <> Fuel.
Proof. exact (@access_terminates g a i). Qed.
Print Assumptions C39_terminates.
Theorem C39_more_calls_change_nothing g n a i : bytes (payload i) -> 4 + 4 * length (payload i) <= n -> run g n a i = access g a i.
Proof. exact (@run_enough g n a i). Qed.
Print Assumptions C39_more_calls_change_nothing.
(** the result has the Go result type *)
Theorem C39_kind g a i v : access g a i = Ok v -> has_kind (acc_kind a) v = true.
Proof. exact (@access_kind g a i v). Qed.
Print Assumptions C39_kind.
(** an element the accessor has no code for is refused *)
Theorem C39_other_types g a i : bytes (payload i) -> look a (ty i) = Leaf LInvalid ->
  access g a i = Err (EInvalidTypeT (ty i)) \/ (access g a i = Err EUnexpectedEOF /\ length (payload i) < least a).
Proof. exact (@access_invalid g a i). Qed.
Print Assumptions C39_other_types.
(** intended: NetworkInstance on a PDI returns the PDI's Network Instance.  It never succeeds: the loop tests the type of the PDI, not of the child *)
Theorem C39_network_instance_refuted g i v : bytes (payload i) -> ty i = T_PDI -> access g A_NetworkInstance i <> Ok v.
Proof. intros Hb T. exact (@ni_dead g i Hb T v). Qed.
Print Assumptions C39_network_instance_refuted.
Example C39_ex_pdi : let ni := new T_NetworkInstance [115; 111; 109; 101]%N in
  exists i, new_grouped default_grouped T_PDI 0 [Some ni] = Ok (Some i) /\ access default_grouped A_NetworkInstance i = Err EIENotFound.
Proof. eexists. split; [reflexivity|]. vm_compute. reflexivity. Qed.
(** the hypotheses are met: a Create PDR with two Precedences around a PDR ID *)
Example C39_ex : let p v := new_uint 4 T_Precedence v in
  exists i, new_grouped default_grouped T_CreatePDR 0 [Some (new_uint 2 T_PDRID 7); Some (p 9%N); None; Some (p 5%N)] = Ok (Some i) /\
    look A_Precedence T_CreatePDR = Via A_CreatePDR [T_Precedence] A_Precedence /\
    access default_grouped A_Precedence i = Ok (VN 9) /\ access default_grouped A_PDRID i = Ok (VN 7) /\ access default_grouped A_FARID i = Err EIENotFound /\
    access default_grouped A_Cause i = Err (EInvalidTypeT T_CreatePDR).
Proof. eexists. split; [reflexivity|]. split; [reflexivity|]. split; [|split; [|split]]; vm_compute; reflexivity. Qed.
Example C39_ex_wf : Forall (fun x => wire default_grouped x (enc default_grouped x)) (somes [Some (new_uint 2 T_PDRID 7); None; Some (new_uint 4 T_Precedence 9)]).
Proof. apply Forall_cons; [|apply Forall_cons; [|apply Forall_nil]]; apply new_wire; try reflexivity; repeat constructor. Qed.

(** ** C69: which accessor calls can panic *)
(** intended: none.  Exactly 52 pairs of accessor and element type can (unsafe_table), on octets that Parse accepts *)
Theorem C69_panic_exact a t : can_panic a t <-> exists b i, bytes b /\ parse default_grouped b = Ok i /\ ty i = t /\ access default_grouped a i = Fault.
Proof.
  split; [exact (@panics_exist a t)|]. intros (b & i & Hb & P & T & F). rewrite <- can_panicb_ok. destruct (can_panicb a t) eqn:E; [reflexivity|]. exfalso.
  destruct (@access_returns default_grouped a i) as [[x X]|[x X]]; [now apply parse_bytes in P| |congruence..]. rewrite T, <- can_panicb_ok, E. discriminate.
Qed.
Print Assumptions C69_panic_exact.
(** outside the table no call panics, under any grouped-type registration and whatever the element holds *)
Theorem C69_otherwise_returns g a i : bytes (payload i) -> ~ can_panic a (ty i) -> returns (access g a i).
Proof. exact (@access_returns g a i). Qed.
Print Assumptions C69_otherwise_returns.
Theorem C69_total_refuted : exists b i, bytes b /\ parse default_grouped b = Ok i /\ access default_grouped A_SDFFilter i = Fault.
Proof. exists [0; 23; 0; 5; 1; 0; 0; 5; 1]%N. eexists. split; [now repeat constructor|]. split; [reflexivity|]. vm_compute. reflexivity. Qed.
Print Assumptions C69_total_refuted.
Example C69_ex : ~ can_panic A_FTEID T_PDI /\ can_panic A_SDFFilter T_CreatePDR.
Proof. rewrite <- !can_panicb_ok. vm_compute. split; [discriminate|reflexivity]. Qed.

(** ** C70: which accessor calls can succeed *)
(** every call with code for the element's type succeeds on some octets that Parse accepts, except the 10 of dead_table *)
Theorem C70_success_exact a t : (handles a t = true /\ ~ dead a t) <->
  exists b i v, bytes b /\ parse default_grouped b = Ok i /\ ty i = t /\ access default_grouped a i = Ok v.
Proof.
  split; [intros [H D]; exact (@live_ok a t H D)|]. intros (b & i & v & Hb & P & T & E). split; [rewrite <- T; now apply access_handles in E|].
  intros D. rewrite <- T in D. apply (@dead_ok default_grouped a i v) in D; [contradiction|now apply parse_bytes in P].
Qed.
Print Assumptions C70_success_exact.
Theorem C70_dead_for_every_registration g a i v : bytes (payload i) -> dead a (ty i) -> access g a i <> Ok v.
Proof. exact (@dead_ok g a i v). Qed.
Print Assumptions C70_dead_for_every_registration.
Example C70_ex : handles A_Cause T_Cause = true /\ ~ dead A_Cause T_Cause /\ dead A_CTAG T_MACAddressesDetected.
Proof. rewrite <- !deadb_ok. vm_compute. repeat split. discriminate. Qed.

(** ** C71: what an accessor reads *)
Theorem C71_reads_type_and_payload g a i j : ty i = ty j -> payload i = payload j -> (ty i = T_DLBufferingSuggestedPacketCount -> len i = len j) ->
  access g a i = access g a j.
Proof. exact (@access_same g a i j). Qed.
Print Assumptions C71_reads_type_and_payload.
(** so a change of ChildIEs alone is not seen *)
Theorem C71_children_invisible g a i cs : access g a (mkIE (ty i) (len i) (eid i) (payload i) cs) = access g a i.
Proof. now apply access_same. Qed.
Print Assumptions C71_children_invisible.
(** ... and Length decides for DL Buffering Suggested Packet Count *)
Theorem C71_length_refuted : exists i j, ty i = ty j /\ payload i = payload j /\ eid i = eid j /\ children i = children j /\
  access default_grouped A_DLBufferingSuggestedPacketCount i = Ok (VN 1) /\ access default_grouped A_DLBufferingSuggestedPacketCount j = Ok (VN 258).
Proof. exists (mkIE T_DLBufferingSuggestedPacketCount 1 0 [1; 2]%N []), (mkIE T_DLBufferingSuggestedPacketCount 2 0 [1; 2]%N []). repeat split. Qed.
Print Assumptions C71_length_refuted.

(** ** C72: LocalFTEIDN *)
Theorem C72_nth g n i : bytes (payload i) -> ty i = T_CreatedTrafficEndpoint -> (1 <= n)%Z ->
  local_fteid_n g n i = (is <- parseMultiIEs g (payload i) ;;
    match nth_error (filter (fun x => (ty x =? T_FTEID)%N) is) (Z.to_nat (n - 1)) with Some x => access g A_FTEID x | None => Err EIENotFound end).
Proof. exact (@local_fteid_n_spec g n i). Qed.
Print Assumptions C72_nth.
Theorem C72_below_one g n i : (n < 1)%Z -> local_fteid_n g n i = Err EIENotFound.
Proof. exact (@local_fteid_n_low g n i). Qed.
Print Assumptions C72_below_one.
Theorem C72_other_types g n i : (1 <= n)%Z -> ty i <> T_CreatedTrafficEndpoint -> local_fteid_n g n i = Err (EInvalidTypeT (ty i)).
Proof. exact (@local_fteid_n_type g n i). Qed.
Print Assumptions C72_other_types.
(** the first is what LocalFTEID returns *)
Theorem C72_first g i : bytes (payload i) -> ty i = T_CreatedTrafficEndpoint -> local_fteid_n g 1 i = access g A_LocalFTEID i.
Proof.
  intros Hb T. rewrite local_fteid_n_spec by (trivial; lia). rewrite (@access_via g A_LocalFTEID i A_CreatedTrafficEndpoint [T_FTEID] A_FTEID Hb) by (rewrite T; reflexivity).
  cbn [least glen guards acc_def fold_right]. destruct (Nat.ltb_spec (length (payload i)) 0); [lia|]. destruct (parseMultiIEs g (payload i)) as [is| | |]; [|reflexivity..]. cbn [bind].
  unfold first_of. induction is as [|x r IH]; [reflexivity|]. cbn [filter find memb existsb]. rewrite orb_false_r. destruct (ty x =? T_FTEID)%N; [reflexivity|]. exact IH.
Qed.
Print Assumptions C72_first.
