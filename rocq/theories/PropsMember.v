(** C85: the members of the grouped IEs of TS 29.244 and the accessors that find them *)
From Coq Require Import String.
From Verif Require Import Base IETypes IE Spec IEProofs IEProofs2 Codec Fields1 Fields2 Access AccTable AccRun AccProofs AccProofs2 AccProofs3 AccProofs4 AccProofs5 AccProofs6 IENames AccNames Members MemberProofs.

(** on a group of TS 29.244, the accessor named after a member returns the value of the first such member in the group *)
Theorem C85_member g a i c is v : wires g is (payload i) -> member (ty i) c -> named a c -> ~ unreached (ty i) c -> ~ (ty i = T_PDI /\ c = T_FTEID) ->
  (access g a i = Ok v <-> exists x, find (fun x => (ty x =? c)%N) is = Some x /\ access g a x = Ok v).
Proof.
  intros W M K U P. pose proof (@member_checked a (ty i) c M K) as H. destruct (pairb unreachable (ty i) c) eqn:E; [apply pairb_ok in E; contradiction|].
  destruct H as [x H]. unfold pdi_fteid in H. destruct ((ty i =? T_PDI)%N && (c =? T_FTEID)%N) eqn:B.
  - apply andb_prop in B as [B1 B2]. apply N.eqb_eq in B1. apply N.eqb_eq in B2. tauto.
  - rewrite (@access_wires_ok g a i x [c] a is v W H). unfold first_of.
    rewrite (@find_same (fun y => memb (ty y) [c]) (fun y => (ty y =? c)%N)); [reflexivity|]. intros y. unfold memb. cbn [existsb]. apply orb_false_r.
Qed.
Print Assumptions C85_member.
(** in a PDI the F-TEID may also be the one in the Redundant Transmission Parameters, whichever comes first *)
Theorem C85_pdi_fteid g i is v : wires g is (payload i) -> ty i = T_PDI ->
  (access g A_FTEID i = Ok v <->
   exists x, find (fun x => (ty x =? T_FTEID)%N || (ty x =? T_RedundantTransmissionParameters)%N) is = Some x /\ access g A_FTEID x = Ok v).
Proof.
  intros W T. rewrite (@access_wires_ok g A_FTEID i A_PDI [T_FTEID; T_RedundantTransmissionParameters] A_FTEID is v W); [|now rewrite T].
  unfold first_of. rewrite (@find_same (fun y => memb (ty y) [T_FTEID; T_RedundantTransmissionParameters]) (fun y => (ty y =? T_FTEID)%N || (ty y =? T_RedundantTransmissionParameters)%N)); [reflexivity|].
  intros y. unfold memb. cbn [existsb]. now rewrite orb_false_r.
Qed.
Print Assumptions C85_pdi_fteid.
(** intended: true of every member.  Of the 427 members, 31 are out of reach: the accessor named after them returns nothing, whatever the group contains *)
Theorem C85_unreachable_refuted g a i c v : bytes (payload i) -> member (ty i) c -> named a c -> unreached (ty i) c -> access g a i <> Ok v.
Proof.
  intros B M K U E. pose proof (@member_checked a (ty i) c M K) as H. apply pairb_ok in U. rewrite U in H. destruct H as [H|H].
  - apply access_handles in E. congruence.
  - exact (@dead_ok g a i v B H E).
Qed.
Print Assumptions C85_unreachable_refuted.
(** the other groups an accessor looks into, one level deeper or for an element that TS 29.244 does not have there *)
Theorem C85_through g a i us ts b is v : wires g is (payload i) -> In (a, us, ts, b) through -> In (ty i) us ->
  (access g a i = Ok v <-> exists x, find (fun x => memb (ty x) ts) is = Some x /\ access g b x = Ok v).
Proof. intros W I T. destruct (@through_checked a us ts b (ty i) I T) as [c H]. exact (@access_wires_ok g a i c ts b is v W H). Qed.
Print Assumptions C85_through.
(** an accessor that gives a part of the value of another one has no value where the other has none *)
Theorem C85_part g a i us b v : bytes (payload i) -> In (a, us, b) part -> In (ty i) us -> access g a i = Ok v -> exists w, access g b i = Ok w.
Proof. exact (@part_ok g a i us b v). Qed.
Print Assumptions C85_part.
(** and on no other element does an accessor return anything *)
Theorem C85_nothing_else g a i v : bytes (payload i) -> access g a i = Ok v ->
  named a (ty i) \/ (exists c, member (ty i) c /\ named a c /\ ~ unreached (ty i) c) \/ elsewhere a (ty i).
Proof.
  intros B E. destruct (@only_checked a (ty i) (@access_handles g a i v E)) as [D|[N|[(c & M & K)|X]]].
  - exfalso. exact (@dead_ok g a i v B D E).
  - left. exact N.
  - right. left. exists c. repeat split; try assumption. intros U. exact (@C85_unreachable_refuted g a i c v B M K U E).
  - right. right. exact X.
Qed.
Print Assumptions C85_nothing_else.
(** how many there are *)
Example C85_sizes : length (flat_map snd members) = 427 /\ length (flat_map snd unreachable) = 31 /\ length members = 84.
Proof. vm_compute. repeat split. Qed.
(** the hypotheses are met *)
Example C85_ex : let is := [new_uint 2 T_PDRID 7; new_uint 4 T_Precedence 9; new_uint 4 T_Precedence 5] in
  exists i, new_grouped default_grouped T_CreatePDR 0 (map Some is) = Ok (Some i) /\ wires default_grouped is (payload i) /\
    member (ty i) T_Precedence /\ named A_Precedence T_Precedence /\ ~ unreached (ty i) T_Precedence /\ ~ (ty i = T_PDI /\ T_Precedence = T_FTEID) /\
    access default_grouped A_Precedence i = Ok (VN 9).
Proof.
  cbn zeta. eexists. split; [reflexivity|]. split; [|split; [|split; [|split; [|split]]]].
  - apply (@concat_enc_wires default_grouped). repeat apply Forall_cons; try apply Forall_nil; apply new_wire; try reflexivity; repeat constructor.
  - refine (proj1 (pairb_ok _ _ _) _). vm_compute. reflexivity.
  - refine (proj1 (codes_ok _ _) _). refine (proj1 (memb_spec _ _) _). vm_compute. reflexivity.
  - intros H. apply (proj2 (pairb_ok unreachable _ _)) in H. vm_compute in H. discriminate.
  - intros [H _]. vm_compute in H. discriminate.
  - vm_compute. reflexivity.
Qed.
(** a session report with the element its accessor is named after *)
Example C85_ex_unreachable : let x := new T_AccessAvailabilityReport (enc default_grouped (new T_AccessAvailabilityInformation [5%N])) in
  exists i, new_grouped default_grouped T_SessionReport 0 [Some x] = Ok (Some i) /\ bytes (payload i) /\
    member (ty i) T_AccessAvailabilityReport /\ named A_AccessAvailabilityReport T_AccessAvailabilityReport /\ unreached (ty i) T_AccessAvailabilityReport /\
    returns (access default_grouped A_AccessAvailabilityReport x) /\ access default_grouped A_AccessAvailabilityReport i = Err (EInvalidTypeT T_SessionReport).
Proof.
  cbn zeta. eexists. split; [reflexivity|]. split; [|split; [|split; [|split; [|split]]]].
  - vm_compute. repeat constructor.
  - refine (proj1 (pairb_ok _ _ _) _). vm_compute. reflexivity.
  - refine (proj1 (codes_ok _ _) _). refine (proj1 (memb_spec _ _) _). vm_compute. reflexivity.
  - refine (proj1 (pairb_ok _ _ _) _). vm_compute. reflexivity.
  - left. eexists. vm_compute. reflexivity.
  - vm_compute. reflexivity.
Qed.
Example C85_ex_through : exists us ts, In (A_SDFFilter, us, ts, A_SDFFilter) through /\ In T_CreatePDR us /\ ts = [T_PDI].
Proof. exists [T_CreatePDR], [T_PDI]. split; [|split; [left|]; reflexivity]. vm_compute. repeat (first [left; reflexivity | right]). Qed.
