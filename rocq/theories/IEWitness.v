(** Witnesses and small lemmas used by the property files for the IE codec. *)
From Verif Require Import Base IETypes IE Spec IEProofs IEProofs2.
Local Open Scope N_scope.

(** C06: a header-only Node ID announcing 5 octets is accepted. *)
Lemma truncated_header_accepted :
  exists i b k, wire default_grouped i b /\ (k < length b)%nat /\
    exists j, parse default_grouped (firstn k b) = Ok j.
Proof.
  exists (new T_NodeID [0;127;0;0;1]), (be 2 T_NodeID ++ be 2 5 ++ [0;127;0;0;1]), 4%nat.
  split; [|split; [simpl; lia|]].
  - apply (@new_wire default_grouped T_NodeID [0;127;0;0;1]); try reflexivity.
    repeat constructor.
  - eexists. vm_compute. reflexivity.
Qed.

(** C08: a panic for a buffer that is too small, and a silent partial write for a
    vendor-specific grouped element. *)
Lemma short_buffer_panics :
  exists i b, (length b < mlen default_grouped i)%nat /\ marshal_to default_grouped i b = Fault.
Proof. exists (new T_Cause [1]), [0;0;0;0]. split; [vm_compute; lia|reflexivity]. Qed.
Lemma short_buffer_silent :
  exists (g : N -> bool) i b s, (length b < mlen g i)%nat /\ marshal_to g i b = Ok s.
Proof.
  exists (fun t => t =? 0x8001), (mkIE 0x8001 2 10 [] []), [0;0;0;0], [128;1;0;2].
  split; [vm_compute; lia|reflexivity].
Qed.

(** C09: the stored Length is the payload size modulo 2^16, so it is wrong from 65536 octets on. *)
Lemma zeros_exist : forall n, exists p, bytes p /\ length p = n.
Proof.
  intros n. exists (repeat 0 n). split; [|apply repeat_length].
  apply Forall_forall. intros x Hx. apply repeat_spec in Hx. subst. reflexivity.
Qed.
Lemma length_wrong_when_large g t p : t < 0x8000 -> g t = false -> 65536 <= lenN p ->
  N.of_nat (mlen g (new t p)) <> len (new t p) + 4.
Proof.
  intros Ht G Hp. rewrite mlen_eq. unfold new, set_length. cbn [ty len payload]. rewrite G.
  unfold hdr. rewrite (vendor_false Ht). unfold lenN, u16 in *.
  pose proof (N.mod_lt (0 + N.of_nat (length p)) 65536). lia.
Qed.
Lemma length_wraps :
  exists t p, bytes p /\ default_grouped t = false /\
    N.of_nat (mlen default_grouped (new t p)) <> len (new t p) + 4.
Proof.
  destruct (zeros_exist (N.to_nat 65536)) as (p & Hp & Hl).
  exists T_NetworkInstance, p. split; [exact Hp|]. split; [reflexivity|].
  apply length_wrong_when_large; try reflexivity. unfold lenN. rewrite Hl, N2Nat.id. apply N.le_refl.
Qed.

(** C09: New on a grouped type sets Length from the raw payload but encodes no children. *)
Lemma new_grouped_type_drops_payload :
  marshal default_grouped (new T_CreateFAR [0;108;0;4;0;0;0;1]) = Ok [0;3;0;8].
Proof. reflexivity. Qed.

(** C13: Create PDR { PDI { Source Interface } }; add an element to the inner PDI. *)
Definition si : ie := new T_SourceInterface [0].
Definition pdi : ie := mkIE T_PDI 5 0 (enc default_grouped si) [si].
Definition pdr : ie := mkIE T_CreatePDR 9 0 (enc default_grouped pdi) [pdi].
Lemma nested_edit_breaks_parent :
  coherent default_grouped pdr /\ coherent default_grouped pdi /\
  exists pdi' b,
    find_by_type default_grouped pdr T_PDI = Ok pdi /\
    add default_grouped pdi [Some (new T_NetworkInstance [97])] = Ok pdi' /\
    marshal default_grouped (with_children pdr [pdi']) = Ok b /\
    parse default_grouped b <> Ok (with_children pdr [pdi']) /\
    (exists e, parse default_grouped b = Err e).
Proof.
  split; [split; reflexivity|]. split; [split; reflexivity|].
  exists (mkIE T_PDI 10 0 [0;20;0;1;0;0;22;0;1;97] [si; new T_NetworkInstance [97]]),
    [0;1;0;9;0;2;0;10;0;20;0;1;0;0;22;0;1;97].
  split; [vm_compute; reflexivity|]. split; [vm_compute; reflexivity|]. split; [vm_compute; reflexivity|].
  assert (E : parse default_grouped [0;1;0;9;0;2;0;10;0;20;0;1;0;0;22;0;1;97] = Err EUnexpectedEOF)
    by (vm_compute; reflexivity).
  rewrite E. split; [discriminate|]. eexists. reflexivity.
Qed.

(** A concrete nested, vendor-carrying element meeting the hypotheses of the round-trip theorems. *)
Definition sample : ie :=
  mkIE T_CreatePDR 28 0
    (enc default_grouped (new T_PDRID [0;1]) ++ enc default_grouped pdi
     ++ enc default_grouped (new_vendor 0x8001 10 [1;2;3]) ++ [0;21;0;0])
    [new T_PDRID [0;1]; pdi; new_vendor 0x8001 10 [1;2;3]; new T_FTEID []].
Lemma bytesb l : forallb (fun x => x <? 256) l = true -> bytes l.
Proof.
  intros H. rewrite forallb_forall in H. apply Forall_forall. intros x Hx. apply H in Hx.
  apply N.ltb_lt in Hx. exact Hx.
Qed.
