(** C109: a structured payload decoded and encoded again, as a relay does. *)
From Verif Require Import Base IETypes IE Bits Codec Codec2 Utils Fields1 Time Fields2 Fields3 Fields4 Access Reuse.
From Verif Require Import PropsFields1 PropsFields2 PropsFields3 FieldsSpec1 FieldsSpec2 FieldsSpec3 FieldsSpec4 FieldsProofs1 FieldsProofs3 FieldsProofs3c.
Set Implicit Arguments.

(** structs whose encoding is what was decoded *)
Definition faithful (f : fields) : bool :=
  match f with
  | F_fteid _ | F_fseid _ | F_altip _ | F_srcip _ | F_ulip _ | F_mptcp _ | F_mcast _ | F_volm _ | F_vol3 _ | F_nue _ | F_delays _ | F_macaddr _ | F_henr _ => true
  | F_ueip f => negb (N.testbit (ue_flags f) 3 && N.testbit (ue_flags f) 6)     (* not both of IPv6D and IP6PL *)
  | F_prate f => N.testbit (pr_flags f) 0 || N.testbit (pr_flags f) 1           (* some direction flagged *)
  | F_dlfl f => N.testbit (dm_flags f) 0 || N.testbit (dm_flags f) 1
  | F_ohc f => negb (N.testbit (oh_desc f) 14 || N.testbit (oh_desc f) 15)      (* neither tag announced *)
  | _ => false
  end.
Local Lemma pref {A} (e r : list A) (x : res (list A)) : x = Ok e -> exists e' r', x = Ok e' /\ e ++ r = e' ++ r'.
Proof. intros ->. now exists e, r. Qed.
Local Lemma henr_encoded x : henr_wf x -> henr_marshal x = Ok (henr_wire x).
Proof.
  destruct x as [t nl n vl v]. unfold henr_wf, short. cbn [he_type he_namelen he_name he_vallen he_val]. intros (Ot & (Bn & Ln) & (Bv & Lv) & -> & ->).
  assert (E : {| he_type := t; he_namelen := lenN n; he_name := n; he_vallen := lenN v; he_val := v |} = new_henr t n v).
  { unfold new_henr, u8. now rewrite !N.mod_small by assumption. }
  rewrite E. destruct (new_henr_marshal t Bn Bv) as [M _]. rewrite !cut256_short in M by assumption. rewrite M, !Nat.sub_diag. cbn [Nat.add make repeat]. now rewrite app_nil_r.
Qed.
Local Lemma ueip_decoded b x : bytes b -> ueip_parse b = Ok x -> ueip_wf x.
Proof.
  intros B P. apply C32_decode in P; [|exact B]. cbn zeta in P. destruct P as (O & V4 & V6 & y & r & Oy & _ & D & L & _).
  unfold ueip_wf. repeat (split; [assumption|]). rewrite D, L. unfold ranged, octet in *. destruct (N.testbit (ue_flags x) 3), (N.testbit (ue_flags x) 6); split; trivial; reflexivity.
Qed.
(** the payload starts with the encoding of what was decoded *)
Theorem C109_relay : forall k b f, bytes b -> fparse k b = Ok (VF f) -> faithful f = true -> exists e r, marshal_fields f = Ok e /\ b = e ++ r.
Proof.
  intros k b f B P F.
  destruct k; cbn [fparse] in P; unfold as_f in P; apply bind_ok in P as (x & P & E); injection E as <-; try discriminate F; cbn [marshal_fields].
  all: try (apply C49_exact in P as (W & _ & r & _ & ->); [|exact B]; apply pref; now apply C49_marshal).
  all: try (apply C60_exact in P as (W & r & _ & ->); [|exact B]; apply pref; rewrite (proj2 (C60_marshal x)); cbn [faithful] in F; now rewrite F).
  all: try (apply C31_exact in P as (W & r & _ & ->); [|exact B]; apply pref; now apply C31_marshal).
  all: try (apply C30_exact in P as (W & r & _ & ->); [|exact B]; apply pref; now apply C30_marshal).
  all: try (apply C55_exact in P as (W & _ & r & _ & ->); [|exact B]; apply pref; now apply C55_marshal).
  all: try (apply C65_exact in P as (W & _ & r & _ & ->); [|exact B]; apply pref; now apply C65_marshal).
  all: try (apply C52_exact in P as (W & r & _ & ->); [|exact B]; apply pref; now apply C52_marshal).
  all: try (apply C57_exact in P as (W & r & _ & ->); [|exact B]; apply pref; now apply C57_marshal).
  all: try (apply C58_exact in P as (W & r & _ & ->); [|exact B]; apply pref; now apply C58_marshal).
  all: try (apply C59_exact in P as (W & _ & r & _ & ->); [|exact B]; apply pref; rewrite (proj2 (C59_marshal x)); cbn [faithful] in F; now rewrite F).
  all: try (apply C50_exact in P as (W & _ & r & _ & ->); [|exact B]; apply pref; now apply C50_marshal).
  all: try (apply C51_exact in P as (W & r & _ & ->); [|exact B]; apply pref; now apply C51_marshal).
  all: try (apply C36_measurement_exact in P as (W & _ & r & _ & ->); [|exact B]; apply pref; now apply (C36_marshal x vol30)).
  all: try (apply C36_volume_exact in P as (W & _ & r & _ & ->); [|exact B]; apply pref; now apply (C36_marshal volm0 x)).
  - (* Header Enrichment *)
    apply C63_exact in P as (W & r & _ & ->); [|exact B]. apply pref. now apply henr_encoded.
  - (* Outer Header Creation *)
    apply C34_exact in P as (W & _ & _ & _ & _ & r & _ & ->); [|exact B]. apply pref. cbn [faithful] in F. apply Bool.negb_true_iff, Bool.orb_false_iff in F as [F1 F2].
    apply C34_marshal; [exact W| |]; change 256%N with (2 ^ 8)%N; rewrite <- N.shiftr_div_pow2, N.shiftr_spec'; assumption.
  - (* UE IP Address *)
    pose proof (ueip_decoded B P) as W. apply C32_decode in P; [|exact B]. cbn zeta in P. destruct P as (O & V4 & V6 & y & r & Oy & _ & D & L & ->). cbn [faithful] in F.
    rewrite (proj1 (@C32_marshal x W)). exists (ueip_wire x), r. split; [reflexivity|]. unfold ueip_wire. rewrite D, L. unfold opts, optn.
    assert (Y : be 1 y = [y]) by (cbn [be N.of_nat]; rewrite N.pow_0_r, N.div_1_r, N.mod_small by exact Oy; reflexivity).
    destruct (N.testbit (ue_flags x) 3), (N.testbit (ue_flags x) 6); try discriminate F; cbn [orb]; rewrite ?Y, <- ?app_assoc; reflexivity.
Qed.
Print Assumptions C109_relay.
(** the encoding is accepted again, as the same struct, unless it is a single octet *)
Theorem C109_again : forall k b f e, bytes b -> fparse k b = Ok (VF f) -> faithful f = true -> marshal_fields f = Ok e ->
  fparse k e = Ok (VF f) \/ length e < 2.
Proof.
  intros k b f e B P F M. destruct (@C109_relay k b f B P F) as (e' & r' & M' & E). rewrite M in M'. injection M' as <-.
  assert (Be : bytes e) by (rewrite E in B; now apply Forall_app in B). clear E r'.
  destruct k; cbn [fparse] in *; unfold as_f in *; apply bind_ok in P as (x & P & E); injection E as <-; try discriminate F; cbn [marshal_fields] in M.
  all: destruct (Nat.lt_ge_cases (length e) 2) as [L|L]; [now right|left].
  all: match goal with |- (bind ?p _) = _ => enough (K : p = Ok x) by now rewrite K end.
  all: try (apply C49_exact in P as (W & _); [|exact B]; rewrite (proj1 (@C49_marshal x W)) in M; injection M as <-; apply C49_exact; [exact Be|]; split; [exact W|]; split; [exact L|]; exists []; split; [constructor|now rewrite app_nil_r]).
  all: try (apply C60_exact in P as (W & _); [|exact B]; rewrite (proj2 (C60_marshal x)) in M; cbn [faithful] in F; rewrite F in M; injection M as <-; apply C60_exact; [exact Be|]; split; [exact W|]; exists []; split; [constructor|now rewrite app_nil_r]).
  all: try (apply C31_exact in P as (W & _); [|exact B]; rewrite (proj1 (@C31_marshal x W)) in M; injection M as <-; apply C31_exact; [exact Be|]; split; [exact W|]; exists []; split; [constructor|now rewrite app_nil_r]).
  all: try (apply C30_exact in P as (W & _); [|exact B]; rewrite (proj1 (@C30_marshal x W)) in M; injection M as <-; apply C30_exact; [exact Be|]; split; [exact W|]; exists []; split; [constructor|now rewrite app_nil_r]).
  all: try (apply C55_exact in P as (W & _); [|exact B]; rewrite (proj1 (@C55_marshal x W)) in M; injection M as <-; apply C55_exact; [exact Be|]; split; [exact W|]; split; [exact L|]; exists []; split; [constructor|now rewrite app_nil_r]).
  all: try (apply C65_exact in P as (W & _); [|exact B]; rewrite (proj1 (@C65_marshal x W)) in M; injection M as <-; apply C65_exact; [exact Be|]; split; [exact W|]; split; [exact L|]; exists []; split; [constructor|now rewrite app_nil_r]).
  all: try (apply C52_exact in P as (W & _); [|exact B]; rewrite (proj1 (@C52_marshal x W)) in M; injection M as <-; apply C52_exact; [exact Be|]; split; [exact W|]; exists []; split; [constructor|now rewrite app_nil_r]).
  all: try (apply C57_exact in P as (W & _); [|exact B]; rewrite (proj1 (C57_marshal x)) in M; injection M as <-; apply C57_exact; [exact Be|]; split; [exact W|]; exists []; split; [constructor|now rewrite app_nil_r]).
  all: try (apply C58_exact in P as (W & _); [|exact B]; rewrite (proj1 (C58_marshal x)) in M; injection M as <-; apply C58_exact; [exact Be|]; split; [exact W|]; exists []; split; [constructor|now rewrite app_nil_r]).
  all: try (apply C59_exact in P as (W & _); [|exact B]; rewrite (proj2 (C59_marshal x)) in M; cbn [faithful] in F; rewrite F in M; injection M as <-; apply C59_exact; [exact Be|]; split; [exact W|]; split; [exact L|]; exists []; split; [constructor|now rewrite app_nil_r]).
  all: try (apply C50_exact in P as (W & _); [|exact B]; rewrite (proj1 (@C50_marshal x W)) in M; injection M as <-; apply C50_exact; [exact Be|]; split; [exact W|]; split; [exact L|]; exists []; split; [constructor|now rewrite app_nil_r]).
  all: try (apply C51_exact in P as (W & _); [|exact B]; rewrite (proj1 (@C51_marshal x W)) in M; injection M as <-; apply C51_exact; [exact Be|]; split; [exact W|]; exists []; split; [constructor|now rewrite app_nil_r]).
  all: try (apply C36_measurement_exact in P as (W & _); [|exact B]; rewrite (proj1 (C36_marshal x vol30)) in M; injection M as <-; apply C36_measurement_exact; [exact Be|]; split; [exact W|]; split; [exact L|]; exists []; split; [constructor|now rewrite app_nil_r]).
  all: try (apply C36_volume_exact in P as (W & _); [|exact B]; rewrite (proj1 (proj2 (proj2 (C36_marshal volm0 x)))) in M; injection M as <-; apply C36_volume_exact; [exact Be|]; split; [exact W|]; split; [exact L|]; exists []; split; [constructor|now rewrite app_nil_r]).
  - (* Header Enrichment *)
    apply C63_exact in P as (W & _); [|exact B]. rewrite (henr_encoded W) in M. injection M as <-. apply C63_exact; [exact Be|]. split; [exact W|]. exists []. split; [constructor|now rewrite app_nil_r].
  - (* Outer Header Creation *)
    apply C34_exact in P as (W & C1 & C2 & B6 & B7 & _); [|exact B]. cbn [faithful] in F. apply Bool.negb_true_iff, Bool.orb_false_iff in F as [F1 F2].
    assert (K : ohc_marshal x = Ok (ohc_wire x)).
    { apply C34_marshal; [exact W| |]; change 256%N with (2 ^ 8)%N; rewrite <- N.shiftr_div_pow2, N.shiftr_spec'; assumption. }
    rewrite K in M. injection M as <-. apply C34_exact; [exact Be|]. repeat (split; [assumption|]). exists []. split; [constructor|now rewrite app_nil_r].
  - (* UE IP Address *)
    pose proof (ueip_decoded B P) as W. pose proof (proj2 (@C32_roundtrip_exact x e W M)) as R. apply R. cbn [faithful] in F. intros T3 T6. rewrite T3, T6 in F. discriminate F.
Qed.
Print Assumptions C109_again.
(** For each of the other types, and for the structs left out above, there is a payload that is not encoded as it was: spare
    octets or bits are cleared, octets are lost, or Marshal fails or panics. *)
Definition unfaithful : list (fkind * list N) :=
  [(K_UEIPAddress, [0x48; 7]); (K_PacketRate, [0; 7]); (K_DLFlowLevelMarking, [0]); (K_OuterHeaderCreation, [64; 0; 7]);
   (K_PMFAddressInformation, [1; 10; 0; 0; 1; 0; 80; 0; 81; 1; 2; 3; 4; 5; 6; 7; 8; 9; 10; 11; 12]);
   (K_CTAG, [7; 0x13; 2]); (K_STAG, [7; 0x13; 2]); (K_PacketRateStatus, [0; 0; 0; 0; 5; 0; 0; 0; 3]); (K_SDFFilter, [2; 9; 1; 2]);
   (K_UserID, [1; 2; 0x21; 0x3f]); (K_RedirectInformation, [1; 0; 1; 7; 0; 1; 8]); (K_RemoteGTPUPeer, [4; 0; 2; 1; 9]);
   (K_UserPlaneIPResourceInformation, [64; 0xf1]); (K_TraceInformation, [0x21; 0xf3; 0x54; 0; 0; 1; 1; 7; 3; 0; 0]); (K_PFDContents, [0; 7]);
   (K_MACAddressesDetected, [0; 1; 2; 3; 4; 5; 6; 0; 0]); (K_MACAddressesRemoved, [0; 1; 2; 3; 4; 5; 6; 0; 0])]%N.
Theorem C109_others_refuted : forall k b, In (k, b) unfaithful -> bytes b /\ exists f, fparse k b = Ok (VF f) /\ ~ exists e r, marshal_fields f = Ok e /\ b = e ++ r.
Proof.
  intros k b I. unfold unfaithful in I. cbn [In] in I.
  repeat (destruct I as [I|I]; [injection I as <- <-; split; [repeat constructor; reflexivity|]; eexists; split; [vm_compute; reflexivity|]; intros (e & r & M & E); vm_compute in M; try discriminate M; injection M as <-; discriminate E|]).
  contradiction.
Qed.
Print Assumptions C109_others_refuted.
(** every type is either always encoded as it was decoded or in that list *)
Theorem C109_every_type : forall k, (forall f, zero_of f = fzero k -> faithful f = true) \/ exists b, In (k, b) unfaithful.
Proof.
  assert (H : forall k, existsb (fun p => match fst p, k with
    | K_UEIPAddress, K_UEIPAddress | K_PacketRate, K_PacketRate | K_DLFlowLevelMarking, K_DLFlowLevelMarking | K_OuterHeaderCreation, K_OuterHeaderCreation
    | K_PMFAddressInformation, K_PMFAddressInformation | K_CTAG, K_CTAG | K_STAG, K_STAG | K_PacketRateStatus, K_PacketRateStatus | K_SDFFilter, K_SDFFilter | K_UserID, K_UserID
    | K_RedirectInformation, K_RedirectInformation | K_RemoteGTPUPeer, K_RemoteGTPUPeer | K_UserPlaneIPResourceInformation, K_UserPlaneIPResourceInformation
    | K_TraceInformation, K_TraceInformation | K_PFDContents, K_PFDContents | K_MACAddressesDetected, K_MACAddressesDetected | K_MACAddressesRemoved, K_MACAddressesRemoved => true
    | _, _ => false end) unfaithful = true -> exists b, In (k, b) unfaithful).
  { intros k K. apply existsb_exists in K as ([k' b] & I & K). exists b. destruct k', k; try discriminate K; exact I. }
  intros k. destruct k; try (right; apply H; reflexivity); left; intros f E; destruct f; try discriminate E; reflexivity.
Qed.
Print Assumptions C109_every_type.
Example C109_ex : exists f, fparse K_FTEID [1; 0; 0; 0; 7; 127; 0; 0; 1; 9; 9]%N = Ok (VF f) /\ faithful f = true /\ marshal_fields f = Ok [1; 0; 0; 0; 7; 127; 0; 0; 1]%N.
Proof. eexists. split; [vm_compute; reflexivity|]. split; vm_compute; reflexivity. Qed.
