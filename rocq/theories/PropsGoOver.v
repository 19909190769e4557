(** C111: MarshalTo of the XxxFields structs into a slice with spare capacity.  [xcall n L c F M] (GoOver.v) is the call of the method with body c on the struct F and the
    first L octets of the memory M: the struct and the memory it leaves, and what it returns.  [go_to k] is the body of MarshalTo of the type k as written in the source. *)
From Coq Require Import String.
From Verif Require Import Base Bits Codec Codec2 Utils Fields1 Time Fields2 Fields3 Fields4 Access Reuse Go GoFields GoRep GoProofs GoTo GoMeta GoOver GoWithin AnySpec AnyProofs PropsAny PropsBuffer PropsGo.
Open Scope string_scope.
Open Scope list_scope.
Open Scope nat_scope.

(** without spare capacity this is the call of Go.v (C104) *)
Theorem C111_same : forall c F b n, xcall n (List.length b) c F b = call n c F b.
Proof. intros. unfold xcall, call. now rewrite (@without n c (List.length b) (St F [] b) eq_refl). Qed.
Print Assumptions C111_same.
(** if the call on the slice alone does not panic, then spare capacity makes no difference and is left as it was *)
Lemma confined c F b T n : snd (call n c F b) <> Fault ->
  xcall n (List.length b) c F (b ++ T) = (ext T (fst (call n c F b)), snd (call n c F b)).
Proof.
  unfold call, xcall. intros H. pose proof (@simulates n (List.length b) T c (St F [] b) eq_refl) as S. unfold ext at 1 in S. cbn [flds vars buf] in S.
  rewrite S; [destruct (exec n c (St F [] b)); reflexivity|]. intros [u E]. rewrite E in H. now apply H.
Qed.
Theorem C111_confined : forall k F L M n, L <= List.length M -> snd (call n (go_to k) F (firstn L M)) <> Fault ->
  let o := xcall n L (go_to k) F M in let p := call n (go_to k) F (firstn L M) in
  snd o = snd p /\ firstn L (buf (fst o)) = buf (fst p) /\ skipn L (buf (fst o)) = skipn L M /\ flds (fst o) = F.
Proof.
  intros k F L M n H P. cbv zeta. pose proof (@confined (go_to k) F (firstn L M) (skipn L M) n P) as E. rewrite firstn_length, Nat.min_l, firstn_skipn in E by exact H.
  destruct (C105_struct k F (firstn L M) n) as [S1 S2]. rewrite firstn_length, Nat.min_l in S2 by exact H. rewrite E. cbn [fst snd ext buf flds].
  split; [reflexivity|]. rewrite firstn_app, skipn_app, S2, Nat.sub_diag. rewrite <- S2 at 1. rewrite firstn_all, firstn_O, app_nil_r. split; [reflexivity|].
  rewrite <- S2 at 1. rewrite skipn_all. split; [reflexivity|exact S1].
Qed.
Print Assumptions C111_confined.
(** the types that check before every write: the slice is the limit, whatever the struct, and too short a slice is an error *)
Theorem C111_guarded : forall k f F L M n, rep k f = Some F -> octet_members f -> guarded f = true -> L <= List.length M ->
  let o := xcall n L (go_to k) F M in
  skipn L (buf (fst o)) = skipn L M /\
  match marshal_to_fields f (firstn L M) with Ok c => snd o = Ok GNil /\ firstn L (buf (fst o)) = c | Err e => snd o = Err e | _ => False end.
Proof.
  intros k f F L M n R O G H. cbv zeta. pose proof (C104_marshal_to k f (firstn L M) n R O) as E. cbv zeta in E. pose proof (@C96_guarded f G (firstn L M)) as NF.
  assert (P : snd (call n (go_to k) F (firstn L M)) <> Fault).
  { destruct (marshal_to_fields f (firstn L M)) as [c|e| |] eqn:D; [destruct E as [-> _]; discriminate|rewrite E; discriminate|congruence|rewrite E; discriminate]. }
  destruct (C111_confined k F L M n H P) as (Q1 & Q2 & Q3 & _). split; [exact Q3|]. rewrite Q1, Q2.
  destruct (marshal_to_fields f (firstn L M)) as [c|e| |] eqn:D; [exact E|exact E|congruence|]. 
  pose proof (C96_contents f (firstn L M) (firstn L M) eq_refl) as C. rewrite D in C. exact C.
Qed.
Print Assumptions C111_guarded.
(** a slice of MarshalLen octets or more: no octet behind the encoding changes, for all types *)
Theorem C111_enough : forall k f F w L M n, rep k f = Some F -> octet_members f -> marshal_fields f = Ok w -> marshal_len_fields f <= L -> L <= List.length M ->
  let o := xcall n L (go_to k) F M in snd o = Ok GNil /\ skipn (marshal_len_fields f) (buf (fst o)) = skipn (marshal_len_fields f) M.
Proof.
  intros k f F w L M n R O W G H. cbv zeta. assert (Lf : List.length (firstn L M) = L) by (rewrite firstn_length; lia).
  destruct (@C96_longer f w (firstn L M) W ltac:(now rewrite Lf)) as (c & C1 & C2 & C3 & _).
  pose proof (C104_marshal_to k f (firstn L M) n R O) as E. cbv zeta in E. rewrite C1 in E. destruct E as [E1 E2].
  assert (P : snd (call n (go_to k) F (firstn L M)) <> Fault) by (rewrite E1; discriminate).
  destruct (C111_confined k F L M n H P) as (Q1 & Q2 & Q3 & _). split; [congruence|].
  rewrite <- (firstn_skipn L (buf (fst (xcall n L (go_to k) F M)))), Q2, Q3, E2. rewrite <- (firstn_skipn L M) at 2. rewrite !skipn_app, C2, C3. reflexivity.
Qed.
Print Assumptions C111_enough.
(** intended: in every case.  Each of the types that do not check writes past the end of some slice and reports success *)
Definition past : list (fkind * fields * nat) := [
  (K_UEIPAddress, F_ueip {| ue_flags := 2; ue_v4 := Some [10; 0; 0; 1]; ue_v6 := None; ue_v6d := 0; ue_v6pl := 0 |}, 1%nat);
  (K_RemoteGTPUPeer, F_rpeer {| rg_flags := 2; rg_v4 := Some [10; 0; 0; 1]; rg_v6 := None; rg_dilen := 0; rg_di := 0; rg_nilen := 0; rg_ni := [] |}, 2%nat);
  (K_PacketRate, F_prate {| pr_flags := 1; pr_uunit := 0; pr_urate := 1; pr_dunit := 0; pr_drate := 0 |}, 2%nat);
  (K_DLFlowLevelMarking, F_dlfl {| dm_flags := 1; dm_ttc := 1; dm_sci := 0 |}, 2%nat);
  (K_CTAG, F_tag {| tg_flags := 1; tg_pcp := 1; tg_dei := 0; tg_vid := 0 |}, 2%nat);
  (K_STAG, F_tag {| tg_flags := 1; tg_pcp := 1; tg_dei := 0; tg_vid := 0 |}, 2%nat);
  (K_SDFFilter, F_sdf {| sd_flags := 1; sd_fdlen := 3; sd_fd := [97; 98; 99]; sd_ttc := []; sd_spi := []; sd_fl := []; sd_fid := 0 |}, 2%nat);
  (K_OuterHeaderCreation, F_ohc {| oh_desc := 0x400; oh_teid := 0; oh_v4 := Some [10; 0; 0; 1]; oh_v6 := None; oh_port := 2152; oh_ctag := 0; oh_stag := 0 |}, 2%nat);
  (K_UserID, F_userid {| ui_flags := 8; ui_imsilen := 0; ui_imsi := []; ui_imeilen := 0; ui_imei := []; ui_msisdnlen := 0; ui_msisdn := []; ui_nailen := 1; ui_nai := [97] |}, 2%nat);
  (K_HeaderEnrichment, F_henr {| he_type := 0; he_namelen := 1; he_name := [97]; he_vallen := 1; he_val := [98] |}, 4%nat);
  (K_RedirectInformation, F_redir {| ri_type := 0; ri_len := 0; ri_addr := []; ri_olen := 0; ri_other := [] |}, 1%nat);
  (K_UserPlaneIPResourceInformation, F_upri {| up_flags := 1; up_range := 0; up_v4 := Some [10; 0; 0; 1]; up_v6 := None; up_ni := []; up_si := 0 |}, 2%nat);
  (K_PFDContents, F_pfdc {| pc_flags := 1; pc_fdlen := 1; pc_fd := [97]; pc_urllen := 0; pc_url := []; pc_dnlen := 0; pc_dn := []; pc_cplen := 0; pc_cp := []; pc_dnplen := 0; pc_dnp := [];
    pc_afdlen := 0; pc_afd := []; pc_aurllen := 0; pc_aurl := []; pc_adnplen := 0; pc_adnp := [] |}, 2%nat);
  (K_MACAddressesDetected, F_macl {| ml_n := 1; ml_macs := [[1; 2; 3; 4; 5; 6]]; ml_ctlen := 0; ml_ctag := []; ml_stlen := 3; ml_stag := [1; 2; 3] |}, 9%nat);
  (K_MACAddressesRemoved, F_macl {| ml_n := 1; ml_macs := [[1; 2; 3; 4; 5; 6]]; ml_ctlen := 0; ml_ctag := []; ml_stlen := 3; ml_stag := [1; 2; 3] |}, 9%nat)]%N.
Definition over_end (x : fkind * fields * nat) : Prop :=
  let '(k, f, L) := x in exists F, rep k f = Some F /\ octet_members f /\ L < marshal_len_fields f /\
    (exists w, marshal_fields f = Ok w) /\
    let M := repeat 170%N 40 in snd (xcall 1 L (go_to k) F M) = Ok GNil /\ skipn L (buf (fst (xcall 1 L (go_to k) F M))) <> skipn L M.
Theorem C111_past_refuted : Forall over_end past.
Proof.
  unfold past. repeat (apply Forall_cons; [unfold over_end; eexists; split; [reflexivity|split; [cbn; repeat split; reflexivity|split; [apply Nat.ltb_lt; vm_compute; reflexivity|split; [eexists; vm_compute; reflexivity|cbv zeta; split;
    [vm_compute; reflexivity|intros E; vm_compute in E; discriminate E]]]]]|]). apply Forall_nil.
Qed.
Print Assumptions C111_past_refuted.
(** three further types compare the end of every slice they write with len(b); they can panic at b[i] and not write behind the slice, whatever the struct *)
Theorem C111_checked : forall k, In k [K_SourceIPAddress; K_MACAddress; K_TraceInformation] ->
  forall F L M n, L <= List.length M -> skipn L (buf (fst (xcall n L (go_to k) F M))) = skipn L M.
Proof. intros k K F L M n H. apply checked_sound; [|exact H]. cbn [In] in K. destruct K as [<-|[<-|[<-|[]]]]; vm_compute; reflexivity. Qed.
Print Assumptions C111_checked.
(** with these, every type is accounted for *)
Theorem C111_which : forall k f F, rep k f = Some F ->
  guarded f = true \/ In k [K_SourceIPAddress; K_MACAddress; K_TraceInformation] \/ In k (map (fun x => fst (fst x)) past).
Proof. intros k f F R. destruct k, f; try discriminate R; cbn; tauto. Qed.
Print Assumptions C111_which.
(** the bodies read the slice through its length only (GoOver.v) *)
Fixpoint len_only (e : exp) : bool :=
  match e with
  | EBuf => false
  | ELen EBuf => true
  | ELen a | EToInt a | EU _ a | EBE _ a | EShr a _ | EShl _ a _ | EStr a | EBytes a | ETo4 a | ETo16 a | EFromBcd a | EToBcd a | ENtp a | ESince a => len_only a
  | EAdd a b | ESub a b | EMul a b | EIdx a b | EFrom a b | EAnd a b | EOr a b | EApp a b | EToPlmn a b => len_only a && len_only b
  | ESlice a b c => len_only a && len_only b && len_only c
  | _ => true
  end.
Fixpoint len_only_c (c : cond) : bool :=
  match c with
  | CLt a b | CLe a b | CNe a b => len_only a && len_only b
  | CHas _ a | CNotNil a | CEmpty a => len_only a
  | CNot a => len_only_c a
  | CAnd a b | COr a b => len_only_c a && len_only_c b
  end.
Fixpoint len_only_s (c : stmt) : bool :=
  match c with
  | SSeq a b => len_only_s a && len_only_s b
  | SBlock a | SLoop a | SRange _ _ a => len_only_s a
  | SIf c a => len_only_c c && len_only_s a
  | SLet _ e | SSet _ e | SPlmn _ _ e | SCopyF _ e | SPutV _ _ e | SRet e => len_only e
  | SPutB i e => len_only i && len_only e
  | SPut _ lo hi e | SCopyB lo hi e => len_only lo && len_only hi && len_only e
  | SSkip | SBreak | SEof => true
  end.
Theorem C111_reads : forall k, len_only_s (go_to k) = true.
Proof. destruct k; reflexivity. Qed.
Print Assumptions C111_reads.
(** the hypotheses are met: an F-TEID into 9 of 12 octets *)
Example C111_ex : let f := F_fteid {| ft_flags := 1; ft_teid := 7; ft_v4 := Some [10; 0; 0; 1]; ft_v6 := None; ft_chid := 0 |}%N in
  exists F, rep K_FTEID f = Some F /\ octet_members f /\ guarded f = true /\
    snd (xcall 1 9 (go_to K_FTEID) F (repeat 170%N 12)) = Ok GNil /\ buf (fst (xcall 1 9 (go_to K_FTEID) F (repeat 170%N 12))) = [1; 0; 0; 0; 7; 10; 0; 0; 1; 170; 170; 170]%N /\
    snd (xcall 1 8 (go_to K_FTEID) F (repeat 170%N 12)) = Err EUnexpectedEOF.
Proof. eexists. split; [reflexivity|]. split; [exact I|]. split; [reflexivity|]. split; [vm_compute; reflexivity|]. split; vm_compute; reflexivity. Qed.
