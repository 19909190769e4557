(** C106: the XxxFields struct left behind by UnmarshalBinary when it fails, and what a later UnmarshalBinary makes of it. *)
From Coq Require Import String.
From Verif Require Import Base Bits Codec Codec2 Utils Fields1 Time Fields2 Fields3 Fields4 Access Reuse ReuseSpec ReuseProofs ReuseProofs2 ReuseProofs3.
From Verif Require Import Go GoFields GoRep GoProofs GoTo GoMeta GoType GoShape PropsReuse PropsGo.
Set Implicit Arguments.
Open Scope string_scope.
Open Scope list_scope.
Open Scope nat_scope.

(** what is left is a struct of the type, whichever way the call ends *)
Theorem C106_shape : forall k f F b n, rep k f = Some F -> exists g, rep k g = Some (flds (fst (call n (go_un k) F b))).
Proof. intros. eapply left_shape; eauto. Qed.
Print Assumptions C106_shape.

(** with fewer octets than the first check of the method asks for, nothing is assigned *)
Theorem C106_short : forall k F b n, List.length b < least k ->
  snd (call n (go_un k) F b) = Err EUnexpectedEOF /\ flds (fst (call n (go_un k) F b)) = F.
Proof. intros k F b n L. now rewrite left_short. Qed.
Print Assumptions C106_short.

(** with that many, the first member is overwritten, even if an error or a panic follows *)
Theorem C106_first : forall k f F b n, k <> K_TraceInformation -> rep k f = Some F -> least k <= List.length b ->
  look (fst (first_member k b)) (flds (fst (call n (go_un k) F b))) = Some (GN (snd (first_member k b))).
Proof. intros. eapply left_first; eauto. Qed.
Print Assumptions C106_first.

(** so a failed call does not leave the struct as it was *)
Theorem C106_unchanged_refuted : exists k f F b e, rep k f = Some F /\ snd (call 10 (go_un k) F b) = Err e /\ flds (fst (call 10 (go_un k) F b)) <> F.
Proof.
  exists K_FSEID, (F_fseid fseid0), (rep_fseid fseid0), [2; 0; 0; 0; 0; 0; 0; 0; 7; 127; 0; 0]%N, EUnexpectedEOF.
  repeat split. intros E. vm_compute in E. discriminate E.
Qed.
Print Assumptions C106_unchanged_refuted.

Local Lemma rep_zero k f F : rep k f = Some F -> zero_of f = fzero k.
Proof. destruct k, f; intros E; try discriminate E; reflexivity. Qed.

(** A struct on which any number of calls have been made, failed ones and panicking ones included, decodes a payload as a new
    struct does: the same error or panic, and on success every member the payload carries has the same value. For all types
    but PFD Contents. *)
Fixpoint after (k : fkind) (n : nat) (F : store) (bs : list (list N)) : store :=
  match bs with [] => F | b :: bs => after k n (flds (fst (call n (go_un k) F b))) bs end.
Theorem C106_history : forall k bs f F b n, k <> K_PFDContents -> rep k f = Some F -> bytes b -> List.length b < n ->
  exists g, rep k g = Some (after k n F bs) /\
  let o := call n (go_un k) (after k n F bs) b in
  match unmarshal (fzero k) b with
  | Ok x => snd o = Ok GNil /\ rep k (kept b g x) = Some (flds (fst o))
  | Err e => snd o = Err e
  | Fault => snd o = Fault
  | Fuel => snd o = Fuel
  end.
Proof.
  intros k bs f F b n K E Hb L. assert (exists g, rep k g = Some (after k n F bs)) as [g Hg].
  { revert f F E. induction bs as [|c bs IH]; intros f F E; cbn [after]; [eauto|]. destruct (left_shape k f c n E) as [g Hg]. eauto. }
  exists g. split; [exact Hg|]. cbv zeta. pose proof (C104_unmarshal k g b Hg L) as H. cbv zeta in H.
  rewrite C91_kept in H; [|exact Hb|destruct k, g; try reflexivity; try discriminate Hg; congruence].
  rewrite (rep_zero k g Hg) in H. destruct (unmarshal (fzero k) b); cbn [bind] in H; tauto.
Qed.
Print Assumptions C106_history.

(** Not so PFD Contents: a failed call leaves a length in the struct, and a payload that a new struct accepts is then refused *)
Theorem C106_pfd_refuted : exists b1 b2 : list N, bytes b1 /\ bytes b2 /\
  snd (call 20 (go_un K_PFDContents) (rep_pfdc pfdc0) b1) = Err EUnexpectedEOF /\
  snd (call 20 (go_un K_PFDContents) (rep_pfdc pfdc0) b2) = Ok GNil /\
  snd (call 20 (go_un K_PFDContents) (after K_PFDContents 20 (rep_pfdc pfdc0) [b1]) b2) = Err EUnexpectedEOF.
Proof.
  exists [3; 0; 0; 3; 97; 98; 99]%N, [1; 0; 0; 2; 97; 98]%N.
  split; [repeat constructor; unfold octet; lia|]. split; [repeat constructor; unfold octet; lia|]. repeat split; vm_compute; reflexivity.
Qed.
Print Assumptions C106_pfd_refuted.

(** * Cases *)
(** an F-SEID cut in its address, then a whole one without the address: the error, then success, with the SEID of the second *)
Example C106_case : let F := after K_FSEID 30 (rep_fseid fseid0) [[2; 0; 0; 0; 0; 0; 0; 0; 7; 127; 0; 0]%N] in
  let o := call 30 (go_un K_FSEID) F [0; 0; 0; 0; 0; 0; 0; 0; 9]%N in
  look "SEID" F = Some (GN 7) /\ snd o = Ok GNil /\ look "SEID" (flds (fst o)) = Some (GN 9).
Proof. vm_compute. repeat split. Qed.
(** Trace Information of exactly 6 octets: a panic, with MCC, MNC and Trace ID already stored *)
Example C106_case_trace : let o := call 30 (go_un K_TraceInformation) (rep_trace trace0) [2; 248; 57; 97; 98; 99]%N in
  snd o = Fault /\ look "MCC" (flds (fst o)) = Some (GS [50; 48; 56]%N) /\ look "TraceID" (flds (fst o)) = Some (GS [97; 98; 99]%N).
Proof. vm_compute. repeat split. Qed.
