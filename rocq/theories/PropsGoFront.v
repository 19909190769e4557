(** C113: what MarshalTo of the XxxFields structs has written when it fails or panics.  [call n c F b] is the call of the method with body c on the struct F and the slice b
    (C104), [xcall n L c F M] the call on the first L octets of the memory M (C111). *)
From Coq Require Import String.
From Verif Require Import Base Bits Codec Codec2 Utils Fields1 Time Fields2 Fields3 Fields4 Access Reuse Go GoFields GoRep GoProofs GoTo GoMeta GoOver GoWithin GoBound GoFront AnySpec AnyProofs BufferProofs2 PropsAny PropsBuffer PropsGo PropsGoOver PropsGoBound.
Open Scope string_scope.
Open Scope list_scope.
Open Scope nat_scope.

(** the methods of all types pass the check: at each place where the length of the argument matters, all that is written before lies in front of all that can be written after *)
Theorem C113_ordered : forall k, ordered (go_to k) = true /\ ends (go_to k) = true.
Proof. intros k. destruct k; split; vm_compute; reflexivity. Qed.
Print Assumptions C113_ordered.
(** whatever the struct and however the call ends, the memory is a beginning of what the call on the whole memory leaves, and unchanged behind it *)
Theorem C113_prefix : forall k F L M n, L <= List.length M ->
  exists q, buf (fst (xcall n L (go_to k) F M)) = firstn q (buf (fst (call n (go_to k) F M))) ++ skipn q M.
Proof.
  intros k F L M n H. destruct (C113_ordered k) as [O E]. destruct (@ordered_sound n L (List.length M) M H eq_refl (go_to k) F (C112_plain k) O E) as [q Q]. exists q. now rewrite C111_same in Q.
Qed.
Print Assumptions C113_prefix.
(** for a struct that fills its buffer: a beginning of the encoding *)
Theorem C113_encoding : forall k f F w L M n, rep k f = Some F -> octet_members f -> marshal_fields f = Ok w -> filled f = true ->
  L <= List.length M -> marshal_len_fields f <= List.length M ->
  exists q, q <= List.length w /\ buf (fst (xcall n L (go_to k) F M)) = firstn q w ++ skipn q M.
Proof.
  intros k f F w L M n R O W Fl H G. destruct (C113_prefix k F L M n H) as [q Q]. destruct (@C111_enough k f F w (List.length M) M n R O W G (Nat.le_refl _)) as [S _].
  pose proof (C112_encoding k f F w (List.length M) M n GNil R O W Fl (Nat.le_refl _) G S) as E. rewrite C111_same in E. rewrite E in Q. pose proof (C95_length _ W) as Lw.
  exists (Nat.min q (List.length w)). split; [lia|]. rewrite Q, firstn_app. destruct (Nat.le_ge_cases q (List.length w)) as [D|D].
  - rewrite Nat.min_l by exact D. replace (q - List.length w) with 0 by lia. now rewrite firstn_O, app_nil_r.
  - rewrite Nat.min_r by exact D. rewrite (firstn_all2 w), (firstn_all2 w), <- app_assoc by lia. f_equal. rewrite <- Lw. rewrite <- (firstn_skipn (q - List.length w) (skipn (List.length w) M)) at 2.
    f_equal. rewrite skipn_skipn'. f_equal. lia.
Qed.
Print Assumptions C113_encoding.
(** so an error on a slice without spare capacity leaves a beginning of the encoding in it *)
Theorem C113_error : forall k f F w b n e, rep k f = Some F -> octet_members f -> marshal_fields f = Ok w -> filled f = true ->
  snd (call n (go_to k) F b) = Err e -> exists q, q <= List.length w /\ q <= List.length b /\ buf (fst (call n (go_to k) F b)) = firstn q w ++ skipn q b.
Proof.
  intros k f F w b n e R O W Fl E. set (T := repeat 0%N (marshal_len_fields f)). pose proof (C95_length _ W) as Lw.
  destruct (C113_encoding k f F w (List.length b) (b ++ T) n R O W Fl) as (q & Q1 & Q2); [rewrite app_length; lia|unfold T; rewrite app_length, repeat_length; lia|].
  destruct (C111_confined k F (List.length b) (b ++ T) n) as (_ & C & _); [rewrite app_length; lia|rewrite firstn_app, Nat.sub_diag, firstn_all, firstn_O, app_nil_r, E; discriminate|].
  rewrite firstn_app, Nat.sub_diag, firstn_all, firstn_O, app_nil_r in C. rewrite Q2 in C. exists (Nat.min q (List.length b)). split; [lia|]. split; [lia|]. rewrite <- C. clear C Q2.
  rewrite firstn_app, firstn_firstn, firstn_length, (Nat.min_l q (List.length w)) by lia. destruct (Nat.le_ge_cases q (List.length b)) as [D|D].
  - rewrite !(Nat.min_r (List.length b) q), Nat.min_l by lia. f_equal. rewrite skipn_app. replace (q - List.length b) with 0 by lia. cbn [skipn].
    rewrite firstn_app, skipn_length, Nat.sub_diag, firstn_O, app_nil_r. rewrite <- (skipn_length q b). apply firstn_all.
  - rewrite !(Nat.min_l (List.length b) q), Nat.min_r by lia. replace (List.length b - q) with 0 by lia. now rewrite firstn_O, skipn_all.
Qed.
Print Assumptions C113_error.
(** intended: a failed call leaves the slice as it was *)
Theorem C113_unchanged_refuted : exists k f F b e, rep k f = Some F /\ octet_members f /\ filled f = true /\ (exists w, marshal_fields f = Ok w) /\
  snd (call 1 (go_to k) F b) = Err e /\ buf (fst (call 1 (go_to k) F b)) <> b.
Proof.
  exists K_FTEID, (F_fteid {| ft_flags := 1; ft_teid := 7; ft_v4 := Some [10; 0; 0; 1]; ft_v6 := None; ft_chid := 0 |}%N). eexists. exists (repeat 170%N 8), EUnexpectedEOF.
  split; [reflexivity|]. split; [exact I|]. split; [reflexivity|]. split; [eexists; vm_compute; reflexivity|]. split; [vm_compute; reflexivity|].
  intros E. vm_compute in E. discriminate E.
Qed.
Print Assumptions C113_unchanged_refuted.
(** intended: no octet is written twice.  Outer Header Creation with a port number and a C-TAG writes the tag over the port number *)
Theorem C113_twice_refuted : exists f F w, rep K_OuterHeaderCreation f = Some F /\ marshal_fields f = Ok w /\ oh_port (match f with F_ohc x => x | _ => ohc0 end) = 2152%N /\
  firstn 8 w = [0x44; 0; 10; 0; 0; 1; 0; 1]%N.
Proof.
  exists (F_ohc {| oh_desc := 0x4400; oh_teid := 0; oh_v4 := Some [10; 0; 0; 1]; oh_v6 := None; oh_port := 2152; oh_ctag := 256; oh_stag := 0 |}%N). eexists. eexists.
  split; [reflexivity|]. split; [vm_compute; reflexivity|]. split; vm_compute; reflexivity.
Qed.
Print Assumptions C113_twice_refuted.
(** the hypotheses are met: an F-TEID and 8 octets *)
Example C113_ex : let f := F_fteid {| ft_flags := 1; ft_teid := 7; ft_v4 := Some [10; 0; 0; 1]; ft_v6 := None; ft_chid := 0 |}%N in
  exists F, rep K_FTEID f = Some F /\ filled f = true /\ snd (call 1 (go_to K_FTEID) F (repeat 170%N 8)) = Err EUnexpectedEOF /\
    buf (fst (call 1 (go_to K_FTEID) F (repeat 170%N 8))) = [1; 0; 0; 0; 7; 170; 170; 170]%N.
Proof. eexists. split; [reflexivity|]. split; [reflexivity|]. split; vm_compute; reflexivity. Qed.
(** a Redirect Information with two addresses, and 6 of 16 octets: an error after the first address *)
Example C113_ex_redirect : let f := F_redir {| ri_type := 1; ri_len := 2; ri_addr := [97; 98]; ri_olen := 3; ri_other := [99; 100; 101] |}%N in
  exists F w, rep K_RedirectInformation f = Some F /\ filled f = true /\ marshal_fields f = Ok w /\ snd (xcall 1 6 (go_to K_RedirectInformation) F (repeat 170%N 16)) = Err EUnexpectedEOF /\
    buf (fst (xcall 1 6 (go_to K_RedirectInformation) F (repeat 170%N 16))) = firstn 5 w ++ repeat 170%N 11.
Proof. eexists. eexists. split; [reflexivity|]. split; [reflexivity|]. split; [vm_compute; reflexivity|]. split; vm_compute; reflexivity. Qed.
