(** C112: how far MarshalTo of the XxxFields structs writes into the memory behind a slice that is too short.  [xcall n L c F M] is the call of the method with body c
    on the struct F and the first L octets of the memory M (C111). *)
From Coq Require Import String.
From Verif Require Import Base Bits Codec Codec2 Utils Fields1 Time Fields2 Fields3 Fields4 Access Reuse Go GoFields GoRep GoProofs GoTo GoMeta GoOver GoWithin GoBound AnySpec AnyProofs BufferProofs2 PropsAny PropsBuffer PropsGo PropsGoOver.
Open Scope string_scope.
Open Scope list_scope.
Open Scope nat_scope.

(** the bodies use the length of the slice only to return io.ErrUnexpectedEOF *)
Theorem C112_plain : forall k, plain (go_to k) = true.
Proof. destruct k; vm_compute; reflexivity. Qed.
Print Assumptions C112_plain.

Definition patch (p : nat) (x : N) (M : list N) : list N := firstn p M ++ x :: skipn (S p) M.
Lemma patch_nth p x M : p < List.length M -> List.length (patch p x M) = List.length M /\ nth_error (patch p x M) p = Some x /\ forall i, i <> p -> nth_error (patch p x M) i = nth_error M i.
Proof.
  intros H. assert (E : put M p [x] = Ok (patch p x M)) by (unfold put; cbn [List.length]; destruct (Nat.leb_spec (p + 1) (List.length M)); [|lia]; unfold patch; now replace (p + 1) with (S p) by lia).
  destruct (@put_nth _ _ _ _ E) as [A B]. split; [exact A|]. split.
  - rewrite B, Nat.leb_refl. cbn [List.length andb]. destruct (Nat.ltb_spec p (p + 1)); [|lia]. now rewrite Nat.sub_diag.
  - intros i I. rewrite B. cbn [List.length]. destruct (Nat.leb_spec p i); cbn [andb]; [|reflexivity]. destruct (Nat.ltb_spec i (p + 1)); [lia|reflexivity].
Qed.
Lemma nth_skipn (a : list N) k i : nth_error (skipn k a) i = nth_error a (k + i).
Proof. revert a. induction k as [|k IH]; intros a; [reflexivity|]. destruct a as [|x a]; [now destruct i|]. apply IH. Qed.
Lemma skipn_nth (a : list N) : forall k b, List.length a = List.length b -> (forall p, k <= p -> p < List.length b -> nth_error a p = nth_error b p) -> skipn k a = skipn k b.
Proof.
  intros k b E H. apply nth_error_ext'. intros i. rewrite !nth_skipn. destruct (Nat.lt_ge_cases (k + i) (List.length b)) as [Q|Q]; [apply H; lia|].
  rewrite (proj2 (nth_error_None a (k + i))), (proj2 (nth_error_None b (k + i))) by lia. reflexivity.
Qed.

(** however short the slice, nothing is written behind the first MarshalLen octets from its start: all types, all slices *)
Theorem C112_bounded : forall k f F w L M n, rep k f = Some F -> octet_members f -> marshal_fields f = Ok w -> L <= List.length M ->
  let o := xcall n L (go_to k) F M in
  List.length (buf (fst o)) = List.length M /\ skipn (marshal_len_fields f) (buf (fst o)) = skipn (marshal_len_fields f) M.
Proof.
  intros k f F w L M n R O W H. cbv zeta. assert (Ln : List.length (buf (fst (xcall n L (go_to k) F M))) = List.length M).
  { apply (@reach n L (List.length M) 0 H (nth_error M 0) (go_to k) F M M (C112_plain k) eq_refl); [now split|reflexivity]. }
  split; [exact Ln|]. apply skipn_nth; [exact Ln|]. intros p P Q. set (x := (nth p M 0 + 1)%N). destruct (@patch_nth p x M Q) as (P1 & P2 & P3).
  assert (A : away p M (patch p x M)) by (split; [congruence|intros i I; symmetry; now apply P3]).
  destruct (@reach n L (List.length M) p H (nth_error M p) (go_to k) F M (patch p x M) (C112_plain k) eq_refl A eq_refl) as [_ [[E|E] _]]; [exact E|exfalso].
  assert (full : forall M', List.length M' = List.length M -> nth_error (buf (fst (xcall n (List.length M) (go_to k) F M'))) p = nth_error M' p).
  { intros M' E'. destruct (@C111_enough k f F w (List.length M) M' n R O W) as [_ S]; [lia|lia|]. replace p with (marshal_len_fields f + (p - marshal_len_fields f)) by lia. rewrite <- !nth_skipn, S. reflexivity. }
  rewrite (full M eq_refl), (full _ P1), P2, (nth_error_nth' M 0%N Q) in E. injection E as E. unfold x in E. lia.
Qed.
Print Assumptions C112_bounded.
(** success means that the memory is as if the slice had gone on to the end of it, for every struct *)
Theorem C112_success : forall k F L M n v, L <= List.length M -> snd (xcall n L (go_to k) F M) = Ok v ->
  snd (call n (go_to k) F M) = Ok v /\ buf (fst (xcall n L (go_to k) F M)) = buf (fst (call n (go_to k) F M)).
Proof.
  intros k F L M n v H S. destruct (@reach n L (List.length M) 0 H (nth_error M 0) (go_to k) F M M (C112_plain k) eq_refl) as (_ & _ & K); [now split|reflexivity|].
  destruct (K v S) as [K1 K2]. rewrite C111_same in K1, K2. split; [exact K1|now symmetry].
Qed.
Print Assumptions C112_success.
(** so if success is reported, the whole encoding has been written, if need be past the end of the slice, and nothing else *)
Theorem C112_encoding : forall k f F w L M n v, rep k f = Some F -> octet_members f -> marshal_fields f = Ok w -> filled f = true ->
  L <= List.length M -> marshal_len_fields f <= List.length M -> snd (xcall n L (go_to k) F M) = Ok v ->
  buf (fst (xcall n L (go_to k) F M)) = w ++ skipn (marshal_len_fields f) M.
Proof.
  intros k f F w L M n v R O W Fl H G S. destruct (C112_bounded k f F w L M n R O W H) as [_ B]. destruct (C112_success k F L M n v H S) as [_ E].
  rewrite <- (firstn_skipn (marshal_len_fields f) (buf (fst (xcall n L (go_to k) F M)))), B. f_equal. rewrite E.
  destruct (@C96_longer f w M W G) as (c & C1 & C2 & _ & C4). pose proof (C104_marshal_to k f M n R O) as T. cbv zeta in T. rewrite C1 in T. destruct T as [_ ->].
  rewrite (@C96_clean f w W Fl (firstn (marshal_len_fields f) M)) in C4 by (rewrite firstn_length; lia). congruence.
Qed.
Print Assumptions C112_encoding.
(** an error or panic on a slice that is long enough does not occur (C111_enough); on one that is too short, the types that do not check may also panic after writing past its end *)
Theorem C112_panic_refuted : exists k f F w L, rep k f = Some F /\ octet_members f /\ marshal_fields f = Ok w /\
  let M := repeat 170%N 40 in snd (xcall 1 L (go_to k) F M) = Fault /\ skipn L (buf (fst (xcall 1 L (go_to k) F M))) <> skipn L M.
Proof.
  exists K_UEIPAddress, (F_ueip {| ue_flags := 10; ue_v4 := Some [10; 0; 0; 1]; ue_v6 := None; ue_v6d := 64; ue_v6pl := 0 |}%N). eexists. eexists. exists 1.
  split; [reflexivity|]. split; [cbn; split; reflexivity|]. split; [vm_compute; reflexivity|]. split; [vm_compute; reflexivity|]. intros E. vm_compute in E. discriminate E.
Qed.
Print Assumptions C112_panic_refuted.
(** the hypotheses are met: an SDF Filter into 2 of 12 octets *)
Example C112_ex : let f := F_sdf {| sd_flags := 1; sd_fdlen := 3; sd_fd := [97; 98; 99]; sd_ttc := []; sd_spi := []; sd_fl := []; sd_fid := 0 |}%N in
  exists F w, rep K_SDFFilter f = Some F /\ octet_members f /\ marshal_fields f = Ok w /\ marshal_len_fields f = 7 /\
    snd (xcall 1 2 (go_to K_SDFFilter) F (repeat 170%N 12)) = Ok GNil /\
    buf (fst (xcall 1 2 (go_to K_SDFFilter) F (repeat 170%N 12))) = [1; 170; 0; 3; 97; 98; 99; 170; 170; 170; 170; 170]%N.
Proof. eexists _, _. split; [reflexivity|]. split; [exact I|]. split; [vm_compute; reflexivity|]. split; [reflexivity|]. split; vm_compute; reflexivity. Qed.
Example C112_ex_filled : let f := F_tag {| tg_flags := 1; tg_pcp := 1; tg_dei := 0; tg_vid := 0 |}%N in
  exists F w, rep K_CTAG f = Some F /\ octet_members f /\ marshal_fields f = Ok w /\ filled f = true /\ snd (xcall 1 2 (go_to K_CTAG) F (repeat 170%N 5)) = Ok GNil /\ List.length w = 3.
Proof. eexists _, _. split; [reflexivity|]. split; [exact I|]. split; [vm_compute; reflexivity|]. split; [reflexivity|]. split; vm_compute; reflexivity. Qed.
