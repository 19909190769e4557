(** C91: UnmarshalBinary on a struct that has been used before. *)
From Verif Require Import Base Codec Codec2 Fields1 Fields2 Fields3 Fields4 Access Reuse ReuseSpec ReuseProofs ReuseProofs2 ReuseProofs3.
Set Implicit Arguments.

(** ParseXxxFields is UnmarshalBinary on a new struct *)
Theorem C91_fresh : forall k b, fparse k b = (x <- unmarshal (fzero k) b ;; Ok (VF x)).
Proof. intros. apply unmarshal_fresh. Qed.
Print Assumptions C91_fresh.

(** The exact outcome for all types but PFD Contents: the same error or panic as on a new struct, and on success
    the struct described by [kept] (a field the input carries is as in a new struct, another one is unchanged). *)
Theorem C91_kept : forall f b, bytes b -> is_pfdc f = false -> unmarshal f b = (x <- unmarshal (zero_of f) b ;; Ok (kept b f x)).
Proof. intros. now apply unmarshal_kept. Qed.
Print Assumptions C91_kept.

(** PFD Contents: the same when the lengths in the struct are 0 (which does not need empty strings); in general success is
    only possible where a new struct succeeds, with the contents described by [kept]. *)
Theorem C91_pfd : forall f b,
  (no_lengths f -> unmarshal (F_pfdc f) b = (x <- unmarshal (F_pfdc pfdc0) b ;; Ok (kept b (F_pfdc f) x))) /\
  (forall y, unmarshal (F_pfdc f) b = Ok y -> exists x, unmarshal (F_pfdc pfdc0) b = Ok x /\ y = kept b (F_pfdc f) x).
Proof.
  intros f b. cbn [unmarshal]. rewrite pfdc_fresh. split.
  - intros H. rewrite pfdc_kept_zero by exact H. destruct (pfdc_parse b); reflexivity.
  - intros y H. apply bind_ok in H. destruct H as (z & H & E). injection E as <-. apply pfdc_kept_ok in H. destruct H as (x & -> & ->). exists (F_pfdc x). split; reflexivity.
Qed.
Print Assumptions C91_pfd.

(** The stale length of the flow description is added to what the input must have: a payload that has one is refused. *)
Theorem C91_pfd_stale : forall f fl b, bytes (fl :: b) -> N.testbit fl 0 = true -> 2 <= length (fl :: b) -> length (fl :: b) < 6 + N.to_nat (pc_fdlen f) ->
  unmarshal (F_pfdc f) (fl :: b) = Err EUnexpectedEOF.
Proof.
  intros f fl b _ Hbit H2 H. cbn [unmarshal]. unfold pfdc_unmarshal. destruct (Nat.ltb_spec (length (fl :: b)) 2) as [|_]; [lia|]. change (index (fl :: b) 0) with (Ok fl). cbn [bind].
  rewrite has1_testbit, Hbit. unfold orold at 1. unfold rd16old at 1. rewrite from_ok by lia. cbn [bind]. rewrite skipn_length.
  destruct (Nat.ltb_spec (length (fl :: b) - 2) (2 + 2 + N.to_nat (pc_fdlen f))) as [_|]; [reflexivity|lia].
Qed.
Print Assumptions C91_pfd_stale.
(** so acceptance is not that of a new struct, and a payload cannot be decoded twice into the same struct *)
Theorem C91_pfd_refuted : exists b x, bytes b /\ unmarshal (F_pfdc pfdc0) b = Ok x /\ unmarshal x b = Err EUnexpectedEOF.
Proof.
  exists [1; 0; 0; 3; 97; 98; 99]%N. eexists. split; [repeat constructor; reflexivity|]. split; [vm_compute; reflexivity|]. vm_compute. reflexivity.
Qed.
Print Assumptions C91_pfd_refuted.

(** Decoding the same payload again changes nothing (other types than PFD Contents and the MAC address lists). *)
Theorem C91_twice : forall f b y, bytes b -> is_pfdc f = false -> is_macl f = false -> unmarshal f b = Ok y -> unmarshal y b = Ok y.
Proof.
  intros f b y Hb Hp Hm H. pose proof (unmarshal_type f b H) as Ht.
  assert (Hy : is_pfdc y = false) by (destruct f, y; try discriminate Ht; try discriminate Hp; reflexivity).
  rewrite unmarshal_kept in H |- * by assumption. rewrite Ht. apply bind_ok in H. destruct H as (x & Ex & H). injection H as <-. rewrite Ex. cbn [bind]. f_equal. apply kept_twice; [|exact Hm|exact Hp].
  apply unmarshal_type in Ex. rewrite Ex. destruct f; reflexivity.
Qed.
Print Assumptions C91_twice.
Theorem C91_twice_refuted : exists b x y, bytes b /\ unmarshal (F_macl macl0) b = Ok x /\ unmarshal x b = Ok y /\ y <> x.
Proof.
  exists [0; 1; 2; 3; 4; 5; 6; 0; 0]%N. do 2 eexists. split; [repeat constructor; reflexivity|]. split; [vm_compute; reflexivity|]. split; [vm_compute; reflexivity|]. discriminate.
Qed.
Print Assumptions C91_twice_refuted.

(** Whatever was decoded into the struct before, the types listed in [clean] re-encode as a new struct would. *)
Fixpoint decode_all (f : fields) (bs : list (list N)) : res fields :=
  match bs with [] => Ok f | b :: bs => f <- unmarshal f b ;; decode_all f bs end.
Theorem C91_encode : forall bs f b y, bytes b -> clean f = true -> decode_all f (bs ++ [b]) = Ok y ->
  exists x, unmarshal (zero_of f) b = Ok x /\ marshal_fields y = marshal_fields x.
Proof.
  induction bs as [|c bs IH]; intros f b y Hb Hc H; cbn [app decode_all] in H.
  - apply bind_ok in H. destruct H as (z & H & E). injection E as <-. exact (clean_same _ Hb Hc H).
  - apply bind_ok in H. destruct H as (z & Hz & H). apply unmarshal_type in Hz. rewrite <- Hz. refine (IH z b y Hb _ H). destruct f, z; try discriminate Hz; try discriminate Hc; reflexivity.
Qed.
Print Assumptions C91_encode.

(** A MAC address list that has been decoded, into a new struct or not, cannot be encoded: Marshal panics. *)
Theorem C91_macs_panic : forall f b y, unmarshal (F_macl f) b = Ok y -> marshal_fields y = Fault.
Proof. intros f b y H. cbn [unmarshal] in H. apply bind_ok in H. destruct H as (x & H & E). injection E as <-. exact (macl_unmarshal_fault _ _ H). Qed.
Print Assumptions C91_macs_panic.
Example C91_ex_macs : exists x, unmarshal (fzero K_MACAddressesDetected) ([0; 1; 2; 3; 4; 5; 6; 0; 0]%N) = Ok x.
Proof. eexists. vm_compute. reflexivity. Qed.

(** For each of the other types some earlier contents change the encoding. *)
Definition a4 : bslice := Some [192; 0; 2; 1]%N.
Definition a6 : bslice := Some [1; 2; 3; 4; 5; 6]%N.
Definition witness (f : fields) : fields * list N :=
  match f with
  | F_fseid _ => (F_fseid {| fs_flags := 2; fs_seid := 1; fs_v4 := a4; fs_v6 := None |}, [0; 0; 0; 0; 0; 0; 0; 0; 7])
  | F_altip _ => (F_altip {| ai_flags := 2; ai_v4 := a4; ai_v6 := None |}, [0; 0])
  | F_pmf _ => (F_pmf {| pm_flags := 0; pm_v4 := None; pm_v6 := None; pm_port1 := 1; pm_port2 := 2; pm_mac1 := a6; pm_mac2 := a6 |}, [0; 0; 1; 0; 2; 9; 9; 9; 9; 9; 9; 8; 8; 8; 8; 8; 8])
  | F_mcast _ => (F_mcast {| mc_flags := 2; mc_sv4 := a4; mc_sv6 := None; mc_ev4 := None; mc_ev6 := None |}, [8; 0])
  | F_tag _ => (F_tag {| tg_flags := 7; tg_pcp := 3; tg_dei := 1; tg_vid := 5 |}, [0; 0; 0])
  | F_ohc _ => (F_ohc {| oh_desc := 0; oh_teid := 0; oh_v4 := None; oh_v6 := None; oh_port := 0; oh_ctag := 7; oh_stag := 0 |}, [64; 0])
  | F_macaddr _ => (F_macaddr {| ma_flags := 1; ma_src := a6; ma_dst := None; ma_usrc := None; ma_udst := None |}, [0; 0])
  | F_trace _ => (F_trace {| ti_mcc := []; ti_mnc := []; ti_id := []; ti_evlen := 1; ti_ev := Some [1]; ti_depth := 0; ti_iflen := 0; ti_ifs := None; ti_iplen := 0; ti_ip := None |},
                  [33; 67; 101; 1; 2; 3; 1; 9; 0; 0; 0])
  | F_pfdc _ => (F_pfdc {| pc_flags := 0; pc_fdlen := 0; pc_fd := []; pc_urllen := 0; pc_url := []; pc_dnlen := 0; pc_dn := []; pc_cplen := 0; pc_cp := []; pc_dnplen := 0; pc_dnp := [];
                   pc_afdlen := 0; pc_afd := [[97]]; pc_aurllen := 0; pc_aurl := []; pc_adnplen := 0; pc_adnp := [] |}, [32; 0; 0; 3; 0; 1; 98])
  | f => (f, [])
  end%N.
Theorem C91_encode_refuted : forall f, clean f = false ->
  exists g b x y, zero_of g = zero_of f /\ bytes b /\ unmarshal (zero_of f) b = Ok x /\ unmarshal g b = Ok y /\ marshal_fields y <> marshal_fields x.
Proof.
  intros f Hc. exists (fst (witness f)), (snd (witness f)).
  destruct f; try discriminate Hc; cbn [witness fst snd]; do 2 eexists;
    (split; [reflexivity|]; split; [repeat (apply Forall_cons; [reflexivity|]); apply Forall_nil|]; split; [vm_compute; reflexivity|]; split; [vm_compute; reflexivity|]; intros E; vm_compute in E; discriminate E).
Qed.
Print Assumptions C91_encode_refuted.

(** a Volume Quota with the three volumes, then one with the uplink volume only: the two others are those of the first *)
Example C91_ex : exists x y,
  unmarshal (fzero K_VolumeQuota) ([7; 0; 0; 0; 0; 0; 0; 0; 1; 0; 0; 0; 0; 0; 0; 0; 2; 0; 0; 0; 0; 0; 0; 0; 3]%N) = Ok x /\
  unmarshal x ([2; 0; 0; 0; 0; 0; 0; 0; 9]%N) = Ok y /\ y = F_vol3 {| v3_flags := 2; v3_tvol := 1; v3_uvol := 9; v3_dvol := 3 |}.
Proof. do 2 eexists. split; [vm_compute; reflexivity|]. split; [vm_compute; reflexivity|]. vm_compute. reflexivity. Qed.
(** an Alternative SMF IP Address with an IPv4 address, then one without any: the encoding still has the address *)
Example C91_ex_wire : exists x y,
  unmarshal (fzero K_AlternativeSMFIPAddress) ([2; 192; 0; 2; 1]%N) = Ok x /\ unmarshal x ([0; 0]%N) = Ok y /\ marshal_fields y = Ok ([0; 192; 0; 2; 1]%N).
Proof. do 2 eexists. split; [vm_compute; reflexivity|]. split; [vm_compute; reflexivity|]. vm_compute. reflexivity. Qed.
