(** The constructors with a body of their own: the octets they write and what the accessors read back. *)
From Coq Require Import Floats.SpecFloat.
From Verif Require Import Base IETypes IE Spec Bits IEProofs IEProofs2 IEProps Header HeaderProofs Codec Codec2 Utils UtilsProofs Time TimeProofs Fields1 Fields2 Fields3 Fields4 FieldsProofs3b
  Access AccTable AccRun AccProofs New NewTable NewRun NewProofs NewProofs2 NewProofs3.
Set Implicit Arguments.

(** * Payloads *)
Lemma put0 n x : put (make (S n)) 0 [x] = Ok (x :: make n).
Proof. pose proof (@put_app [] (make (S n)) [x]) as H. cbn [app length] in H. rewrite H; [reflexivity|rewrite make_length; lia]. Qed.
Lemma put_end w s n k : length s = n -> k = length w -> put (w ++ make n) k s = Ok (w ++ s).
Proof. intros L ->. rewrite put_app by (rewrite make_length; lia). rewrite skipn_all_nil by (rewrite make_length; lia). now rewrite app_nil_r. Qed.
Lemma make_skip n m : skipn n (make (n + m)) = make m.
Proof. unfold make. rewrite repeat_app, skipn_app, repeat_length, Nat.sub_diag, skipn_all_nil by (rewrite repeat_length; lia). reflexivity. Qed.
Lemma put_mid w s n m k : length s = n -> k = length w -> put (w ++ make (n + m)) k s = Ok ((w ++ s) ++ make m).
Proof. intros L ->. rewrite put_seg by (rewrite make_length; lia). now rewrite L, make_skip. Qed.
Lemma copy_mid w s n m k h : length s = n -> k = length w -> h = k + n -> copy_range (w ++ make (n + m)) k h s = Ok ((w ++ s) ++ make m).
Proof. intros L -> ->. rewrite copy_seg by (rewrite ?make_length; lia). now rewrite L, make_skip. Qed.
Lemma copy_end w s n k : length s = n -> k = length w -> copy_from (w ++ make n) k s = Ok (w ++ s).
Proof.
  intros L ->. unfold copy_from. rewrite app_length, make_length. rewrite copy_seg by (rewrite ?make_length; lia). rewrite skipn_all_nil by (rewrite make_length; lia). now rewrite app_nil_r.
Qed.
Lemma dropped_dl_octets hp hb p b : new_dropped_dl hp hb p b =
  Ok (((if hp then 1 else 0) + (if hb then 2 else 0))%N :: (if hp then be 8 p else []) ++ (if hb then be 8 b else [])).
Proof.
  unfold new_dropped_dl. destruct hp, hb; rewrite ?put0; cbn [bind].
  - change (3%N :: make 16) with ([3%N] ++ make (8 + 8)). rewrite put_mid; [|apply be_length|reflexivity]. cbn [bind].
    rewrite put_end; [|apply be_length|now rewrite app_length, be_length]. now rewrite <- app_assoc.
  - rewrite app_nil_r. exact (@put_end [1%N] (be 8 p) 8 _ (be_length _ _) eq_refl).
  - exact (@put_end [2%N] (be 8 b) 8 _ (be_length _ _) eq_refl).
  - reflexivity.
Qed.
Lemma failed_rule_octets t id : new_failed_rule_id t id =
  Ok (t :: if (t =? 0)%N then be 2 id else if (t <=? 3)%N then be 4 id else if (t =? 4)%N then be 1 id else []).
Proof.
  unfold new_failed_rule_id. destruct (N.eqb_spec t 0) as [->|T0].
  - rewrite put0. cbn [bind]. rewrite u16_be. exact (@put_end [0%N] (be 2 id) 2 _ (be_length _ _) eq_refl).
  - assert (E : ((t =? 1) || (t =? 2) || (t =? 3))%N = (t <=? 3)%N) by lia. rewrite E. destruct (N.leb_spec t 3).
    + rewrite put0. cbn [bind]. exact (@put_end [t] (be 4 id) 4 _ (be_length _ _) eq_refl).
    + destruct (t =? 4)%N; [|reflexivity]. do 3 f_equal. cbn [be]. unfold u8. change (256 ^ N.of_nat 0)%N with 1%N. now rewrite N.div_1_r.
Qed.
Lemma flow_octets d s : new_flow_information d s = Ok (d :: be 2 (lenN s) ++ s).
Proof.
  unfold new_flow_information. change (3 + length s) with (S (2 + length s)). rewrite put0. cbn [bind]. rewrite u16_be.
  change (d :: make (2 + length s)) with ([d] ++ make (2 + length s)). rewrite put_mid; [|apply be_length|reflexivity]. cbn [bind].
  rewrite copy_end; [|reflexivity|now rewrite app_length, be_length]. now rewrite <- app_assoc.
Qed.
Lemma forwarding_octets s : new_forwarding_policy s = Ok (u8 (lenN s) :: s).
Proof. unfold new_forwarding_policy. change (1 + length s) with (S (length s)). rewrite put0. cbn [bind]. exact (@copy_end [u8 (lenN s)] s _ _ eq_refl eq_refl). Qed.
Lemma put_csids_octets ids : forall w k, k = length w -> put_csids (w ++ make (length ids * 2)) k ids = Ok (w ++ concat (map (be 2) ids)).
Proof.
  induction ids as [|x r IH]; intros w k ->; cbn [put_csids].
  - cbn. now rewrite !app_nil_r.
  - change (length (x :: r) * 2) with (2 + length r * 2). rewrite put_mid; [|apply be_length|reflexivity]. cbn [bind].
    rewrite IH; [|now rewrite app_length, be_length]. cbn [map concat]. now rewrite <- app_assoc.
Qed.
Definition node_octets (nt : N) (nid : list N) (ids : list N) : list N := (nt * 16 + lenN ids mod 16)%N :: nid ++ concat (map (be 2) ids).
Lemma fqcsid_octets a ip ids : new_fqcsid a ip ids =
  Ok (match ip with
      | None => match hex_decode a with Ok nid => Some (node_octets 2 nid ids) | _ => None end
      | Some x => match to4 ip with Some v4 => Some (node_octets 0 v4 ids) | None => Some (node_octets 1 x ids) end
      end).
Proof.
  assert (H : forall nt nid, (nt < 3)%N ->
    (b <- put (make (1 + length nid + length ids * 2)) 0 [N.lor (N.land (u8 (N.shiftl nt 4)) 0xf0) (N.land (lenN ids) 0x0f)] ;;
     b <- copy_range b 1 (length nid + 1) nid ;; b <- put_csids b (length nid + 1) ids ;; Ok (Some b)) = Ok (Some (node_octets nt nid ids))).
  { intros nt nid L.
    assert (X : N.lor (N.land (u8 (N.shiftl nt 4)) 0xf0) (N.land (lenN ids) 0x0f) = (nt * 16 + lenN ids mod 16)%N).
    { change 0x0f%N with (N.ones 4). rewrite N.land_ones. change 16%N with (2 ^ 4)%N. rewrite <- (@lor_add nt (lenN ids mod 2 ^ 4) 4) by (apply N.mod_lt; discriminate). f_equal.
      assert (nt = 0 \/ nt = 1 \/ nt = 2)%N as [-> | [-> | ->]] by lia; reflexivity. }
    rewrite X. change (1 + length nid + length ids * 2) with (S (length nid + length ids * 2)). rewrite put0. cbn [bind].
    set (x := (nt * 16 + lenN ids mod 16)%N). change (x :: make (length nid + length ids * 2)) with ([x] ++ make (length nid + length ids * 2)).
    rewrite copy_mid; [|reflexivity|reflexivity|apply Nat.add_comm]. cbn [bind]. rewrite put_csids_octets by (rewrite app_length; apply Nat.add_comm). cbn [bind].
    now rewrite <- app_assoc. }
  unfold new_fqcsid. destruct ip as [x|].
  - destruct (to4 (Some x)); now apply H.
  - destruct (hex_decode a); [now apply H|reflexivity..].
Qed.
Lemma rates_octets u d : new_rates u d = Ok (be 5 u ++ be 5 d).
Proof.
  unfold new_rates. rewrite !uint64To40_be. change (make 10) with ([] ++ make (5 + 5)). rewrite copy_mid; [|apply be_length|reflexivity|reflexivity]. cbn [bind app].
  change (make 5) with (make (5 + 0)). rewrite copy_mid; [|apply be_length|now rewrite be_length|reflexivity]. change (make 0) with (@nil N). now rewrite app_nil_r.
Qed.
Lemma multiplier_octets v e : new_multiplier v e = Ok (be 8 v ++ be 4 e).
Proof.
  unfold new_multiplier. change (make 12) with ([] ++ make (8 + 4)). rewrite put_mid; [|apply be_length|reflexivity]. cbn [bind app].
  rewrite put_end; [reflexivity|apply be_length|now rewrite be_length].
Qed.
Lemma snssai_octets t d : new_snssai t d = Ok (t :: be 3 d).
Proof.
  unfold new_snssai. rewrite put0. cbn [bind]. change (t :: make 3) with ([t] ++ make (3 + 0)). assert (E : utils_uint32To24 d = be 3 d) by apply uint32To24_be. rewrite E.
  rewrite copy_mid; [|apply be_length|reflexivity|reflexivity]. reflexivity.
Qed.
Lemma tsn_octets m : new_tsn_bridge_id m = Ok (match m with None => [0%N] | Some m => 1%N :: m end).
Proof.
  destruct m as [m|]; [|reflexivity]. cbn [new_tsn_bridge_id]. replace (length m + 1) with (S (length m)) by lia. rewrite put0. cbn [bind].
  replace (1%N :: make (length m)) with ([1%N] ++ make (length m + 0)) by (now rewrite Nat.add_0_r). rewrite copy_mid; [|reflexivity..]. change (make 0) with (@nil N). now rewrite app_nil_r.
Qed.
Lemma pool_octets s : new_pool_identity s = Ok (be 2 (lenN s) ++ s).
Proof.
  unfold new_pool_identity. rewrite u16_be. change (make (2 + length s)) with ([] ++ make (2 + length s)). rewrite put_mid; [|apply be_length|reflexivity]. cbn [bind app].
  rewrite copy_end; [reflexivity|reflexivity|now rewrite be_length].
Qed.
Lemma features_octets fs : new_up_features fs = Ok (firstn (if 3 <=? length fs then 4 else 2) (fs ++ [0; 0; 0; 0]%N)).
Proof. unfold new_up_features. destruct fs as [|a [|b [|c [|d [|e r]]]]]; reflexivity. Qed.
Lemma removal_octets d e : octet d -> octet e -> new_outer_header_removal d e = [d; e].
Proof.
  unfold octet. intros D E. unfold new_outer_header_removal. rewrite N.shiftl_mul_pow2. change (2 ^ 8)%N with 256%N. unfold u16. rewrite N.mod_small by lia.
  change 256%N with (2 ^ 8)%N. rewrite lor_add by exact E. change (2 ^ 8)%N with 256%N. cbn [be]. change (256 ^ N.of_nat 1)%N with 256%N. change (256 ^ N.of_nat 0)%N with 1%N. rewrite N.div_1_r.
  rewrite N.div_add_l, (N.div_small e) by lia. rewrite N.add_0_r, (N.mod_small d) by lia. f_equal. f_equal. rewrite N.add_comm, N.mod_add by lia. now apply N.mod_small.
Qed.

(** * Reading back *)
Section Special.
Variable g : N -> bool.
Variable beyond : spec_float -> N.
(** an accessor that passes what another one returns through f *)
Lemma access_then a b f l i : look a (ty i) = Then b f -> look b (ty i) = Leaf l ->
  forallb (guard_ok (ty i) (length (payload i))) (guards (acc_def a)) = true -> forallb (guard_ok (ty i) (length (payload i))) (guards (acc_def b)) = true ->
  access g a i = (v <- leaf_run g l i ;; post_run f i v).
Proof.
  intros L1 L2 G1 G2. unfold access. cbn [Nat.mul Nat.add run]. rewrite (check_ok _ _ G1). cbn [bind]. unfold look in L1, L2. rewrite L1.
  rewrite Nat.add_comm. cbn [Nat.add run]. rewrite (check_ok _ _ G2). cbn [bind]. now rewrite L2.
Qed.
Lemma special c s a i p : calls g beyond c s a (Ok (Some i)) -> is_group s = false -> build beyond s a = Ok (Some p) ->
  exists t, con_type c = Some t /\ i = new t p.
Proof. intros C G B. destruct (calls_new C G) as (t & p' & T & B' & ->). exists t. split; [exact T|]. congruence. Qed.

Lemma mod4 x : N.land x 3 = (x mod 4)%N. Proof. change 3%N with (N.ones 2). now rewrite N.land_ones. Qed.
Lemma two_bits a b : N.land (N.shiftr (a * 4 + b mod 4) 2) 3 = (a mod 4)%N /\ N.land (a * 4 + b mod 4) 3 = (b mod 4)%N.
Proof.
  rewrite N.shiftr_div_pow2. change (2 ^ 2)%N with 4%N. rewrite !mod4. pose proof (N.mod_lt b 4 ltac:(lia)). split.
  - rewrite N.div_add_l, (N.div_small (b mod 4)) by lia. now rewrite N.add_0_r.
  - rewrite N.add_comm, N.mod_add by lia. now apply N.mod_small.
Qed.
Ltac made C := let t := fresh "t" in let T := fresh "T" in
  first [destruct (special C eq_refl eq_refl) as (t & T & ->)]; injection T as <-.

(** AccessAvailabilityInformation(status, type): two bits each *)
Lemma availability_read s t i : calls g beyond N_AccessAvailabilityInformation SAccessAvailability (s, t) (Ok (Some i)) -> g (ty i) = false ->
  access g A_AvailabilityStatus i = Ok (VN (s mod 4)) /\ access g A_AccessType i = Ok (VN (t mod 4)).
Proof.
  intros C G. made C.
  assert (E : new_access_availability s t = [(s mod 4 * 4 + t mod 4)%N]).
  { unfold new_access_availability. change 0x03%N with 3%N. rewrite !mod4. rewrite N.shiftl_mul_pow2. unfold u8. pose proof (N.mod_lt s 4 ltac:(lia)). pose proof (N.mod_lt t 4 ltac:(lia)).
    change (2 ^ 2)%N with 4%N. rewrite N.mod_small by lia. f_equal. apply (@lor_add (s mod 4) (t mod 4) 2). assumption. }
  cbn [new set_length ty] in G. rewrite E. pose proof (two_bits (s mod 4) t) as [B1 B2]. rewrite N.mod_mod in B1 by lia.
  split; (erewrite access_then; [|reflexivity..]); cbn [leaf_run]; erewrite one_read by (exact G || reflexivity); cbn [bind as_n post_run]; [now rewrite B1|now rewrite N.shiftr_0_r, B2].
Qed.
(** GateStatus(ul, dl): the two arguments must fit in two bits *)
Lemma gate_read u d i : calls g beyond N_GateStatus (SOcts [2; 0]%N) [u; d] (Ok (Some i)) -> g (ty i) = false -> octet u -> (d < 4)%N ->
  access g A_GateStatusUL i = Ok (VN (u mod 4)) /\ access g A_GateStatusDL i = Ok (VN d) /\ access g A_GateStatusULDL i = Ok (VNN (u mod 4) d).
Proof.
  intros C G U D. made C. assert (E : octs_or [2; 0]%N [u; d] = (u mod 64 * 4 + d)%N).
  { unfold octs_or. cbn [combine map fold_right fst snd]. rewrite N.lor_0_r. unfold u8. rewrite N.shiftl_0_r, (N.mod_small d) by lia. rewrite N.shiftl_mul_pow2. 
    change (2 ^ 2)%N with 4%N. change 256%N with (64 * 4)%N. rewrite N.mul_mod_distr_r by lia. apply (@lor_add (u mod 64) d 2). exact D. }
  cbn [new set_length ty] in G. rewrite E. pose proof (two_bits (u mod 64) d) as [B1 B2]. rewrite (N.mod_small d) in B1, B2 by lia.
  assert (M : (u mod 64 mod 4 = u mod 4)%N) by (change 64%N with (4 * 16)%N; rewrite N.mod_mul_r, (N.mul_comm 4), N.mod_add by lia; apply N.mod_mod; lia).
  rewrite M in B1.
  repeat split; (erewrite access_then; [|reflexivity..]); cbn [leaf_run]; erewrite one_read by (exact G || reflexivity); cbn [bind as_n post_run].
  - now rewrite B1.
  - now rewrite N.shiftr_0_r, B2.
  - now rewrite B1, B2.
Qed.
(** AdditionalUsageReportsInformation(n): 15 bits; 0 means "not auto" *)
Lemma auri_read n i : calls g beyond N_AdditionalUsageReportsInformation SAuri n (Ok (Some i)) -> (n < 0x8000)%N ->
  access g A_AdditionalUsageReportsInformation i = Ok (VN n) /\ payload i = be 2 (if (n =? 0)%N then 0 else 0x8000 + n)%N.
Proof.
  intros C H. made C. unfold new_auri. assert (E : N.lor n 0x8000 = (0x8000 + n)%N).
  { rewrite N.lor_comm. change 0x8000%N with (1 * 2 ^ 15)%N. apply lor_add. exact H. }
  rewrite E. split.
  - rewrite (@access_leaf g A_AdditionalUsageReportsInformation _ LAuri); [|reflexivity|destruct (n =? 0)%N; reflexivity].
    cbn [leaf_run payload new set_length]. destruct (N.eqb_spec n 0) as [->|N0]; [reflexivity|]. rewrite get2_be by lia. cbn [bind as_n]. change 0x7fff%N with (N.ones 15). rewrite N.land_ones.
    change (2 ^ 15)%N with 0x8000%N. replace (0x8000 + n)%N with (n + 1 * 0x8000)%N by lia. rewrite N.mod_add by lia. now rewrite N.mod_small.
  - cbn [payload new set_length]. destruct (N.eqb_spec n 0) as [->|]; reflexivity.
Qed.
(** DLBufferingSuggestedPacketCount(n): one octet up to 255, two above *)
Lemma count_read n i : calls g beyond N_DLBufferingSuggestedPacketCount SSuggestedCount n (Ok (Some i)) -> g (ty i) = false -> (n < 65536)%N ->
  access g A_DLBufferingSuggestedPacketCount i = Ok (VN n) /\ payload i = be (if (n <=? 255)%N then 1 else 2) n.
Proof.
  intros C G H. made C. cbn [new set_length ty] in G. unfold new_suggested_count. destruct (N.leb_spec n 255).
  - assert (B : be 1 n = [u8 n]). { cbn [be]. change (256 ^ N.of_nat 0)%N with 1%N. now rewrite N.div_1_r. } rewrite <- B. split; [|reflexivity].
    rewrite (@access_leaf g A_DLBufferingSuggestedPacketCount _ LSuggestedCount); [|reflexivity..]. rewrite B. unfold u8. rewrite N.mod_small by lia. reflexivity.
  - split; [|reflexivity]. rewrite (@access_leaf g A_DLBufferingSuggestedPacketCount _ LSuggestedCount); [|reflexivity..]. cbn [leaf_run]. unfold suggested_count.
    change (len (new T_DLBufferingSuggestedPacketCount (be 2 n))) with 2%N. cbn [N.eqb Pos.eqb N.leb N.compare Pos.compare Pos.compare_cont].
    rewrite (@uint_read g 2 (new T_DLBufferingSuggestedPacketCount (be 2 n)) n G eq_refl H). reflexivity.
Qed.
(** DownlinkDataServiceInformation(hasPPI, hasQFI, ppi, qfi) *)
Lemma downlink_read hp hq p q i : calls g beyond N_DownlinkDataServiceInformation SDownlinkData (hp, hq, p, q) (Ok (Some i)) ->
  payload i = ((if hp then 1 else 0) + (if hq then 2 else 0))%N :: (if hp then [p] else []) ++ (if hq then [q] else []) /\
  access g A_PPI i = match hp, hq with true, _ => Ok (VN p) | false, true => Ok (VN q) | false, false => Err EUnexpectedEOF end /\
  access g A_QFI i = match hp, hq with true, true => Ok (VN q) | false, false => Err EUnexpectedEOF | _, _ => Fault end.
Proof. intros C. made C. destruct hp, hq; repeat split. Qed.
(** DroppedDLTrafficThreshold(dlpa, dlby, packets, bytes) *)
Lemma dropped_read hp hb p b i : calls g beyond N_DroppedDLTrafficThreshold SDroppedDL (hp, hb, p, b) (Ok (Some i)) -> g (ty i) = false ->
  payload i = ((if hp then 1 else 0) + (if hb then 2 else 0))%N :: (if hp then be 8 p else []) ++ (if hb then be 8 b else []) /\
  access g A_DroppedDLTrafficThreshold i = Ok (VN ((if hp then 1 else 0) + (if hb then 2 else 0))).
Proof.
  intros C G. assert (B : build beyond SDroppedDL (hp, hb, p, b) = Ok (Some (((if hp then 1 else 0) + (if hb then 2 else 0))%N :: (if hp then be 8 p else []) ++ (if hb then be 8 b else [])))).
  { cbn [build]. now rewrite dropped_dl_octets. }
  destruct (special C eq_refl B) as (t & T & ->). injection T as <-. split; [reflexivity|]. cbn [new set_length ty] in G.
  rewrite (@access_leaf g A_DroppedDLTrafficThreshold _ (LUint 1)); [|reflexivity..]. cbn [leaf_run]. unfold value_as_uint. cbn [new set_length ty payload]. rewrite G. reflexivity.
Qed.
(** FailedRuleID(type, id) *)
Lemma failed_read t id i : calls g beyond N_FailedRuleID SFailedRuleID (t, id) (Ok (Some i)) -> g (ty i) = false ->
  access g A_RuleIDType i = Ok (VN t) /\
  access g A_FailedRuleID i = Ok (VN (if (t =? 0)%N then id mod 2 ^ 16 else if (t <=? 3)%N then id mod 2 ^ 32 else if (t =? 4)%N then id mod 2 ^ 8 else 0)%N).
Proof.
  intros C G. assert (B : build beyond SFailedRuleID (t, id) = Ok (Some (t :: if (t =? 0)%N then be 2 id else if (t <=? 3)%N then be 4 id else if (t =? 4)%N then be 1 id else []))).
  { cbn [build]. now rewrite failed_rule_octets. }
  destruct (special C eq_refl B) as (u & T & ->). injection T as <-. cbn [new set_length ty] in G. split.
  - rewrite (@access_leaf g A_RuleIDType _ (LUint 1)); [|reflexivity..]. cbn [leaf_run]. unfold value_as_uint. cbn [new set_length ty payload]. rewrite G. reflexivity.
  - rewrite (@access_leaf g A_FailedRuleID _ LFailedRuleID); [|reflexivity..]. cbn [leaf_run new set_length payload]. unfold failed_rule_id.
    assert (D : forall k z, getr k (t :: be k z) 1 (S k) = Ok (z mod 256 ^ N.of_nat k)%N).
    { intros k z. rewrite <- (@be_mod k k z (le_n _)). pose proof (@getr_app k [t] (z mod 256 ^ N.of_nat k) []) as E. rewrite app_nil_r in E. apply E. apply N.mod_lt, N.pow_nonzero. discriminate. }
    cbn [index nth_error bind]. destruct (N.eqb_spec t 0) as [->|T0].
    + cbn [length]. rewrite be_length. cbn [Nat.ltb Nat.leb]. rewrite D. reflexivity.
    + assert (E : ((t =? 1) || (t =? 2) || (t =? 3))%N = (t <=? 3)%N) by lia. rewrite E. destruct (N.leb_spec t 3).
      * cbn [length]. rewrite be_length. cbn [Nat.ltb Nat.leb]. rewrite D. reflexivity.
      * destruct (t =? 4)%N; [|reflexivity]. cbn [length]. rewrite be_length. cbn [Nat.ltb Nat.leb]. cbn [be index nth_error bind as_n].
        change (256 ^ N.of_nat 0)%N with 1%N. now rewrite N.div_1_r.
Qed.
(** FlowInformation(direction, description) *)
Lemma flow_read d s i : calls g beyond N_FlowInformation SFlowInformation (d, s) (Ok (Some i)) -> (3 + lenN s < 65536)%N ->
  access g A_FlowDirection i = Ok (VN (d mod 8)) /\ access g A_FlowDescription i = Ok (VS s).
Proof.
  intros C L. assert (B : build beyond SFlowInformation (d, s) = Ok (Some (d :: be 2 (lenN s) ++ s))) by (cbn [build]; now rewrite flow_octets).
  destruct (special C eq_refl B) as (u & T & ->). injection T as <-. split.
  - rewrite (@access_leaf g A_FlowDirection _ LFlowDirection); [|reflexivity..]. cbn [leaf_run new set_length payload length Nat.ltb Nat.leb index nth_error bind as_n].
    change 0x07%N with (N.ones 3). now rewrite N.land_ones.
  - rewrite (@access_leaf g A_FlowDescription _ LFlowDescription); [|reflexivity..]. cbn [leaf_run new set_length payload]. unfold flow_description.
    change (d :: be 2 (lenN s) ++ s) with ([d] ++ be 2 (lenN s) ++ s). change 3 with (length [d] + 2). rewrite (@getr_app 2 [d]) by (change (256 ^ N.of_nat 2)%N with 65536%N; lia). cbn [bind].
    rewrite !app_length, be_length. unfold lenN in *. rewrite Nat2N.id. destruct (Nat.ltb_spec (length [d] + (2 + length s)) (length s)); [lia|].
    unfold u16. rewrite N.mod_small by lia. rewrite app_assoc. rewrite <- (app_nil_r s) at 2. rewrite (@slice_app ([d] ++ be 2 (N.of_nat (length s))) s []); [reflexivity|rewrite app_length, be_length; reflexivity|].
    rewrite app_length, be_length. cbn [length]. lia.
Qed.
(** ForwardingPolicy(id): the length is one octet *)
Lemma policy_read s i : calls g beyond N_ForwardingPolicy SForwardingPolicy s (Ok (Some i)) -> (lenN s < 256)%N -> access g A_ForwardingPolicyIdentifier i = Ok (VS s).
Proof.
  intros C L. assert (B : build beyond SForwardingPolicy s = Ok (Some (lenN s :: s))) by (cbn [build]; rewrite forwarding_octets; unfold u8; now rewrite N.mod_small).
  destruct (special C eq_refl B) as (u & T & ->). injection T as <-. erewrite access_then; [|reflexivity..]. cbn [leaf_run new set_length payload bind post_run index nth_error].
  change (length (lenN s :: s) <? 1) with false. cbn iota. cbn [length]. unfold lenN. rewrite Nat2N.id. rewrite Nat.add_1_r, Nat.ltb_irrefl. rewrite <- (app_nil_r s) at 2. change (N.of_nat (length s) :: s ++ []) with ([N.of_nat (length s)] ++ s ++ []). rewrite (@slice_app [N.of_nat (length s)] s []); reflexivity.
Qed.
Lemma policy_long s i : calls g beyond N_ForwardingPolicy SForwardingPolicy s (Ok (Some i)) -> (256 <= lenN s)%N -> access g A_ForwardingPolicyIdentifier i = Ok (VS (firstn (N.to_nat (lenN s mod 256)) s)).
Proof.
  intros C L. assert (B : build beyond SForwardingPolicy s = Ok (Some ((lenN s mod 256)%N :: s))) by (cbn [build]; now rewrite forwarding_octets).
  destruct (special C eq_refl B) as (u & T & ->). injection T as <-. erewrite access_then; [|reflexivity..]. cbn [leaf_run new set_length payload bind post_run index nth_error].
  change (length ((lenN s mod 256)%N :: s) <? 1) with false. cbn iota. cbn [length].
  pose proof (N.mod_le (lenN s) 256 ltac:(lia)) as M. set (k := N.to_nat (lenN s mod 256)) in *. assert (K : k <= length s) by (unfold lenN in *; lia).
  destruct (Nat.ltb_spec (S (length s)) (k + 1)); [lia|]. rewrite slice_ok by (cbn [length]; lia). cbn [skipn]. now rewrite Nat.add_sub.
Qed.
(** FQCSID(address, csids...) *)
Lemma node_octets_type nt nid ids : node_id_type (node_octets nt nid ids) = Ok (N.land nt 15).
Proof.
  unfold node_id_type, node_octets. cbn [index nth_error bind]. rewrite N.shiftr_div_pow2. change (2 ^ 4)%N with 16%N.
  pose proof (N.mod_lt (lenN ids) 16 ltac:(lia)). rewrite N.div_add_l, (N.div_small (lenN ids mod 16)) by lia. now rewrite N.add_0_r.
Qed.
Lemma csids_length ids : length (concat (map (be 2) ids)) = 2 * length ids.
Proof. induction ids as [|x r IH]; [reflexivity|]. cbn [map concat]. rewrite app_length, IH, be_length. cbn [length]. lia. Qed.
(** the address is read back when there is at least one CSID; no CSID ever is *)
Lemma fqcsid_read a ip ids i : calls g beyond N_FQCSID SFQCSID (a, ip, ids) (Ok (Some i)) -> forall x, ip = Some x -> length x = 4 \/ length x = 16 ->
  exists nt nid, (nt, nid) = match to4 ip with Some v4 => (0%N, v4) | None => (1%N, x) end /\
  payload i = node_octets nt nid ids /\ access g A_NodeIDType i = Ok (VN nt) /\
  (ids <> [] -> access g A_NodeAddress i = Ok (VB nid) /\ access g A_CSIDs i = Ok (VNs [])) /\
  (ids = [] -> access g A_NodeAddress i = Err EUnexpectedEOF /\ access g A_CSIDs i = Fault).
Proof.
  intros C x -> L. assert (B : build beyond SFQCSID (a, Some x, ids) = Ok (Some match to4 (Some x) with Some v4 => node_octets 0 v4 ids | None => node_octets 1 x ids end)).
  { cbn [build]. rewrite fqcsid_octets. destruct (to4 (Some x)); reflexivity. }
  destruct (special C eq_refl B) as (u & T & ->). injection T as <-.
  assert (H : exists nt nid, (nt, nid) = match to4 (Some x) with Some v4 => (0%N, v4) | None => (1%N, x) end /\ match to4 (Some x) with Some v4 => node_octets 0 v4 ids | None => node_octets 1 x ids end = node_octets nt nid ids /\
    (nt = 0%N /\ length nid = 4 \/ nt = 1%N /\ length nid = 16)).
  { destruct (to4 (Some x)) as [v|] eqn:E.
    - exists 0%N, v. repeat split. left. split; [reflexivity|]. exact (to4_len _ E).
    - exists 1%N, x. repeat split. right. split; [reflexivity|]. destruct L as [L|L]; [|exact L]. now rewrite to4_4 in E. }
  destruct H as (nt & nid & E1 & E2 & K). exists nt, nid. split; [exact E1|]. rewrite E2. clear E1 E2 B C L. split; [reflexivity|].
  assert (NT : N.land nt 15 = nt) by (destruct K as [[-> _]|[-> _]]; reflexivity).
  assert (R1 : access g A_NodeIDType (new T_FQCSID (node_octets nt nid ids)) = as_n (node_id_type (node_octets nt nid ids))) by (now rewrite (@access_leaf g A_NodeIDType _ LNodeIDType)).
  assert (R2 : access g A_NodeAddress (new T_FQCSID (node_octets nt nid ids)) = as_b (node_address (node_octets nt nid ids))) by (now rewrite (@access_leaf g A_NodeAddress _ LNodeAddress)).
  assert (R3 : access g A_CSIDs (new T_FQCSID (node_octets nt nid ids)) = (x <- csids (node_octets nt nid ids) ;; Ok (VNs x))) by (now rewrite (@access_leaf g A_CSIDs _ LCSIDs)).
  rewrite R1, R2, R3. unfold node_address, csids. rewrite node_octets_type, NT. cbn [bind]. split; [reflexivity|].
  assert (P : length (node_octets nt nid ids) = 1 + length nid + 2 * length ids) by (unfold node_octets; cbn [length]; rewrite app_length, csids_length; lia).
  assert (S : slice (node_octets nt nid ids) 1 (1 + length nid) = Ok nid) by (exact (@slice_app [(nt * 16 + lenN ids mod 16)%N] nid (concat (map (be 2) ids)) _ _ eq_refl eq_refl)).
  split.
  - intros I. assert (0 < length ids) by (destruct ids; [congruence|cbn [length]; lia]).
    destruct K as [[-> K]|[-> K]]; rewrite K in P, S; cbn [Nat.add] in P, S.
    + change ((0 =? 0) || (0 =? 2))%N with true. cbn iota. cbn [bind Nat.add]. destruct (Nat.ltb_spec (length (node_octets 0 nid ids)) 6); [lia|]. destruct (Nat.ltb_spec (length (node_octets 0 nid ids)) 7); [lia|].
      rewrite S. split; reflexivity.
    + change ((1 =? 0) || (1 =? 2))%N with false. change (1 =? 1)%N with true. cbn iota. cbn [bind Nat.add]. destruct (Nat.ltb_spec (length (node_octets 1 nid ids)) 18); [lia|]. destruct (Nat.ltb_spec (length (node_octets 1 nid ids)) 19); [lia|].
      rewrite S. split; reflexivity.
  - intros ->. destruct K as [[-> K]|[-> K]]; rewrite K in P; cbn [length Nat.mul Nat.add] in P.
    + change ((0 =? 0) || (0 =? 2))%N with true. cbn iota. cbn [bind Nat.add]. rewrite P. cbn [Nat.ltb Nat.leb]. split; [reflexivity|]. unfold getr, slice. rewrite P. reflexivity.
    + change ((1 =? 0) || (1 =? 2))%N with false. change (1 =? 1)%N with true. cbn iota. cbn [bind Nat.add]. rewrite P. cbn [Nat.ltb Nat.leb]. split; [reflexivity|]. unfold getr, slice. rewrite P. reflexivity.
Qed.
(** GBR(ul, dl), MBR(ul, dl): 40 bits each *)
Lemma rates_read c u d i : calls g beyond c SRates (u, d) (Ok (Some i)) ->
  c = N_GBR /\ access g A_GBRUL i = Ok (VN (u mod 2 ^ 40)) /\ access g A_GBRDL i = Ok (VN (d mod 2 ^ 40)) \/
  c = N_MBR /\ access g A_MBRUL i = Ok (VN (u mod 2 ^ 40)) /\ access g A_MBRDL i = Ok (VN (d mod 2 ^ 40)).
Proof.
  intros C. assert (B : build beyond SRates (u, d) = Ok (Some (be 5 u ++ be 5 d))) by (cbn [build]; now rewrite rates_octets).
  destruct (special C eq_refl B) as (t & T & ->).
  assert (S1 : slice (be 5 u ++ be 5 d) 0 5 = Ok (be 5 u)) by (exact (@slice_app [] (be 5 u) (be 5 d) 0 5 eq_refl (eq_sym (be_length 5 u)))).
  assert (S2 : slice (be 5 u ++ be 5 d) 5 10 = Ok (be 5 d)). { rewrite <- (app_nil_r (be 5 d)) at 1. apply slice_app; rewrite ?be_length; reflexivity. }
  assert (W : forall x, uint40To64 (be 5 x) = (x mod 2 ^ 40)%N) by (intros x; rewrite <- uint64To40_be; apply u40_roundtrip).
  assert (K : c = N_GBR \/ c = N_MBR) by (pose proof (proj1 C) as S; destruct c; (discriminate S || auto)).
  destruct K as [-> | ->]; injection T as <-; [left|right]; (split; [reflexivity|]); split; (erewrite access_then; [|reflexivity..]); cbn [leaf_run new set_length payload bind post_run];
    rewrite ?S1, ?S2; cbn [bind]; now rewrite W.
Qed.
(** Multiplier(digits, exponent) *)
Lemma multiplier_read v e i : calls g beyond N_Multiplier SMultiplier (v, e) (Ok (Some i)) -> g (ty i) = false -> (v < 2 ^ 64)%N -> (e < 2 ^ 32)%N ->
  access g A_ValueDigits i = Ok (VN v) /\ access g A_Exponent i = Ok (VN e).
Proof.
  intros C G V E. assert (B : build beyond SMultiplier (v, e) = Ok (Some (be 8 v ++ be 4 e))) by (cbn [build]; now rewrite multiplier_octets).
  destruct (special C eq_refl B) as (t & T & ->). injection T as <-. cbn [new set_length ty] in G. split.
  - rewrite (@access_leaf g A_ValueDigits _ (LUint 8)); [|reflexivity..]. cbn [leaf_run]. unfold value_as_uint. cbn [new set_length ty payload]. rewrite G, app_length, !be_length. cbn [Nat.add Nat.ltb Nat.leb].
    pose proof (@getr_app 8 [] v (be 4 e)) as X. cbn [app length Nat.add] in X. rewrite X; [reflexivity|exact V].
  - rewrite (@access_leaf g A_Exponent _ LExponent); [|reflexivity..]. cbn [leaf_run new set_length payload].
    pose proof (@getr_app 4 (be 8 v) e []) as X. rewrite be_length, app_nil_r in X. cbn [Nat.add] in X. rewrite X; [reflexivity|exact E].
Qed.
(** NFInstanceID(id): the first sixteen octets; shorter ids panic *)
Lemma instance_read id i : calls g beyond N_NFInstanceID SNFInstanceID id (Ok (Some i)) -> 16 <= length id /\ access g A_NFInstanceID i = Ok (VB (firstn 16 id)).
Proof.
  intros C. destruct (calls_new C eq_refl) as (t & p & T & B & ->). injection T as <-. cbn [build] in B. apply bind_ok in B. destruct B as (q & S & E). injection E as <-.
  assert (L : 16 <= length id). { unfold slice in S. destruct (Nat.leb_spec 16 (length id)); [assumption|]. change (0 <=? 16) with true in S. discriminate S. }
  split; [exact L|]. rewrite slice_ok in S by lia. change (skipn 0 id) with id in S. change (16 - 0) with 16 in S. assert (Q : q = firstn 16 id) by congruence. subst q. clear S. assert (LF : length (firstn 16 id) = 16) by (rewrite firstn_length; lia).
  rewrite (@access_leaf g A_NFInstanceID _ LNFInstanceID); [|reflexivity|cbn [new set_length ty payload]; rewrite LF; reflexivity]. cbn [leaf_run new set_length payload].
  rewrite slice_ok by lia. cbn [as_b bind]. change (skipn 0 (firstn 16 id)) with (firstn 16 id). change (16 - 0) with 16. do 2 f_equal. apply firstn_all2. lia.
Qed.
Lemma instance_panics id : length id < 16 -> calls g beyond N_NFInstanceID SNFInstanceID id Fault.
Proof. intros L. split; [reflexivity|]. cbn [make_ie build]. unfold slice. change (0 <=? 16) with true. destruct (Nat.leb_spec 16 (length id)); [lia|reflexivity]. Qed.
(** OuterHeaderRemoval(description, extension header deletion) *)
Lemma removal_read d e i : calls g beyond N_OuterHeaderRemoval SOuterHeaderRemoval (d, e) (Ok (Some i)) -> octet d -> octet e ->
  access g A_OuterHeaderRemovalDescription i = Ok (VN d) /\ access g A_GTPUExtensionHeaderDeletion i = Ok (VN e).
Proof.
  intros C D E. made C. rewrite removal_octets by assumption.
  split; (erewrite access_then; [|reflexivity..]); reflexivity.
Qed.
(** SNSSAI(sst, sd) *)
Lemma snssai_read t d i : calls g beyond N_SNSSAI SSNSSAI (t, d) (Ok (Some i)) ->
  access g A_SST i = Ok (VN t) /\ access g A_SD i = Ok (VN (d mod 2 ^ 24)).
Proof.
  intros C. assert (B : build beyond SSNSSAI (t, d) = Ok (Some (t :: be 3 d))) by (cbn [build]; now rewrite snssai_octets).
  destruct (special C eq_refl B) as (u & T & ->). injection T as <-.
  assert (W : slice (t :: be 3 d) 0 4 = Ok (t :: be 3 d)) by (cbn; reflexivity).
  assert (W2 : slice (t :: be 3 d) 1 4 = Ok (be 3 d)) by (cbn; reflexivity).
  split; (erewrite access_then; [|reflexivity..]); cbn [leaf_run new set_length payload]; rewrite W; cbn [as_b bind post_run].
  - reflexivity.
  - rewrite W2. cbn [bind]. do 2 f_equal. rewrite <- uint32To24_be. apply uint24_roundtrip.
Qed.
(** TimeQuotaMechanism(btit, bti): whole seconds *)
Lemma quota_read t s i : calls g beyond N_TimeQuotaMechanism STimeQuotaMechanism (t, s * second)%Z (Ok (Some i)) -> (0 <= s < 2 ^ 32)%Z ->
  access g A_TimeQuotaMechanism i = Ok (VB ((t mod 4)%N :: be 4 (Z.to_N s))).
Proof.
  intros C H. made C. rewrite conv_whole by lia. change 0x03%N with 3%N. rewrite mod4.
  rewrite (@access_leaf g A_TimeQuotaMechanism _ LPayload); [|reflexivity..]. reflexivity.
Qed.
(** TSNBridgeID(mac) *)
Lemma bridge_read m i : calls g beyond N_TSNBridgeID STSNBridgeID m (Ok (Some i)) ->
  access g A_TSNBridgeID i =
  match m with
  | None => Ok (VB [])
  | Some m => if length m =? 6 then Ok (VB m) else if length m <? 8 then Err EUnexpectedEOF else Ok (VB (firstn 8 m))
  end.
Proof.
  intros C. assert (B : build beyond STSNBridgeID m = Ok (Some (match m with None => [0%N] | Some m => 1%N :: m end))) by (cbn [build]; now rewrite tsn_octets).
  destruct (special C eq_refl B) as (u & T & ->). injection T as <-. destruct m as [m|]; [|reflexivity].
  rewrite (@access_leaf g A_TSNBridgeID _ LTSNBridgeID); [|reflexivity..]. cbn [leaf_run new set_length payload]. unfold tsn_bridge_id. cbn [index nth_error bind]. change (has1 1) with true. cbn [negb length].
  destruct (Nat.eqb_spec (length m) 6) as [E|E].
  - rewrite E. cbn [Nat.eqb negb andb]. rewrite slice_ok by (cbn [length]; lia). cbn [skipn Nat.sub as_b bind]. rewrite <- E. now rewrite firstn_all.
  - change (S (length m) =? 7) with (length m =? 6). change (S (length m) <? 9) with (length m <? 8). destruct (Nat.eqb_spec (length m) 6); [contradiction|]. cbn [negb andb].
    destruct (Nat.ltb_spec (length m) 8); [reflexivity|]. rewrite slice_ok by (cbn [length]; lia). reflexivity.
Qed.
(** UEIPAddressPoolIdentity(id) *)
Lemma pool_read s i : calls g beyond N_UEIPAddressPoolIdentity SPoolIdentity s (Ok (Some i)) -> (lenN s < 65536)%N -> access g A_UEIPAddressPoolIdentityString i = Ok (VS s).
Proof.
  intros C L. assert (B : build beyond SPoolIdentity s = Ok (Some (be 2 (lenN s) ++ s))) by (cbn [build]; now rewrite pool_octets).
  destruct (special C eq_refl B) as (u & T & ->). injection T as <-. erewrite access_then; [|reflexivity..]. cbn [leaf_run new set_length payload bind post_run].
  rewrite app_length, be_length. change (2 + length s <? 2) with false. cbn iota. pose proof (@getr_app 2 [] (lenN s) s L) as X. cbn [app length Nat.add] in X. rewrite X. cbn [bind].
  unfold lenN. rewrite Nat2N.id. replace (length s + 2) with (2 + length s) by lia. rewrite Nat.ltb_irrefl. rewrite <- (app_nil_r s) at 2.
  rewrite slice_app; [reflexivity|now rewrite be_length|now rewrite be_length].
Qed.
(** UPFunctionFeatures(octets...): two octets, or four when three or more are given; the fifth and later ones are dropped *)
Lemma features_read fs i : calls g beyond N_UPFunctionFeatures SUPFeatures fs (Ok (Some i)) ->
  access g A_UPFunctionFeatures i = Ok (VB (firstn (if 3 <=? length fs then 4 else 2) (fs ++ [0; 0; 0; 0]%N))).
Proof.
  intros C. assert (B : build beyond SUPFeatures fs = Ok (Some (firstn (if 3 <=? length fs then 4 else 2) (fs ++ [0; 0; 0; 0]%N)))) by (cbn [build]; now rewrite features_octets).
  destruct (special C eq_refl B) as (u & T & ->). injection T as <-. rewrite (@access_leaf g A_UPFunctionFeatures _ LPayload); [|reflexivity..]. reflexivity.
Qed.
End Special.
