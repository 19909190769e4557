(** The value given to a constructor and the value read back, shape by shape. *)
From Coq Require Import Floats.SpecFloat.
From Verif Require Import Base IETypes IE Spec Bits IEProofs IEProofs2 IEProps HeaderProofs Codec Codec2 Utils UtilsProofs Time TimeProofs Fields1 Fields2 Fields3 Fields4 FieldsProofs3b
  Access AccTable AccRun AccProofs New NewTable NewRun NewProofs NewProofs2.
Set Implicit Arguments.

Definition shape_min (s : shape) : nat :=
  match s with
  | SUint k => k
  | SMask _ | SInts _ | SOcts _ | SAccessAvailability | SDroppedDL | SIPVersion | STimer | S50ms | SFailedRuleID | SSuggestedCount => 1
  | STime | SSecs32 | SMillis | SSNSSAI => 4
  | SSecs16 | SAuri | SOuterHeaderRemoval => 2
  | SNanos => 8 | SRates => 10 | SNFInstanceID => 16 | STSNBridgeID => 1 | SPoolIdentity => 2
  | SFQCSID => 3 | SNodeID | SNodeIDHeuristic => 2
  | SOctets => 2
  | _ => 0
  end.
Lemma con_min_shape c : con_min c <= shape_min (con_shape c).
Proof. destruct c; vm_compute; repeat constructor. Qed.
Lemma con_leaf_shape c : ~ In c [N_ApplyAction; N_PagingPolicyIndicator; N_TGPPInterfaceType] -> con_leaf c = shape_leaf (con_shape c).
Proof. intros H. destruct c; try reflexivity; elim H; cbn; auto. Qed.

Lemma get_be k v : (v < 256 ^ N.of_nat k)%N -> getr k (be k v) 0 k = Ok v.
Proof. intros H. pose proof (@getr_app k [] v [] H) as E. cbn [app length] in E. now rewrite app_nil_r in E. Qed.
Lemma get_one x : getr 1 [x] 0 1 = Ok x. Proof. unfold getr, slice, getn, unbe. cbn. reflexivity. Qed.
Lemma uint_read g k i v : g (ty i) = false -> payload i = be k v -> (v < 256 ^ N.of_nat k)%N -> value_as_uint g k i = Ok v.
Proof. intros G P V. unfold value_as_uint. rewrite G, P, be_length, Nat.ltb_irrefl. now apply get_be. Qed.
Lemma one_read g i v : g (ty i) = false -> payload i = [v] -> value_as_uint g 1 i = Ok v.
Proof. intros G P. unfold value_as_uint. rewrite G, P. cbn [length Nat.ltb Nat.leb]. apply get_one. Qed.

Section Read.
Variable g : N -> bool.
Variable beyond : spec_float -> N.
Variable c : con.
Notation made := (calls g beyond c).
Notation read := (access g (con_reader c)).

Ltac ready C := match type of C with calls _ _ _ ?s ?a _ => let S := fresh "S" in pose proof (proj1 C) as S end.
Lemma std s a i p : made s a (Ok (Some i)) -> is_group s = false -> build beyond s a = Ok (Some p) -> shape_min s <= length p ->
  ~ In c [N_ApplyAction; N_PagingPolicyIndicator; N_TGPPInterfaceType] -> c <> N_NetworkInstanceFQDN -> payload i = p /\ read i = leaf_run g (shape_leaf s) i.
Proof.
  intros C G B L X K. pose proof (proj1 C) as S. pose proof (con_min_shape c) as M. rewrite S in M.
  destruct (calls_read C G K B) as [P A]; [lia|]. split; [exact P|]. rewrite A. now rewrite con_leaf_shape, S.
Qed.
(** Except for ApplyAction, PagingPolicyIndicator, TGPPInterfaceType and NetworkInstanceFQDN the shape determines the reader. *)
Lemma not_special s : con_shape c = s -> s <> SUint 1 -> s <> SOctets -> s <> SFQDN -> ~ In c [N_ApplyAction; N_PagingPolicyIndicator; N_TGPPInterfaceType] /\ c <> N_NetworkInstanceFQDN.
Proof. intros <- H1 H2 H3. split; [|intros ->; now apply H3]. intros [<-|[<-|[<-|[]]]]; auto. Qed.
Lemma std' s a i p : made s a (Ok (Some i)) -> is_group s = false -> build beyond s a = Ok (Some p) -> shape_min s <= length p ->
  s <> SUint 1 -> s <> SOctets -> s <> SFQDN -> payload i = p /\ read i = leaf_run g (shape_leaf s) i.
Proof. intros C G B L H1 H2 H3. destruct (not_special (proj1 C) H1 H2 H3) as [X K]. now apply std with a. Qed.

Lemma read_uint k v i : made (SUint k) v (Ok (Some i)) -> g (ty i) = false -> (v < 256 ^ N.of_nat k)%N ->
  c <> N_PagingPolicyIndicator -> c <> N_TGPPInterfaceType -> read i = Ok (VN v).
Proof.
  intros C G V X Y. destruct (@std (SUint k) v i (be k v) C eq_refl eq_refl) as [P ->].
  - rewrite be_length. reflexivity.
  - pose proof (proj1 C) as S. intros [<-|[<-|[<-|[]]]]; auto. discriminate S.
  - pose proof (proj1 C) as S. intros ->. discriminate S.
  - cbn [shape_leaf leaf_run]. rewrite (@uint_read g k i v G P V). reflexivity.
Qed.
Lemma read_masked v i : made (SUint 1) v (Ok (Some i)) -> octet v -> (c = N_PagingPolicyIndicator -> read i = Ok (VN (v mod 8))) /\ (c = N_TGPPInterfaceType -> read i = Ok (VN (v mod 64))).
Proof.
  intros C V. assert (B : be 1 v = [v]). { unfold be. cbn. change (256 ^ N.of_nat 0)%N with 1%N. rewrite N.div_1_r. now rewrite N.mod_small. }
  split; intros E; (destruct (@calls_read g beyond c (SUint 1) v i (be 1 v) C eq_refl) as [P A]; [now rewrite E|reflexivity|rewrite E, be_length; vm_compute; constructor|]);
  rewrite A, E; cbn [con_leaf leaf_run]; rewrite P, B; cbn [index nth_error bind as_n].
  - do 2 f_equal. now apply (N.land_ones v 3).
  - do 2 f_equal. now apply (N.land_ones v 6).
Qed.
Lemma read_octet s a x i : made s a (Ok (Some i)) -> shape_leaf s = LUint 1 -> is_group s = false -> s <> SUint 1 -> s <> SOctets -> s <> SFQDN ->
  build beyond s a = Ok (Some [x]) -> shape_min s <= 1 -> g (ty i) = false -> read i = Ok (VN x).
Proof.
  intros C L G0 N1 N2 N3 B M G. destruct (@std' s a i [x] C G0 B M N1 N2 N3) as [P ->]. rewrite L. cbn [leaf_run]. rewrite (@one_read g i x G P). reflexivity.
Qed.
Lemma read_mask m v i : made (SMask m) v (Ok (Some i)) -> g (ty i) = false -> read i = Ok (VN (N.land v m)).
Proof. intros C G. apply (@read_octet (SMask m) v (N.land v m) i C); auto; discriminate. Qed.
Lemma read_ints ks zs i : made (SInts ks) zs (Ok (Some i)) -> g (ty i) = false -> read i = Ok (VN (ints ks zs)).
Proof. intros C G. apply (@read_octet (SInts ks) zs _ i C); auto; discriminate. Qed.
Lemma read_octs ks xs i : made (SOcts ks) xs (Ok (Some i)) -> g (ty i) = false -> read i = Ok (VN (octs_or ks xs)).
Proof. intros C G. apply (@read_octet (SOcts ks) xs _ i C); auto; discriminate. Qed.
Lemma read_string s i : made SString s (Ok (Some i)) -> g (ty i) = false -> read i = Ok (VS s).
Proof.
  intros C G. destruct (@std' SString s i s C eq_refl eq_refl (Nat.le_0_l _)) as [P ->]; try discriminate. cbn [shape_leaf leaf_run].
  unfold value_as_string. now rewrite G, P.
Qed.
Lemma read_fqdn s i : made SFQDN s (Ok (Some i)) -> g (ty i) = false -> bytes s -> (read i = Ok (VS s) <-> Forall (fun l => lenN l < 256)%N (split_dot s)).
Proof.
  intros C G Hs. rewrite <- (fqdn_roundtrip_iff Hs). destruct (calls_new C eq_refl) as (t & p & T & B & E).
  cbn [build] in B. apply bind_ok in B. destruct B as (e & E1 & E2). injection E2 as <-.
  assert (R : read i = as_s (decode_fqdn e)).
  { destruct (Bool.bool_dec (match c with N_NetworkInstanceFQDN => true | _ => false end) true) as [X|X].
    - assert (K : c = N_NetworkInstanceFQDN) by (destruct c; (reflexivity || discriminate X)). clear X.
      rewrite K in *. injection T as <-. subst i. unfold access. cbn [Nat.mul Nat.add run con_reader].
      change (check (guards (acc_def A_NetworkInstanceFQDN)) (new T_NetworkInstance e)) with (@Ok unit tt). cbn [bind].
      change (lookup (cases (acc_def A_NetworkInstanceFQDN)) (dflt (acc_def A_NetworkInstanceFQDN)) (ty (new T_NetworkInstance e))) with (@Then acc A_NetworkInstance POwnFQDN).
      cbn [payload new set_length]. rewrite Nat.add_comm. cbn [Nat.add run].
      change (check (guards (acc_def A_NetworkInstance)) (new T_NetworkInstance e)) with (@Ok unit tt). cbn [bind].
      change (lookup (cases (acc_def A_NetworkInstance)) (dflt (acc_def A_NetworkInstance)) (ty (new T_NetworkInstance e))) with (@Leaf acc LString). 
      cbn [leaf_run]. unfold value_as_string. rewrite G. reflexivity.
    - assert (K : c <> N_NetworkInstanceFQDN) by (intros ->; now apply X).
      destruct (@std SFQDN s i e C eq_refl) as [P ->].
      + cbn [build]. now rewrite E1.
      + apply Nat.le_0_l.
      + pose proof (proj1 C) as S. intros [<-|[<-|[<-|[]]]]; discriminate S.
      + exact K.
      + cbn [shape_leaf leaf_run]. now rewrite G, P. }
  rewrite R. split.
  - intros D. exists e. split; [exact E1|]. destruct (decode_fqdn e); try discriminate. now injection D as ->.
  - intros (e' & E' & D). assert (e' = e) by congruence. subst e'. now rewrite D.
Qed.

Definition least (c : con) : nat := match c with N_ReportingTriggers | N_UsageReportTrigger => 2 | _ => 1 end.
Lemma octets_cons : con_shape c = SOctets -> In c [N_ApplyAction; N_CPFunctionFeatures; N_ReportingTriggers; N_UsageReportTrigger].
Proof. destruct c; intros E; try discriminate E; cbn; auto. Qed.
Lemma read_octets p i : made SOctets p (Ok (Some i)) -> read i = if length p <? least c then Err EUnexpectedEOF else Ok (VB p).
Proof.
  intros C. pose proof (octets_cons (proj1 C)) as X. destruct (calls_new C eq_refl) as (t & p' & T & B & ->). injection B as <-.
  destruct X as [X|[X|[X|[X|[]]]]]; subst c; injection T as <-; destruct p as [|x [|y r]]; reflexivity.
Qed.
Lemma read_time t i : made STime t (Ok (Some i)) -> g (ty i) = false -> read i = as_t (timestamp_value (new_timestamp t)).
Proof.
  intros C G. destruct (@std' STime t i (new_timestamp t) C eq_refl eq_refl) as [P ->]; try discriminate; [unfold new_timestamp; rewrite be_length; reflexivity|]. cbn [shape_leaf leaf_run]. now rewrite G, P.
Qed.
Lemma read_timer d i : made STimer d (Ok (Some i)) -> read i = as_d (timer_value (new_timer d)).
Proof.
  intros C. assert (L : length (new_timer d) = 1) by (unfold new_timer; destruct (if (Z.rem d (10 * hour) =? 0)%Z then _ else _); reflexivity).
  destruct (@std' STimer d i (new_timer d) C eq_refl eq_refl) as [P ->]; try discriminate; [now rewrite L|]. cbn [shape_leaf leaf_run]. rewrite P. unfold timer_value. now rewrite L.
Qed.
Lemma conv_whole bits s : (0 < bits)%Z -> (0 <= s < 2 ^ bits)%Z -> (bits <= 32)%Z -> conv beyond bits (dur_seconds (s * second)) = Z.to_N s.
Proof. intros K H L. unfold conv. pose proof (Z.pow_le_mono_r 2 bits 32 eq_refl L). rewrite f64_to_uint_whole; [reflexivity|lia..]. Qed.
Lemma read_secs32 s i : made SSecs32 (s * second)%Z (Ok (Some i)) -> (0 <= s < 2 ^ 32)%Z -> read i = Ok (VD (s * second)).
Proof.
  intros C H. destruct (@std' SSecs32 _ i (be 4 (Z.to_N s)) C eq_refl) as [P ->]; try discriminate; [cbn [build]; now rewrite conv_whole by lia|now rewrite be_length|].
  cbn [shape_leaf leaf_run]. rewrite P, get4_be by lia. cbn [bind as_d]. now rewrite Z2N.id by lia.
Qed.
Lemma read_secs16 s i : made SSecs16 (s * second)%Z (Ok (Some i)) -> (0 <= s < 2 ^ 16)%Z -> read i = Ok (VD (s * second)).
Proof.
  intros C H. destruct (@std' SSecs16 _ i (be 2 (Z.to_N s)) C eq_refl) as [P ->]; try discriminate; [cbn [build]; now rewrite conv_whole by lia|now rewrite be_length|].
  cbn [shape_leaf leaf_run]. rewrite P, get2_be by lia. cbn [bind as_d]. now rewrite Z2N.id by lia.
Qed.
Lemma read_millis d i : made SMillis d (Ok (Some i)) -> (0 <= d)%Z -> read i = Ok (VD ((d / 1000000) mod 2 ^ 32 * 1000000)).
Proof.
  intros C H. destruct (@std' SMillis d i (new_millis d) C eq_refl eq_refl) as [P ->]; try discriminate; [unfold new_millis; now rewrite be_length|].
  cbn [shape_leaf leaf_run]. rewrite P. pose proof (millis_roundtrip H) as R. unfold millis_value in R. unfold new_millis in R at 1. rewrite be_length in R. cbn [Nat.ltb Nat.leb] in R. rewrite R. reflexivity.
Qed.
Lemma read_50ms d i : made S50ms d (Ok (Some i)) -> (0 <= d)%Z -> read i = Ok (VD ((d / 50000000) mod 256 * 50000000)).
Proof.
  intros C H. destruct (@std' S50ms d i (new_ddn_delay d) C eq_refl eq_refl) as [P ->]; try discriminate; [reflexivity|].
  cbn [shape_leaf leaf_run]. rewrite P. pose proof (ddn_delay_roundtrip H) as R. unfold ddn_delay_value in R. unfold new_ddn_delay in R at 1. cbn [length Nat.ltb Nat.leb] in R. rewrite R. reflexivity.
Qed.
Lemma read_nanos d i : made SNanos d (Ok (Some i)) -> (- 2 ^ 63 <= d < 2 ^ 63)%Z -> read i = Ok (VD d).
Proof.
  intros C H. destruct (@std' SNanos d i (new_time_offset d) C eq_refl eq_refl) as [P ->]; try discriminate; [unfold new_time_offset; now rewrite be_length|].
  assert (R : time_offset_value (new_time_offset d) = Ok d) by (apply time_offset_roundtrip; unfold minint64, maxint64; lia).
  cbn [shape_leaf leaf_run]. rewrite P. unfold time_offset_value in R. unfold new_time_offset in R at 1. rewrite be_length in R. cbn [Nat.ltb Nat.leb] in R. rewrite R. reflexivity.
Qed.
(** the struct constructors: the reader parses what Marshal wrote *)
Lemma read_fields k a i : made (SFields k) a (Ok (Some i)) -> exists f p, fnew k a = Ok f /\ fmarshal f = Ok p /\ payload i = p /\ read i = fparse k p.
Proof.
  intros C. destruct (calls_new C eq_refl) as (t & p & T & B & E). pose proof B as B'. cbn [build] in B. apply bind_ok in B. destruct B as (f & F & M). exists f, p. split; [exact F|].
  unfold nil_on_err in M. destruct (fmarshal f) as [b|e| |] eqn:Q; try discriminate. injection M as <-. split; [reflexivity|].
  destruct (@std' (SFields k) a i b C eq_refl B' (Nat.le_0_l _)) as [P ->]; try discriminate. split; [exact P|]. cbn [shape_leaf leaf_run]. now rewrite P.
Qed.
(** groups *)
Lemma group_payload t l i : new_grouped g t 0 l = Ok (Some i) -> ty i = t /\ children i = somes l /\ payload i = concat (map (enc g) (somes l)).
Proof. rewrite new_grouped_ok. intros [= <-]. repeat split. Qed.
Definition group_args (s : shape) : sarg s -> list (option ie) :=
  match s return sarg s -> list (option ie) with
  | SGroup => fun l => l | SGroup1 => fun x => [x] | SGroup2 => fun '(x, y) => [x; y] | SGroupT => fun '(_, l) => l | SGroupT1 => fun '(_, x) => [x]
  | _ => fun _ => []
  end.
Definition group_type (s : shape) : sarg s -> N :=
  match s return sarg s -> N with
  | SGroupT => fun '(t, _) => t | SGroupT1 => fun '(t, _) => t
  | _ => fun _ => match con_type c with Some t => t | None => 0%N end
  end.
Lemma made_group s a i : made s a (Ok (Some i)) -> is_group s = true -> new_grouped g (group_type s a) 0 (group_args s a) = Ok (Some i).
Proof. intros [S M] G. destruct s; try discriminate G; cbn [make_ie group_type group_args sarg] in *; try (destruct a); exact M. Qed.
Lemma read_group s a i : made s a (Ok (Some i)) -> is_group s = true -> look (con_reader c) (group_type s a) = Leaf LChildren ->
  Forall (fun x => exists b, wire g x b) (somes (group_args s a)) -> read i = Ok (VIEs (somes (group_args s a))).
Proof.
  intros C G L W. destruct (group_payload _ _ (made_group C G)) as (T & Ch & P). pose proof (con_min_shape c) as M. rewrite (proj1 C) in M.
  rewrite (@access_leaf g (con_reader c) i LChildren).
  - cbn [leaf_run]. rewrite P. rewrite (parseMulti_wires (concat_enc_wires (ex_wire_encs W))). reflexivity.
  - now rewrite T.
  - destruct (con_type c) as [t|] eqn:E.
    + assert (K : c <> N_NetworkInstanceFQDN) by (intros K; rewrite K in C; destruct C as [S _]; subst s; discriminate G).
      destruct (con_look E K) as [_ GT]. apply guards_min.
      * assert (TT : group_type s a = t). { destruct C as [S _]. unfold group_type. destruct s; try discriminate G; try (rewrite E; reflexivity); pose proof (con_typed c) as CT; rewrite S, E in CT; destruct CT as [_ CT]; discriminate (CT eq_refl). }
        rewrite T, TT. exact GT.
      * fold (con_min c). destruct s; try discriminate G; cbn in M; lia.
    + destruct c; try discriminate E; reflexivity.
Qed.
Lemma group_reader t : con_type c = Some t -> is_group (con_shape c) = true -> look (con_reader c) t = Leaf LChildren.
Proof.
  intros T G. destruct (@con_look c t T) as [L _]; [intros ->; discriminate G|]. rewrite L, con_leaf_shape; [|intros [<-|[<-|[<-|[]]]]; discriminate G].
  destruct (con_shape c); try discriminate G; reflexivity.
Qed.
End Read.
