(** The bool methods that read more than one bit, panics of the bool methods, flags of the XxxFields structs, ValidateApplyAction. *)
From Verif Require Import Base IETypes IE Bits Codec Codec2 Fields1 Time Fields3 FieldsSpec1 FieldsProofs1 FieldsSpec3 FieldsProofs3 FieldsProofs3d IEProofs Access AccTable AccRun AccProofs AccProofs2 AccProofs3 AccProofs4 AccProofs5
  Flags FlagTable FlagRun FlagProofs FlagSpec FlagProofs2.
From Coq Require Import FinFun.
Set Implicit Arguments.

Section G.
Variable g : N -> bool.
Definition octet_at (i : ie) (k : nat) : N := nth k (payload i) 0%N.
(** bit b (from 1) of octet k *)
Definition bit_at (i : ie) (k : nat) (b : N) : bool := N.testbit (octet_at i k) (b - 1).
Lemma index_at i k : k < length (payload i) -> index (payload i) k = Ok (octet_at i k).
Proof. apply index_nth. Qed.
Lemma flag_at f i b : fcheck (fguards (flag_def f)) i = true -> fbody_at f (ty i) = b -> flag_run g f i = fbody_run g b i.
Proof. intros C <-. unfold flag_run, fdef_run. now rewrite C. Qed.
Ltac fat b T := rewrite (@flag_at _ _ b); [|cbn [fcheck fguards flag_def]; rewrite ?T; reflexivity|rewrite T; vm_compute; reflexivity]; cbn [fbody_run].

Lemma ueip_v4 i : ty i = T_UEIPAddress -> flag_run g B_HasIPv4 i = Ok (if length (payload i) <? 1 then false else bit_at i 0 2 && negb (bit_at i 0 5)).
Proof.
  intros T. fat (BPayAndNot 1 0 2 5) T. destruct (Nat.ltb_spec (length (payload i)) 1); [reflexivity|]. rewrite index_at by lia. cbn [bind].
  unfold bit_at. cbn [hasn]. rewrite has2_testbit, has5_testbit. reflexivity.
Qed.
Lemma ueip_v6 i : ty i = T_UEIPAddress -> flag_run g B_HasIPv6 i = Ok (if length (payload i) <? 1 then false else bit_at i 0 1 && negb (bit_at i 0 5)).
Proof.
  intros T. fat (BPayAndNot 1 0 1 5) T. destruct (Nat.ltb_spec (length (payload i)) 1); [reflexivity|]. rewrite index_at by lia. cbn [bind].
  unfold bit_at. cbn [hasn]. rewrite has1_testbit, has5_testbit. reflexivity.
Qed.
Lemma urr_cp i : ty i = T_URRID -> flag_run g B_IsAllocatedByCPFunction i = Ok (if length (payload i) <? 1 then false else bit_at i 0 8).
Proof.
  intros T. fat (BTop 1 true) T. destruct (Nat.ltb_spec (length (payload i)) 1); [reflexivity|]. rewrite index_at by lia. cbn [bind].
  unfold bit_at. f_equal. change (N.land ?x 0x01 =? 1)%N with (has1 x). rewrite has1_testbit, N.shiftr_spec' by lia. now destruct (N.testbit _ _).
Qed.
Lemma urr_up i : ty i = T_URRID -> flag_run g B_IsAllocatedByUPFunction i = Ok (if length (payload i) <? 1 then false else negb (bit_at i 0 8)).
Proof.
  intros T. fat (BTop 1 false) T. destruct (Nat.ltb_spec (length (payload i)) 1); [reflexivity|]. rewrite index_at by lia. cbn [bind].
  unfold bit_at. f_equal. change (N.land ?x 0x01 =? 1)%N with (has1 x). rewrite has1_testbit, N.shiftr_spec' by lia. now destruct (N.testbit _ _).
Qed.
Lemma tsn_mac i : ty i = T_TSNBridgeID -> flag_run g B_HasMAC i = match payload i with [] => Fault | x :: _ => Ok (N.testbit x 0) end.
Proof.
  intros T. fat (BPay 0 0 1) T. destruct (payload i) as [|x r]; [reflexivity|]. cbn. now rewrite has1_testbit.
Qed.

(** ** F-SEID and F-TEID: the payload must parse *)
Lemma fseid_access i : bytes (payload i) -> ty i = T_FSEID -> access g A_FSEID i = as_f F_fseid (fseid_parse (payload i)).
Proof. intros Hb T. rewrite access_eq by assumption. cbn [acc_def guards check]. rewrite T. reflexivity. Qed.
Lemma fteid_access i : bytes (payload i) -> ty i = T_FTEID -> access g A_FTEID i = as_f F_fteid (fteid_parse (payload i)).
Proof. intros Hb T. rewrite access_eq by assumption. cbn [acc_def guards check]. rewrite T. reflexivity. Qed.
Definition is_ok {A} (r : res A) : bool := match r with Ok _ => true | _ => false end.
Lemma fseid_head p f : bytes p -> fseid_parse p = Ok f -> fs_flags f = nth 0 p 0%N.
Proof. intros Hb P. apply fseid_parse_inv in P as (_ & r & _ & E); [|assumption]. now rewrite E. Qed.
Lemma fteid_head p f : bytes p -> fteid_parse p = Ok f -> ft_flags f = nth 0 p 0%N.
Proof. intros Hb P. apply fteid_parse_inv in P as (_ & r & _ & E); [|assumption]. rewrite E. unfold fteid_wire. match goal with |- context [if ?c then _ else _] => now destruct c end. Qed.
Lemma fseid_v4 i : bytes (payload i) -> ty i = T_FSEID -> flag_run g B_HasIPv4 i = Ok (is_ok (fseid_parse (payload i)) && bit_at i 0 2).
Proof.
  intros Hb T. fat (BFld A_FSEID 2) T. rewrite fseid_access by assumption. destruct (fseid_total (payload i)) as [[f P]|[e P]]; rewrite P; [|reflexivity].
  cbn. rewrite has2_testbit, (fseid_head Hb P). reflexivity.
Qed.
Lemma fseid_v6 i : bytes (payload i) -> ty i = T_FSEID -> flag_run g B_HasIPv6 i = Ok (is_ok (fseid_parse (payload i)) && bit_at i 0 1).
Proof.
  intros Hb T. fat (BFld A_FSEID 1) T. rewrite fseid_access by assumption. destruct (fseid_total (payload i)) as [[f P]|[e P]]; rewrite P; [|reflexivity].
  cbn. rewrite has1_testbit, (fseid_head Hb P). reflexivity.
Qed.
Lemma fteid_v4 i : bytes (payload i) -> ty i = T_FTEID -> flag_run g B_HasIPv4 i = Ok (is_ok (fteid_parse (payload i)) && bit_at i 0 1).
Proof.
  intros Hb T. fat (BFld A_FTEID 1) T. rewrite fteid_access by assumption. destruct (fteid_total (payload i)) as [[f P]|[e P]]; rewrite P; [|reflexivity].
  cbn. rewrite has1_testbit, (fteid_head Hb P). reflexivity.
Qed.
Lemma fteid_v6 i : bytes (payload i) -> ty i = T_FTEID -> flag_run g B_HasIPv6 i = Ok (is_ok (fteid_parse (payload i)) && bit_at i 0 2).
Proof.
  intros Hb T. fat (BFld A_FTEID 2) T. rewrite fteid_access by assumption. destruct (fteid_total (payload i)) as [[f P]|[e P]]; rewrite P; [|reflexivity].
  cbn. rewrite has2_testbit, (fteid_head Hb P). reflexivity.
Qed.

(** ** Outer Header Creation: bits of the two octets of the description *)
Definition ohc_bit (f : flag) (i : ie) : bool :=
  match f with
  | B_HasTEID => bit_at i 0 1 || bit_at i 0 2
  | B_HasIPv4 => bit_at i 0 1 || bit_at i 0 3 || bit_at i 0 5
  | B_HasIPv6 => bit_at i 0 2 || bit_at i 0 4 || bit_at i 0 6
  | B_HasPortNumber => bit_at i 0 3 || bit_at i 0 4
  | B_HasCTag => bit_at i 0 7
  | B_HasSTag => bit_at i 0 8
  | B_IsN19 => bit_at i 1 1
  | B_IsN6 => bit_at i 1 2
  | B_IsLLSSMCTEID => bit_at i 1 3
  | _ => false
  end.
Definition ohc_flags : list flag := [B_HasTEID; B_HasIPv4; B_HasIPv6; B_HasPortNumber; B_HasCTag; B_HasSTag; B_IsN19; B_IsN6; B_IsLLSSMCTEID].
Lemma ohc_access i : bytes (payload i) -> ty i = T_OuterHeaderCreation -> access g A_OuterHeaderCreation i = as_f F_ohc (ohc_parse (payload i)).
Proof. intros Hb T. rewrite access_eq by assumption. cbn [acc_def guards check]. rewrite T. reflexivity. Qed.
Lemma ohc_desc_octets p f : bytes p -> ohc_parse p = Ok f -> 2 <= length p /\ oct5 (oh_desc f) = nth 0 p 0%N /\ u8 (N.land (oh_desc f) 0x00ff) = nth 1 p 0%N.
Proof.
  intros Hb P. apply ohc_ok in P as (W & _ & _ & _ & _ & r & _ & E); [|assumption]. destruct W as [Hd _]. subst p. unfold ohc_wire.
  set (h := (oh_desc f / 256)%N). set (l := (oh_desc f mod 256)%N).
  assert (D : oh_desc f = (h * 256 + l)%N) by (unfold h, l; rewrite (N.div_mod (oh_desc f) 256) at 1 by discriminate; lia).
  assert (Hh : octet h) by (unfold octet, h; apply N.div_lt_upper_bound; lia). assert (Hl : octet l) by (unfold octet, l; apply N.mod_lt; discriminate).
  assert (B : be 2 (oh_desc f) = [h; l]) by (rewrite D; now apply be2_bytes). rewrite B. cbn [app nth length]. split; [lia|]. split; [now apply oct5_ok|]. change 0x00ff%N with 0xff%N. now rewrite low8_ok.
Qed.
Theorem ohc_flag f i : bytes (payload i) -> ty i = T_OuterHeaderCreation -> In f ohc_flags ->
  flag_run g f i = match ohc_parse (payload i) with Ok _ => Ok (ohc_bit f i) | Err _ => Ok false | Fault => Fault | Fuel => Fuel end.
Proof.
  intros Hb T I. assert (S : length (payload i) < 2 -> exists e, ohc_parse (payload i) = Err e).
  { intros L. unfold ohc_parse. destruct (Nat.ltb_spec (length (payload i)) 2); [eauto|lia]. }
  assert (R : forall p, on_ok (access g A_OuterHeaderCreation i) (fun v => match v with VF (F_ohc x) => Ok (oh_pred p x) | _ => Fault end)
    = match ohc_parse (payload i) with Ok x => Ok (oh_pred p x) | Err _ => Ok false | Fault => Fault | Fuel => Fuel end).
  { intros p. rewrite ohc_access by assumption. destruct (ohc_parse (payload i)); reflexivity. }
  assert (Q : forall p, (forall x, ohc_parse (payload i) = Ok x -> oh_pred p x = ohc_bit f i) -> flag_run g f i = match ohc_parse (payload i) with Ok x => Ok (oh_pred p x) | Err _ => Ok false | Fault => Fault | Fuel => Fuel end ->
    flag_run g f i = match ohc_parse (payload i) with Ok _ => Ok (ohc_bit f i) | Err _ => Ok false | Fault => Fault | Fuel => Fuel end).
  { intros p E1 ->. destruct (ohc_parse (payload i)); trivial. now rewrite (E1 _ eq_refl). }
  assert (M : forall m p, m <= 2 -> (if length (payload i) <? m then Ok false else on_ok (access g A_OuterHeaderCreation i) (fun v => match v with VF (F_ohc x) => Ok (oh_pred p x) | _ => Fault end))
    = match ohc_parse (payload i) with Ok x => Ok (oh_pred p x) | Err _ => Ok false | Fault => Fault | Fuel => Fuel end).
  { intros m p L. destruct (Nat.ltb_spec (length (payload i)) m); [|apply R]. destruct S as [e ->]; [lia|reflexivity]. }
  cbn [ohc_flags In] in I. repeat (destruct I as [<-|I]); [..|contradiction].
  1: apply (Q OH_TEID); [|fat (BLen 1 (BOhc A_OuterHeaderCreation OH_TEID)) T; apply M; lia].
  2: apply (Q OH_IPv4); [|fat (BLen 1 (BOhc A_OuterHeaderCreation OH_IPv4)) T; apply M; lia].
  3: apply (Q OH_IPv6); [|fat (BLen 1 (BOhc A_OuterHeaderCreation OH_IPv6)) T; apply M; lia].
  4: apply (Q OH_Port); [|fat (BLen 1 (BOhc A_OuterHeaderCreation OH_Port)) T; apply M; lia].
  5: apply (Q OH_CTag); [|fat (BLen 1 (BOhc A_OuterHeaderCreation OH_CTag)) T; apply M; lia].
  6: apply (Q OH_STag); [|fat (BLen 1 (BOhc A_OuterHeaderCreation OH_STag)) T; apply M; lia].
  7: apply (Q OH_N19); [|fat (BLen 2 (BOhc A_OuterHeaderCreation OH_N19)) T; apply M; lia].
  8: apply (Q OH_N6); [|fat (BLen 2 (BOhc A_OuterHeaderCreation OH_N6)) T; apply M; lia].
  9: apply (Q OH_LLSSM); [|fat (BLen 2 (BOhc A_OuterHeaderCreation OH_LLSSM)) T; apply M; lia].
  all: (intros x P; destruct (ohc_desc_octets Hb P) as (_ & E1 & E2); unfold oh_pred; cbn zeta; rewrite ?E1, ?E2; cbn [ohc_bit];
    unfold oh_has_teid, oh_has_v4, oh_has_v6, oh_has_port, bit_at, octet_at; bits; reflexivity).
Qed.

(** ** panics *)
Lemma spec_in f i fs : In (ty i, fs) special -> In f fs ->
  (ty i = T_UEIPAddress /\ (f = B_HasIPv4 \/ f = B_HasIPv6)) \/ (ty i = T_FSEID /\ (f = B_HasIPv4 \/ f = B_HasIPv6)) \/ (ty i = T_FTEID /\ (f = B_HasIPv4 \/ f = B_HasIPv6)) \/
  (ty i = T_OuterHeaderCreation /\ In f ohc_flags) \/ (ty i = T_TSNBridgeID /\ f = B_HasMAC) \/ (ty i = T_URRID /\ (f = B_IsAllocatedByCPFunction \/ f = B_IsAllocatedByUPFunction)).
Proof.
  intros I J. cbn [special In] in I. repeat (destruct I as [E|I]; [assert (ty i = fst (ty i, fs)) as T by reflexivity; rewrite <- E in T; cbn [fst] in T;
    assert (fs = snd (ty i, fs)) as F by reflexivity; rewrite <- E in F; cbn [snd] in F; rewrite F in J; rewrite T; clear - J; cbn [In] in J|]); [..|contradiction].
  - left. split; [reflexivity|]. intuition congruence.
  - right. left. split; [reflexivity|]. intuition congruence.
  - right. right. left. split; [reflexivity|]. intuition congruence.
  - right. right. right. left. split; [reflexivity|]. exact J.
  - right. right. right. right. left. split; [reflexivity|]. intuition congruence.
  - right. right. right. right. right. split; [reflexivity|]. intuition congruence.
Qed.
Definition flag_panics (f : flag) (i : ie) : Prop :=
  (f = B_HasMAC /\ ty i = T_TSNBridgeID /\ payload i = []) \/ (In f ohc_flags /\ ty i = T_OuterHeaderCreation /\ ohc_parse (payload i) = Fault).
Lemma via_not_other f t c : expected f t = KVia [c] -> expected f c <> KOther.
Proof.
  assert (H : forallb (fun '(_, c, _) => forallb (fun f => match expected f c with KOther => negb (existsb (fun '(_, c', l) => (c =? c')%N && match position layout f l with Some _ => true | None => false end) inside) | _ => true end) all_flags) inside = true) by (vm_compute; reflexivity).
  intros E. unfold expected in E. destruct (position layout f t) as [[k b]|]; [discriminate|]. destruct (position swapped f t) as [[k b]|]; [discriminate|].
  unfold child_for in E. destruct (find _ inside) as [[[t' c'] l]|] eqn:F; [|destruct (specialb f t); discriminate]. assert (c' = c) as -> by congruence. apply find_some in F as [I F].
  rewrite forallb_forall in H. specialize (H _ I). cbn beta iota in H. apply flag_check with (f := f) in H. apply andb_prop in F as [_ F].
  destruct (expected f c); try discriminate. exfalso. apply negb_true_iff in H. assert (X : existsb (fun '(_, c', l) => (c =? c')%N && match position layout f l with Some _ => true | None => false end) inside = true); [|congruence].
  apply existsb_exists. exists (t', c, l). split; [assumption|]. cbn beta iota. now rewrite N.eqb_refl.
Qed.
Lemma expected_via f t ts : expected f t = KVia ts -> exists c, ts = [c].
Proof.
  unfold expected. destruct (position layout f t) as [[k b]|]; [discriminate|]. destruct (position swapped f t) as [[k b]|]; [discriminate|]. destruct (child_for f t) as [c|]; [|destruct (specialb f t); discriminate].
  intros [= <-]. now exists c.
Qed.
Theorem flag_returns n : forall f i, length (payload i) < n -> bytes (payload i) -> expected f (ty i) <> KOther -> exists b, flag_run g f i = Ok b.
Proof.
  induction n as [|n IH]; intros f i L Hb E; [lia|]. destruct (expected f (ty i)) as [|m k b|ts|] eqn:K; [| | |now elim E].
  - exists false. apply flag_false; [assumption|]. now rewrite kinds.
  - eexists. apply flag_bit_any with (m := m) (k := k) (b := b); [assumption|]. now rewrite kinds.
  - destruct (expected_via _ _ K) as [c ->]. rewrite (@flag_via g f i [c] Hb) by now rewrite kinds. destruct (first_of [c] (children_of g i)) as [x|] eqn:F; [|eauto].
    pose proof (find_some _ _ F) as [I T]. unfold children_of in I. destruct (parseMulti_returns g Hb) as [[l P]|[e P]]; rewrite P in I; [|contradiction].
    destruct (@parsed_child g _ _ _ Hb P I) as (_ & Bx & Lx). apply IH; [lia|assumption|]. cbn [memb existsb] in T. rewrite orb_false_r in T. apply N.eqb_eq in T. rewrite T.
    now apply (via_not_other f (ty i)).
Qed.
Lemma other_special f t : expected f t = KOther -> exists fs, In (t, fs) special /\ In f fs.
Proof.
  unfold expected. destruct (position layout f t) as [[k b]|]; [discriminate|]. destruct (position swapped f t) as [[k b]|]; [discriminate|]. destruct (child_for f t) as [c|]; [discriminate|].
  destruct (specialb f t) eqn:S; [|discriminate]. intros _. unfold specialb in S. apply existsb_exists in S as ([t' fs] & I & S). apply andb_prop in S as [S1 S2].
  apply N.eqb_eq in S1. subst t'. exists fs. split; [assumption|]. apply existsb_exists in S2 as (f' & I' & E). apply N.eqb_eq in E. apply flag_id_inj in E as ->. assumption.
Qed.
Theorem flag_outcome f i : bytes (payload i) -> (flag_run g f i = Fault /\ flag_panics f i) \/ ((exists b, flag_run g f i = Ok b) /\ ~ flag_panics f i).
Proof.
  intros Hb. assert (D : expected f (ty i) = KOther \/ expected f (ty i) <> KOther) by (destruct (expected f (ty i)); [right|right|right|left]; try discriminate; reflexivity).
  destruct D as [D|D].
  - apply other_special in D as (fs & I & J). destruct (spec_in _ _ I J) as [[T [->| ->]]|[[T [->| ->]]|[[T [->| ->]]|[[T F]|[[T ->]|[T [->| ->]]]]]]].
    + right. rewrite ueip_v4 by assumption. split; [eauto|]. unfold flag_panics. rewrite T. intros [(E & _)|(_ & E & _)]; discriminate E.
    + right. rewrite ueip_v6 by assumption. split; [eauto|]. unfold flag_panics. rewrite T. intros [(E & _)|(_ & E & _)]; discriminate E.
    + right. rewrite fseid_v4 by assumption. split; [eauto|]. unfold flag_panics. rewrite T. intros [(E & _)|(_ & E & _)]; discriminate E.
    + right. rewrite fseid_v6 by assumption. split; [eauto|]. unfold flag_panics. rewrite T. intros [(E & _)|(_ & E & _)]; discriminate E.
    + right. rewrite fteid_v4 by assumption. split; [eauto|]. unfold flag_panics. rewrite T. intros [(E & _)|(_ & E & _)]; discriminate E.
    + right. rewrite fteid_v6 by assumption. split; [eauto|]. unfold flag_panics. rewrite T. intros [(E & _)|(_ & E & _)]; discriminate E.
    + rewrite ohc_flag by assumption. destruct (ohc_parse (payload i)) as [x|e| |] eqn:P.
      * right. split; [eauto|]. unfold flag_panics. rewrite T. intros [(_ & E & _)|(_ & _ & E)]; [discriminate E|congruence].
      * right. split; [eauto|]. unfold flag_panics. rewrite T. intros [(_ & E & _)|(_ & _ & E)]; [discriminate E|congruence].
      * left. split; [reflexivity|]. right. auto.
      * exfalso. destruct (ohc_parse_returns_or Hb) as [[e E]|(h & r & W & Hr & _ & _ & E)]; [congruence|]. rewrite E in P, Hb. rewrite (@ohc_parse_wire h r W Hb) in P.
        destruct (_ || _); [destruct (_ <? _)|]; discriminate P.
    + rewrite tsn_mac by assumption. destruct (payload i) as [|x r] eqn:P; [left|right].
      * split; [reflexivity|]. left. auto.
      * split; [eauto|]. unfold flag_panics. rewrite T, P. intros [(_ & _ & E)|(_ & E & _)]; discriminate E.
    + right. rewrite urr_cp by assumption. split; [eauto|]. unfold flag_panics. rewrite T. intros [(E & _)|(_ & E & _)]; discriminate E.
    + right. rewrite urr_up by assumption. split; [eauto|]. unfold flag_panics. rewrite T. intros [(E & _)|(_ & E & _)]; discriminate E.
  - right. split; [apply (@flag_returns (S (length (payload i)))); [lia|assumption..]|]. intros [(-> & T & _)|(F & T & _)]; rewrite T in D; apply D; [vm_compute; reflexivity|].
    clear -F. cbn [ohc_flags In] in F. repeat (destruct F as [<-|F]; [vm_compute; reflexivity|]). contradiction.
Qed.
Corollary flag_fault f i : bytes (payload i) -> (flag_run g f i = Fault <-> flag_panics f i).
Proof. intros Hb. destruct (flag_outcome f i Hb) as [[E P]|[[b E] P]]; rewrite E; split; intros X; trivial; [discriminate|contradiction]. Qed.
End G.

(** ** SetXFlag and HasX of the structs *)
Definition sbit (s : sflag) : N := snd (fst (sflag_def s)).
Lemma sflag_facts s : (1 <= sbit s <= 8)%N /\ snd (sflag_def s) = (2 ^ (sbit s - 1))%N.
Proof. destruct s; vm_compute; (split; [split; discriminate|reflexivity]). Qed.
Lemma sflag_inj s s' : sflag_kind s = sflag_kind s' -> sbit s = sbit s' -> s = s'.
Proof. destruct s; destruct s'; intros K B; try reflexivity; first [discriminate K|discriminate B]. Qed.
Lemma set_flag_bits s x b : N.testbit (set_flag s x) b = (b =? sbit s - 1)%N || N.testbit x b.
Proof. unfold set_flag. destruct (sflag_facts s) as [_ ->]. rewrite N.lor_spec, N.pow2_bits_eqb, (N.eqb_sym b). apply orb_comm. Qed.
Lemma has_flag_bit s x : has_flag s x = N.testbit x (sbit s - 1).
Proof. unfold has_flag. apply hasn_testbit. apply sflag_facts. Qed.
Lemma set_has s x : has_flag s (set_flag s x) = true.
Proof. now rewrite has_flag_bit, set_flag_bits, N.eqb_refl. Qed.
Lemma set_other s s' x : sflag_kind s' = sflag_kind s -> s' <> s -> has_flag s' (set_flag s x) = has_flag s' x.
Proof.
  intros K N. rewrite !has_flag_bit, set_flag_bits. destruct (N.eqb_spec (sbit s' - 1) (sbit s - 1)) as [E|]; [|reflexivity]. exfalso. apply N. apply sflag_inj; [assumption|].
  destruct (sflag_facts s) as [? _], (sflag_facts s') as [? _]. lia.
Qed.
Lemma set_octet s x : octet x -> octet (set_flag s x).
Proof.
  intros H. unfold set_flag, octet in *. destruct (sflag_facts s) as [B ->]. destruct (N.eq_dec (N.lor x (2 ^ (sbit s - 1))) 0) as [E|E]; [rewrite E; reflexivity|].
  change 256%N with (2 ^ 8)%N in *. apply N.log2_lt_pow2; [lia|]. rewrite N.log2_lor, N.log2_pow2 by lia. destruct (N.eq_dec x 0) as [->|X]; [cbn; lia|]. apply N.log2_lt_pow2 in H; lia.
Qed.

(** ** ValidateApplyAction *)
Section V.
Variable g : N -> bool.
Lemma aa_bit i f k b : bytes (payload i) -> ty i = T_ApplyAction -> position layout f T_ApplyAction = Some (k, b) ->
  flag_run g f i = Ok (if length (payload i) <? S k then false else bit_at i k b).
Proof.
  intros Hb T P. assert (K : flag_kind f (ty i) = KBit (S k) k b).
  { rewrite kinds. unfold expected. rewrite T, P. f_equal. change (shortest T_ApplyAction) with 1. lia. }
  rewrite (flag_bit_any g f i Hb K). assert (U : uses_value f (ty i) = false); [|rewrite U; reflexivity]. rewrite T.
  assert (H : forall f, (match position layout f T_ApplyAction with Some _ => negb (uses_value f T_ApplyAction) | None => true end) = true) by (apply flag_check; vm_compute; reflexivity).
  specialize (H f). rewrite P in H. now destruct (uses_value f T_ApplyAction).
Qed.
(** bit b of octet k is there and set *)
Definition flag_set (i : ie) (k : nat) (b : N) : bool := (k <? length (payload i)) && bit_at i k b.
(** TS 29.244 8.2.26: exactly one of DROP (1), FORW (2), BUFF (3), IPMA (6), IPMD (7); NOCP (4) and BDPN only with BUFF; DUPL (5) with DROP, FORW, BUFF or NOCP;
    DFRT (8) only with FORW; DDPN only with DROP or BUFF; BDPN and DDPN are bits 2 and 3 of the second octet *)
Definition action_ok (i : ie) : Prop :=
  let o := flag_set i 0 in let p := flag_set i 1 in
  (exists b, In b [1; 2; 3; 6; 7]%N /\ forall b', In b' [1; 2; 3; 6; 7]%N -> (o b' = true <-> b' = b)) /\
  (o 4%N = true \/ p 2%N = true -> o 3%N = true) /\
  (o 5%N = true -> o 1%N = true \/ o 2%N = true \/ o 3%N = true \/ o 4%N = true) /\
  (o 8%N = true -> o 2%N = true) /\
  (p 3%N = true -> o 1%N = true \/ o 3%N = true).
Lemma one_of d f b a m : count_true [d; f; b; a; m] = 1 <->
  exists x, In x [1; 2; 3; 6; 7]%N /\ (d = true <-> 1%N = x) /\ (f = true <-> 2%N = x) /\ (b = true <-> 3%N = x) /\ (a = true <-> 6%N = x) /\ (m = true <-> 7%N = x).
Proof.
  split.
  - intros C. destruct d, f, b, a, m; try discriminate C; [exists 1%N|exists 2%N|exists 3%N|exists 6%N|exists 7%N]; (split; [cbn; tauto|repeat split; (reflexivity || discriminate)]).
  - intros (x & I & H1 & H2 & H3 & H4 & H5). cbn [In] in I. repeat (destruct I as [<-|I]); [..|contradiction];
      destruct d, f, b, a, m; try reflexivity; exfalso;
      repeat match goal with H : true = true <-> _ |- _ => destruct H as [H _]; specialize (H eq_refl); try discriminate H | H : false = true <-> _ |- _ => destruct H as [_ H]; try discriminate (H eq_refl); clear H end.
Qed.
Theorem validate_spec i : bytes (payload i) -> ty i = T_ApplyAction ->
  (action_ok i /\ validate_apply_action g i = Ok tt) \/ (~ action_ok i /\ validate_apply_action g i = Err EMalformed).
Proof.
  intros Hb T. unfold validate_apply_action. rewrite T. cbn [negb N.eqb]. change (T_ApplyAction =? T_ApplyAction)%N with true. cbn [negb].
  assert (F : forall f k b, position layout f T_ApplyAction = Some (k, b) -> flag_run g f i = Ok (flag_set i k b)).
  { intros f k b P. rewrite (@aa_bit i f k b Hb T P). f_equal. unfold flag_set. destruct (Nat.ltb_spec (length (payload i)) (S k)), (Nat.ltb_spec k (length (payload i))); try lia; reflexivity. }
  rewrite (F B_HasDROP 0 1%N), (F B_HasFORW 0 2%N), (F B_HasBUFF 0 3%N), (F B_HasNOCP 0 4%N), (F B_HasDUPL 0 5%N), (F B_HasIPMA 0 6%N), (F B_HasIPMD 0 7%N), (F B_HasDFRT 0 8%N), (F B_HasBDPN 1 2%N), (F B_HasDDPN 1 3%N) by reflexivity.
  cbn [bind]. clear F. unfold action_ok.
  assert (E : forall o : N -> bool, (exists b, In b [1; 2; 3; 6; 7]%N /\ (forall b', In b' [1; 2; 3; 6; 7]%N -> (o b' = true <-> b' = b))) <-> count_true [o 1%N; o 2%N; o 3%N; o 6%N; o 7%N] = 1).
  { intros o. rewrite one_of. split; intros (x & I & H); exists x; (split; [assumption|]).
    - repeat split; apply H; cbn; tauto.
    - intros b' I'. cbn [In] in I'. destruct H as (H1 & H2 & H3 & H4 & H5). repeat (destruct I' as [<-|I']; [assumption|]). contradiction. }
  cbn zeta. rewrite E. clear E.
  generalize (flag_set i 0 1%N) as d, (flag_set i 0 2%N) as f, (flag_set i 0 3%N) as b, (flag_set i 0 4%N) as n, (flag_set i 0 5%N) as u, (flag_set i 0 6%N) as a, (flag_set i 0 7%N) as m, (flag_set i 0 8%N) as r,
    (flag_set i 1 2%N) as p, (flag_set i 1 3%N) as q.
  intros d f b n u a m r p q. destruct (Nat.eqb_spec (count_true [d; f; b; a; m]) 1) as [C|C]; cbn [negb]; [|right; split; [|reflexivity]; intros [X _]; now apply C].
  assert (R : forall (x y z w : bool), ((x = true \/ y = true -> z = true) <-> negb (x || y) || z = true)) by (intros [] [] [] []; cbn; intuition congruence).
  destruct d, f, b, a, m; try discriminate C; clear C; destruct n, u, r, p, q; cbn; (left; split; [intuition congruence|reflexivity]) || (right; split; [intuition congruence|reflexivity]).
Qed.
Theorem validate_type i : ty i <> T_ApplyAction -> validate_apply_action g i = Err (EInvalidTypeT (ty i)).
Proof. intros T. unfold validate_apply_action. destruct (N.eqb_spec (ty i) T_ApplyAction); [contradiction|reflexivity]. Qed.
End V.

(** ** the struct flags are where the specification puts them *)
Lemma slayout_all s : exists b, In (b, s) (concat slayout).
Proof. destruct s; eexists; vm_compute; tauto. Qed.
Lemma slayout_bit s b : In (b, s) (concat slayout) -> sbit s = b.
Proof.
  intros I. assert (H : forallb (fun '(b, s) => (sbit s =? b)%N) (concat slayout) = true) by (vm_compute; reflexivity). rewrite forallb_forall in H. specialize (H _ I). now apply N.eqb_eq in H.
Qed.
(** ** every method has a place *)
Lemma layout_covers f : exists t, position layout f t <> None \/ position swapped f t <> None \/ exists fs, In (t, fs) special /\ In f fs.
Proof.
  assert (H : forall f, existsb (fun t => match expected f t with KBit _ _ _ | KOther => true | _ => false end) (map fst layout ++ map fst swapped ++ map fst special) = true) by (apply flag_check; vm_compute; reflexivity).
  specialize (H f). apply existsb_exists in H as (t & _ & H). exists t. destruct (expected f t) eqn:E; try discriminate.
  - unfold expected in E. destruct (position layout f t) as [[k' b']|]; [now left|]. destruct (position swapped f t) as [[k' b']|]; [right; now left|]. destruct (child_for f t); [discriminate|]. destruct (specialb f t); discriminate.
  - right. right. now apply other_special.
Qed.
(** ** two flags of one IE never share a bit *)
Definition places (t : N) : list (nat * N) := flat_map (fun f => match position layout f t with Some p => [p] | None => [] end) all_flags.
Definition place_eqb (x y : nat * N) : bool := (fst x =? fst y) && (snd x =? snd y)%N.
Fixpoint nodup (l : list (nat * N)) : bool := match l with [] => true | x :: r => negb (existsb (place_eqb x) r) && nodup r end.
Lemma position_In tab f t p : position tab f t = Some p -> In t (map fst tab).
Proof. induction tab as [|[t' l] r IH]; cbn [position map fst In]; [discriminate|]. destruct (N.eqb_spec t t'); [now left|]. intros E. right. now apply IH. Qed.
Lemma layout_distinct f f' u p : position layout f u = Some p -> position layout f' u = Some p -> f = f'.
Proof.
  assert (H : forallb (fun t => nodup (places t)) (map fst layout) = true) by (vm_compute; reflexivity).
  intros P P'. assert (K : nodup (places u) = true). { rewrite forallb_forall in H. apply H. now apply (position_In _ _ _ P). }
  clear H. unfold places in K.
  assert (G : forall l, nodup (flat_map (fun f => match position layout f u with Some p => [p] | None => [] end) l) = true -> NoDup l -> In f l -> In f' l -> f = f').
  { induction l as [|x r IH]; intros N D I I'; [contradiction|]. cbn [flat_map] in N. inversion D as [|? ? D1 D2]; subst.
    assert (T : forall a b, position layout a u = Some p -> position layout b u = Some p -> x = a -> In b r -> False).
    { intros a b Pa Pb -> Ib. rewrite Pa in N. cbn [app nodup] in N. apply andb_prop in N as [N _]. apply negb_true_iff in N.
      assert (X : existsb (place_eqb p) (flat_map (fun f => match position layout f u with Some p => [p] | None => [] end) r) = true); [|congruence].
      apply existsb_exists. exists p. split; [|unfold place_eqb; now rewrite Nat.eqb_refl, N.eqb_refl]. apply in_flat_map. exists b. split; [assumption|]. rewrite Pb. now left. }
    destruct I as [->|I], I' as [->|I']; trivial.
    - now elim (T f f' P P' eq_refl I').
    - now elim (T f' f P' P eq_refl I).
    - apply IH; trivial. destruct (position layout x u); [|exact N]. cbn [app nodup] in N. now apply andb_prop in N as [_ N]. }
  apply (G all_flags); trivial; [|apply all_flags_all..].
  assert (X : NoDup (map flag_id all_flags)); [|now apply NoDup_map_inv in X].
  replace (map flag_id all_flags) with (map N.of_nat (seq 0 (length all_flags))) by (vm_compute; reflexivity).
  apply Injective_map_NoDup; [intros x y; lia|apply seq_NoDup].
Qed.
