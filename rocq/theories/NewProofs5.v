(** Constructed elements on the wire, flag constructors, and the calls that return nil or panic. *)
From Coq Require Import Floats.SpecFloat.
From Verif Require Import Base IETypes IE Spec Bits IEProofs IEProofs2 IEProps Codec Codec2 Utils UtilsProofs Time TimeProofs Fields1 Fields2 Fields3 Fields4 FieldsProofs1 FieldsProofs2 FieldsProofs3 FieldsProofs3b
  Access AccTable AccRun AccProofs Flags FlagTable FlagRun FlagSpec FlagProofs2 New NewTable NewRun NewProofs NewProofs2 NewProofs3 NewProofs4.
Set Implicit Arguments.

Section Made.
Variable g : N -> bool.
Variable beyond : spec_float -> N.

(** * On the wire *)
Lemma made_wire c s a i : calls g beyond c s a (Ok (Some i)) -> is_group s = false -> arg_ok s a -> g (ty i) = false -> (lenN (payload i) < 65536)%N ->
  wire g i (be 2 (ty i) ++ be 2 (lenN (payload i)) ++ payload i).
Proof.
  intros C S A G L. destruct (calls_new C S) as (t & p & T & B & ->). pose proof (@build_yields beyond s a A) as Y. rewrite B in Y. specialize (Y _ eq_refl).
  pose proof (con_type_range _ T) as R. apply new_wire; [apply R|exact G|exact Y|exact L].
Qed.
Lemma made_group_wire c s a i : calls g beyond c s a (Ok (Some i)) -> is_group s = true -> g (ty i) = true -> (ty i < 0x8000)%N ->
  Forall (fun x => exists b, wire g x b) (somes (group_args s a)) -> (lenN (payload i) < 65536)%N ->
  wire g i (be 2 (ty i) ++ be 2 (lenN (payload i)) ++ payload i).
Proof.
  intros C S G R W L. pose proof (made_group C S) as M. rewrite new_grouped_ok in M. injection M as <-. set (t := group_type c s a) in *. cbn [ty payload set_length] in *.
  pose proof (concat_enc_wires (ex_wire_encs W)) as WS.
  pose proof (@set_length_wire g t 0%N (concat (map (enc g) (somes (group_args s a)))) (somes (group_args s a)) 0%N) as X. cbn zeta in X.
  assert (V : vendor t = false) by (apply vendor_false; exact R).
  replace (hdr_octets _ ++ _) with (be 2 t ++ be 2 (lenN (concat (map (enc g) (somes (group_args s a))))) ++ concat (map (enc g) (somes (group_args s a)))) in X.
  - apply X; [lia|reflexivity|reflexivity|exact (wires_bytes WS)| |trivial|congruence].
    unfold fits. rewrite V. unfold lenN in L. lia.
  - unfold hdr_octets, set_length. cbn [ty len eid payload]. rewrite V, app_nil_r, <- app_assoc. unfold u16. now rewrite N.mod_small by (exact L).
Qed.

(** * Flag constructors *)
Lemma flag_of t x f k : g t = false -> octet x -> position layout f t = Some (0, k) -> (shortest t <=? 1) = true -> flag_run g f (new t [x]) = Ok (N.testbit x (k - 1)).
Proof.
  intros G X P S. rewrite (@layout_bit g f (new t [x]) 0 k); [|constructor; [exact X|constructor]|exact G|exact P]. cbn [payload new set_length length nth ty].
  apply Nat.leb_le in S. rewrite Nat.max_l by exact S. reflexivity.
Qed.
(** the bit of each flag, by constructor: the j-th shift is the place of the j-th parameter's flag *)
Definition flags_placed (c : con) : bool :=
  match con_type c, con_shape c with
  | Some t, SInts ks | Some t, SOcts ks =>
      (shortest t <=? 1) && (if length (con_flags c) =? 0 then true else length ks =? length (con_flags c)) &&
      forallb (fun x => match position layout (fst x) t with Some (O, k) => (k =? snd x + 1)%N && (snd x <? 8)%N | _ => false end) (combine (con_flags c) ks)
  | Some t, SMask m => forallb (fun f => match position layout f t with Some (O, 1%N) => (m =? 1)%N && (shortest t <=? 1) | _ => false end) (con_flags c)
  | _, _ => length (con_flags c) =? 0
  end.
Lemma flags_placed_all c : flags_placed c = true.
Proof. destruct c; vm_compute; reflexivity. Qed.
Lemma con_shifts c ks : con_shape c = SInts ks \/ con_shape c = SOcts ks -> In ks [[1; 0]; [0; 1]; [2; 0]; [2; 1; 0]; [3; 2; 1; 0]; [0; 1; 2; 3]]%N.
Proof. destruct c; intros [E|E]; try discriminate E; injection E as <-; vm_compute; tauto. Qed.
Lemma nth_combine {A B} (l : list A) (m : list B) j x y : nth_error l j = Some x -> nth_error m j = Some y -> In (x, y) (combine l m).
Proof.
  revert m j. induction l as [|a l IH]; intros m [|j] H1 H2; try discriminate; destruct m as [|b m]; try discriminate; cbn in *.
  - left. congruence.
  - right. eauto.
Qed.
Definition bitZ (z : Z) : Prop := (z = 0 \/ z = 1)%Z.
Definition bitN (n : N) : Prop := (n = 0 \/ n = 1)%N.
Ltac bits H := repeat match type of H with
  | Forall _ (_ :: _) => let A := fresh "A" in let B := fresh "B" in inversion H as [|? ? A B]; subst; clear H; rename B into H; destruct A as [-> | ->]
  | Forall _ ?l => destruct l; try discriminate
  end.
Lemma ints_bit ks zs j k : In ks [[1; 0]; [0; 1]; [2; 0]; [2; 1; 0]; [3; 2; 1; 0]; [0; 1; 2; 3]]%N -> length zs = length ks -> Forall bitZ zs -> nth_error ks j = Some k ->
  N.testbit (ints ks zs) k = (nth j zs 0 =? 1)%Z.
Proof.
  intros I L F E.
  destruct I as [<-|[<-|[<-|[<-|[<-|[<-|[]]]]]]]; destruct zs as [|z0 [|z1 [|z2 [|z3 [|]]]]]; try discriminate L; clear L;
  repeat match goal with H : Forall _ (_ :: _) |- _ => inversion H; clear H; subst end;
  repeat match goal with H : bitZ _ |- _ => destruct H; subst end;
  destruct j as [|[|[|[|j]]]]; try (destruct j; discriminate E); try discriminate E; injection E as <-; reflexivity.
Qed.
Lemma octs_bit ks zs j k : In ks [[1; 0]; [0; 1]; [2; 0]; [2; 1; 0]; [3; 2; 1; 0]; [0; 1; 2; 3]]%N -> length zs = length ks -> Forall bitN zs -> nth_error ks j = Some k ->
  N.testbit (octs_or ks zs) k = (nth j zs 0 =? 1)%N.
Proof.
  intros I L F E.
  destruct I as [<-|[<-|[<-|[<-|[<-|[<-|[]]]]]]]; destruct zs as [|z0 [|z1 [|z2 [|z3 [|]]]]]; try discriminate L; clear L;
  repeat match goal with H : Forall _ (_ :: _) |- _ => inversion H; clear H; subst end;
  repeat match goal with H : bitN _ |- _ => destruct H; subst end;
  destruct j as [|[|[|[|j]]]]; try (destruct j; discriminate E); try discriminate E; injection E as <-; reflexivity.
Qed.
Lemma flag_place c t ks f j : con_type c = Some t -> con_shape c = SInts ks \/ con_shape c = SOcts ks -> nth_error (con_flags c) j = Some f ->
  (shortest t <=? 1) = true /\ exists k, nth_error ks j = Some k /\ position layout f t = Some (0, (k + 1)%N).
Proof.
  intros T S F. pose proof (flags_placed_all c) as P. unfold flags_placed in P. rewrite T in P.
  assert (P' : (shortest t <=? 1) && (if length (con_flags c) =? 0 then true else length ks =? length (con_flags c)) &&
      forallb (fun x => match position layout (fst x) t with Some (O, k) => (k =? snd x + 1)%N && (snd x <? 8)%N | _ => false end) (combine (con_flags c) ks) = true) by (destruct S as [S|S]; rewrite S in P; exact P).
  clear P. apply andb_prop in P' as [P1 P2]. apply andb_prop in P1 as [P0 P1]. split; [exact P0|].
  destruct (Nat.eqb_spec (length (con_flags c)) 0) as [Z|Z]; [destruct (con_flags c); [destruct j; discriminate F|discriminate Z]|]. apply Nat.eqb_eq in P1.
  assert (J : j < length ks) by (rewrite P1; apply nth_error_Some; congruence). destruct (nth_error ks j) as [k|] eqn:K; [|apply nth_error_None in K; lia].
  exists k. split; [reflexivity|]. rewrite forallb_forall in P2. specialize (P2 _ (nth_combine _ _ _ F K)). cbn [fst snd] in P2.
  destruct (position layout f t) as [[[|] m]|]; try discriminate. apply andb_prop in P2 as [P2 _]. apply N.eqb_eq in P2. now subst m.
Qed.
Theorem flags_ints c ks zs i j f : calls g beyond c (SInts ks) zs (Ok (Some i)) -> g (ty i) = false -> length zs = length ks -> Forall bitZ zs ->
  nth_error (con_flags c) j = Some f -> flag_run g f i = Ok (nth j zs 0 =? 1)%Z.
Proof.
  intros C G L Z F. destruct (calls_new C eq_refl) as (t & p & T & B & ->). injection B as <-. pose proof (or_introl (B := con_shape c = SOcts ks) (proj1 C)) as S.
  destruct (@flag_place c t ks f j T S F) as (P0 & k & K & P). cbn [new set_length ty] in G. rewrite (@flag_of t (ints ks zs) f (k + 1)); trivial.
  - rewrite N.add_sub. now rewrite (@ints_bit ks zs j k (@con_shifts c ks S) L Z K).
  - apply ints_octet.
Qed.
Theorem flags_octs c ks xs i j f : calls g beyond c (SOcts ks) xs (Ok (Some i)) -> g (ty i) = false -> length xs = length ks -> Forall bitN xs ->
  nth_error (con_flags c) j = Some f -> flag_run g f i = Ok (nth j xs 0 =? 1)%N.
Proof.
  intros C G L Z F. destruct (calls_new C eq_refl) as (t & p & T & B & ->). injection B as <-. pose proof (or_intror (A := con_shape c = SInts ks) (proj1 C)) as S.
  destruct (@flag_place c t ks f j T S F) as (P0 & k & K & P). cbn [new set_length ty] in G. rewrite (@flag_of t (octs_or ks xs) f (k + 1)); trivial.
  - rewrite N.add_sub. now rewrite (@octs_bit ks xs j k (@con_shifts c ks S) L Z K).
  - apply octs_or_octet.
Qed.
Theorem flags_mask c m v i f : calls g beyond c (SMask m) v (Ok (Some i)) -> g (ty i) = false -> In f (con_flags c) -> flag_run g f i = Ok (N.odd v).
Proof.
  intros C G F. destruct (calls_new C eq_refl) as (t & p & T & B & ->). injection B as <-. pose proof (flags_placed_all c) as P. unfold flags_placed in P. rewrite T, (proj1 C) in P.
  rewrite forallb_forall in P. specialize (P f F). destruct (position layout f t) as [[[|] k]|] eqn:E; try discriminate. destruct k as [|[| |]]; try discriminate.
  apply andb_prop in P as [M S]. apply N.eqb_eq in M. subst m. cbn [new set_length ty] in G. rewrite (@flag_of t (N.land v 1) f 1); trivial.
  - change (1 - 1)%N with 0%N. rewrite N.land_spec. change (N.testbit 1 0) with true. now rewrite Bool.andb_true_r, N.bit0_odd.
  - change 1%N with (N.ones 1). rewrite N.land_ones. unfold octet. pose proof (N.mod_lt v (2 ^ 1) ltac:(discriminate)). change (2 ^ 1)%N with 2%N in *. lia.
Qed.
(** NewIPVersion(v4, v6): the two methods are exchanged *)
Theorem ip_version_swapped v4 v6 i : calls g beyond N_IPVersion SIPVersion (v4, v6) (Ok (Some i)) -> g (ty i) = false ->
  flag_run g B_HasIPv4 i = Ok v6 /\ flag_run g B_HasIPv6 i = Ok v4.
Proof.
  intros C G. destruct (calls_new C eq_refl) as (t & p & T & B & ->). injection T as <-. injection B as <-.
  rewrite (@swapped_bit g B_HasIPv4 (new T_IPVersion (new_ip_version v4 v6)) 0 1%N), (@swapped_bit g B_HasIPv6 (new T_IPVersion (new_ip_version v4 v6)) 0 2%N); trivial;
  try (destruct v4, v6; repeat constructor); try reflexivity.
Qed.
End Made.
