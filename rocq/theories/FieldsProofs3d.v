(** Payload codecs of Fields3.v, continued: UP IP Resource Information and Trace Information. *)
From Verif Require Import Base Codec Codec2 Fields3 FieldsSpec3 FieldsProofs1 FieldsProofs2 FieldsProofs3 FieldsProofs3b FieldsProofs3c Utils UtilsProofs.
Set Implicit Arguments.

(** * User Plane IP Resource Information *)
Ltac cup := cbn [up_flags up_range up_v4 up_v6 up_ni up_si].
Lemma teidri_bits fl : octet fl -> teidri fl = N.testbit fl 2 || N.testbit fl 3 || N.testbit fl 4.
Proof.
  intros H. assert (E : lt_check (N.to_nat 256) (fun x => Bool.eqb (teidri x) (N.testbit x 2 || N.testbit x 3 || N.testbit x 4)) = true) by (vm_compute; reflexivity).
  apply Bool.eqb_prop. apply (@lt_check_ok (N.to_nat 256) _ fl E). unfold octet in H. lia.
Qed.
(** everything before the network instance *)
Definition upri_head (f : upri) : list N :=
  let fl := up_flags f in [fl] ++ optn (N.testbit fl 2 || N.testbit fl 3 || N.testbit fl 4) 1 (up_range f) ++ optb (N.testbit fl 0) (up_v4 f) ++ optb (N.testbit fl 1) (up_v6 f).
Definition upri_head_wf (f : upri) : Prop :=
  let fl := up_flags f in octet fl /\ ranged (N.testbit fl 2 || N.testbit fl 3 || N.testbit fl 4) 1 (up_range f) /\ present (N.testbit fl 0) 4 (up_v4 f) /\ present (N.testbit fl 1) 16 (up_v6 f).
Definition upri_set (f : upri) ni si : upri := {| up_flags := up_flags f; up_range := up_range f; up_v4 := up_v4 f; up_v6 := up_v6 f; up_ni := ni; up_si := si |}.
Lemma land15 x : N.land x 0x0f = (x mod 16)%N.
Proof. change 0x0f%N with (N.ones 4). now rewrite N.land_ones. Qed.
Lemma upri_parse_head f r : upri_head_wf f -> 2 <= length (upri_head f ++ r) ->
  upri_parse (upri_head f ++ r) =
    if N.testbit (up_flags f) 5 then (if N.testbit (up_flags f) 6 then Fault else Err EUnexpectedEOF)
    else if N.testbit (up_flags f) 6 then match r with [] => Fault | x :: _ => Ok (upri_set f [] (x mod 16)) end
    else Ok (upri_set f [] 0).
Proof.
  destruct f as [fl rg v4 v6 ni si]. unfold upri_head_wf, upri_head, upri_set, upri_parse. cup. intros (Hfl & H1 & H2 & H3) L.
  match goal with |- context [length ?b <? 2] => set (n := length b) in *; assert (En : n = length b) by reflexivity; clearbody n end.
  destruct (Nat.ltb_spec n 2); [lia|]. rewrite <- !app_assoc in *. rewrite index0_app. unfold bind at 1. rewrite (teidri_bits Hfl). bits. enter fl. repeat fwd1. pres.
  match goal with |- context [index ?b n] => assert (I : index b n = Fault) end.
  { unfold index. rewrite (proj2 (nth_error_None _ _)); [reflexivity|]. rewrite En, !app_length. cbn [length]. lia. }
  rewrite I. destruct (N.testbit fl 5), (N.testbit fl 6); cbn [bind]; try reflexivity.
  - destruct (Nat.ltb_spec n (length ((([fl] ++ optn (N.testbit fl 2 || N.testbit fl 3 || N.testbit fl 4) 1 rg) ++ optb (N.testbit fl 0) v4) ++ optb (N.testbit fl 1) v6) + n)) as [|K]; [reflexivity|].
    exfalso. rewrite !app_length in K. cbn [length] in K. lia.
  - destruct r as [|x r].
    + unfold index. rewrite app_nil_r. rewrite (proj2 (nth_error_None _ _)) by lia. reflexivity.
    + rewrite index_app by reflexivity. cbn [bind]. now rewrite land15.
Qed.
Lemma upri_head_or b : bytes b -> (exists e, upri_parse b = Err e) \/ exists f r, upri_head_wf f /\ bytes r /\ 2 <= length b /\ b = upri_head f ++ r.
Proof.
  intros Hb. unfold upri_parse. destruct (Nat.ltb_spec (length b) 2) as [|L]; [left; eexists; reflexivity|].
  set (n := length b) in *. assert (En : n = length b) by reflexivity. clearbody n.
  destruct b as [|fl q]; [cbn [length] in En; lia|]. change (index (fl :: q) 0) with (Ok fl). unfold bind at 1. change (fl :: q) with ([fl] ++ q) in *.
  apply bytes_hd in Hb. destruct Hb as [Hfl Hq]. rewrite (teidri_bits Hfl). bits. enter fl.
  match goal with |- context [rdn ?c ?n ?b ?oo ?d] => destruct (@rdn_returns c n b oo d) as [[[rg o] E]|[e ->]]; [|left; eexists; reflexivity] end.
  rewrite E. cbn [bind]. apply rdn_inv in E; [|exact Hq]. destruct E as (q1 & E & -> & P1 & Hq1). rewrite E in *. clear E.
  match goal with |- context [rdb ?c ?n ?b ?oo ?d] => destruct (@rdb_returns c n b oo d) as [[[v4 o] E]|[e ->]]; [|left; eexists; reflexivity] end.
  rewrite E. cbn [bind]. apply rdb_inv in E; [|exact Hq1]. destruct E as (q2 & E & -> & P2 & Hq2). rewrite E in *. clear E.
  match goal with |- context [rdb ?c ?n ?b ?oo ?d] => destruct (@rdb_returns c n b oo d) as [[[v6 o] E]|[e ->]]; [|left; eexists; reflexivity] end.
  rewrite E. cbn [bind]. apply rdb_inv in E; [|exact Hq2]. destruct E as (q3 & E & -> & P3 & Hq3). rewrite E in *. clear E.
  right. exists {| up_flags := fl; up_range := rg; up_v4 := v4; up_v6 := v6; up_ni := []; up_si := 0 |}, q3. unfold upri_head_wf, upri_head. cup.
  refine (conj (conj Hfl (conj P1 (conj P2 P3))) (conj Hq3 (conj _ _))); [lia|]. now rewrite <- !app_assoc.
Qed.
Lemma upri_fault b : bytes b -> (upri_parse b = Fault <-> 2 <= length b /\ exists f r, upri_head_wf f /\ b = upri_head f ++ r /\ N.testbit (up_flags f) 6 = true /\ (N.testbit (up_flags f) 5 = true \/ r = [])).
Proof.
  intros Hb. split.
  - intros F. destruct (upri_head_or Hb) as [[e E]|(f & r & W & Hr & L & ->)]; [congruence|]. split; [exact L|]. exists f, r. rewrite (@upri_parse_head f r W L) in F.
    split; [exact W|]. split; [reflexivity|]. destruct (N.testbit (up_flags f) 5), (N.testbit (up_flags f) 6); try discriminate; auto. destruct r; [auto|discriminate].
  - intros (L & f & r & W & -> & B6 & C). rewrite (@upri_parse_head f r W L), B6. destruct (N.testbit (up_flags f) 5); [reflexivity|]. destruct C as [C| ->]; [discriminate|reflexivity].
Qed.
Lemma upri_ok b f : bytes b -> (upri_parse b = Ok f <->
  upri_wf f /\ N.testbit (up_flags f) 5 = false /\ 2 <= length b /\ exists x r, octet x /\ bytes r /\ up_si f = (if N.testbit (up_flags f) 6 then x mod 16 else 0)%N /\ b = upri_wire f x ++ r).
Proof.
  intros Hb. split.
  - intros P. destruct (upri_head_or Hb) as [[e E]|(g & r & W & Hr & L & ->)]; [congruence|]. rewrite (@upri_parse_head g r W L) in P.
    destruct (N.testbit (up_flags g) 5) eqn:B5; [destruct (N.testbit (up_flags g) 6); discriminate|]. destruct W as (W0 & W1 & W2 & W3).
    assert (G : exists si, f = upri_set g [] si /\ ranged (N.testbit (up_flags g) 6) 1 si /\ exists x r', octet x /\ bytes r' /\ si = (if N.testbit (up_flags g) 6 then x mod 16 else 0)%N /\ r = optn (N.testbit (up_flags g) 6) 1 x ++ r').
    { destruct (N.testbit (up_flags g) 6).
      - destruct r as [|x r]; [discriminate|]. inversion Hr as [|? ? Hx Hr']; subst. exists (x mod 16)%N. split; [congruence|]. split.
        + cbn. assert (x mod 16 < 16)%N by (apply N.mod_lt; discriminate). lia.
        + exists x, r. repeat (split; [assumption || reflexivity|]). change (optn true 1 x) with (be 1 x). rewrite be1 by exact Hx. reflexivity.
      - exists 0%N. split; [congruence|]. split; [reflexivity|]. exists 0%N, r. split; [reflexivity|]. auto. }
    destruct G as (si & -> & Rs & x & r' & Ox & Hr' & Es & ->). unfold upri_wf, upri_wire, upri_set. cup. rewrite B5. split.
    + split; [exact W0|]. split; [exact W1|]. split; [exact W2|]. split; [exact W3|]. split; [auto|]. split; [constructor|exact Rs].
    + split; [reflexivity|]. split; [exact L|]. exists x, r'. split; [exact Ox|]. split; [exact Hr'|]. split; [exact Es|]. unfold upri_head. cbn [opts]. now rewrite <- !app_assoc.
  - intros (W & B5 & L & x & r & Ox & Hr & Es & ->). destruct W as (W0 & W1 & W2 & W3 & W4 & _ & W6). specialize (W4 B5).
    assert (E : upri_wire f x ++ r = upri_head f ++ optn (N.testbit (up_flags f) 6) 1 x ++ r) by (unfold upri_wire, upri_head; rewrite B5; cbn [opts]; now rewrite <- !app_assoc).
    rewrite E in *. rewrite upri_parse_head by (unfold upri_head_wf; auto). rewrite B5. unfold upri_set. destruct f as [fl rg v4 v6 ni si]. cbn [up_flags up_range up_v4 up_v6 up_ni up_si] in *.
    subst ni. destruct (N.testbit fl 6); subst si; [|reflexivity]. cbn [optn]. rewrite be1 by exact Ox. reflexivity.
Qed.
Lemma upri_marshal_wire f : upri_wf f -> upri_marshal f = (if length (upri_wire f (up_si f)) <? 2 then Err EUnexpectedEOF else Ok (upri_wire f (up_si f))) /\ upri_marshal_len f = length (upri_wire f (up_si f)).
Proof.
  destruct f as [fl rg v4 v6 ni si]. unfold upri_wf, upri_wire, upri_marshal, upri_marshal_to, upri_marshal_len. cup. intros (Hfl & H1 & H2 & H3 & H4 & H5 & H6). rewrite (teidri_bits Hfl). bits.
  assert (LEN : 1 + len_if (N.testbit fl 2 || N.testbit fl 3 || N.testbit fl 4) 1 + len_if (N.testbit fl 0) 4 + len_if (N.testbit fl 1) 16 + len_if (N.testbit fl 5) (length ni) + len_if (N.testbit fl 6) 1 =
    length ([fl] ++ optn (N.testbit fl 2 || N.testbit fl 3 || N.testbit fl 4) 1 rg ++ optb (N.testbit fl 0) v4 ++ optb (N.testbit fl 1) v6 ++ opts (N.testbit fl 5) ni ++ optn (N.testbit fl 6) 1 si)) by (lens2; lia).
  split; [|exact LEN]. rewrite LEN. rewrite make_length. destruct (length _ <? 2); [reflexivity|].
  rewrite app_length at 1. cbn [length]. rewrite put0. cbn [bind]. enter fl. repeat wr2. wr_done2.
Qed.
Lemma new_upri_wf fl rg v4 v6 ni si : octet fl -> octet rg -> ok4 (N.testbit fl 0) v4 -> ok16 (N.testbit fl 1) v6 -> bytes ni -> octet si -> upri_wf (new_upri fl rg v4 v6 ni si).
Proof.
  intros Hfl Hr H4 H6 Hn Hs. unfold upri_wf, new_upri. cup. rewrite (teidri_bits Hfl). bits. split; [exact Hfl|]. split; [|split; [|split; [|split; [|split]]]].
  - destruct (N.testbit fl 2 || N.testbit fl 3 || N.testbit fl 4); [exact Hr|reflexivity].
  - exact (canon4_present H4).
  - exact (canon16_present H6).
  - now intros ->.
  - destruct (N.testbit fl 5); [exact Hn|constructor].
  - destruct (N.testbit fl 6); [exact Hs|reflexivity].
Qed.

(** * Trace Information *)
Lemma rd1_eq p q : rd1 (p ++ q) (length p) = match q with [] => Fault | x :: _ => Ok (x, length (p ++ [x])) end.
Proof.
  unfold rd1. rewrite need_app by lia. destruct q as [|x q].
  - rewrite app_nil_r. unfold index. now rewrite (proj2 (nth_error_None _ _)) by lia.
  - rewrite index_app by reflexivity. cbn [bind]. now rewrite app_length.
Qed.
Lemma skip_nil_eq n p q : skip_nil n (p ++ q) (length p) = if length q <? N.to_nat n then Err EUnexpectedEOF else Ok (length (p ++ firstn (N.to_nat n) q)).
Proof.
  unfold skip_nil. rewrite app_length. destruct (Nat.ltb_spec (length q) (N.to_nat n)), (Nat.ltb_spec (length p + length q) (length p + N.to_nat n)); try lia; [reflexivity|].
  rewrite slice_ok by (rewrite ?app_length; lia). cbn [bind]. f_equal. rewrite app_length, firstn_length. lia.
Qed.
(** one list: its length octet and its octets *)
Lemma seg8_step {A} p q (k : N -> nat -> res A) : bytes q ->
  (q = [] /\ (' (n, o) <- rd1 (p ++ q) (length p) ;; o <- skip_nil n (p ++ q) o ;; k n o) = Fault) \/
  ((' (n, o) <- rd1 (p ++ q) (length p) ;; o <- skip_nil n (p ++ q) o ;; k n o) = Err EUnexpectedEOF /\ exists n s, q = n :: s /\ (lenN s < n)%N) \/
  exists s q', bytes s /\ (lenN s < 256)%N /\ bytes q' /\ q = seg8 true s ++ q' /\
    (' (n, o) <- rd1 (p ++ q) (length p) ;; o <- skip_nil n (p ++ q) o ;; k n o) = k (lenN s) (length (p ++ seg8 true s)).
Proof.
  intros Hq. rewrite rd1_eq. destruct q as [|n q]; [left; auto|]. right. cbn [bind]. inversion Hq as [|? ? Hn Hq']; subst.
  change (p ++ n :: q) with (p ++ [n] ++ q). rewrite app_assoc, skip_nil_eq. destruct (Nat.ltb_spec (length q) (N.to_nat n)) as [L|L].
  - left. split; [reflexivity|]. exists n, q. split; [reflexivity|]. unfold lenN. lia.
  - right. exists (firstn (N.to_nat n) q), (skipn (N.to_nat n) q).
    assert (E : lenN (firstn (N.to_nat n) q) = n) by (unfold lenN; rewrite firstn_length; lia).
    assert (B : bytes (firstn (N.to_nat n) q) /\ bytes (skipn (N.to_nat n) q)) by (apply bytes_app; now rewrite firstn_skipn).
    destruct B as [B1 B2]. rewrite E. split; [exact B1|]. split; [exact Hn|]. split; [exact B2|]. split; [cbn [seg8 app]; rewrite E; now rewrite firstn_skipn|].
    cbn [bind seg8]. rewrite E. now rewrite <- app_assoc.
Qed.
Definition trace_dec (id : list N) (mcc mnc : list N) (ev : list N) depth (ifs ip : list N) : trace :=
  {| ti_mcc := mcc; ti_mnc := mnc; ti_id := id; ti_evlen := lenN ev; ti_ev := None; ti_depth := depth; ti_iflen := lenN ifs; ti_ifs := None; ti_iplen := lenN ip; ti_ip := None |}.
Lemma plmn3 a b c : exists mcc mnc, decode_plmn [a; b; c] = Ok (mcc, mnc).
Proof. eexists. eexists. reflexivity. Qed.
Lemma seg8_fwd {A} p s q (k : N -> nat -> res A) :
  (' (n, o) <- rd1 (p ++ seg8 true s ++ q) (length p) ;; o <- skip_nil n (p ++ seg8 true s ++ q) o ;; k n o) = k (lenN s) (length (p ++ seg8 true s)).
Proof.
  rewrite rd1_eq. cbn [seg8 app bind]. change (p ++ lenN s :: s ++ q) with (p ++ [lenN s] ++ s ++ q). rewrite app_assoc, skip_nil_eq, lenN_nat.
  destruct (Nat.ltb_spec (length (s ++ q)) (length s)) as [L|_]; [rewrite app_length in L; lia|]. cbn [bind]. rewrite firstn_app_exact by reflexivity. now rewrite <- app_assoc.
Qed.
Lemma trace_head h t : length h = 6 -> exists mcc mnc, decode_plmn (firstn 3 h) = Ok (mcc, mnc) /\ trace_parse (h ++ t) =
  (' (evlen, o) <- rd1 (h ++ t) (length h) ;; o <- skip_nil evlen (h ++ t) o ;;
   ' (depth, o) <- rd1 (h ++ t) o ;; ' (iflen, o) <- rd1 (h ++ t) o ;; o <- skip_nil iflen (h ++ t) o ;;
   ' (iplen, o) <- rd1 (h ++ t) o ;; _ <- skip_nil iplen (h ++ t) o ;;
   Ok {| ti_mcc := mcc; ti_mnc := mnc; ti_id := skipn 3 h; ti_evlen := evlen; ti_ev := None; ti_depth := depth; ti_iflen := iflen; ti_ifs := None; ti_iplen := iplen; ti_ip := None |}).
Proof.
  intros L. destruct h as [|a [|b [|c [|d [|e [|g [|? ?]]]]]]]; try discriminate. destruct (plmn3 a b c) as (mcc & mnc & E). exists mcc, mnc.
  change (firstn 3 [a; b; c; d; e; g]) with [a; b; c]. split; [exact E|]. unfold trace_parse. rewrite need_app by (cbn; lia).
  change (slice ([a; b; c; d; e; g] ++ t) 0 3) with (Ok [a; b; c]). unfold bind at 1. rewrite E. unfold bind at 1.
  change (slice ([a; b; c; d; e; g] ++ t) 3 6) with (Ok [d; e; g]). unfold bind at 1. reflexivity.
Qed.
(** where a payload may stop so that the decoder reads past its end *)
Definition trace_cut (t : list N) : Prop := t = [] \/ exists ev, bytes ev /\ (lenN ev < 256)%N /\
  (t = seg8 true ev \/ exists depth, t = seg8 true ev ++ [depth] \/ exists ifs, bytes ifs /\ (lenN ifs < 256)%N /\ t = seg8 true ev ++ [depth] ++ seg8 true ifs).
Lemma trace_cut_fault h t : length h = 6 -> trace_cut t -> trace_parse (h ++ t) = Fault.
Proof.
  intros L C. destruct (trace_head h t L) as (mcc & mnc & _ & ->). destruct C as [->|(ev & _ & _ & C)]; [rewrite rd1_eq; reflexivity|].
  assert (F : forall q, t = seg8 true ev ++ q -> (q = [] \/ exists depth, q = [depth] \/ exists ifs, q = [depth] ++ seg8 true ifs) -> 
   (' (evlen, o) <- rd1 (h ++ t) (length h) ;; o <- skip_nil evlen (h ++ t) o ;;
   ' (depth, o) <- rd1 (h ++ t) o ;; ' (iflen, o) <- rd1 (h ++ t) o ;; o <- skip_nil iflen (h ++ t) o ;;
   ' (iplen, o) <- rd1 (h ++ t) o ;; _ <- skip_nil iplen (h ++ t) o ;;
   Ok {| ti_mcc := mcc; ti_mnc := mnc; ti_id := skipn 3 h; ti_evlen := evlen; ti_ev := None; ti_depth := depth; ti_iflen := iflen; ti_ifs := None; ti_iplen := iplen; ti_ip := None |}) = Fault).
  { intros q -> Q. rewrite seg8_fwd. rewrite app_assoc. rewrite rd1_eq. destruct Q as [->|(depth & [->|(ifs & ->)])]; [reflexivity| |]; cbn [app bind].
    - change ((h ++ seg8 true ev) ++ [depth]) with ((h ++ seg8 true ev) ++ [depth]). rewrite <- (app_nil_r ((h ++ seg8 true ev) ++ [depth])) at 1. rewrite rd1_eq. reflexivity.
    - change (depth :: seg8 true ifs) with ([depth] ++ seg8 true ifs). rewrite app_assoc. rewrite <- (app_nil_r (seg8 true ifs)). rewrite seg8_fwd. rewrite app_assoc, rd1_eq. reflexivity. }
  destruct C as [->|(depth & [->|(ifs & _ & _ & ->)])].
  - apply (F []); [now rewrite app_nil_r|auto].
  - apply (F [depth]); eauto.
  - apply (F ([depth] ++ seg8 true ifs)); eauto.
Qed.
Lemma trace_parse_wire h ev depth ifs ip r : length h = 6 -> exists mcc mnc, decode_plmn (firstn 3 h) = Ok (mcc, mnc) /\
  trace_parse (h ++ trace_rest ev depth ifs ip ++ r) = Ok (trace_dec (skipn 3 h) mcc mnc ev depth ifs ip).
Proof.
  intros L. destruct (trace_head h (trace_rest ev depth ifs ip ++ r) L) as (mcc & mnc & E & ->). exists mcc, mnc. split; [exact E|].
  unfold trace_rest. rewrite <- !app_assoc. rewrite seg8_fwd. rewrite app_assoc, rd1_eq. cbn [app bind]. change (depth :: seg8 true ifs ++ seg8 true ip ++ r) with ([depth] ++ seg8 true ifs ++ seg8 true ip ++ r).
  rewrite app_assoc, seg8_fwd, app_assoc, seg8_fwd. reflexivity.
Qed.
Lemma trace_or b : bytes b -> (exists e, trace_parse b = Err e) \/ exists h t, b = h ++ t /\ length h = 6 /\ bytes h /\ bytes t /\
  (trace_cut t \/ exists ev depth ifs ip r, octet depth /\ bytes ev /\ bytes ifs /\ bytes ip /\ (lenN ev < 256)%N /\ (lenN ifs < 256)%N /\ (lenN ip < 256)%N /\ t = trace_rest ev depth ifs ip ++ r).
Proof.
  intros Hb. destruct (Nat.lt_ge_cases (length b) 6) as [L|L].
  { left. unfold trace_parse. destruct (Nat.ltb_spec (length b) 6); [eexists; reflexivity|lia]. }
  assert (B : bytes (firstn 6 b) /\ bytes (skipn 6 b)) by (apply bytes_app; now rewrite firstn_skipn). destruct B as [B1 B2].
  assert (L6 : length (firstn 6 b) = 6) by (rewrite firstn_length; lia). rewrite <- (firstn_skipn 6 b). generalize dependent (firstn 6 b). generalize dependent (skipn 6 b). intros t Bt h Bh L6.
  destruct (trace_head h t L6) as (mcc & mnc & _ & ->).
  destruct (@seg8_step _ h t (fun evlen o => ' (depth, o) <- rd1 (h ++ t) o ;; ' (iflen, o) <- rd1 (h ++ t) o ;; o <- skip_nil iflen (h ++ t) o ;;
   ' (iplen, o) <- rd1 (h ++ t) o ;; _ <- skip_nil iplen (h ++ t) o ;;
   Ok {| ti_mcc := mcc; ti_mnc := mnc; ti_id := skipn 3 h; ti_evlen := evlen; ti_ev := None; ti_depth := depth; ti_iflen := iflen; ti_ifs := None; ti_iplen := iplen; ti_ip := None |}) Bt)
    as [[-> _]|[[E _]|(ev & q & Bev & Lev & Bq & -> & E)]].
  { right. exists h, []. repeat (split; [assumption || reflexivity|]). left. now left. }
  { left. exists EUnexpectedEOF. exact E. }
  rewrite E. clear E. rewrite app_assoc, rd1_eq. destruct q as [|depth q].
  { right. exists h, (seg8 true ev ++ []). rewrite app_assoc. repeat (split; [assumption || reflexivity|]). left. right. exists ev. rewrite app_nil_r. auto. }
  cbn [bind]. change (depth :: q) with ([depth] ++ q). rewrite app_assoc. inversion Bq as [|? ? Hd Bq1]; subst.
  destruct (@seg8_step _ ((h ++ seg8 true ev) ++ [depth]) q (fun iflen o => ' (iplen, o) <- rd1 (((h ++ seg8 true ev) ++ [depth]) ++ q) o ;; _ <- skip_nil iplen (((h ++ seg8 true ev) ++ [depth]) ++ q) o ;;
   Ok {| ti_mcc := mcc; ti_mnc := mnc; ti_id := skipn 3 h; ti_evlen := lenN ev; ti_ev := None; ti_depth := depth; ti_iflen := iflen; ti_ifs := None; ti_iplen := iplen; ti_ip := None |}) Bq1)
    as [[-> _]|[[E _]|(ifs & q2 & Bif & Lif & Bq2 & -> & E)]].
  { right. exists h, (seg8 true ev ++ [depth]). rewrite app_nil_r. split; [now rewrite app_assoc|]. repeat (split; [assumption|]). left. right. exists ev. eauto 10. }
  { left. exists EUnexpectedEOF. exact E. }
  rewrite E. clear E. rewrite app_assoc.
  destruct (@seg8_step _ (((h ++ seg8 true ev) ++ [depth]) ++ seg8 true ifs) q2 (fun iplen (_ : nat) => 
   Ok {| ti_mcc := mcc; ti_mnc := mnc; ti_id := skipn 3 h; ti_evlen := lenN ev; ti_ev := None; ti_depth := depth; ti_iflen := lenN ifs; ti_ifs := None; ti_iplen := iplen; ti_ip := None |}) Bq2)
    as [[-> _]|[[E _]|(ip & q3 & Bip & Lip & Bq3 & -> & E)]].
  { right. exists h, (seg8 true ev ++ [depth] ++ seg8 true ifs). rewrite app_nil_r. split; [now rewrite !app_assoc|]. split; [exact L6|]. split; [exact Bh|].
    split; [rewrite app_nil_r in Bt; exact Bt|]. left. right. exists ev. eauto 15. }
  { left. exists EUnexpectedEOF. exact E. }
  right. exists h, (trace_rest ev depth ifs ip ++ q3). unfold trace_rest. split; [now rewrite <- !app_assoc|]. split; [exact L6|]. split; [exact Bh|]. split; [rewrite <- !app_assoc; exact Bt|].
  right. exists ev, depth, ifs, ip, q3. repeat (split; [assumption|]). reflexivity.
Qed.
Lemma trace_fault b : bytes b -> (trace_parse b = Fault <-> exists h t, b = h ++ t /\ length h = 6 /\ trace_cut t).
Proof.
  intros Hb. split.
  - intros F. destruct (trace_or Hb) as [[e E]|(h & t & -> & L & _ & _ & [C|(ev & d & ifs & ip & r & _ & _ & _ & _ & _ & _ & _ & ->)])]; [congruence|eauto|].
    destruct (trace_parse_wire h ev d ifs ip r L) as (mcc & mnc & _ & E). congruence.
  - intros (h & t & -> & L & C). now apply trace_cut_fault.
Qed.
Lemma trace_ok b f : bytes b -> (trace_parse b = Ok f <-> exists h mcc mnc ev depth ifs ip r, length h = 6 /\ octet depth /\ bytes ev /\ bytes ifs /\ bytes ip /\ (lenN ev < 256)%N /\ (lenN ifs < 256)%N /\ (lenN ip < 256)%N /\
  b = h ++ trace_rest ev depth ifs ip ++ r /\ decode_plmn (firstn 3 h) = Ok (mcc, mnc) /\ f = trace_dec (skipn 3 h) mcc mnc ev depth ifs ip).
Proof.
  intros Hb. split.
  - intros P. destruct (trace_or Hb) as [[e E]|(h & t & -> & L & _ & _ & [C|(ev & d & ifs & ip & r & H1 & H2 & H3 & H4 & H5 & H6 & H7 & ->)])]; [congruence| |].
    + rewrite (trace_cut_fault h L C) in P. discriminate.
    + destruct (trace_parse_wire h ev d ifs ip r L) as (mcc & mnc & D & E). exists h, mcc, mnc, ev, d, ifs, ip, r. repeat (split; [assumption || reflexivity|]). congruence.
  - intros (h & mcc & mnc & ev & d & ifs & ip & r & L & _ & _ & _ & _ & _ & _ & _ & -> & D & ->). destruct (trace_parse_wire h ev d ifs ip r L) as (mcc' & mnc' & D' & ->). congruence.
Qed.
(** encoding *)
Lemma wr1x_ok x w z : 1 <= length z -> wr1x x (w ++ z) (length w) = Ok ((w ++ [x]) ++ skipn 1 z, length (w ++ [x])).
Proof. intros L. unfold wr1x. rewrite need_app by lia. rewrite put_seg by (cbn; lia). cbn [bind]. now rewrite (app_length w [x]). Qed.
Lemma wrs_ok s n w z : length s = n -> n <= length z -> wrb true n s (w ++ z) (length w) = Ok ((w ++ s) ++ skipn n z, length (w ++ s)).
Proof.
  intros L Lz. unfold wrb. rewrite app_length. destruct (Nat.ltb_spec (length w + length z) (length w + n)); [lia|]. rewrite copy_seg by assumption. cbn [bind]. now rewrite app_length, L.
Qed.
Lemma trace_marshal_wire f p : encode_plmn (ti_mcc f) (ti_mnc f) = Ok p -> length p = 3 -> length (ti_id f) = 3 -> ti_evlen f = lenN (octs (ti_ev f)) -> ti_iflen f = lenN (octs (ti_ifs f)) -> ti_iplen f = lenN (octs (ti_ip f)) ->
  trace_marshal f = Ok (p ++ ti_id f ++ trace_rest (octs (ti_ev f)) (ti_depth f) (octs (ti_ifs f)) (octs (ti_ip f))) /\
  trace_marshal_len f = length (p ++ ti_id f ++ trace_rest (octs (ti_ev f)) (ti_depth f) (octs (ti_ifs f)) (octs (ti_ip f))).
Proof.
  intros E Lp Li E1 E2 E3. unfold trace_marshal, trace_marshal_to, trace_marshal_len. rewrite E, E1, E2, E3, !lenN_nat. cbn [bind].
  generalize (octs (ti_ev f)) as ev, (octs (ti_ifs f)) as ifs, (octs (ti_ip f)) as ip. intros ev ifs ip. generalize dependent (ti_id f). intros id Li. clear E E1 E2 E3.
  assert (LEN : 3 + 3 + 1 + 1 + 1 + 1 + length ev + length ifs + length ip = length (p ++ id ++ trace_rest ev (ti_depth f) ifs ip)).
  { unfold trace_rest. lens2. lia. }
  split; [|exact LEN]. set (n := 3 + 3 + 1 + 1 + 1 + 1 + length ev + length ifs + length ip) in *. rewrite make_length. destruct (Nat.ltb_spec n 6); [lia|].
  change (make n) with ([] ++ make n). change 0 with (length (@nil N)) at 1. replace 3 with (length (@nil N) + length p) at 1 by (cbn [length]; lia).
  rewrite copy_seg by (rewrite ?make_length; lia). cbn [bind app]. replace 3 with (length p) at 1 by lia. replace 6 with (length p + length id) at 1 by lia.
  rewrite copy_seg by (rewrite ?skipn_length, ?make_length; lia). cbn [bind]. replace 6 with (length (p ++ id)) by (rewrite app_length; lia).
  assert (X : forall k, k = n - 6 -> skipn (length id) (skipn (length p) (make n)) = make k) by (intros k ->; rewrite !skipn_make; f_equal; lia).
  rewrite (X _ eq_refl).
  do 3 (first [rewrite wr1x_ok by (lens2; lia) | rewrite wrs_ok by (reflexivity || (lens2; lia))]; cbn [bind]).
  do 3 (first [rewrite wr1x_ok by (lens2; lia) | rewrite wrs_ok by (reflexivity || (lens2; lia))]; cbn [bind]).
  rewrite wrs_ok by (reflexivity || (lens2; lia)). cbn [bind]. f_equal. rewrite skipn_all_nil by (lens2; lia). unfold trace_rest. cbn [seg8]. rewrite app_nil_r, <- !app_assoc. reflexivity.
Qed.
Lemma new_trace_roundtrip mcc mnc id ev depth ifs ip x : Forall lhex mcc -> Forall lhex mnc -> length mcc = 3 -> (length mnc = 2 \/ length mnc = 3 /\ last mnc 0%N <> 102%N) ->
  length id = 3 -> (lenN (octs ev) < 256)%N -> (lenN (octs ifs) < 256)%N -> (to4 ip = Some x \/ to4 ip = None /\ ip = Some x /\ length x = 16) ->
  exists w, trace_marshal (new_trace mcc mnc id ev depth ifs ip) = Ok w /\
    trace_parse w = Ok {| ti_mcc := mcc; ti_mnc := mnc; ti_id := id; ti_evlen := lenN (octs ev); ti_ev := None; ti_depth := depth; ti_iflen := lenN (octs ifs); ti_ifs := None; ti_iplen := lenN x; ti_ip := None |}.
Proof.
  intros H1 H2 L1 L2 Li Lev Lif Hip. destruct (plmn_roundtrip H1 H2 L1 L2) as (p & E & Lp & _ & D).
  assert (N : new_trace mcc mnc id ev depth ifs ip = {| ti_mcc := mcc; ti_mnc := mnc; ti_id := id; ti_evlen := lenN (octs ev); ti_ev := ev; ti_depth := depth; ti_iflen := lenN (octs ifs); ti_ifs := ifs; ti_iplen := lenN x; ti_ip := Some x |}).
  { unfold new_trace, u8. rewrite !N.mod_small by assumption. destruct Hip as [E4|(E4 & -> & L)]; rewrite E4; [|unfold lenN; rewrite L; reflexivity].
    unfold lenN. rewrite (to4_len _ E4). reflexivity. }
  rewrite N. match goal with |- context [trace_marshal ?f] => destruct (@trace_marshal_wire f p) as [-> _] end; try assumption; try reflexivity. eexists. split; [reflexivity|].
  cbn [ti_id ti_ev ti_depth ti_ifs ti_ip octs]. rewrite <- (app_nil_r (trace_rest _ _ _ _)). rewrite app_assoc.
  destruct (@trace_parse_wire (p ++ id) (octs ev) depth (octs ifs) x []) as (mcc' & mnc' & D' & ->); [rewrite app_length; lia|].
  rewrite firstn_app_exact in D' by lia. rewrite D in D'. injection D' as <- <-. rewrite skipn_app_exact by lia. reflexivity.
Qed.
Lemma ohc_returns b : bytes b -> ohc_parse b <> Fault -> returns (ohc_parse b).
Proof.
  intros Hb N. destruct (ohc_parse_returns_or Hb) as [[e ->]|(f & r & W & _ & _ & _ & ->)]; [right; eauto|]. rewrite (@ohc_parse_wire f r W Hb) in *.
  destruct (N.testbit (oh_desc f) 6 || N.testbit (oh_desc f) 7); [|left; eauto]. destruct (length r <? 3); [right; eauto|congruence].
Qed.
Lemma upri_returns b : bytes b -> upri_parse b <> Fault -> returns (upri_parse b).
Proof.
  intros Hb N. destruct (upri_head_or Hb) as [[e ->]|(f & r & W & _ & L & ->)]; [right; eauto|]. rewrite (@upri_parse_head f r W L) in *.
  destruct (N.testbit (up_flags f) 5), (N.testbit (up_flags f) 6); try congruence; [right; eauto| |left; eauto]. destruct r; [congruence|left; eauto].
Qed.
Lemma trace_returns b : bytes b -> trace_parse b <> Fault -> returns (trace_parse b).
Proof.
  intros Hb N. destruct (trace_or Hb) as [[e ->]|(h & t & -> & L & _ & _ & [C|(ev & d & ifs & ip & r & _ & _ & _ & _ & _ & _ & _ & ->)])]; [right; eauto| |].
  - elim N. now apply trace_cut_fault.
  - destruct (trace_parse_wire h ev d ifs ip r L) as (mcc & mnc & _ & ->). left; eauto.
Qed.
Lemma ohc_tags_bytes f : bytes (ohc_tags f).
Proof.
  unfold ohc_tags. assert (Z : forall v, bytes (skipn 1 (be 4 v))).
  { intros v. pose proof (be_bytes 4 v) as B. rewrite <- (firstn_skipn 1 (be 4 v)) in B. apply bytes_app in B. apply B. }
  apply bytes_app. split; [destruct (N.testbit _ 6)|destruct (N.testbit _ 7)]; cbn [opts]; auto; constructor.
Qed.
Lemma ohc_wire_bytes f : ohc_wf f -> bytes (ohc_wire f).
Proof.
  intros (_ & _ & H2 & H3 & _). unfold ohc_wire. repeat (apply bytes_app; split); try apply optn_bytes; try (eapply optb_bytes; eassumption). apply be_bytes.
Qed.
Lemma new_ohc_wf d teid v4 v6 port ct st : let h := (d / 256)%N in (d < 65536)%N -> (teid < 2 ^ 32)%N -> (port < 65536)%N ->
  ok4 (N.testbit h 0 || N.testbit h 2 || N.testbit h 4) v4 -> ok16 (N.testbit h 1 || N.testbit h 3 || N.testbit h 5) v6 -> ohc_wf (new_ohc d teid v4 v6 port ct st).
Proof.
  cbn zeta. intros Hd Ht Hp H4 H6. unfold ohc_wf, new_ohc. coh. rewrite (oct5_ok Hd). ohbits. split; [exact Hd|]. split; [|split; [|split]].
  - destruct (N.testbit (d / 256) 0 || N.testbit (d / 256) 1); [exact Ht|reflexivity].
  - exact (canon4_present H4).
  - exact (canon16_present H6).
  - destruct (N.testbit (d / 256) 2 || N.testbit (d / 256) 3); [exact Hp|reflexivity].
Qed.
(** the tags never come back; everything else does, when no tag is flagged or no port number is *)
Lemma new_ohc_roundtrip d teid v4 v6 port ct st : let h := (d / 256)%N in let f := new_ohc d teid v4 v6 port ct st in
  (d < 65536)%N -> (teid < 2 ^ 32)%N -> (port < 65536)%N ->
  ok4 (N.testbit h 0 || N.testbit h 2 || N.testbit h 4) v4 -> ok16 (N.testbit h 1 || N.testbit h 3 || N.testbit h 5) v6 ->
  N.testbit h 6 || N.testbit h 7 = false \/ N.testbit h 2 || N.testbit h 3 = false ->
  exists w, ohc_marshal f = Ok w /\ ohc_parse w =
    if N.testbit d 6 || N.testbit d 7 then (if N.testbit h 6 || N.testbit h 7 then Fault else Err EUnexpectedEOF)
    else Ok {| oh_desc := d; oh_teid := oh_teid f; oh_v4 := oh_v4 f; oh_v6 := oh_v6 f; oh_port := oh_port f; oh_ctag := 0; oh_stag := 0 |}.
Proof.
  cbn zeta. intros Hd Ht Hp H4 H6 T. pose proof (@new_ohc_wf d teid v4 v6 port ct st Hd Ht Hp H4 H6) as W. set (f := new_ohc d teid v4 v6 port ct st) in *.
  destruct (ohc_marshal_wire W T) as [-> _]. eexists. split; [reflexivity|]. rewrite ohc_parse_wire; [|exact W|apply bytes_app; split; [now apply ohc_wire_bytes|apply ohc_tags_bytes]].
  assert (L : (length (ohc_tags f) <? 3) = negb (N.testbit (d / 256) 6 || N.testbit (d / 256) 7)).
  { unfold ohc_tags. change (oh_desc f) with d. rewrite app_length, !opts_length, !skipn_length, !be_length. destruct (N.testbit (d / 256) 6), (N.testbit (d / 256) 7); reflexivity. }
  rewrite L. change (oh_desc f) with d. destruct (N.testbit d 6 || N.testbit d 7); [|reflexivity]. destruct (N.testbit (d / 256) 6 || N.testbit (d / 256) 7); reflexivity.
Qed.
(** UP IP Resource Information: what the constructor is given comes back, unless a network instance is flagged *)
Lemma upri_wire_head f x : upri_wire f x = upri_head f ++ opts (N.testbit (up_flags f) 5) (up_ni f) ++ optn (N.testbit (up_flags f) 6) 1 x.
Proof. unfold upri_wire, upri_head. now rewrite <- !app_assoc. Qed.
Lemma upri_marshal_parse f : upri_wf f -> (up_si f < 16)%N ->
  (upri_marshal f = Err EUnexpectedEOF /\ length (upri_wire f (up_si f)) < 2) \/ exists w, upri_marshal f = Ok w /\
    upri_parse w = if N.testbit (up_flags f) 5 then (if N.testbit (up_flags f) 6 then Fault else Err EUnexpectedEOF) else Ok f.
Proof.
  intros W Hs. destruct (upri_marshal_wire W) as [M _]. destruct (Nat.ltb_spec (length (upri_wire f (up_si f))) 2) as [L|L]; [left; split; [exact M|exact L]|right].
  eexists. split; [exact M|]. rewrite upri_wire_head in *. destruct W as (W0 & W1 & W2 & W3 & W4 & W5 & W6). rewrite upri_parse_head by (unfold upri_head_wf; auto).
  destruct (N.testbit (up_flags f) 5) eqn:B5; [reflexivity|]. specialize (W4 eq_refl). unfold upri_set. destruct f as [fl rg v4 v6 ni si]. cbn [up_flags up_range up_v4 up_v6 up_ni up_si opts app] in *. subst ni.
  destruct (N.testbit fl 6); [|cbn in W6; now subst si]. cbn [optn]. rewrite be1 by (unfold octet; lia). now rewrite N.mod_small by exact Hs.
Qed.
