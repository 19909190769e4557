(** PFD Contents: the encoder and the round trip. *)
From Verif Require Import Base Bits Codec Codec2 HeaderProofs Fields3 FieldsProofs3 Fields4 FieldsSpec4 FieldsProofs4 FieldsProofs4b.
Set Implicit Arguments.

Lemma strs_len_items l : strs_len l = lenN (items l).
Proof.
  unfold strs_len. assert (H : forall l a, fold_left (fun n x => n + (2 + lenN x))%N l a = (a + lenN (items l))%N).
  { clear l. induction l as [|x l IH]; intros a; cbn [fold_left]; [unfold lenN; cbn; lia|]. rewrite IH, items_cons. unfold lenN. rewrite app_length, seg16_length. cbn [len_if]. lia. }
  now rewrite H.
Qed.
Lemma items_item a l : In a l -> length a + 2 <= length (items l).
Proof.
  induction l as [|x l IH]; [easy|]. rewrite items_cons, app_length, seg16_length. cbn [len_if]. intros [->|H]; [lia|]. specialize (IH H). lia.
Qed.
Lemma cut16_len s : lenN (cut16 s) = (lenN s mod 65536)%N.
Proof.
  unfold cut16, lenN. rewrite firstn_length. assert (N.of_nat (length s) mod 65536 <= N.of_nat (length s))%N by (apply N.mod_le; discriminate). lia.
Qed.
Lemma cut16_short s : (lenN s < 65536)%N -> cut16 s = s.
Proof. intros H. unfold cut16. rewrite N.mod_small by exact H. rewrite lenN_nat. apply firstn_all. Qed.
Lemma cp16s_cut c s b o : cp16s c (u16 (lenN s)) s b o = cp16s c (lenN (cut16 s)) (cut16 s) b o.
Proof.
  unfold cp16s, u16. destruct c; [|reflexivity]. rewrite cut16_len. destruct (put b o _); cbn [bind]; try reflexivity. unfold copy_range. rewrite (Nat.add_comm (o + 2)), Nat.add_sub.
  unfold cut16. rewrite firstn_firstn, Nat.min_id. reflexivity.
Qed.
Lemma cp_items_ok l : forall w z, length (items l) <= length z ->
  cp_items l (w ++ z) (length w) = Ok ((w ++ items l) ++ skipn (length (items l)) z, length (w ++ items l)).
Proof.
  induction l as [|a l IH]; intros w z L; cbn [cp_items].
  - cbn. now rewrite app_nil_r.
  - rewrite items_cons, app_length, seg16_length in L. cbn [len_if] in L.
    rewrite put_seg by (rewrite be_length; lia). cbn [bind].
    replace (length w + 2) with (length (w ++ be 2 (lenN a))) by (rewrite app_length, be_length; reflexivity).
    rewrite copy_seg by (auto; rewrite skipn_length, be_length; lia). cbn [bind].
    replace (length w + (2 + length a)) with (length ((w ++ be 2 (lenN a)) ++ a)) by (rewrite !app_length, be_length; lia).
    rewrite IH by (rewrite !skipn_length, be_length; lia). rewrite !skipn_skipn'.
    rewrite items_cons. unfold seg16. rewrite <- !app_assoc, !app_length, !be_length, <- ?Nat.add_assoc. reflexivity.
Qed.
Lemma cp16l_ok c l w z : length (seg16 c (items l)) <= length z ->
  cp16l c (lenN (items l)) l (w ++ z) (length w) = Ok ((w ++ seg16 c (items l)) ++ skipn (length (seg16 c (items l))) z, length (w ++ seg16 c (items l))).
Proof.
  unfold cp16l, seg16. destruct c; [|cbn [length skipn]; now rewrite app_nil_r]. intros L. rewrite app_length, be_length in L.
  rewrite put_seg by (rewrite be_length; lia). cbn [bind].
  replace (length w + 2) with (length (w ++ be 2 (lenN (items l)))) by (rewrite app_length, be_length; reflexivity).
  rewrite cp_items_ok by (rewrite skipn_length, be_length; lia). rewrite skipn_skipn'. rewrite <- !app_assoc, !app_length, !be_length, <- ?Nat.add_assoc. reflexivity.
Qed.
(** a writer that succeeds has stayed inside the buffer *)
Definition inside (c : bool) (n : nat) (b : list N) (o : nat) (r : res (list N * nat)) : Prop :=
  r = Fault \/ exists b', r = Ok (b', o + len_if c n) /\ length b' = length b /\ o + len_if c n <= length b.
Lemma put_cases b o s : put b o s = Fault \/ exists b', put b o s = Ok b' /\ length b' = length b /\ o + length s <= length b.
Proof.
  unfold put. destruct (Nat.leb_spec (o + length s) (length b)); [right|now left]. eexists. split; [reflexivity|].
  rewrite !app_length, firstn_length, skipn_length. lia.
Qed.
Lemma copy_range_cases b lo hi s : copy_range b lo hi s = Fault \/ exists b', copy_range b lo hi s = Ok b' /\ length b' = length b /\ hi <= length b.
Proof.
  unfold copy_range. destruct (Nat.leb_spec lo hi), (Nat.leb_spec hi (length b)); cbn [andb]; [right|now left..]. eexists. split; [reflexivity|].
  rewrite !app_length, !skipn_length, !firstn_length. lia.
Qed.
Lemma cp16s_inside c n s b o : o <= length b -> inside c (2 + N.to_nat n) b o (cp16s c n s b o).
Proof.
  intros L. unfold cp16s, inside. destruct c; [|right; exists b; cbn [len_if]; rewrite Nat.add_0_r; auto].
  destruct (put_cases b o (be 2 n)) as [->|(b1 & -> & L1 & K1)]; [now left|]. cbn [bind].
  destruct (copy_range_cases b1 (o + 2) (o + 2 + N.to_nat n) s) as [->|(b2 & -> & L2 & K2)]; [now left|]. cbn [bind].
  right. exists b2. cbn [len_if]. split; [do 2 f_equal; lia|lia].
Qed.
Lemma cp_items_inside l : forall b o, o <= length b -> inside true (length (items l)) b o (cp_items l b o).
Proof.
  induction l as [|a l IH]; intros b o L; cbn [cp_items].
  - right. exists b. cbn. rewrite Nat.add_0_r. auto.
  - destruct (put_cases b o (be 2 (lenN a))) as [->|(b1 & -> & L1 & K1)]; [now left|]. cbn [bind].
    destruct (copy_range_cases b1 (o + 2) (o + 2 + length a) a) as [->|(b2 & -> & L2 & K2)]; [now left|]. cbn [bind].
    destruct (IH b2 (o + (2 + length a)) ltac:(lia)) as [->|(b3 & -> & L3 & K3)]; [now left|]. right. exists b3. cbn [len_if] in *.
    rewrite items_cons, app_length, seg16_length. cbn [len_if]. split; [do 2 f_equal; lia|lia].
Qed.
Lemma cp16l_inside c n l b o : o <= length b -> inside c (2 + length (items l)) b o (cp16l c n l b o).
Proof.
  intros L. unfold cp16l. destruct c; [|right; exists b; cbn [len_if]; rewrite Nat.add_0_r; auto].
  destruct (put_cases b o (be 2 n)) as [->|(b1 & -> & L1 & K1)]; [now left|]. cbn [bind]. rewrite be_length in K1.
  destruct (@cp_items_inside l b1 (o + 2) ltac:(lia)) as [->|(b3 & -> & L3 & K3)]; [now left|]. right. exists b3. cbn [len_if] in *.
  split; [do 2 f_equal; lia|lia].
Qed.

(** * the constructor *)
Lemma present_strs_eq s : nonempty s = present_strs s. Proof. now destruct s. Qed.
Lemma present_list_eq s : nonnil s = present_list s. Proof. now destruct s. Qed.
Lemma new_pfdc_flags fd url dn cp dnp afd aurl adnp : pc_flags (new_pfdc fd url dn cp dnp afd aurl adnp) =
  pfd_flags [present_strs fd; present_strs url; present_strs dn; present_strs cp; present_strs dnp; present_list afd; present_list aurl; present_list adnp].
Proof.
  cbn [new_pfdc pc_flags]. rewrite !present_strs_eq, !present_list_eq.
  destruct (present_strs fd), (present_strs url), (present_strs dn), (present_strs cp), (present_strs dnp), (present_list afd), (present_list aurl), (present_list adnp); reflexivity.
Qed.
Lemma pfd_flags_bits c1 c2 c3 c4 c5 c6 c7 c8 : pfd_fields (pfd_flags [c1; c2; c3; c4; c5; c6; c7; c8]) =
  [(c1, true); (c2, true); (c3, true); (c4, true); (c5, true); (c6, false); (c7, false); (c8, false)].
Proof. destruct c1, c2, c3, c4, c5, c6, c7, c8; reflexivity. Qed.
Lemma new_pfdc_eq fd url dn cp dnp afd aurl adnp : new_pfdc fd url dn cp dnp afd aurl adnp =
  {| pc_flags := pfd_flags [present_strs fd; present_strs url; present_strs dn; present_strs cp; present_strs dnp; present_list afd; present_list aurl; present_list adnp];
     pc_fdlen := u16 (lenN fd); pc_fd := fd; pc_urllen := u16 (lenN url); pc_url := url; pc_dnlen := u16 (lenN dn); pc_dn := dn;
     pc_cplen := u16 (lenN cp); pc_cp := cp; pc_dnplen := u16 (lenN dnp); pc_dnp := dnp;
     pc_afdlen := u16 (lenN (items afd)); pc_afd := afd; pc_aurllen := u16 (lenN (items aurl)); pc_aurl := aurl;
     pc_adnplen := u16 (lenN (items adnp)); pc_adnp := adnp |}.
Proof.
  rewrite <- new_pfdc_flags. unfold new_pfdc at 1. cbv zeta.
  assert (H : forall s, (if nonempty s then u16 (lenN s) else 0%N) = u16 (lenN s)) by now destruct s.
  assert (H2 : forall l, (if nonnil l then u16 (strs_len l) else 0%N) = u16 (lenN (items l))) by (intros l; rewrite <- strs_len_items; now destruct l).
  assert (H3 : forall l : list (list N), (if nonnil l then l else []) = l) by now destruct l.
  rewrite !H, !H2, !H3. reflexivity.
Qed.
Lemma has_bits c1 c2 c3 c4 c5 c6 c7 c8 : let fl := pfd_flags [c1; c2; c3; c4; c5; c6; c7; c8] in
  has1 fl = c1 /\ has2 fl = c2 /\ has3 fl = c3 /\ has4 fl = c4 /\ has5 fl = c5 /\ has6 fl = c6 /\ has7 fl = c7 /\ has8 fl = c8.
Proof. destruct c1, c2, c3, c4, c5, c6, c7, c8; repeat split; reflexivity. Qed.
Definition lists_fit (afd aurl adnp : list (list N)) : Prop :=
  (lenN (items afd) < 65536 /\ lenN (items aurl) < 65536 /\ lenN (items adnp) < 65536)%N.
Lemma present_cut s : present_strs s = false -> seg16 (present_strs s) s = []. Proof. now intros ->. Qed.
Lemma seg_nil c : seg16 c [] = [] \/ c = true. Proof. destruct c; auto. Qed.
Ltac wr4 :=
  match goal with
  | |- context [cp16s ?c (u16 (lenN ?s)) ?s (?w ++ ?z) (length ?w)] => rewrite (@cp16s_cut c s (w ++ z) (length w)), (@cp16s_ok c (cut16 s) w z) by (lens2; lia); cbn [bind]
  | |- context [cp16s ?c (lenN ?s) ?s (?w ++ ?z) (length ?w)] => rewrite (@cp16s_ok c s w z) by (lens2; lia); cbn [bind]
  | |- context [cp16l ?c (lenN (items ?s)) ?s (?w ++ ?z) (length ?w)] => rewrite (@cp16l_ok c s w z) by (lens2; lia); cbn [bind]
  end.
Theorem pfdc_marshal_new fd url dn cp dnp afd aurl adnp : lists_fit afd aurl adnp ->
  exists w, pfdc_marshal (new_pfdc fd url dn cp dnp afd aurl adnp) = Ok w /\
    let fl := pfd_flags [present_strs fd; present_strs url; present_strs dn; present_strs cp; present_strs dnp; present_list afd; present_list aurl; present_list adnp] in
    w = [fl; 0%N] ++ wires (pfd_fields fl) [cut16 fd; cut16 url; cut16 dn; cut16 cp; cut16 dnp; items afd; items aurl; items adnp].
Proof.
  intros (F1 & F2 & F3). rewrite new_pfdc_eq. unfold pfdc_marshal, pfdc_marshal_to, pfdc_marshal_len.
  cbn [pc_flags pc_fdlen pc_fd pc_urllen pc_url pc_dnlen pc_dn pc_cplen pc_cp pc_dnplen pc_dnp pc_afdlen pc_afd pc_aurllen pc_aurl pc_adnplen pc_adnp].
  set (c1 := present_strs fd). set (c2 := present_strs url). set (c3 := present_strs dn). set (c4 := present_strs cp). set (c5 := present_strs dnp).
  set (c6 := present_list afd). set (c7 := present_list aurl). set (c8 := present_list adnp). clearbody c1 c2 c3 c4 c5 c6 c7 c8.
  destruct (has_bits c1 c2 c3 c4 c5 c6 c7 c8) as (-> & -> & -> & -> & -> & -> & -> & ->). set (fl := pfd_flags _). cbv zeta.
  assert (U : forall l, (lenN (items l) < 65536)%N -> u16 (lenN (items l)) = lenN (items l)) by (intros l; apply N.mod_small).
  rewrite (U afd), (U aurl), (U adnp) by assumption.
  assert (V : forall s, N.to_nat (u16 (lenN s)) = length (cut16 s)) by (intros s; unfold u16; rewrite <- cut16_len; apply lenN_nat).
  rewrite !V, !lenN_nat.
  replace (wires (pfd_fields fl) _) with (seg16 c1 (cut16 fd) ++ seg16 c2 (cut16 url) ++ seg16 c3 (cut16 dn) ++ seg16 c4 (cut16 cp) ++ seg16 c5 (cut16 dnp)
     ++ seg16 c6 (items afd) ++ seg16 c7 (items aurl) ++ seg16 c8 (items adnp)) by (unfold fl; rewrite pfd_flags_bits; cbn [wires]; now rewrite app_nil_r).
  clearbody fl. eexists. split; [|reflexivity].
  set (m := _ + _ + _). assert (Hm : m = 2 + len_if c1 (2 + length (cut16 fd)) + len_if c2 (2 + length (cut16 url)) + len_if c3 (2 + length (cut16 dn))
    + len_if c4 (2 + length (cut16 cp)) + len_if c5 (2 + length (cut16 dnp)) + len_if c6 (2 + length (items afd)) + len_if c7 (2 + length (items aurl))
    + len_if c8 (2 + length (items adnp))) by reflexivity. clearbody m.
  destruct m as [|[|m]]; [lia..|]. change (make (S (S m))) with ([0; 0]%N ++ make m).
  change (length ([0; 0]%N ++ make m) <? 1) with false. cbv iota. change (put ([0; 0]%N ++ make m) 0 [fl]) with (Ok ([fl; 0]%N ++ make m)). unfold bind at 1.
  change 2 with (length [fl; 0%N]) at 1.
  assert (Lz : length (make m) = m) by apply make_length.
  do 8 wr4. f_equal. rewrite skipn_all_nil; [rewrite app_nil_r, <- ?app_assoc; reflexivity|]. lens2. lia.
Qed.

Lemma mod_le_len (s : list N) : N.to_nat (u16 (lenN s)) <= length s.
Proof. unfold u16. assert (lenN s mod 65536 <= lenN s)%N by (apply N.mod_le; discriminate). unfold lenN in *. lia. Qed.
Lemma mod_lt_len (s : list N) : (65536 <= lenN s)%N -> N.to_nat (u16 (lenN s)) < length s.
Proof. intros H. unfold u16. assert (lenN s mod 65536 < 65536)%N by (apply N.mod_lt; discriminate). unfold lenN in *. lia. Qed.
Ltac step_inside :=
  match goal with
  | |- context [cp16s ?c ?n ?s ?b ?o] =>
      let b' := fresh "b" in let L := fresh "L" in let K := fresh "K" in
      destruct (@cp16s_inside c n s b o) as [->|(b' & -> & L & K)]; [assumption || lia|reflexivity|cbn [bind]]
  | |- context [cp16l ?c ?n ?s ?b ?o] =>
      let b' := fresh "b" in let L := fresh "L" in let K := fresh "K" in
      destruct (@cp16l_inside c n s b o) as [->|(b' & -> & L & K)]; [assumption || lia|reflexivity|cbn [bind]]
  end.
Theorem pfdc_marshal_new_fault fd url dn cp dnp afd aurl adnp : ~ lists_fit afd aurl adnp ->
  pfdc_marshal (new_pfdc fd url dn cp dnp afd aurl adnp) = Fault.
Proof.
  intros NF. rewrite new_pfdc_eq. unfold pfdc_marshal, pfdc_marshal_to, pfdc_marshal_len.
  cbn [pc_flags pc_fdlen pc_fd pc_urllen pc_url pc_dnlen pc_dn pc_cplen pc_cp pc_dnplen pc_dnp pc_afdlen pc_afd pc_aurllen pc_aurl pc_adnplen pc_adnp].
  assert (G : forall l, present_list l = false -> items l = []) by now destruct l. assert (G6 := G afd). assert (G7 := G aurl). assert (G8 := G adnp). clear G.
  set (c1 := present_strs fd). set (c2 := present_strs url). set (c3 := present_strs dn). set (c4 := present_strs cp). set (c5 := present_strs dnp).
  set (c6 := present_list afd) in *. set (c7 := present_list aurl) in *. set (c8 := present_list adnp) in *. clearbody c1 c2 c3 c4 c5 c6 c7 c8.
  destruct (has_bits c1 c2 c3 c4 c5 c6 c7 c8) as (-> & -> & -> & -> & -> & -> & -> & ->). set (fl := pfd_flags _). cbv zeta.
  set (m := _ + _ + _). assert (Hm : m = 2 + len_if c1 (2 + N.to_nat (u16 (lenN fd))) + len_if c2 (2 + N.to_nat (u16 (lenN url))) + len_if c3 (2 + N.to_nat (u16 (lenN dn)))
    + len_if c4 (2 + N.to_nat (u16 (lenN cp))) + len_if c5 (2 + N.to_nat (u16 (lenN dnp))) + len_if c6 (2 + N.to_nat (u16 (lenN (items afd))))
    + len_if c7 (2 + N.to_nat (u16 (lenN (items aurl)))) + len_if c8 (2 + N.to_nat (u16 (lenN (items adnp))))) by reflexivity. clearbody m.
  destruct m as [|[|m]]; [lia..|]. change (make (S (S m))) with ([0; 0]%N ++ make m).
  change (length ([0; 0]%N ++ make m) <? 1) with false. cbv iota. change (put ([0; 0]%N ++ make m) 0 [fl]) with (Ok ([fl; 0]%N ++ make m)). unfold bind at 1.
  set (b := [fl; 0%N] ++ make m). assert (Lb : length b = S (S m)) by (unfold b; rewrite app_length, make_length; reflexivity). clearbody b.
  do 8 step_inside. exfalso.
  assert (E6 := mod_le_len (items afd)). assert (E7 := mod_le_len (items aurl)). assert (E8 := mod_le_len (items adnp)).
  assert (E : lists_fit afd aurl adnp \/ (65536 <= lenN (items afd) \/ 65536 <= lenN (items aurl) \/ 65536 <= lenN (items adnp))%N) by (unfold lists_fit; lia).
  destruct E as [E|E]; [now apply NF|].
  assert (M : forall c (s : list N), (c = false -> s = []) -> len_if c (2 + N.to_nat (u16 (lenN s))) <= len_if c (2 + length s) /\
     ((65536 <= lenN s)%N -> len_if c (2 + N.to_nat (u16 (lenN s))) < len_if c (2 + length s))).
  { intros c s H. destruct c; cbn [len_if]; [|specialize (H eq_refl); subst; unfold lenN; cbn; lia].
    pose proof (mod_le_len s). split; [lia|]. intros K9. pose proof (mod_lt_len s K9). lia. }
  destruct (M c6 (items afd) G6) as [A6 B6]. destruct (M c7 (items aurl) G7) as [A7 B7]. destruct (M c8 (items adnp) G8) as [A8 B8]. clear M.
  clear - Hm Lb L L0 L1 L2 L3 L4 L5 K6 A6 B6 A7 B7 A8 B8 E. lia.
Qed.

(** * round trip *)
Lemma trim_spec ls : (trim ls = ls /\ ~ exists l, ls = l ++ [[]]) \/ ls = trim ls ++ [[]].
Proof.
  induction ls as [|a l IH]; [left; split; [reflexivity|intros [[|] E]; discriminate]|].
  destruct l as [|b l].
  - destruct a as [|x a]; [right; reflexivity|left]. split; [reflexivity|]. intros [[|y [|]] E]; discriminate.
  - assert (E : trim (a :: b :: l) = a :: trim (b :: l)) by (now destruct a). rewrite E. destruct IH as [[H N]|H].
    + left. split; [now rewrite H|]. intros [[|y l'] E']; [discriminate|]. apply N. exists l'. cbn in E'. congruence.
    + right. cbn [app]. now rewrite <- H.
Qed.
Lemma pfd_list_items ls : (lenN (items ls) < 65536)%N -> pfd_list (items ls) (trim ls).
Proof.
  intros L. assert (F : Forall (fun s => (lenN s < 65536)%N) ls).
  { apply Forall_forall. intros a H. apply items_item in H. unfold lenN in *. lia. }
  destruct (trim_spec ls) as [[E N]|E].
  - exists []. rewrite E, app_nil_r. refine (conj eq_refl (conj F (conj _ _))); [|left; cbn; lia]. intros [_ H]. now apply N.
  - exists (items [[]]). rewrite <- items_app, <- E. refine (conj eq_refl (conj _ (conj _ _))); [|intros [H _]; discriminate|left; cbn; lia].
    rewrite E in F. now apply Forall_app in F.
Qed.
Lemma roomy_dec l : forall ss o t, roomy l ss o t \/ ~ roomy l ss o t.
Proof.
  induction l as [|[c st] l IH]; intros [|s ss] o t; cbn [roomy]; auto.
  destruct (IH ss (o + length (seg16 c s)) t) as [H|H]; [|right; tauto]. destruct c, st; try (left; split; [discriminate|assumption]); try (left; split; [|assumption]; intros; discriminate).
  destruct (le_lt_dec (o + (o + 2)) t) as [K|K]; [left; auto|right]. intros [G _]. specialize (G eq_refl eq_refl). lia.
Qed.
Lemma rdall_notroomy l : forall ss p q, shorts l ss -> ~ roomy l ss (length p) (length (p ++ wires l ss ++ q)) ->
  rdall l (p ++ wires l ss ++ q) (length p) = Err EUnexpectedEOF.
Proof.
  induction l as [|[c st] l IH]; intros [|s ss] p q; cbn [shorts roomy wires rdall]; try contradiction.
  intros [Hs Hss] R. rewrite <- !app_assoc in *.
  assert (D : (c = true /\ st = true /\ length (p ++ seg16 c s ++ wires l ss ++ q) < length p + (length p + 2))
     \/ (c = true -> st = true -> length p + (length p + 2) <= length (p ++ seg16 c s ++ wires l ss ++ q))).
  { destruct c, st; try (right; intros; discriminate).
    destruct (le_lt_dec (length p + (length p + 2)) (length (p ++ seg16 true s ++ wires l ss ++ q))); [right|left]; auto. }
  destruct D as [(-> & -> & G)|G].
  - unfold rd16s. rewrite from_app by reflexivity. cbn [bind].
    destruct (Nat.ltb_spec (length (seg16 true s ++ wires l ss ++ q)) (length p + 2)) as [|K]; [reflexivity|]. rewrite app_length in G. lia.
  - rewrite rd16s_app by assumption. cbn [bind]. rewrite (app_assoc p). rewrite IH; [reflexivity|assumption|].
    intros R'. apply R. split; [exact G|]. rewrite app_length in R' at 1. now rewrite <- app_assoc in R'.
Qed.
Lemma items_bytes l : Forall bytes l -> bytes (items l).
Proof.
  induction 1 as [|a l Ha Hl IH]; [constructor|]. rewrite items_cons. apply bytes_app. split; [|exact IH]. unfold seg16. apply bytes_app. split; [apply be_bytes|exact Ha].
Qed.
Lemma wires_bytes l : forall ss, shorts l ss -> bytes (wires l ss).
Proof.
  induction l as [|[c st] l IH]; intros [|s ss]; cbn [shorts wires]; try contradiction; [constructor|]. intros [H Hs]. apply bytes_app. split; [|auto].
  unfold seg16. destruct c; [|constructor]. apply bytes_app. split; [apply be_bytes|apply H].
Qed.
Definition str16 (s : list N) : Prop := bytes s /\ (lenN s < 65536)%N.
Lemma short_of s : str16 s -> short (present_strs s) 65536 s.
Proof. now destruct s. Qed.
Lemma short_list l : Forall bytes l -> (lenN (items l) < 65536)%N -> short (present_list l) 65536 (items l).
Proof. intros B L. destruct l; [reflexivity|]. split; [now apply items_bytes|exact L]. Qed.
Lemma pfd_flags_octet c1 c2 c3 c4 c5 c6 c7 c8 : octet (pfd_flags [c1; c2; c3; c4; c5; c6; c7; c8]).
Proof. destruct c1, c2, c3, c4, c5, c6, c7, c8; reflexivity. Qed.
Section RT.
  Variables (fd url dn cp dnp : list N) (afd aurl adnp : list (list N)).
  Hypotheses (H1 : str16 fd) (H2 : str16 url) (H3 : str16 dn) (H4 : str16 cp) (H5 : str16 dnp).
  Hypotheses (B6 : Forall bytes afd) (B7 : Forall bytes aurl) (B8 : Forall bytes adnp) (F : lists_fit afd aurl adnp).
  Let fl := pfd_flags [present_strs fd; present_strs url; present_strs dn; present_strs cp; present_strs dnp; present_list afd; present_list aurl; present_list adnp].
  Let ss := [fd; url; dn; cp; dnp; items afd; items aurl; items adnp].
  Let w := pfdc_octets fd url dn cp dnp afd aurl adnp.
  Lemma pfdc_marshal_new_ok : pfdc_marshal (new_pfdc fd url dn cp dnp afd aurl adnp) = Ok w.
  Proof.
    destruct (@pfdc_marshal_new fd url dn cp dnp afd aurl adnp F) as (w' & -> & ->).
    rewrite !cut16_short by (first [apply H1|apply H2|apply H3|apply H4|apply H5]). reflexivity.
  Qed.
  Lemma pfdc_new_shorts : shorts (pfd_fields fl) ss.
  Proof.
    unfold fl. rewrite pfd_flags_bits. cbn [shorts ss]. destruct F as (F1 & F2 & F3).
    repeat (split; [first [apply short_of; assumption|apply short_list; assumption]|]). exact I.
  Qed.
  Lemma pfdc_new_bytes : bytes w.
  Proof.
    unfold w, pfdc_octets. apply bytes_app. split; [|apply wires_bytes, pfdc_new_shorts].
    constructor; [apply pfd_flags_octet|constructor; [reflexivity|constructor]].
  Qed.
  Lemma pfdc_round_ok : roomy (pfd_fields fl) ss 2 (length w) ->
    pfdc_parse w = Ok (pfdc_of fl fd url dn cp dnp (items afd) (items aurl) (items adnp) (trim afd) (trim aurl) (trim adnp)).
  Proof.
    intros R. apply pfdc_parse_exact; [apply pfdc_new_bytes|]. destruct F as (F1 & F2 & F3).
    exists fl, 0%N, fd, url, dn, cp, dnp, (items afd), (items aurl), (items adnp), (trim afd), (trim aurl), (trim adnp), []. cbv zeta.
    refine (conj _ (conj pfdc_new_shorts (conj R (conj _ (conj _ (conj _ eq_refl)))))); [|now apply pfd_list_items..].
    rewrite app_nil_r. reflexivity.
  Qed.
  Lemma pfdc_round_err : ~ roomy (pfd_fields fl) ss 2 (length w) -> pfdc_parse w = Err EUnexpectedEOF.
  Proof.
    intros R. rewrite pfdc_parse_all by apply pfdc_new_bytes.
    assert (E : w = [fl; 0%N] ++ wires (pfd_fields fl) ss ++ []) by (rewrite app_nil_r; reflexivity).
    destruct (Nat.ltb_spec (length w) 2) as [L|_]; [reflexivity|]. rewrite E in R |- *.
    change (index ([fl; 0%N] ++ ?q) 0) with (Ok fl). unfold index. cbn [app nth_error]. unfold bind at 1.
    change (fl :: 0%N :: wires (pfd_fields fl) ss ++ []) with ([fl; 0%N] ++ wires (pfd_fields fl) ss ++ []).
    change 2 with (length [fl; 0%N]) at 1. rewrite rdall_notroomy; [reflexivity|apply pfdc_new_shorts|exact R].
  Qed.
  Lemma pfdc_new_value : new_pfdc fd url dn cp dnp afd aurl adnp = pfdc_of fl fd url dn cp dnp (items afd) (items aurl) (items adnp) afd aurl adnp.
  Proof.
    rewrite new_pfdc_eq. unfold pfdc_of, u16. destruct F as (F1 & F2 & F3).
    rewrite !N.mod_small by (first [apply H1|apply H2|apply H3|apply H4|apply H5|assumption]). reflexivity.
  Qed.
End RT.

(** * encoding any value *)
Theorem pfdc_marshal_of fl fd url dn cp dnp afd aurl adnp :
  pfdc_marshal (pfdc_of fl fd url dn cp dnp (items afd) (items aurl) (items adnp) afd aurl adnp)
  = Ok ([fl; 0%N] ++ wires (pfd_fields fl) [fd; url; dn; cp; dnp; items afd; items aurl; items adnp]).
Proof.
  unfold pfdc_marshal, pfdc_marshal_to, pfdc_marshal_len, pfdc_of.
  cbn [pc_flags pc_fdlen pc_fd pc_urllen pc_url pc_dnlen pc_dn pc_cplen pc_cp pc_dnplen pc_dnp pc_afdlen pc_afd pc_aurllen pc_aurl pc_adnplen pc_adnp].
  rewrite pfd_fields_has. cbn [wires]. rewrite app_nil_r, !lenN_nat.
  set (m := _ + _ + _). assert (Hm : m = 2 + len_if (has1 fl) (2 + length fd) + len_if (has2 fl) (2 + length url) + len_if (has3 fl) (2 + length dn)
    + len_if (has4 fl) (2 + length cp) + len_if (has5 fl) (2 + length dnp) + len_if (has6 fl) (2 + length (items afd)) + len_if (has7 fl) (2 + length (items aurl))
    + len_if (has8 fl) (2 + length (items adnp))) by reflexivity. clearbody m.
  destruct m as [|[|m]]; [lia..|]. change (make (S (S m))) with ([0; 0]%N ++ make m).
  change (length ([0; 0]%N ++ make m) <? 1) with false. cbv iota. change (put ([0; 0]%N ++ make m) 0 [fl]) with (Ok ([fl; 0]%N ++ make m)). unfold bind at 1.
  change 2 with (length [fl; 0%N]) at 1.
  assert (Lz : length (make m) = m) by apply make_length.
  do 8 wr4. f_equal. rewrite skipn_all_nil; [rewrite app_nil_r, <- ?app_assoc; reflexivity|]. lens2. lia.
Qed.
(** what is decoded is encoded again without a panic *)
Lemma cp_items_len l : forall b o, o + length (items l) <= length b -> exists b', cp_items l b o = Ok (b', o + length (items l)) /\ length b' = length b.
Proof.
  induction l as [|a l IH]; intros b o H; cbn [cp_items].
  - exists b. cbn. rewrite Nat.add_0_r. auto.
  - rewrite items_cons, app_length, seg16_length in H |- *. cbn [len_if] in *.
    destruct (@put_len b o (be 2 (lenN a))) as (b1 & -> & L1); [rewrite be_length; lia|]. cbn [bind].
    destruct (@copy_range_len b1 (o + 2) (o + 2 + length a) a) as (b2 & -> & L2); [lia..|]. cbn [bind].
    destruct (IH b2 (o + (2 + length a)) ltac:(lia)) as (b3 & -> & L3). exists b3. split; [do 2 f_equal; lia|lia].
Qed.
Lemma cp16l_len c n l b o : o + len_if c (2 + length (items l)) <= length b -> exists b', cp16l c n l b o = Ok (b', o + len_if c (2 + length (items l))) /\ length b' = length b.
Proof.
  unfold cp16l, len_if. destruct c; intros H; [|rewrite Nat.add_0_r; eauto].
  destruct (@put_len b o (be 2 n)) as (b1 & -> & L1); [rewrite be_length; lia|]. cbn [bind].
  destruct (@cp_items_len l b1 (o + 2)) as (b2 & -> & L2); [lia|]. exists b2. split; [do 2 f_equal; lia|lia].
Qed.
Lemma len_if_le c a b : a <= b -> len_if c a <= len_if c b. Proof. destruct c; auto. Qed.
Theorem pfdc_marshal_total f : length (items (pc_afd f)) <= N.to_nat (pc_afdlen f) -> length (items (pc_aurl f)) <= N.to_nat (pc_aurllen f) ->
  length (items (pc_adnp f)) <= N.to_nat (pc_adnplen f) -> exists w, pfdc_marshal f = Ok w /\ length w = pfdc_marshal_len f.
Proof.
  intros A6 A7 A8. unfold pfdc_marshal, pfdc_marshal_to. set (m := pfdc_marshal_len f) in *. set (fl := pc_flags f) in *.
  assert (Hm : m = 2 + len_if (has1 fl) (2 + N.to_nat (pc_fdlen f)) + len_if (has2 fl) (2 + N.to_nat (pc_urllen f)) + len_if (has3 fl) (2 + N.to_nat (pc_dnlen f))
    + len_if (has4 fl) (2 + N.to_nat (pc_cplen f)) + len_if (has5 fl) (2 + N.to_nat (pc_dnplen f))
    + len_if (has6 fl) (2 + N.to_nat (pc_afdlen f)) + len_if (has7 fl) (2 + N.to_nat (pc_aurllen f)) + len_if (has8 fl) (2 + N.to_nat (pc_adnplen f))) by reflexivity.
  clearbody m. cbv zeta. assert (Lb := make_length m). set (b0 := make m) in *. clearbody b0.
  destruct (Nat.ltb_spec (length b0) 1); [lia|]. destruct (@put_len b0 0 [fl]) as (b & -> & Lb'); [cbn [length]; lia|]. cbn [bind].
  assert (E6 := @len_if_le (has6 fl) (2 + length (items (pc_afd f))) (2 + N.to_nat (pc_afdlen f)) ltac:(lia)).
  assert (E7 := @len_if_le (has7 fl) (2 + length (items (pc_aurl f))) (2 + N.to_nat (pc_aurllen f)) ltac:(lia)).
  assert (E8 := @len_if_le (has8 fl) (2 + length (items (pc_adnp f))) (2 + N.to_nat (pc_adnplen f)) ltac:(lia)).
  do 5 (match goal with |- context [cp16s ?c ?n ?s ?x ?o] => let x' := fresh "x" in let L := fresh "L" in destruct (@cp16s_len c n s x o) as (x' & -> & L); [lia|cbn [bind]] end).
  do 3 (match goal with |- context [cp16l ?c ?n ?s ?x ?o] => let x' := fresh "x" in let L := fresh "L" in destruct (@cp16l_len c n s x o) as (x' & -> & L); [lia|cbn [bind]] end).
  eexists. split; [reflexivity|]. congruence.
Qed.
Lemma pfd_list_len p ls : pfd_list p ls -> length (items ls) <= length p.
Proof. intros (r & -> & _). rewrite app_length. lia. Qed.
Theorem pfdc_remarshal b f : bytes b -> pfdc_parse b = Ok f -> exists w, pfdc_marshal f = Ok w /\ length w = pfdc_marshal_len f.
Proof.
  intros B H. apply pfdc_parse_exact in H; [|exact B]. destruct H as (fl & sp & fd & url & dn & cp & dnp & pa & pu & pd & afd & aurl & adnp & r & _ & _ & _ & H6 & H7 & H8 & ->).
  apply pfdc_marshal_total; cbn [pfdc_of pc_afd pc_afdlen pc_aurl pc_aurllen pc_adnp pc_adnplen]; rewrite lenN_nat; now apply pfd_list_len.
Qed.
