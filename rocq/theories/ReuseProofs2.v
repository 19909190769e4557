(** UnmarshalBinary on a used struct: the remaining types and the encoding. *)
From Verif Require Import Base Bits Codec Codec2 Utils Fields1 Time Fields2 Fields3 FieldsProofs3d Fields4 Access Reuse ReuseSpec ReuseProofs.
Set Implicit Arguments.

Lemma redir_kept f b : redir_unmarshal f b = (x <- redir_parse b ;; Ok (kept_redir f x)).
Proof.
  unfold redir_unmarshal, redir_parse, kept_redir. change (1 + 2) with 3. walk1; [reflexivity|]. walk1; try reflexivity.
  destruct (getr 2 b 1 3) as [n| | |]; try reflexivity. prj. unfold pick. walk.
Qed.
Lemma upri_kept f b : bytes b -> upri_unmarshal f b = (x <- upri_parse b ;; Ok (kept_upri f x)).
Proof.
  intros Hb. unfold upri_unmarshal, upri_parse, kept_upri. start. walk1; [reflexivity|]. destruct b as [|fl b]; [reflexivity|]. inversion Hb as [|? ? Hf _]. change (index (fl :: b) 0) with (Ok fl). prj.
  rewrite (teidri_bits Hf). bits. remember (fl :: b) as c. walk.
Qed.
Lemma low_bit n i : (i < 8)%N -> N.testbit (u8 (N.land n 0xff)) i = N.testbit n i.
Proof.
  intros H. unfold u8. change 256%N with (2 ^ 8)%N. rewrite N.mod_pow2_bits_low by exact H. rewrite N.land_spec. change 255%N with (N.ones 8).
  rewrite N.ones_spec_low by exact H. apply andb_true_r.
Qed.
Lemma ohc_kept f b : bytes b -> ohc_unmarshal f b = (x <- ohc_parse b ;; Ok (kept_ohc f x)).
Proof.
  intros Hb. unfold ohc_unmarshal, ohc_parse, kept_ohc. unfold oh_has_teid, oh_has_v4, oh_has_v6, oh_has_port. start. walk1; [reflexivity|].
  destruct b as [|h [|l b]]; try reflexivity. inversion Hb as [|? ? Hh Hb']; subst. inversion Hb' as [|? ? Hl _]; subst. unfold octet in *.
  change (index (h :: l :: b) 0) with (Ok h). assert (E : getr 2 (h :: l :: b) 0 2 = Ok (h * 256 + l)%N) by reflexivity. rewrite E. prj. clear E.
  assert (Hd : ((h * 256 + l) / 256 = h)%N) by (rewrite N.div_add_l by discriminate; rewrite N.div_small by exact Hl; lia).
  bits. rewrite !low_bit by reflexivity. remember (h :: l :: b) as c. revert Hd. generalize (h * 256 + l)%N. clear. intros d Hd.
  repeat (walk1; try reflexivity; pairs; prj); rewrite ?Hd; fin.
Qed.

Lemma over_octs_overwritten d s : over_octs d s = overwritten d s.
Proof.
  unfold over_octs, overwritten. rewrite firstn_app. f_equal. rewrite firstn_all2; [reflexivity|]. rewrite skipn_length. lia.
Qed.
Lemma over_slice_overwritten d s : over_slice d s = overwritten_slice d s.
Proof. destruct d; cbn; [now rewrite over_octs_overwritten|reflexivity]. Qed.
Lemma slice_octets b o n x : slice b o (o + n) = Ok x -> x = octets_at b o n.
Proof. unfold slice. destruct (_ && _); [|discriminate]. intros [= <-]. unfold octets_at. do 2 f_equal. lia. Qed.
Lemma rd_octets n b o x o' : rd n b o = Ok (x, o') -> x = octets_at b o n /\ o' = o + n.
Proof.
  unfold rd. destruct (_ <? _); [discriminate|]. destruct (slice b o (o + n)) as [y| | |] eqn:E; try discriminate. cbn [bind]. intros [= <- <-]. split; [now apply slice_octets|reflexivity].
Qed.
Lemma pmf_kept f b : pmf_unmarshal f b = (x <- pmf_parse b ;; Ok (kept_pmf b f x)).
Proof.
  unfold pmf_unmarshal, pmf_parse, kept_pmf. start. flag1. unfold when.
  repeat (walk1; try reflexivity; pairs; prj).
  all: repeat match goal with H : rd _ _ _ = Ok _ |- _ => apply rd_octets in H; destruct H; subst end.
  all: repeat match goal with H : ?x = ?y :> bool |- context [?x] => rewrite H; prj end.
  all: rewrite !over_slice_overwritten; rewrite ?Nat.add_0_r; try reflexivity.
Qed.
Lemma skip_copy old n b o : skip_nil n b o = ('(_, o) <- copy_in old n b o ;; Ok o).
Proof. unfold skip_nil, copy_in. destruct (_ <? _); [reflexivity|]. destruct (slice b o (o + N.to_nat n)); reflexivity. Qed.
Lemma copy_in_octets old n b o x o' : copy_in old n b o = Ok (x, o') -> x = overwritten_slice old (octets_at b o (N.to_nat n)) /\ o' = o + N.to_nat n.
Proof.
  unfold copy_in. destruct (_ <? _); [discriminate|]. destruct (slice b o (o + N.to_nat n)) as [y| | |] eqn:E; try discriminate. cbn [bind]. intros [= <- <-].
  rewrite over_slice_overwritten, (slice_octets _ _ _ E). auto.
Qed.
Lemma trace_kept f b : trace_unmarshal f b = (x <- trace_parse b ;; Ok (kept_trace b f x)).
Proof.
  unfold trace_unmarshal, trace_parse, kept_trace. unfold rd1. walk1; [reflexivity|]. walk1; try reflexivity. walk1; try reflexivity. destruct x0 as [mcc mnc]. prj.
  walk1; try reflexivity. walk1; try reflexivity. rewrite (skip_copy (ti_ev f)). walk1; try reflexivity. pairs. prj.
  walk1; [reflexivity|]. walk1; try reflexivity. walk1; [reflexivity|]. walk1; try reflexivity. rewrite (skip_copy (ti_ifs f)). walk1; try reflexivity. pairs. prj.
  walk1; [reflexivity|]. walk1; try reflexivity. rewrite (skip_copy (ti_ip f)). walk1; try reflexivity. pairs. prj.
  repeat match goal with H : copy_in _ _ _ _ = Ok _ |- _ => apply copy_in_octets in H; destruct H; subst end.
  do 3 f_equal; f_equal; lia.
Qed.
Lemma rd_macs_offset k b : forall o x o', rd_macs k b o = Ok (x, o') -> o' = o + 6 * k.
Proof.
  induction k as [|k IH]; intros o x o'.
  - cbn. intros [= _ <-]. lia.
  - cbn [rd_macs]. destruct (rd 6 b o) as [[y p]| | |] eqn:E; try discriminate. cbn [bind]. apply rd_octets in E. destruct E as [_ ->].
    destruct (rd_macs k b (o + 6)) as [[z q]| | |] eqn:E; try discriminate. cbn [bind]. intros [= _ <-]. apply IH in E. lia.
Qed.
Lemma macl_kept f b : macl_unmarshal f b = (x <- macl_parse b ;; Ok (kept_macl b f x)).
Proof.
  unfold macl_unmarshal, macl_parse, kept_macl. repeat (walk1; try reflexivity; pairs; prj).
  match goal with H : rd_macs _ _ _ = Ok _ |- _ => apply rd_macs_offset in H; subst end.
  repeat match goal with H : slice _ _ _ = Ok _ |- _ => apply slice_octets in H; subst end.
  rewrite !over_octs_overwritten. do 3 f_equal; f_equal; lia.
Qed.
(** a PFD Contents field read with the guard on an old length, and on 0 *)
Lemma rd16old_ok strict old b o x : rd16old strict old b o = Ok x -> rd16s strict true b o = Ok x.
Proof.
  unfold rd16old, rd16s. destruct (from b o) as [r| | |]; try discriminate. cbn [bind].
  destruct (Nat.ltb_spec (length r) ((if strict then o else 0) + 2 + N.to_nat old)) as [|L]; [discriminate|].
  destruct (Nat.ltb_spec (length r) ((if strict then o else 0) + 2)) as [L2|_]; [lia|auto].
Qed.
Lemma rd16old_zero strict b o : rd16old strict 0 b o = rd16s strict true b o.
Proof. unfold rd16old, rd16s. rewrite Nat.add_0_r. reflexivity. Qed.
Lemma pfd_items_nil : pfd_items [] = Ok []. Proof. reflexivity. Qed.
Lemma pfd_str c old d1 d2 b o p1 p2 o' : orold c (rd16old true old b o) (d1, d2) o = Ok (p1, p2, o') ->
  exists n s, rd16s true c b o = Ok (n, s, o') /\ p1 = pick c n d1 /\ p2 = pick c s d2.
Proof.
  unfold orold. destruct c.
  - intros H. apply rd16old_ok in H. exists p1, p2. auto.
  - intros [= <- <- <-]. exists 0%N, []. auto.
Qed.
Lemma pfd_str0 c d b o : orold c (rd16old true 0 b o) d o = ('(n, s, o) <- rd16s true c b o ;; Ok (pick c n (fst d), pick c s (snd d), o)).
Proof. unfold orold. destruct c; [|destruct d; reflexivity]. rewrite rd16old_zero. destruct (rd16s true true b o) as [[[? ?] ?]| | |]; reflexivity. Qed.
Lemma pfd_list c old l b o n l' o' : rd16list c old l b o = Ok (n, l', o') ->
  exists q p r, rd16s false c b o = Ok (q, p, o') /\ pfd_items p = Ok r /\ n = pick c q old /\ l' = l ++ r.
Proof.
  unfold rd16list, orold. destruct c.
  - destruct (rd16old false old b o) as [[[q p] o1]| | |] eqn:E; try discriminate. cbn [bind]. destruct (pfd_items p) as [r| | |] eqn:Er; try discriminate. cbn [bind].
    intros [= <- <- <-]. apply rd16old_ok in E. exists q, p, r. auto.
  - intros [= <- <- <-]. exists 0%N, [], []. rewrite app_nil_r. auto.
Qed.
Lemma pfd_list0 c l b o : rd16list c 0 l b o = ('(n, p, o) <- rd16s false c b o ;; r <- pfd_items p ;; Ok (pick c n 0%N, l ++ r, o)).
Proof.
  unfold rd16list, orold. destruct c.
  - rewrite rd16old_zero. destruct (rd16s false true b o) as [[[? p] ?]| | |]; try reflexivity.
  - cbn. now rewrite app_nil_r.
Qed.
Lemma pfdc_kept_ok f b y : pfdc_unmarshal f b = Ok y -> exists x, pfdc_parse b = Ok x /\ y = kept_pfdc f x.
Proof.
  unfold pfdc_unmarshal, pfdc_parse. destruct (_ <? _); [discriminate|]. destruct (index b 0) as [fl| | |]; try discriminate. cbn [bind].
  Ltac str := let E := fresh in let n := fresh "q" in let s := fresh "w" in
    match goal with |- bind (orold ?c ?r ?d ?o) _ = _ -> _ => destruct (orold c r d o) as [[[? ?] ?]| | |] eqn:E; try discriminate; cbn [bind];
      apply pfd_str in E; destruct E as (n & s & -> & -> & ->); cbn [bind] end.
  Ltac lst := let E := fresh in let n := fresh "q" in let s := fresh "w" in let r := fresh "v" in
    match goal with |- bind (rd16list ?c ?a ?l ?b ?o) _ = _ -> _ => destruct (rd16list c a l b o) as [[[? ?] ?]| | |] eqn:E; try discriminate; cbn [bind];
      apply pfd_list in E; destruct E as (n & s & r & -> & E & -> & ->); cbn [bind]; rewrite E; cbn [bind] end.
  bits. do 5 str. do 3 lst. intros [= <-]. eexists. split; [reflexivity|]. reflexivity.
Qed.
Lemma pfdc_kept_zero f b : no_lengths f -> pfdc_unmarshal f b = (x <- pfdc_parse b ;; Ok (kept_pfdc f x)).
Proof.
  intros (E1 & E2 & E3 & E4 & E5 & E6 & E7 & E8). unfold pfdc_unmarshal, pfdc_parse. destruct (_ <? _); [reflexivity|]. destruct (index b 0) as [fl| | |]; try reflexivity. cbn [bind].
  Ltac str0 := rewrite pfd_str0; match goal with |- context [rd16s ?a ?c ?b ?o] => destruct (rd16s a c b o) as [[[? ?] ?]| | |]; try reflexivity; cbn [bind] end.
  Ltac lst0 := rewrite pfd_list0; match goal with |- context [rd16s ?a ?c ?b ?o] => destruct (rd16s a c b o) as [[[? ?] ?]| | |]; try reflexivity; cbn [bind] end;
    match goal with |- context [pfd_items ?p] => destruct (pfd_items p); try reflexivity; cbn [bind] end.
  rewrite E1, E2, E3, E4, E5, E6, E7, E8. bits. do 5 str0. do 3 lst0. unfold kept_pfdc. prj. rewrite E1, E2, E3, E4, E5, E6, E7, E8. reflexivity.
Qed.
