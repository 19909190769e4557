(** Proofs about the generic IE codec (IE.v) against the wire specification (Spec.v). *)
From Verif Require Import Base IETypes IE Spec.
Set Implicit Arguments.

(** ** Induction on nested elements *)
Section IeInd.
Variable P : ie -> Prop.
Hypothesis H : forall t l e p cs, Forall P cs -> P (mkIE t l e p cs).
Fixpoint ie_ind' (i : ie) : P i :=
  match i with
  | mkIE t l e p cs =>
      H t l e p ((fix go (cs : list ie) : Forall P cs :=
                    match cs with
                    | [] => Forall_nil P
                    | c :: r => Forall_cons c (ie_ind' c) (go r)
                    end) cs)
  end.
End IeInd.

Lemma testbit15 t : (t < 65536)%N -> N.testbit t 15 = (0x8000 <=? t)%N.
Proof.
  intros H. rewrite N.testbit_eqb. change (2 ^ 15)%N with 0x8000%N.
  destruct (N.leb_spec 0x8000 t) as [L|L].
  - assert (t / 0x8000 = 1)%N as ->; [|reflexivity].
    symmetry. apply (N.div_unique t 0x8000 1 (t - 0x8000)%N); lia.
  - rewrite N.div_small by lia. reflexivity.
Qed.
Lemma vendor_testbit t : vendor t = N.testbit t 15.
Proof.
  unfold vendor. change 0x8000%N with (2 ^ 15)%N.
  destruct (N.testbit t 15) eqn:E; destruct (N.eqb_spec (N.land t (2 ^ 15)) 0) as [Z|Z]; try reflexivity; exfalso.
  - assert (X : N.testbit (N.land t (2 ^ 15)) 15 = false) by (rewrite Z; apply N.bits_0).
    rewrite N.land_spec, E, N.pow2_bits_true in X. discriminate.
  - apply Z, N.bits_inj. intros j. rewrite N.land_spec, N.pow2_bits_eqb, N.bits_0.
    destruct (N.eqb_spec 15 j) as [<-|]; [now rewrite E|]. apply andb_false_r.
Qed.
Lemma vendor_true t : (0x8000 <= t < 65536)%N -> vendor t = true.
Proof. intros H. rewrite vendor_testbit, testbit15 by lia. apply N.leb_le. lia. Qed.
Lemma vendor_false t : (t < 0x8000)%N -> vendor t = false.
Proof. intros H. rewrite vendor_testbit, testbit15 by lia. apply N.leb_gt. lia. Qed.
Lemma vendor_iff t : (t < 65536)%N -> vendor t = (0x8000 <=? t)%N.
Proof. intros H. rewrite vendor_testbit. now apply testbit15. Qed.

Lemma hdr_pos t : 4 <= hdr t.
Proof. unfold hdr. destruct (vendor t); lia. Qed.

Lemma wire_header_length t l e h : wire_header t l e h -> length h = hdr t.
Proof.
  unfold hdr. intros [H1 H2 H3|H1 H2 H3].
  - now rewrite vendor_false, !app_length, !be_length by lia.
  - now rewrite vendor_true, !app_length, !be_length by lia.
Qed.
Lemma wire_header_bytes t l e h : wire_header t l e h -> bytes h.
Proof. intros [H1 H2 H3|H1 H2 H3]; rewrite !bytes_app; repeat split; apply be_bytes. Qed.
Lemma wire_header_ty t l e h : wire_header t l e h -> (t < 65536)%N.
Proof. intros [H1 H2 H3|H1 H2 H3]; lia. Qed.

Definition hdr_octets (i : ie) : list N :=
  be 2 (ty i) ++ be 2 (len i) ++ (if vendor (ty i) then be 2 (eid i) else []).
Lemma wire_header_octets t l e h p cs : wire_header t l e h -> h = hdr_octets (mkIE t l e p cs).
Proof.
  unfold hdr_octets. cbn [ty len eid]. intros [H1 H2 H3|H1 H2 H3].
  - rewrite vendor_false by lia. now rewrite app_nil_r.
  - now rewrite vendor_true by lia.
Qed.
Lemma hdr_octets_length i : length (hdr_octets i) = hdr (ty i).
Proof.
  unfold hdr_octets, hdr. rewrite !app_length, !be_length.
  destruct (vendor (ty i)); simpl; rewrite ?be_length; reflexivity.
Qed.

Section G.
Variable g : N -> bool.

(** ** MarshalLen and the pure encoding *)

Fixpoint enc (i : ie) : list N :=
  hdr_octets i ++ (if g (ty i) then concat (map enc (children i)) else payload i).

Lemma fold_left_add {A} (f : A -> nat) l a : fold_left (fun x c => x + f c) l a = a + list_sum (map f l).
Proof. revert a. induction l as [|x l IH]; intros a; simpl; [lia|]. rewrite IH. lia. Qed.

Lemma mlen_eq i : mlen g i =
  hdr (ty i) + (if g (ty i) then list_sum (map (mlen g) (children i)) else length (payload i)).
Proof.
  destruct i as [t l e p cs]. simpl. unfold hdr.
  destruct (vendor t), (g t); rewrite ?fold_left_add; lia.
Qed.
Lemma enc_eq i : enc i = hdr_octets i ++ (if g (ty i) then concat (map enc (children i)) else payload i).
Proof. destruct i; reflexivity. Qed.

Lemma length_concat_enc cs : Forall (fun c => length (enc c) = mlen g c) cs ->
  length (concat (map enc cs)) = list_sum (map (mlen g) cs).
Proof. induction 1 as [|c cs Hc Hcs IH]; simpl; [reflexivity|]. rewrite app_length. lia. Qed.

Lemma enc_length i : length (enc i) = mlen g i.
Proof.
  induction i as [t l e p cs IH] using ie_ind'.
  rewrite enc_eq, mlen_eq, app_length, hdr_octets_length. cbn [ty children payload]. f_equal.
  destruct (g t); [|reflexivity]. now apply length_concat_enc.
Qed.
Lemma mlen_ge i : hdr (ty i) <= mlen g i.
Proof. rewrite mlen_eq. lia. Qed.
Lemma mlen_ge4 i : 4 <= mlen g i.
Proof. pose proof (mlen_ge i). pose proof (hdr_pos (ty i)). lia. Qed.

(** ** MarshalTo *)

(** The children loop of MarshalTo, exposed. *)
Definition marshal_children : list ie -> nat -> list N -> res (list N) :=
  fix go (cs : list ie) (offset : nat) (b : list N) : res (list N) :=
       match cs with
       | [] => Ok b
       | c :: cs' =>
           s <- from b offset ;;
           s' <- marshal_to g c s ;;
           go cs' (offset + mlen g c) (firstn offset b ++ s')
       end.

Lemma marshal_to_eq i b : marshal_to g i b =
  if length b <? 4 then Err EInvalidLength else
  b1 <- put b 0 (be 2 (ty i)) ;;
  b2 <- put b1 2 (be 2 (len i)) ;;
  '(b3, offset) <- (if vendor (ty i) && (6 <=? length b)
                   then b3 <- put b2 4 (be 2 (eid i)) ;; Ok (b3, 6) else Ok (b2, 4)) ;;
  if g (ty i) then marshal_children (children i) offset b3
  else copy_range b3 offset (mlen g i) (payload i).
Proof. destruct i; reflexivity. Qed.

(** the two or three header writes on a buffer with room *)
Lemma header_writes i b : hdr (ty i) <= length b ->
  marshal_to g i b =
  if g (ty i) then marshal_children (children i) (hdr (ty i)) (hdr_octets i ++ skipn (hdr (ty i)) b)
  else copy_range (hdr_octets i ++ skipn (hdr (ty i)) b) (hdr (ty i)) (mlen g i) (payload i).
Proof.
  intros H. rewrite marshal_to_eq. pose proof (hdr_pos (ty i)) as H4.
  destruct (Nat.ltb_spec (length b) 4) as [L|L]; [lia|]. clear L.
  destruct b as [|b0 [|b1 [|b2 [|b3 r]]]]; simpl in H; try lia.
  change (put (b0 :: b1 :: b2 :: b3 :: r) 0 (be 2 (ty i))) with (Ok (be 2 (ty i) ++ b2 :: b3 :: r)).
  cbn [bind].
  change (put (be 2 (ty i) ++ b2 :: b3 :: r) 2 (be 2 (len i))) with (Ok (be 2 (ty i) ++ be 2 (len i) ++ r)).
  cbn [bind]. unfold hdr in H |- *. unfold hdr_octets.
  destruct (vendor (ty i)) eqn:V; cbn [andb].
  - destruct r as [|r0 [|r1 r]]; [simpl in H; lia|simpl in H; lia|].
    change (6 <=? length (b0 :: b1 :: b2 :: b3 :: r0 :: r1 :: r)) with true. cbn iota.
    change (put (be 2 (ty i) ++ be 2 (len i) ++ r0 :: r1 :: r) 4 (be 2 (eid i)))
      with (Ok (be 2 (ty i) ++ be 2 (len i) ++ be 2 (eid i) ++ r)). cbn [bind].
    change (skipn 6 (b0 :: b1 :: b2 :: b3 :: r0 :: r1 :: r)) with r.
    rewrite <- !app_assoc. reflexivity.
  - cbn [bind]. change (skipn 4 (b0 :: b1 :: b2 :: b3 :: r)) with r.
    rewrite <- !app_assoc. cbn [app]. reflexivity.
Qed.

Lemma marshal_children_ok cs : Forall (fun c => forall b, mlen g c <= length b ->
      marshal_to g c b = Ok (enc c ++ skipn (mlen g c) b)) cs ->
  forall done r off, off = length done -> list_sum (map (mlen g) cs) <= length r ->
  marshal_children cs off (done ++ r) =
  Ok (done ++ concat (map enc cs) ++ skipn (list_sum (map (mlen g) cs)) r).
Proof.
  induction 1 as [|c cs Hc Hcs IH]; intros done r off -> L; [reflexivity|].
  cbn [marshal_children map concat list_sum fold_right] in *. fold marshal_children.
  change (fold_right Nat.add 0 (map (mlen g) cs)) with (list_sum (map (mlen g) cs)) in *.
  rewrite from_app by reflexivity. cbn [bind]. rewrite Hc by lia. cbn [bind].
  rewrite firstn_app_exact by reflexivity.
  rewrite app_assoc, <- (enc_length c), <- app_length.
  rewrite (IH _ _ _ eq_refl) by (rewrite skipn_length, enc_length; lia).
  rewrite skipn_skipn', <- !app_assoc. reflexivity.
Qed.

Theorem marshal_to_fits i : forall b, mlen g i <= length b ->
  marshal_to g i b = Ok (enc i ++ skipn (mlen g i) b).
Proof.
  induction i as [t l e p cs IH] using ie_ind'. intros b L.
  set (i := mkIE t l e p cs) in *.
  pose proof (mlen_ge i) as Hh. rewrite header_writes by lia.
  rewrite (enc_eq i). rewrite (mlen_eq i) in *. cbn [ty children payload i] in *.
  destruct (g t).
  - rewrite marshal_children_ok; auto.
    + rewrite skipn_skipn', <- app_assoc. reflexivity.
    + symmetry. exact (hdr_octets_length i).
    + rewrite skipn_length. change (ty i) with t in *. lia.
  - rewrite <- (hdr_octets_length i : _ = hdr t) at 2 3.
    rewrite copy_range_app; [|rewrite skipn_length; change (ty i) with t in *; lia|reflexivity].
    rewrite skipn_skipn', <- app_assoc. reflexivity.
Qed.

Theorem marshal_ok i : marshal g i = Ok (enc i).
Proof.
  unfold marshal. rewrite marshal_to_fits by (unfold make; now rewrite repeat_length).
  rewrite skipn_all2 by (unfold make; rewrite repeat_length; lia). now rewrite app_nil_r.
Qed.

(** Too small a buffer. *)
Lemma marshal_to_tiny i b : length b < 4 -> marshal_to g i b = Err EInvalidLength.
Proof. intros H. rewrite marshal_to_eq. destruct (Nat.ltb_spec (length b) 4); [reflexivity|lia]. Qed.

Lemma marshal_to_plain_short i b : g (ty i) = false -> 4 <= length b < mlen g i -> marshal_to g i b = Fault.
Proof.
  intros G L. destruct (Nat.le_gt_cases (hdr (ty i)) (length b)) as [H|H].
  - rewrite header_writes, G by exact H. unfold copy_range.
    rewrite app_length, hdr_octets_length, skipn_length.
    destruct (Nat.leb_spec (mlen g i) (hdr (ty i) + (length b - hdr (ty i)))) as [X|X]; [lia|].
    now rewrite andb_false_r.
  - rewrite marshal_to_eq. unfold hdr in H. destruct (vendor (ty i)) eqn:V; [|lia].
    destruct (Nat.ltb_spec (length b) 4); [lia|].
    destruct b as [|b0 [|b1 [|b2 [|b3 r]]]]; simpl in L; try lia.
    change (put (b0 :: b1 :: b2 :: b3 :: r) 0 (be 2 (ty i))) with (Ok (be 2 (ty i) ++ b2 :: b3 :: r)).
    cbn [bind].
    change (put (be 2 (ty i) ++ b2 :: b3 :: r) 2 (be 2 (len i))) with (Ok (be 2 (ty i) ++ be 2 (len i) ++ r)).
    cbn [bind andb]. destruct (Nat.leb_spec 6 (length (b0 :: b1 :: b2 :: b3 :: r))); [lia|].
    cbn [bind]. rewrite G. unfold copy_range. rewrite !app_length, !be_length.
    destruct (Nat.leb_spec (mlen g i) (2 + (2 + length r))); [simpl in L; lia|].
    now rewrite andb_false_r.
Qed.

Lemma marshal_children_short cs :
  Forall (fun c => forall b, length b < mlen g c -> forall s, marshal_to g c b <> Ok s) cs ->
  forall done r off, off = length done -> length r < list_sum (map (mlen g) cs) ->
  forall s, marshal_children cs off (done ++ r) <> Ok s.
Proof.
  induction 1 as [|c cs Hc Hcs IH]; intros done r off -> L s; [simpl in L; lia|].
  cbn [marshal_children map list_sum fold_right] in *. fold marshal_children.
  change (fold_right Nat.add 0 (map (mlen g) cs)) with (list_sum (map (mlen g) cs)) in *.
  rewrite from_app by reflexivity. cbn [bind].
  destruct (Nat.le_gt_cases (mlen g c) (length r)) as [F|F].
  - rewrite marshal_to_fits by exact F. cbn [bind]. rewrite firstn_app_exact by reflexivity.
    rewrite app_assoc. apply IH; [now rewrite app_length, enc_length|].
    rewrite skipn_length. lia.
  - specialize (Hc r F). destruct (marshal_to g c r); cbn [bind]; try discriminate.
    intros _. exact (Hc _ eq_refl).
Qed.

(** With no vendor-specific grouped type registered, a short buffer never looks like success. *)
Theorem marshal_to_short i : (forall t, g t = true -> vendor t = false) ->
  forall b, length b < mlen g i -> forall s, marshal_to g i b <> Ok s.
Proof.
  intros HG. induction i as [t l e p cs IH] using ie_ind'. intros b L s.
  destruct (Nat.le_gt_cases 4 (length b)) as [H|H].
  2:{ rewrite marshal_to_tiny by exact H. discriminate. }
  destruct (g t) eqn:G.
  - assert (V : vendor t = false) by auto.
    assert (Hh : hdr t = 4) by (unfold hdr; now rewrite V).
    rewrite header_writes by (cbn [ty]; lia). rewrite mlen_eq in L.
    cbn [ty children] in *. rewrite G in *. apply marshal_children_short; auto.
    + now rewrite hdr_octets_length.
    + rewrite skipn_length. lia.
  - rewrite marshal_to_plain_short; [discriminate|exact G|lia].
Qed.

(** ** Decoder: header analysis *)

Lemma parse_multi_S n b : parse_multi g (S n) b =
  if length b =? 0 then Ok [] else
  i <- unmarshal g n zeroIE b ;;
  b' <- from b (mlen g i) ;;
  is <- parse_multi g n b' ;;
  Ok (i :: is).
Proof. reflexivity. Qed.
Lemma unmarshal_S n i0 b : unmarshal g (S n) i0 b =
  let l := length b in
  if l <? 4 then Err EUnexpectedEOF else
  t <- getr 2 b 0 2 ;;
  ln <- getr 2 b 2 4 ;;
  let offset := 4 in
  let fin := N.to_nat ln in
  '(e, offset, fin) <-
    (if vendor t then
       if l <? 6 then Err EUnexpectedEOF else
       if fin <? 2 then Err EInvalidLength else
       e <- getr 2 b 4 6 ;; Ok (e, offset + 2, fin - 2)
     else Ok (eid i0, offset, fin)) ;;
  if l <=? offset then Ok (mkIE t ln e (payload i0) (children i0)) else
  if l <? offset + fin then Err EUnexpectedEOF else
  p <- slice b offset (offset + fin) ;;
  if g t then cs <- parse_multi g n p ;; Ok (mkIE t ln e p cs)
  else Ok (mkIE t ln e p (children i0)).
Proof. reflexivity. Qed.

Lemma unmarshal_short n i0 b : length b < 4 -> unmarshal g (S n) i0 b = Err EUnexpectedEOF.
Proof. intros H. rewrite unmarshal_S. cbv zeta. destruct (Nat.ltb_spec (length b) 4); [reflexivity|lia]. Qed.

Lemma two_octets a b : octet a -> octet b -> be 2 (unbe [a; b]) = [a; b].
Proof. intros Ha Hb. apply be_unbe; [repeat constructor; assumption|reflexivity]. Qed.

(** Every octet string either is rejected on its header or starts with a wire header. *)
Lemma header_cases b : bytes b ->
  length b < 4
  \/ (exists t l r, b = be 2 t ++ be 2 l ++ r /\ (0x8000 <= t < 65536)%N /\ (l < 65536)%N /\
        (length r < 2 \/ (2 <= length r /\ (l < 2)%N)))
  \/ (exists t l e h r, wire_header t l e h /\ b = h ++ r).
Proof.
  intros Hb.
  destruct b as [|b0 [|b1 [|b2 [|b3 r]]]]; try (left; simpl; lia).
  right. inversion Hb as [|x0 y0 B0 Hb0]; subst. inversion Hb0 as [|x1 y1 B1 Hb1]; subst.
  inversion Hb1 as [|x2 y2 B2 Hb2]; subst. inversion Hb2 as [|x3 y3 B3 Hr]; subst.
  pose proof (two_octets B0 B1) as E1. pose proof (two_octets B2 B3) as E2.
  pose proof (bytes_len16 B0 B1) as L1. pose proof (bytes_len16 B2 B3) as L2.
  set (t := unbe [b0; b1]) in *. set (l := unbe [b2; b3]) in *.
  assert (E : b0 :: b1 :: b2 :: b3 :: r = be 2 t ++ be 2 l ++ r) by (rewrite E1, E2; reflexivity).
  rewrite E.
  destruct (N.lt_ge_cases t 0x8000) as [V|V].
  - right. exists t, l, 0%N, (be 2 t ++ be 2 l), r. split; [now constructor|]. now rewrite <- app_assoc.
  - destruct r as [|r0 [|r1 r]].
    + left. exists t, l, []. split; [reflexivity|]. split; [lia|]. split; [lia|]. left. simpl. lia.
    + left. exists t, l, [r0]. split; [reflexivity|]. split; [lia|]. split; [lia|]. left. simpl. lia.
    + destruct (N.lt_ge_cases l 2) as [S|S].
      * left. exists t, l, (r0 :: r1 :: r). split; [reflexivity|]. split; [lia|]. split; [lia|]. right. simpl. lia.
      * right. inversion Hr as [|x4 y4 B4 Hr1]; subst. inversion Hr1 as [|x5 y5 B5 Hr2]; subst.
        pose proof (two_octets B4 B5) as E3. pose proof (bytes_len16 B4 B5) as L3.
        set (e := unbe [r0; r1]) in *.
        exists t, l, e, (be 2 t ++ be 2 l ++ be 2 e), r.
        split; [constructor; lia|]. rewrite <- !app_assoc. rewrite E3. reflexivity.
Qed.

Lemma getr_be2 p v r lo hi : lo = length p -> hi = length p + 2 -> (v < 65536)%N ->
  getr 2 (p ++ be 2 v ++ r) lo hi = Ok v.
Proof.
  intros -> -> Hv. unfold getr. rewrite slice_app by (rewrite ?be_length; reflexivity). cbn [bind].
  unfold getn. rewrite be_length. cbn [Nat.leb]. rewrite firstn_all2 by (rewrite be_length; lia).
  rewrite unbe_be_small; [reflexivity|exact Hv].
Qed.

Lemma getr_be2_0 v r : (v < 65536)%N -> getr 2 (be 2 v ++ r) 0 2 = Ok v.
Proof. intros H. exact (@getr_be2 [] v r 0 2 eq_refl eq_refl H). Qed.

(** Acceptance step: what the decoder does once the header has been read. *)
Lemma unmarshal_header n i0 t l e h r : wire_header t l e h ->
  unmarshal g (S n) i0 (h ++ r) =
  let e' := if vendor t then e else eid i0 in
  if length r =? 0 then Ok (mkIE t l e' (payload i0) (children i0))
  else if length r <? announced t l then Err EUnexpectedEOF
  else let p := firstn (announced t l) r in
       if g t then cs <- parse_multi g n p ;; Ok (mkIE t l e' p cs)
       else Ok (mkIE t l e' p (children i0)).
Proof.
  intros H. rewrite unmarshal_S. cbv zeta. pose proof (wire_header_length H) as HL.
  rewrite app_length, HL. pose proof (hdr_pos t) as H4.
  destruct (Nat.ltb_spec (hdr t + length r) 4); [lia|].
  destruct H as [H1 H2 ->|H1 H2 H3].
  - rewrite <- app_assoc.
    rewrite (@getr_be2_0 t (be 2 l ++ r)) by lia. cbn [bind].
    rewrite (@getr_be2 (be 2 t) l r 2 4) by (rewrite ?be_length; reflexivity || lia). cbn [bind].
    unfold announced, hdr. rewrite (vendor_false H1). cbn [bind].
    destruct (N.ltb_spec t 0x8000); [|lia].
    destruct (Nat.leb_spec (4 + length r) 4) as [L|L];
      destruct (Nat.eqb_spec (length r) 0) as [Z|Z]; try lia; [reflexivity|].
    destruct (Nat.ltb_spec (4 + length r) (4 + N.to_nat l)) as [M|M];
      destruct (Nat.ltb_spec (length r) (N.to_nat l)) as [Q|Q]; try lia; [reflexivity|].
    rewrite app_assoc. rewrite slice_ok by (rewrite ?app_length, ?be_length; lia). cbn [bind].
    replace (4 + N.to_nat l - 4) with (N.to_nat l) by lia.
    rewrite skipn_app_exact by (rewrite app_length, !be_length; reflexivity). reflexivity.
  - rewrite <- !app_assoc.
    rewrite (@getr_be2_0 t (be 2 l ++ be 2 e ++ r)) by lia. cbn [bind].
    rewrite (@getr_be2 (be 2 t) l (be 2 e ++ r) 2 4) by (rewrite ?be_length; reflexivity || lia). cbn [bind].
    unfold announced, hdr. rewrite (vendor_true H1).
    destruct (Nat.ltb_spec (6 + length r) 6); [lia|].
    destruct (Nat.ltb_spec (N.to_nat l) 2); [lia|].
    replace (be 2 t ++ be 2 l ++ be 2 e ++ r) with ((be 2 t ++ be 2 l) ++ be 2 e ++ r)
      by (rewrite <- !app_assoc; reflexivity).
    rewrite (@getr_be2 (be 2 t ++ be 2 l) e r 4 6) by (rewrite ?app_length, ?be_length; reflexivity || lia).
    cbn [bind]. destruct (N.ltb_spec t 0x8000); [lia|].
    replace (N.to_nat (l - 2)) with (N.to_nat l - 2) by lia.
    destruct (Nat.leb_spec (6 + length r) (4 + 2)) as [L|L];
      destruct (Nat.eqb_spec (length r) 0) as [Z|Z]; try lia; [reflexivity|].
    destruct (Nat.ltb_spec (6 + length r) (4 + 2 + (N.to_nat l - 2))) as [M|M];
      destruct (Nat.ltb_spec (length r) (N.to_nat l - 2)) as [Q|Q]; try lia; [reflexivity|].
    rewrite app_assoc. rewrite slice_ok by (rewrite ?app_length, ?be_length; lia). cbn [bind].
    replace (4 + 2 + (N.to_nat l - 2) - (4 + 2)) with (N.to_nat l - 2) by lia.
    rewrite skipn_app_exact by (rewrite !app_length, !be_length; reflexivity). reflexivity.
Qed.

Lemma unmarshal_bad_vendor n i0 t l r : (0x8000 <= t < 65536)%N -> (l < 65536)%N ->
  (length r < 2 -> unmarshal g (S n) i0 (be 2 t ++ be 2 l ++ r) = Err EUnexpectedEOF) /\
  (2 <= length r -> (l < 2)%N -> unmarshal g (S n) i0 (be 2 t ++ be 2 l ++ r) = Err EInvalidLength).
Proof.
  intros H1 H2. rewrite unmarshal_S. cbv zeta. rewrite !app_length, !be_length.
  destruct (Nat.ltb_spec (2 + (2 + length r)) 4); [lia|].
  rewrite (@getr_be2_0 t (be 2 l ++ r)) by lia. cbn [bind].
  rewrite (@getr_be2 (be 2 t) l r 2 4) by (rewrite ?be_length; reflexivity || lia). cbn [bind].
  rewrite (vendor_true H1). split; intros H3.
  - destruct (Nat.ltb_spec (2 + (2 + length r)) 6); [reflexivity|lia].
  - intros H4. destruct (Nat.ltb_spec (2 + (2 + length r)) 6); [lia|].
    destruct (Nat.ltb_spec (N.to_nat l) 2); [reflexivity|lia].
Qed.

(** ** Soundness: whatever is decoded is accepted by the specification *)

Lemma enc_accepted i b rest : accepted g i b rest -> enc i = b.
Proof.
  apply (@accepted_mut g (fun i b _ => enc i = b) (fun is b => concat (map enc is) = b)).
  - intros t l e cs h body r H1 H2 H3 H4 H5 H6. rewrite enc_eq. cbn [ty children payload].
    rewrite <- (wire_header_octets body cs H1). f_equal. destruct (g t); auto.
  - intros t l e h H1. rewrite enc_eq. cbn [ty children payload].
    rewrite <- (wire_header_octets [] [] H1). destruct (g t); simpl; now rewrite app_nil_r.
  - reflexivity.
  - intros i0 b0 is r H1 H2 H3 H4. simpl. now rewrite H2, H4.
Qed.
Lemma enc_accepteds is b : accepteds g is b -> concat (map enc is) = b.
Proof.
  induction 1 as [|i b is rest Hi His IH]; [reflexivity|].
  simpl. now rewrite IH, (enc_accepted Hi).
Qed.

Lemma unmarshal_sound n :
  (forall b i, bytes b -> unmarshal g n zeroIE b = Ok i ->
     exists b1 rest, b = b1 ++ rest /\ accepted g i b1 rest) /\
  (forall b is, bytes b -> parse_multi g n b = Ok is -> accepteds g is b).
Proof.
  induction n as [|n [IHu IHm]]; [split; discriminate|]. split.
  - intros b i Hb Hu.
    destruct (header_cases Hb) as [S|[(t & l & r & -> & H1 & H2 & H3)|(t & l & e & h & r & H & ->)]].
    + rewrite unmarshal_short in Hu by exact S. discriminate.
    + destruct (unmarshal_bad_vendor n zeroIE r H1 H2) as [E1 E2].
      destruct H3 as [H3|[H3 H4]]; [rewrite E1 in Hu by exact H3|rewrite E2 in Hu by assumption]; discriminate.
    + rewrite (unmarshal_header n zeroIE r H) in Hu. cbn zeta in Hu.
      assert (He : (if vendor t then e else eid zeroIE) = e).
      { destruct H as [A1 A2 ->|A1 A2 A3]; [now rewrite vendor_false|now rewrite vendor_true]. }
      rewrite He in Hu. cbn [payload children zeroIE] in Hu.
      apply bytes_app in Hb as [Hh Hr].
      destruct (Nat.eqb_spec (length r) 0) as [Z|Z].
      * apply length_zero_iff_nil in Z. subst r. injection Hu as <-.
        exists h, []. split; [reflexivity|]. now constructor.
      * destruct (Nat.ltb_spec (length r) (announced t l)) as [M|M]; [discriminate|].
        set (a := announced t l) in *.
        assert (Hp : bytes (firstn a r)) by now apply bytes_firstn.
        assert (Hl : length (firstn a r) = a) by (rewrite firstn_length; lia).
        exists (h ++ firstn a r), (skipn a r).
        split; [now rewrite <- app_assoc, firstn_skipn|].
        destruct (g t) eqn:G.
        -- destruct (parse_multi g n (firstn a r)) as [cs|x| |] eqn:Em; try discriminate.
           injection Hu as <-. apply acc_full; auto. rewrite G. discriminate.
        -- injection Hu as <-. apply acc_full; auto. rewrite G. discriminate.
  - intros b is Hb Hm. rewrite parse_multi_S in Hm.
    destruct (Nat.eqb_spec (length b) 0) as [Z|Z].
    + apply length_zero_iff_nil in Z. subst b. injection Hm as <-. constructor.
    + destruct (unmarshal g n zeroIE b) as [i|x| |] eqn:Eu; try discriminate. cbn [bind] in Hm.
      destruct (IHu b i Hb Eu) as (b1 & rest & -> & Ha).
      pose proof (enc_accepted Ha) as Ee.
      rewrite from_app in Hm by (now rewrite <- enc_length, Ee). cbn [bind] in Hm.
      destruct (parse_multi g n rest) as [is'|x| |] eqn:Em; try discriminate.
      injection Hm as <-. apply bytes_app in Hb as [_ Hr]. constructor; auto.
Qed.

(** ** Completeness and totality *)

Lemma wire_header_nonempty t l e h : wire_header t l e h -> 4 <= length h.
Proof. intros H. rewrite (wire_header_length H). apply hdr_pos. Qed.

Lemma accepted_nonempty i b rest : accepted g i b rest -> 4 <= length b.
Proof.
  intros [t l e cs h body r H1 H2 H3 H4 H5|t l e h H1]; rewrite ?app_length;
    pose proof (wire_header_nonempty H1); lia.
Qed.

Lemma unmarshal_complete i b rest : accepted g i b rest ->
  forall n, length b + 1 <= n -> unmarshal g n zeroIE (b ++ rest) = Ok i.
Proof.
  apply (@accepted_mut g
    (fun i b rest => forall n, length b + 1 <= n -> unmarshal g n zeroIE (b ++ rest) = Ok i)
    (fun is b => forall n, length b + 2 <= n -> parse_multi g n b = Ok is)).
  - intros t l e cs h body r H1 H2 H3 H4 H5 H6 n Hn.
    rewrite app_length in Hn. pose proof (wire_header_nonempty H1) as Hh.
    destruct n as [|n]; [lia|]. rewrite <- app_assoc, (unmarshal_header n zeroIE (body ++ r) H1). cbn zeta.
    assert (He : (if vendor t then e else eid zeroIE) = e).
    { destruct H1 as [A1 A2 ->|A1 A2 A3]; [now rewrite vendor_false|now rewrite vendor_true]. }
    rewrite He. cbn [payload children zeroIE]. rewrite app_length.
    destruct (Nat.eqb_spec (length body + length r) 0) as [Z|Z].
    + assert (body = []) by (apply length_zero_iff_nil; lia). subst body.
      destruct (g t) eqn:G; [|now rewrite H6].
      pose proof (H4 eq_refl) as X. inversion X as [|? ? ? ? Y]; subst; [reflexivity|].
      pose proof (accepted_nonempty Y). apply (f_equal (@length N)) in H7. rewrite app_length in H7. simpl in H7. lia.
    + destruct (Nat.ltb_spec (length body + length r) (announced t l)) as [M|M]; [lia|].
      rewrite <- H3, firstn_app_exact by reflexivity.
      destruct (g t) eqn:G; [|now rewrite H6].
      rewrite H5 by (reflexivity || lia). reflexivity.
  - intros t l e h H1 n Hn. pose proof (wire_header_nonempty H1) as Hh.
    destruct n as [|n]; [lia|]. rewrite (unmarshal_header n zeroIE [] H1). cbn zeta. simpl.
    f_equal. f_equal. destruct H1 as [A1 A2 ->|A1 A2 A3]; [now rewrite vendor_false|now rewrite vendor_true].
  - intros n Hn. destruct n as [|n]; [simpl in Hn; lia|]. reflexivity.
  - intros i0 b0 is r H1 H2 H3 H4 n Hn. rewrite app_length in Hn.
    pose proof (accepted_nonempty H1) as Hb. destruct n as [|n]; [lia|]. rewrite parse_multi_S.
    rewrite app_length. destruct (Nat.eqb_spec (length b0 + length r) 0) as [Z|Z]; [lia|].
    rewrite H2 by lia. cbn [bind].
    rewrite from_app by (now rewrite <- enc_length, (enc_accepted H1)). cbn [bind].
    rewrite H4 by lia. reflexivity.
Qed.

Lemma parse_multi_complete is b : accepteds g is b ->
  forall n, length b + 2 <= n -> parse_multi g n b = Ok is.
Proof.
  induction 1 as [|i b is rest Hi His IH]; intros n Hn.
  - destruct n as [|n]; [simpl in Hn; lia|]. reflexivity.
  - rewrite app_length in Hn. pose proof (accepted_nonempty Hi) as Hb.
    destruct n as [|n]; [lia|]. rewrite parse_multi_S.
    rewrite app_length. destruct (Nat.eqb_spec (length b + length rest) 0) as [Z|Z]; [lia|].
    rewrite (unmarshal_complete Hi) by lia. cbn [bind].
    rewrite from_app by (now rewrite <- enc_length, (enc_accepted Hi)). cbn [bind].
    rewrite IH by lia. reflexivity.
Qed.

(** With enough fuel the decoder returns a value or a Go error. *)
Lemma unmarshal_total n :
  (forall b i0, bytes b -> length b + 1 <= n -> returns (unmarshal g n i0 b)) /\
  (forall b, bytes b -> length b + 2 <= n -> returns (parse_multi g n b)).
Proof.
  induction n as [|n [IHu IHm]]; [split; intros; lia|]. split.
  - intros b i0 Hb Hn.
    destruct (header_cases Hb) as [S|[(t & l & r & -> & H1 & H2 & H3)|(t & l & e & h & r & H & ->)]].
    + rewrite unmarshal_short by exact S. right. eauto.
    + destruct (unmarshal_bad_vendor n i0 r H1 H2) as [E1 E2].
      destruct H3 as [H3|[H3 H4]]; [rewrite E1 by exact H3|rewrite E2 by assumption]; right; eauto.
    + rewrite (unmarshal_header n i0 r H). cbn zeta.
      destruct (length r =? 0); [left; eauto|].
      destruct (Nat.ltb_spec (length r) (announced t l)) as [M|M]; [right; eauto|].
      destruct (g t); [|left; eauto].
      rewrite app_length in Hn. pose proof (wire_header_nonempty H).
      apply bytes_app in Hb as [_ Hr].
      destruct (IHm (firstn (announced t l) r)) as [[cs ->]|[x ->]].
      * now apply bytes_firstn.
      * rewrite firstn_length. lia.
      * left. cbn [bind]. eauto.
      * right. cbn [bind]. eauto.
  - intros b Hb Hn. rewrite parse_multi_S.
    destruct (Nat.eqb_spec (length b) 0) as [Z|Z]; [left; eauto|].
    destruct (IHu b zeroIE Hb) as [[i Ei]|[x ->]]; [lia| |right; cbn [bind]; eauto].
    rewrite Ei. cbn [bind].
    destruct (proj1 (unmarshal_sound n) _ _ Hb Ei) as (b1 & rest & -> & Ha).
    pose proof (accepted_nonempty Ha) as H4. rewrite app_length in Hn.
    rewrite from_app by (now rewrite <- enc_length, (enc_accepted Ha)). cbn [bind].
    apply bytes_app in Hb as [_ Hr].
    destruct (IHm rest Hr) as [[cs ->]|[x ->]]; [lia|left|right]; cbn [bind]; eauto.
Qed.

(** ** The public entry points *)

Theorem parse_returns b : bytes b -> returns (parse g b).
Proof. intros H. apply (proj1 (unmarshal_total _)); [exact H|lia]. Qed.
Theorem parseMulti_returns b : bytes b -> returns (parseMultiIEs g b).
Proof. intros H. apply (proj2 (unmarshal_total _)); [exact H|lia]. Qed.
Theorem unmarshalBinary_returns i0 b : bytes b -> returns (unmarshalBinary g i0 b).
Proof. intros H. apply (proj1 (unmarshal_total _)); [exact H|lia]. Qed.

Theorem parse_iff b i : bytes b ->
  (parse g b = Ok i <-> exists b1 rest, b = b1 ++ rest /\ accepted g i b1 rest).
Proof.
  intros Hb. split.
  - intros H. exact (proj1 (unmarshal_sound _) _ _ Hb H).
  - intros (b1 & rest & -> & H). apply (unmarshal_complete H). rewrite app_length. lia.
Qed.
Theorem parseMulti_iff b is : bytes b -> (parseMultiIEs g b = Ok is <-> accepteds g is b).
Proof.
  intros Hb. split.
  - intros H. exact (proj2 (unmarshal_sound _) _ _ Hb H).
  - intros H. apply (parse_multi_complete H). lia.
Qed.

Theorem parse_then_marshal b i : bytes b -> parse g b = Ok i ->
  marshal g i = Ok (firstn (mlen g i) b) /\ 4 <= mlen g i <= length b.
Proof.
  intros Hb H. apply parse_iff in H as (b1 & rest & -> & Ha); [|exact Hb].
  rewrite marshal_ok, (enc_accepted Ha). rewrite <- enc_length, (enc_accepted Ha).
  rewrite firstn_app_exact by reflexivity. rewrite app_length.
  pose proof (accepted_nonempty Ha). split; [reflexivity|lia].
Qed.

Lemma wire_accepted i b : wire g i b -> forall rest, accepted g i b rest.
Proof.
  apply (@wire_mut g (fun i b => forall rest, accepted g i b rest) (fun is b => accepteds g is b)).
  - intros t l e cs h body H1 H2 H3 H4 H5 H6 rest. now constructor.
  - constructor.
  - intros i0 b0 is bs H1 H2 H3 H4. constructor; auto.
Qed.
Lemma wires_accepteds is b : wires g is b -> accepteds g is b.
Proof. induction 1; constructor; auto. now apply wire_accepted. Qed.

Lemma wire_bytes i b : wire g i b -> bytes b.
Proof.
  intros [t l e cs h body H1 H2 H3 H4 H5]. apply bytes_app. split; [|exact H2].
  now apply wire_header_bytes in H1.
Qed.
Lemma wires_bytes is b : wires g is b -> bytes b.
Proof. induction 1 as [|i b is bs Hi His IH]; [constructor|]. apply bytes_app. split; [|exact IH]. now apply wire_bytes in Hi. Qed.

Theorem parse_wire i b rest : wire g i b -> bytes rest -> parse g (b ++ rest) = Ok i.
Proof.
  intros Hw Hr. apply parse_iff; [apply bytes_app; split; [now apply wire_bytes in Hw|exact Hr]|].
  exists b, rest. split; [reflexivity|]. now apply wire_accepted.
Qed.
Theorem parseMulti_wires is b : wires g is b -> parseMultiIEs g b = Ok is.
Proof. intros H. apply parseMulti_iff; [now apply wires_bytes in H|now apply wires_accepteds]. Qed.

Theorem wire_enc i b : wire g i b -> enc i = b.
Proof. intros H. exact (enc_accepted (wire_accepted H [])). Qed.

(** Encodings form a prefix code: an encoding determines its element and where it ends. *)
Theorem wire_prefix_free i j b c r s : wire g i b -> wire g j c -> bytes r -> bytes s ->
  b ++ r = c ++ s -> i = j /\ b = c /\ r = s.
Proof.
  intros Hi Hj Hr Hs E.
  pose proof (parse_wire Hi Hr) as P1. pose proof (parse_wire Hj Hs) as P2. rewrite E, P2 in P1.
  injection P1 as ->. pose proof (wire_enc Hi). pose proof (wire_enc Hj). subst b c.
  apply app_inv_head in E. auto.
Qed.
Theorem wires_inj is js b : wires g is b -> wires g js b -> is = js.
Proof. intros H1 H2. apply parseMulti_wires in H1, H2. congruence. Qed.

End G.
