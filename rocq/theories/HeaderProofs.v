(** Proofs about the message header model. *)
From Verif Require Import Base Bits Header HeaderSpec.
Set Implicit Arguments.
Local Open Scope N_scope.

Lemma uint32To24_be n : uint32To24 n = be 3 n.
Proof.
  unfold uint32To24, u8. cbn [be]. rewrite !N.shiftr_div_pow2.
  change (256 ^ N.of_nat 2) with (2 ^ 16). change (256 ^ N.of_nat 1) with (2 ^ 8).
  change (256 ^ N.of_nat 0) with 1. rewrite N.div_1_r. reflexivity.
Qed.
Lemma uint24To32_unbe a b c : octet a -> octet b -> octet c -> uint24To32 [a; b; c] = unbe [a; b; c].
Proof.
  unfold octet. intros Ha Hb Hc. unfold uint24To32, unbe. cbn [fold_left].
  rewrite !N.shiftl_mul_pow2. replace (a * 2 ^ 16) with (a * 2 ^ 8 * 2 ^ 8) by (rewrite <- N.mul_assoc; reflexivity).
  rewrite N.lor_comm, (N.lor_comm (a * _ * _)).
  rewrite (N.lor_comm (b * _)). replace (N.lor (a * 2 ^ 8 * 2 ^ 8) (b * 2 ^ 8)) with ((a * 2 ^ 8 + b) * 2 ^ 8).
  - rewrite N.lor_comm, lor_add by exact Hc. change (2 ^ 8) with 256. lia.
  - rewrite <- (@lor_add a b 8) by exact Hb. rewrite <- !N.shiftl_mul_pow2. apply N.shiftl_lor.
Qed.
Lemma uint24_roundtrip n : uint24To32 (uint32To24 n) = n mod 2 ^ 24.
Proof.
  pose proof (be_bytes 3 n) as B. rewrite uint32To24_be.
  pose proof (unbe_be 3 n) as U. change (256 ^ N.of_nat 3) with (2 ^ 24) in U. rewrite <- U.
  cbn [be] in *. inversion B as [|? ? B1 B']; subst. inversion B' as [|? ? B2 B'']; subst.
  inversion B'' as [|? ? B3 _]; subst. now apply uint24To32_unbe.
Qed.

(** the octets of a header *)
Definition henc (h : header) : list N :=
  [h_flags h; h_type h] ++ be 2 (h_length h) ++ (if has_seid h then be 8 (h_seid h) else []) ++
  be 3 (h_seq h) ++ [h_prio h] ++ h_payload h.
Lemma henc_length h : length (henc h) = h_mlen h.
Proof.
  unfold henc, h_mlen. rewrite !app_length, !be_length. destruct (has_seid h); rewrite ?be_length; simpl; lia.
Qed.

Lemma put_at p r s n : n = length p -> (length s <= length r)%nat ->
  put (p ++ r) n s = Ok (p ++ s ++ skipn (length s) r).
Proof. intros ->. apply put_app. Qed.
Lemma copy_at p r s n m : n = length p -> m = (n + length s)%nat -> (length s <= length r)%nat ->
  copy_range (p ++ r) n m s = Ok (p ++ s ++ skipn (length s) r).
Proof. intros -> -> L. now apply copy_range_app. Qed.

Theorem h_marshal_to_fits h b : (h_mlen h <= length b)%nat ->
  h_marshal_to h b = Ok (henc h ++ skipn (h_mlen h) b).
Proof.
  unfold h_mlen. intros H. unfold h_marshal_to.
  change b with ([] ++ b) at 1. rewrite put_at by (simpl; lia). cbn [bind app length].
  change (h_flags h :: ?r) with ([h_flags h] ++ r). rewrite put_at by (try reflexivity; cbn [length]; rewrite ?skipn_length; lia).
  cbn [bind length]. rewrite skipn_skipn', app_assoc.
  rewrite put_at by (try reflexivity; rewrite be_length, skipn_length; lia).
  cbn [bind]. rewrite be_length, skipn_skipn', app_assoc.
  assert (E : (if has_seid h
     then b0 <- put ((([h_flags h] ++ [h_type h]) ++ be 2 (h_length h)) ++ skipn (1 + 1 + 2) b) 4 (be 8 (h_seid h));;
        Ok (b0, (4 + 8)%nat)
     else Ok ((([h_flags h] ++ [h_type h]) ++ be 2 (h_length h)) ++ skipn (1 + 1 + 2) b, 4%nat)) =
     let n := if has_seid h then 12%nat else 4%nat in
     Ok ((([h_flags h] ++ [h_type h]) ++ be 2 (h_length h) ++ if has_seid h then be 8 (h_seid h) else []) ++ skipn n b, n)).
  { destruct (has_seid h).
    - rewrite put_at by (rewrite ?app_length, ?be_length, ?skipn_length; simpl; lia).
      cbn [bind]. rewrite be_length, skipn_skipn'. now rewrite <- !app_assoc.
    - now rewrite app_nil_r. }
  rewrite E. cbn [bind]. clear E. rewrite uint32To24_be.
  set (n := if has_seid h then 12%nat else 4%nat).
  assert (Hn : length (([h_flags h] ++ [h_type h]) ++ be 2 (h_length h) ++ (if has_seid h then be 8 (h_seid h) else [])) = n).
  { unfold n. rewrite !app_length, be_length. destruct (has_seid h); rewrite ?be_length; reflexivity. }
  assert (Hl : (n + 4 + length (h_payload h) <= length b)%nat) by (unfold n; destruct (has_seid h); lia).
  assert (Hm : h_mlen h = (n + 4 + length (h_payload h))%nat) by (unfold n, h_mlen; destruct (has_seid h); lia).
  rewrite Hm.
  set (P := ([h_flags h] ++ [h_type h]) ++ be 2 (h_length h) ++ (if has_seid h then be 8 (h_seid h) else [])) in *.
  rewrite copy_at by (rewrite ?be_length, ?skipn_length; lia).
  cbn [bind]. rewrite be_length, skipn_skipn', app_assoc.
  rewrite put_at by (rewrite ?app_length, ?Hn, ?be_length, ?skipn_length; cbn [length]; lia).
  cbn [bind length]. rewrite skipn_skipn', app_assoc.
  rewrite copy_at.
  - rewrite skipn_skipn'. unfold henc, P. rewrite <- !app_assoc. cbn [app].
    replace (n + 3 + 1 + length (h_payload h))%nat with (h_mlen h) by lia. reflexivity.
  - rewrite !app_length, Hn, !be_length. cbn [length]. lia.
  - lia.
  - rewrite skipn_length. lia.
Qed.
Theorem h_marshal_ok h : h_marshal h = Ok (henc h).
Proof.
  unfold h_marshal. rewrite h_marshal_to_fits by (unfold make; rewrite repeat_length; lia).
  rewrite skipn_all2 by (unfold make; rewrite repeat_length; lia). now rewrite app_nil_r.
Qed.

Lemma put_short b n s : (length b < n + length s)%nat -> put b n s = Fault.
Proof. intros H. unfold put. destruct (Nat.leb_spec (n + length s) (length b)); [lia|reflexivity]. Qed.
Lemma put_length b n s b' : put b n s = Ok b' -> length b' = length b.
Proof.
  unfold put. destruct (Nat.leb_spec (n + length s) (length b)); [|discriminate]. intros [= <-].
  rewrite !app_length, firstn_length, skipn_length. lia.
Qed.
Lemma copy_range_length b n m s b' : copy_range b n m s = Ok b' -> length b' = length b.
Proof.
  unfold copy_range. destruct (Nat.leb_spec n m); [|discriminate]. destruct (Nat.leb_spec m (length b)); [|discriminate].
  intros [= <-]. rewrite !app_length, !firstn_length, skipn_length. lia.
Qed.
(** a short buffer always panics *)
Theorem h_marshal_to_short h b : (length b < h_mlen h)%nat -> h_marshal_to h b = Fault.
Proof.
  intros H. unfold h_marshal_to.
  assert (P : forall b n s, put b n s = Fault \/ exists b', put b n s = Ok b' /\ length b' = length b).
  { intros b0 n s. unfold put. destruct (Nat.leb_spec (n + length s) (length b0)); [right|now left].
    eexists; split; [reflexivity|]. rewrite !app_length, firstn_length, skipn_length. lia. }
  assert (C : forall b n m s, copy_range b n m s = Fault \/ exists b', copy_range b n m s = Ok b' /\ length b' = length b).
  { intros b0 n m s. destruct (copy_range b0 n m s) as [b'|e| |] eqn:E; eauto.
    - right. eexists; split; [reflexivity|]. eapply copy_range_length; eauto.
    - unfold copy_range in E. destruct (_ && _); discriminate.
    - unfold copy_range in E. destruct (_ && _); discriminate. }
  destruct (P b 0%nat [h_flags h]) as [->|(b1 & -> & L1)]; [reflexivity|]; cbn [bind].
  destruct (P b1 1%nat [h_type h]) as [->|(b2 & -> & L2)]; [reflexivity|]; cbn [bind].
  destruct (P b2 2%nat (be 2 (h_length h))) as [->|(b3 & -> & L3)]; [reflexivity|]; cbn [bind].
  assert (G : forall b4 n, length b4 = length b ->
     bind (copy_range b4 n (n + 3) (uint32To24 (h_seq h)))
       (fun b => bind (put b (n + 3) [h_prio h]) (fun b0 => copy_range b0 (n + 4) (h_mlen h) (h_payload h))) = Fault).
  { intros b4 n L4.
    destruct (C b4 n (n + 3)%nat (uint32To24 (h_seq h))) as [->|(b5 & -> & L5)]; [reflexivity|]; cbn [bind].
    destruct (P b5 (n + 3)%nat [h_prio h]) as [->|(b6 & -> & L6)]; [reflexivity|]; cbn [bind].
    unfold copy_range. destruct (Nat.leb_spec (h_mlen h) (length b6)); [lia|]. now rewrite andb_false_r. }
  destruct (has_seid h).
  - destruct (P b3 4%nat (be 8 (h_seid h))) as [->|(b4 & -> & L4)]; [reflexivity|]; cbn [bind].
    apply G. lia.
  - cbn [bind]. apply G. lia.
Qed.

(** ** decoding *)
Lemma parse_node fl tp a b c d e p body : has1 fl = false -> forall h0,
  h_unmarshal h0 (fl :: tp :: a :: b :: c :: d :: e :: p :: body) =
  Ok (mkH fl tp (unbe [a; b]) (h_seid h0) (uint24To32 [c; d; e]) p body).
Proof.
  intros Hs h0. unfold h_unmarshal.
  replace (getr 2 (fl :: tp :: a :: b :: c :: d :: e :: p :: body) 2 4) with (Ok (unbe [a; b])) by reflexivity.
  cbn -[has1 unbe uint24To32 Nat.add Nat.ltb Nat.eqb slice getr length]. rewrite Hs.
  cbn [bind]. rewrite !slice_ok by (cbn [length]; lia).
  cbn -[unbe uint24To32 Nat.ltb Nat.eqb slice length].
  set (n := N.to_nat (unbe [a; b])).
  destruct (negb _) eqn:E; [reflexivity|].
  apply negb_false_iff, Nat.eqb_eq in E. cbn [length] in *.
  destruct (Nat.ltb_spec (S (S (S (S (S (S (S (S (length body))))))))) (S (S (S (S (S (S (S (S n))))))))); [lia|].
  rewrite slice_ok by (cbn [length]; lia). cbn -[unbe uint24To32].
  rewrite firstn_all2 by lia. reflexivity.
Qed.
Lemma parse_session fl tp a b s1 s2 s3 s4 s5 s6 s7 s8 c d e p body : has1 fl = true -> forall h0,
  h_unmarshal h0 (fl :: tp :: a :: b :: s1 :: s2 :: s3 :: s4 :: s5 :: s6 :: s7 :: s8 :: c :: d :: e :: p :: body) =
  Ok (mkH fl tp (unbe [a; b]) (unbe [s1; s2; s3; s4; s5; s6; s7; s8]) (uint24To32 [c; d; e]) p body).
Proof.
  intros Hs h0. unfold h_unmarshal.
  set (L := fl :: tp :: a :: b :: s1 :: s2 :: s3 :: s4 :: s5 :: s6 :: s7 :: s8 :: c :: d :: e :: p :: body).
  replace (getr 2 L 2 4) with (Ok (unbe [a; b])) by reflexivity.
  replace (getr 8 L 4 (4 + 8)) with (Ok (unbe [s1; s2; s3; s4; s5; s6; s7; s8])) by reflexivity.
  unfold L.
  cbn -[has1 unbe uint24To32 Nat.add Nat.ltb Nat.eqb slice getr length]. rewrite Hs.
  cbn [bind length Nat.ltb Nat.leb Nat.add]. rewrite !slice_ok by (cbn [length]; lia).
  cbn -[unbe uint24To32 Nat.ltb Nat.eqb slice length].
  set (n := N.to_nat (unbe [a; b])).
  destruct (negb _) eqn:E; [reflexivity|].
  apply negb_false_iff, Nat.eqb_eq in E. cbn [length] in *.
  match goal with |- context [if ?x then _ else _] => destruct x eqn:E2 end; [apply Nat.ltb_lt in E2; lia|].
  rewrite slice_ok by (cbn [length]; lia). cbn -[unbe uint24To32].
  rewrite firstn_all2 by lia. reflexivity.
Qed.

Definition too_short (b : list N) : Prop :=
  (length b < 8)%nat \/ (length b < 16)%nat /\ exists fl r, b = fl :: r /\ N.odd fl = true.

Lemma h_unmarshal_short h0 b : too_short b -> h_unmarshal h0 b = Err EUnexpectedEOF.
Proof.
  intros [H|[H (fl & r & -> & Ho)]]; unfold h_unmarshal.
  - destruct (Nat.ltb_spec (length b) 8); [reflexivity|lia].
  - destruct (Nat.ltb_spec (length (fl :: r)) 8) as [L|L]; [reflexivity|].
    destruct r as [|tp [|a [|b r]]]; try (cbn [length] in L; lia).
    cbn -[has1 unbe uint24To32 Nat.add Nat.ltb Nat.eqb slice from length].
    unfold getr. rewrite !slice_ok by (cbn [length] in *; lia).
    cbn -[has1 unbe uint24To32 Nat.ltb Nat.eqb slice from length].
    rewrite has1_odd, Ho.
    destruct (Nat.ltb_spec (length (fl :: tp :: a :: b :: r)) 12) as [L2|L2]; [reflexivity|].
    rewrite !slice_ok by (cbn [length] in *; lia).
    cbn [bind]. cbn [Nat.sub skipn]. unfold getn.
    rewrite firstn_length. destruct (Nat.leb_spec 8 (Nat.min 8 (length r))) as [L3|L3]; [|cbn [length] in *; lia].
    cbn -[unbe Nat.ltb slice from length].
    destruct (Nat.ltb_spec (length (fl :: tp :: a :: b :: r)) 16) as [L4|L4]; [reflexivity|lia].
Qed.

Ltac inv_bytes := repeat match goal with H : bytes (_ :: _) |- _ => inversion H; clear H; subst
                                        | H : Forall octet (_ :: _) |- _ => inversion H; clear H; subst end.

Lemma h_unmarshal_long h0 b : bytes b -> ~ too_short b ->
  exists h, hwire h b /\ h_unmarshal h0 b =
    Ok (mkH (h_flags h) (h_type h) (h_length h) (if has_seid h then h_seid h else h_seid h0) (h_seq h) (h_prio h) (h_payload h)).
Proof.
  intros Hb Hl.
  destruct b as [|fl [|tp [|a [|b [|c [|d [|e [|p body]]]]]]]];
    try (exfalso; apply Hl; left; cbn [length]; lia).
  destruct (N.odd fl) eqn:Ho.
  - destruct body as [|s5 [|s6 [|s7 [|s8 [|c1 [|d1 [|e1 [|p1 body]]]]]]]];
      try (exfalso; apply Hl; right; split; [cbn [length]; lia|eauto]).
    inv_bytes.
    exists (mkH fl tp (unbe [a; b]) (unbe [c; d; e; p; s5; s6; s7; s8]) (unbe [c1; d1; e1]) p1 body).
    split.
    + replace (fl :: _) with ([fl; tp] ++ be 2 (unbe [a; b]) ++ be 8 (unbe [c; d; e; p; s5; s6; s7; s8]) ++
        be 3 (unbe [c1; d1; e1]) ++ [p1] ++ body).
      2:{ rewrite !be_unbe by (try reflexivity; repeat constructor; assumption). reflexivity. }
      constructor; auto.
      * apply (@unbe_bound [a; b]); repeat constructor; assumption.
      * apply (@unbe_bound [c; d; e; p; s5; s6; s7; s8]); repeat constructor; assumption.
      * apply (@unbe_bound [c1; d1; e1]); repeat constructor; assumption.
    + rewrite parse_session by now rewrite has1_odd. unfold has_seid. cbn [h_flags].
      rewrite has1_odd, Ho. rewrite uint24To32_unbe by assumption. reflexivity.
  - inv_bytes.
    exists (mkH fl tp (unbe [a; b]) 0 (unbe [c; d; e]) p body).
    split.
    + replace (fl :: _) with ([fl; tp] ++ be 2 (unbe [a; b]) ++ be 3 (unbe [c; d; e]) ++ [p] ++ body).
      2:{ rewrite !be_unbe by (try reflexivity; repeat constructor; assumption). reflexivity. }
      constructor; auto.
      * apply (@unbe_bound [a; b]); repeat constructor; assumption.
      * apply (@unbe_bound [c; d; e]); repeat constructor; assumption.
    + rewrite parse_node by now rewrite has1_odd. unfold has_seid. cbn [h_flags].
      rewrite has1_odd, Ho. rewrite uint24To32_unbe by assumption. reflexivity.
Qed.

Lemma too_short_dec b : too_short b \/ ~ too_short b.
Proof.
  unfold too_short. destruct (Nat.lt_ge_cases (length b) 8) as [L|L]; [auto|].
  destruct (Nat.lt_ge_cases (length b) 16) as [L2|L2].
  - destruct b as [|fl r]; [cbn in L; lia|]. destruct (N.odd fl) eqn:E.
    + left. right. eauto.
    + right. intros [?|[_ (f & r' & [= <- <-] & Hf)]]; [lia|congruence].
  - right. intros [?|[? _]]; lia.
Qed.

Lemma hwire_henc h b : hwire h b -> henc h = b.
Proof.
  intros H. inversion H; subst; unfold henc, has_seid; cbn [h_flags h_type h_length h_seid h_seq h_prio h_payload];
    rewrite has1_odd; rewrite H1; reflexivity.
Qed.
Lemma hwire_bytes h b : hwire h b -> bytes b.
Proof.
  intros H. inversion H; subst; repeat (apply bytes_app; split); auto using be_bytes; repeat constructor; assumption.
Qed.
Lemma hwire_long h b : hwire h b -> ~ too_short b.
Proof.
  intros H. unfold too_short. inversion H; subst; rewrite !app_length, !be_length; cbn [length].
  - intros [?|[? _]]; lia.
  - intros [?|[_ (f & r & [= <- _] & Hf)]]; [lia|congruence].
Qed.
Lemma hwire_seid h b : hwire h b -> has_seid h = false -> h_seid h = 0.
Proof.
  intros H. inversion H; subst; unfold has_seid; cbn [h_flags h_seid]; rewrite has1_odd; congruence.
Qed.

Lemma app_inj_len {A} (a b c d : list A) : length a = length b -> a ++ c = b ++ d -> a = b /\ c = d.
Proof.
  revert b. induction a as [|x a IH]; intros [|y b]; cbn [length app]; try discriminate; auto.
  intros [= L] [= -> E]. destruct (IH b L E) as [-> ->]. auto.
Qed.
Lemma be_inj n v w : v < 256 ^ N.of_nat n -> w < 256 ^ N.of_nat n -> be n v = be n w -> v = w.
Proof. intros Hv Hw E. rewrite <- (unbe_be_small n Hv), <- (unbe_be_small n Hw). now rewrite E. Qed.

Lemma hwire_inj' h k b c : hwire h b -> hwire k c -> b = c -> h = k.
Proof.
  intros Hh Hk. destruct Hh; destruct Hk; intros E;
  (apply app_inj_len in E; [destruct E as [E0 E]; injection E0 as <- <-|reflexivity]);
  try congruence;
  repeat match goal with
  | E : be _ _ ++ _ = be _ _ ++ _ |- _ =>
      apply app_inj_len in E; [destruct E as [? E]|now rewrite !be_length]
  | E : be ?n ?v = be ?n ?w |- _ => apply be_inj in E; [subst|assumption|assumption]
  | E : [_] ++ _ = [_] ++ _ |- _ => injection E as <- <-
  end; reflexivity.
Qed.
Lemma hwire_inj h k b : hwire h b -> hwire k b -> h = k.
Proof. eauto using hwire_inj'. Qed.

Theorem parse_header_iff b h : bytes b -> (parse_header b = Ok h <-> hwire h b).
Proof.
  intros Hb. unfold parse_header. destruct (too_short_dec b) as [S|S].
  - rewrite h_unmarshal_short by exact S. split; [discriminate|]. intros W. now apply hwire_long in W.
  - destruct (h_unmarshal_long zero_header Hb S) as (k & Wk & E). rewrite E.
    assert (K : mkH (h_flags k) (h_type k) (h_length k) (if has_seid k then h_seid k else h_seid zero_header)
                  (h_seq k) (h_prio k) (h_payload k) = k).
    { destruct (has_seid k) eqn:Hs; [now destruct k|]. pose proof (hwire_seid Wk Hs) as Z.
      destruct k; cbn in *. now rewrite Z. }
    rewrite K. split.
    + intros [= <-]. exact Wk.
    + intros W. now rewrite (hwire_inj Wk W).
Qed.
Theorem parse_header_total b : bytes b ->
  (exists h, parse_header b = Ok h /\ hwire h b) \/ (parse_header b = Err EUnexpectedEOF /\ too_short b).
Proof.
  intros Hb. destruct (too_short_dec b) as [S|S].
  - right. split; [now apply h_unmarshal_short|exact S].
  - left. destruct (h_unmarshal_long zero_header Hb S) as (k & Wk & E). exists k. split; [|exact Wk].
    now apply parse_header_iff.
Qed.

(** ** exact round trip for every header value *)
Definition hnorm (h : header) : header :=
  mkH (h_flags h) (h_type h) (u16 (h_length h)) (if N.odd (h_flags h) then u64 (h_seid h) else 0)
      (h_seq h mod 2 ^ 24) (h_prio h) (h_payload h).
Lemma hnorm_wire h : h_flags h < 256 -> h_type h < 256 -> h_prio h < 256 -> bytes (h_payload h) ->
  hwire (hnorm h) (henc h).
Proof.
  intros Hf Ht Hp Hb. unfold hnorm, henc, has_seid. rewrite has1_odd.
  pose proof (u16_lt (h_length h)). pose proof (u64_lt (h_seid h)).
  assert (h_seq h mod 2 ^ 24 < 2 ^ 24) by now apply N.mod_lt.
  rewrite <- (u16_be (h_length h)), <- (@be_cast 3 (2 ^ 24) (h_seq h)) by reflexivity.
  rewrite <- (@be_cast 8 _ (h_seid h) eq_refl). fold (u64 (h_seid h)).
  destruct (N.odd (h_flags h)) eqn:E; constructor; auto.
Qed.
Theorem header_roundtrip h : h_flags h < 256 -> h_type h < 256 -> h_prio h < 256 -> bytes (h_payload h) ->
  exists b, h_marshal h = Ok b /\ parse_header b = Ok (hnorm h).
Proof.
  intros Hf Ht Hp Hb. exists (henc h). split; [apply h_marshal_ok|].
  pose proof (hnorm_wire h Hf Ht Hp Hb) as W. apply parse_header_iff; [|exact W]. eapply hwire_bytes; eauto.
Qed.
Theorem header_decode_encode b h : bytes b -> parse_header b = Ok h -> h_marshal h = Ok b.
Proof. intros Hb E. apply parse_header_iff in E; [|exact Hb]. rewrite h_marshal_ok. f_equal. now apply hwire_henc. Qed.

(** ** NewHeader *)
Definition flag (b : bool) : N := if b then 1 else 0.
Lemma new_header_flags ver fo mp s : ver < 256 ->
  let f := N.lor (N.lor (N.lor (u8 (N.shiftl (N.land ver 0x7) 5)) (u8 (N.shiftl (flag fo) 2))) (u8 (N.shiftl (flag mp) 1))) (flag s) in
  f < 256 /\ N.odd f = s /\ has2 f = mp /\ has3 f = fo /\ f / 32 = ver mod 8.
Proof.
  intros Hv. change 0x7 with (N.ones 3). rewrite N.land_ones. change (2 ^ 3) with 8.
  assert (Hm : ver mod 8 < 8) by now apply N.mod_lt.
  set (v := ver mod 8) in *. clearbody v.
  assert (C : forallb (fun v => 
    let f := N.lor (N.lor (N.lor (u8 (N.shiftl v 5)) (u8 (N.shiftl (flag fo) 2))) (u8 (N.shiftl (flag mp) 1))) (flag s) in
    (f <? 256) && eqb (N.odd f) s && eqb (has2 f) mp && eqb (has3 f) fo && (f / 32 =? v)) (map N.of_nat (seq 0 8)) = true)
   by (destruct fo, mp, s; vm_compute; reflexivity).
  rewrite forallb_forall in C. specialize (C v). cbv zeta in *.
  rewrite !andb_true_iff, !eqb_true_iff, N.ltb_lt, N.eqb_eq in C.
  destruct C as [[[[? ?] ?] ?] ?]; [|auto].
  apply in_map_iff. exists (N.to_nat v). split; [lia|]. apply in_seq. lia.
Qed.

Theorem new_header_roundtrip ver fo mp s mtype seid seq pri p :
  ver < 256 -> mtype < 256 -> seid < 2 ^ 64 -> seq < 2 ^ 24 -> pri < 256 -> bytes p ->
  let h := new_header ver (flag fo) (flag mp) (flag s) mtype (if s then seid else 0) seq pri p in
  exists b, h_marshal h = Ok b /\ parse_header b = Ok h.
Proof.
  intros Hv Ht Hs Hq Hp Hb h.
  destruct (new_header_flags fo mp s Hv) as (F1 & F2 & F3 & F4 & _).
  destruct (@header_roundtrip h) as (b & E1 & E2); auto.
  exists b. split; [exact E1|]. rewrite E2. f_equal. unfold hnorm.
  unfold h at 2 in |- *. unfold h, new_header, h_set_length, has_seid. cbn [h_flags h_type h_length h_seid h_seq h_prio h_payload].
  rewrite has1_odd, F2. f_equal.
  - apply u16_id. destruct s; apply u16_lt.
  - destruct s; [now apply u64_id|reflexivity].
  - now apply N.mod_small.
Qed.
Theorem new_header_length ver fo mp s mtype seid seq pri p : ver < 256 ->
  let h := new_header ver (flag fo) (flag mp) (flag s) mtype seid seq pri p in
  h_length h = (N.of_nat (h_mlen h) - 4) mod 65536.
Proof.
  intros Hv h. destruct (new_header_flags fo mp s Hv) as (F1 & F2 & F3 & F4 & _).
  unfold h, new_header, h_set_length, h_mlen, has_seid. cbn [h_flags h_type h_length h_seid h_seq h_prio h_payload].
  rewrite has1_odd, F2. unfold u16, lenN. destruct s.
  - rewrite N.add_mod_idemp_l by discriminate. f_equal. lia.
  - f_equal. lia.
Qed.
Theorem new_header_getters ver fo mp s mtype seid seq pri p : ver < 256 ->
  let h := new_header ver (flag fo) (flag mp) (flag s) mtype seid seq pri p in
  has_fo h = fo /\ has_mp h = mp /\ has_seid h = s /\ h_flags h / 32 = ver mod 8 /\
  h_message_type h = mtype /\ h_sequence h = seq /\ h_get_seid h = (if s then seid else 0) /\
  h_payload h = p.
Proof.
  intros Hv h. destruct (new_header_flags fo mp s Hv) as (F1 & F2 & F3 & F4 & F5).
  unfold h, new_header, h_set_length, has_fo, has_mp, h_get_seid, has_seid, h_message_type, h_sequence.
  cbn [h_flags h_type h_length h_seid h_seq h_prio h_payload]. rewrite !has1_odd, F2, F3, F4, F5. auto 10.
Qed.

(** ** Length field *)
Theorem header_length_ignored b h : bytes b -> parse_header b = Ok h ->
  h_payload h = skipn (hsize (h_flags h)) b.
Proof.
  intros Hb E. apply parse_header_iff in E; [|exact Hb]. destruct E; unfold hsize; cbn [h_payload h_flags]; rewrite H0; reflexivity.
Qed.

(** ** setters *)
Lemma lor_bits f k m : N.testbit (N.lor f (2 ^ k)) m = (N.testbit f m || (k =? m)).
Proof. now rewrite N.lor_spec, N.pow2_bits_eqb. Qed.
Theorem set_mp_exact h p : p < 256 ->
  has_mp (h_set_mp h p) = has_mp h /\ has_fo (h_set_mp h p) = true /\ has_seid (h_set_mp h p) = has_seid h /\
  h_mp (h_set_mp h p) = p mod 16.
Proof.
  intros Hp. unfold has_mp, has_fo, has_seid, h_set_mp, h_mp. cbn [h_flags h_prio].
  rewrite !has2_testbit, has3_testbit, !has1_testbit. change (N.shiftl 1 2) with (2 ^ 2).
  rewrite !lor_bits, !orb_true_r. change (2 =? 1) with false. change (2 =? 0) with false. rewrite !orb_false_r.
  repeat split. revert p Hp. 
  assert (C : forallb (fun p => N.shiftr (N.land (N.land (u8 (N.shiftl p 4)) 240) 240) 4 =? p mod 16) octets = true)
    by (vm_compute; reflexivity).
  intros p Hp. apply N.eqb_eq. exact (octets_all _ C Hp).
Qed.
Theorem new_header_mp ver fo mp s mtype seid seq pri p : pri < 256 ->
  h_mp (new_header ver fo mp s mtype seid seq pri p) = pri / 16.
Proof.
  intros Hp. unfold h_mp, new_header, h_set_length. cbn [h_prio].
  assert (C : forallb (fun p => N.shiftr (N.land p 240) 4 =? p / 16) octets = true) by (vm_compute; reflexivity).
  apply N.eqb_eq. exact (octets_all _ C Hp).
Qed.
Theorem set_seid_exact h x : h_flags h < 256 -> h_type h < 256 -> h_prio h < 256 -> bytes (h_payload h) -> x < 2 ^ 64 ->
  h_get_seid (h_set_seid h x) = x /\
  has_mp (h_set_seid h x) = has_mp h /\ has_fo (h_set_seid h x) = has_fo h /\
  exists b h', h_marshal (h_set_seid h x) = Ok b /\ parse_header b = Ok h' /\ h_get_seid h' = x /\
     h_sequence h' = h_sequence h mod 2 ^ 24 /\ h_payload h' = h_payload h.
Proof.
  intros Hf Ht Hp Hb Hx.
  assert (F : N.odd (N.lor (h_flags h) 1) = true).
  { rewrite <- N.bit0_odd, N.lor_spec. apply orb_true_r. }
  split; [|split; [|split]].
  - unfold h_get_seid, has_seid, h_set_seid. cbn [h_flags h_seid]. now rewrite has1_odd, F.
  - unfold has_mp, h_set_seid. cbn [h_flags]. rewrite !has2_testbit. change 1 with (2 ^ 0) at 1.
    rewrite lor_bits. change (0 =? 1) with false. apply orb_false_r.
  - unfold has_fo, h_set_seid. cbn [h_flags]. rewrite !has3_testbit. change 1 with (2 ^ 0) at 1.
    rewrite lor_bits. change (0 =? 2) with false. apply orb_false_r.
  - assert (Hf' : h_flags (h_set_seid h x) < 256).
    { cbn [h_set_seid h_flags]. change 256 with (2 ^ 8). apply lor_bound; [exact Hf|reflexivity]. }
    destruct (@header_roundtrip (h_set_seid h x)) as (b & E1 & E2); auto.
    exists b, (hnorm (h_set_seid h x)). repeat split; auto.
    unfold h_get_seid, has_seid, hnorm. cbn [h_set_seid h_flags h_seid]. rewrite has1_odd, F.
    now apply u64_id.
Qed.
Theorem seid_clear h : N.odd (h_flags h) = false -> h_get_seid h = 0.
Proof. intros E. unfold h_get_seid, has_seid. now rewrite has1_odd, E. Qed.
Theorem sequence_wire h : h_flags h < 256 -> h_type h < 256 -> h_prio h < 256 -> bytes (h_payload h) ->
  exists b h', h_marshal h = Ok b /\ parse_header b = Ok h' /\ h_sequence h' = h_sequence h mod 2 ^ 24.
Proof.
  intros Hf Ht Hp Hb. destruct (@header_roundtrip h) as (b & E1 & E2); auto.
  exists b, (hnorm h). auto.
Qed.

(** ** witnesses *)
Theorem payload_overruns : exists b h, bytes b /\ parse_header b = Ok h /\
  N.of_nat (length (h_payload h)) > h_length h.
Proof.
  exists [32; 1; 0; 4; 0; 0; 1; 0; 9; 9; 9; 9; 9], (mkH 32 1 4 0 1 0 [9; 9; 9; 9; 9]).
  split; [repeat constructor|]. split; vm_compute; reflexivity.
Qed.
Theorem payload_underruns : exists b h, bytes b /\ parse_header b = Ok h /\
  lenN b < h_length h.
Proof.
  exists [32; 1; 4; 0; 0; 0; 1; 0; 9], (mkH 32 1 1024 0 1 0 [9]).
  split; [repeat constructor|]. split; vm_compute; reflexivity.
Qed.
Theorem set_mp_sets_fo : exists h p, p < 16 /\ has_mp (h_set_mp h p) = false /\ has_fo h = false /\ has_fo (h_set_mp h p) = true.
Proof. exists (new_header 1 0 0 1 50 7 1 0 []), 5. repeat split; vm_compute; reflexivity. Qed.
Theorem new_header_loses_mp : exists pri, pri < 16 /\ h_mp (new_header 1 0 1 1 50 7 1 pri []) <> pri.
Proof. exists 12. split; [reflexivity|]. vm_compute. discriminate. Qed.

Theorem h_marshal_to_marshal h b : (h_mlen h <= length b)%nat ->
  exists s, h_marshal h = Ok s /\ length s = h_mlen h /\ h_marshal_to h b = Ok (s ++ skipn (h_mlen h) b).
Proof. intros L. exists (henc h). split; [apply h_marshal_ok|]. split; [apply henc_length|now apply h_marshal_to_fits]. Qed.
