(** Over.v against IE.v, Header.v and Message.v (a slice without spare capacity), and Header.MarshalTo and MarshalTo of
    messages into slices with spare capacity, exactly. *)
From Verif Require Import Base Bits IETypes IE Spec IEProofs IEProofs2 ShortProofs Header HeaderSpec HeaderProofs Message MsgSpec MsgProofs MsgProofs2 Over OverProofs.
Set Implicit Arguments.

Lemma found_octets g i s x : found g i s x -> exists r, enc g i = firstn s (enc g i) ++ enc g x ++ r.
Proof.
  intros F. pose proof F as F0. induction F as [i|i l c r s x G C F IH]. { exists []. now rewrite app_nil_r. }
  destruct (IH F) as (r0 & E). pose proof (found_inside _ _ _ _ F) as In. set (q := hdr (ty i) + list_sum (map (mlen g) l)) in *.
  set (d := hdr_octets i ++ concat (map (enc g) l)).
  assert (Ld : length d = q).
  { unfold d. rewrite app_length, hdr_octets_length, length_concat_enc; [reflexivity|]. apply Forall_forall. intros; apply enc_length. }
  assert (D : enc g i = d ++ enc g c ++ concat (map (enc g) r)).
  { rewrite (enc_eq g i), G, C, map_app, concat_app. cbn [map concat]. unfold d. now rewrite <- !app_assoc. }
  exists (r0 ++ concat (map (enc g) r)). rewrite D. rewrite firstn_app, Ld. rewrite (firstn_all2 d) by lia. replace (q + s - q) with s by lia.
  rewrite firstn_app, enc_length. replace (s - mlen g c) with 0 by lia. rewrite firstn_O, app_nil_r, <- app_assoc. f_equal.
  rewrite E at 1. now rewrite <- !app_assoc.
Qed.
Theorem w_erase g i M : settled (w_ie g i (length M) M) = marshal_to g i M.
Proof.
  destruct (Nat.le_gt_cases (mlen g i) (length M)) as [Fi|Sh].
  - rewrite w_fits, marshal_to_fits by lia. reflexivity.
  - destruct (found_exists g i (length M) Sh) as (s & x & F & B). rewrite (w_cut F) by lia. rewrite (marshal_to_cut g i s x F M) by assumption.
    pose proof (found_inside _ _ _ _ F) as In. cbv zeta. unfold wcut, shape_of, cut. cbv zeta. destruct (Nat.ltb_spec (length M - s) 4); [reflexivity|].
    unfold own in B. destruct (g (ty x)) eqn:G.
    + unfold hdr in B. destruct (vendor (ty x)) eqn:V; [|lia]. destruct (children x) as [|c cs] eqn:C; [|reflexivity].
      unfold settled. cbn [fst snd]. destruct (Nat.eqb_spec (s + mlen g x) (mlen g i)) as [La|La]; cbn [after]; [|reflexivity].
      f_equal. rewrite skipn_skipn', app_assoc. f_equal. destruct (found_octets F) as (r & E). pose proof (enc_length g i) as Le.
      rewrite E at 2. rewrite firstn_app. rewrite firstn_firstn, firstn_length, Le. replace (Nat.min (s + 4) s) with s by lia.
      f_equal. replace (s + 4 - Nat.min s (mlen g i)) with 4 by lia. rewrite (enc_eq g x). unfold hdr_octets. now rewrite <- !app_assoc.
    + assert (K : mlen g x <=? length (skipn s M) = false) by (apply Nat.leb_gt; rewrite skipn_length; lia). rewrite K.
      destruct (length M - s <? hdr (ty x)); reflexivity.
Qed.

(** ** the header *)
(** H is being written from the front: c octets so far, the next n now *)
Definition upto (H M : list N) (c : nat) : list N := firstn c H ++ skipn c M.
Lemma upto_length H M c : c <= length H -> c <= length M -> length (upto H M c) = length M.
Proof. intros. unfold upto. rewrite app_length, firstn_length, skipn_length. lia. Qed.
Lemma write_next H M c n s : c + n <= length H -> c + n <= length M -> s = firstn n (skipn c H) -> write (upto H M c) c s = upto H M (c + n).
Proof.
  intros LH LM E. assert (Ln : length s = n) by (rewrite E, firstn_length, skipn_length; lia). unfold upto.
  assert (Lc : length (firstn c H) = c) by (rewrite firstn_length; lia). replace (write (firstn c H ++ skipn c M) c s) with (write (firstn c H ++ skipn c M) (length (firstn c H)) s) by now rewrite Lc. rewrite write_mid by (rewrite skipn_length; lia).
  rewrite Ln, skipn_skipn', app_assoc. f_equal. rewrite E.
  rewrite <- (firstn_skipn c (firstn (c + n) H)). rewrite firstn_firstn, skipn_firstn_comm. replace (Nat.min c (c + n)) with c by lia. replace (c + n - c) with n by lia.
  reflexivity.
Qed.
Lemma put_next H M c n s : c + n <= length H -> c <= length M -> s = firstn n (skipn c H) ->
  wput (upto H M c) c s = if c + n <=? length M then (upto H M (c + n), Ok tt) else (upto H M c, Fault).
Proof.
  intros LH LM E. assert (Ln : length s = n) by (rewrite E, firstn_length, skipn_length; lia). unfold wput. rewrite upto_length, Ln by lia.
  destruct (Nat.leb_spec (c + n) (length M)); [|reflexivity]. now rewrite (@write_next H M c n s) by assumption.
Qed.
Lemma set_next H M L c x : c < length H -> L <= length M -> [x] = firstn 1 (skipn c H) ->
  wset L (upto H M c) c x = if c <? L then (upto H M (c + 1), Ok tt) else (upto H M c, Fault).
Proof. intros LH LM E. unfold wset. destruct (Nat.ltb_spec c L); [|reflexivity]. now rewrite (@write_next H M c 1 [x]) by (trivial; lia). Qed.
Lemma copy_next H M c n s : c + n <= length H -> c <= length M -> s = firstn n (skipn c H) ->
  wcopy (upto H M c) c (c + n) s = if c + n <=? length M then (upto H M (c + n), Ok tt) else (upto H M c, Fault).
Proof.
  intros LH LM E. assert (Ln : length s = n) by (rewrite E, firstn_length, skipn_length; lia). unfold wcopy. rewrite upto_length by lia.
  destruct (Nat.leb_spec c (c + n)); [|lia]. cbn [andb]. destruct (Nat.leb_spec (c + n) (length M)); [|reflexivity].
  replace (c + n - c) with n by lia. rewrite firstn_all2 by lia. now rewrite (@write_next H M c n s) by assumption.
Qed.
(** how many octets are in place when Header.MarshalTo ends, in a slice of L octets with room up to m *)
Definition reached (h : header) (L m : nat) : nat :=
  let o := hbase h in
  if L <? 2 then L else if m <? 4 then 2 else if m <? o - 4 then 4 else if m <? o - 1 then o - 4 else if L <? o then o - 1 else if m <? h_mlen h then o else h_mlen h.
Theorem w_header_exact h L M : L <= length M ->
  w_header h L M = (upto (henc h) M (reached h L (length M)), if (hbase h <=? L) && (h_mlen h <=? length M) then Ok tt else Fault).
Proof.
  intros HL. pose proof (henc_length h) as Lh. rewrite h_mlen_base in Lh. set (H := henc h) in *.
  change (w_header h L M) with (w_header h L (upto H M 0)). unfold w_header, reached. rewrite h_mlen_base. remember (hbase h + length (h_payload h)) as w eqn:Ew.
  assert (h8 : 8 <= hbase h) by (unfold hbase; destruct (N.odd (h_flags h)); lia).
  rewrite set_next by (trivial; lia). destruct (Nat.ltb_spec 0 L) as [A|A].
  2:{ destruct (Nat.ltb_spec L 2); [|lia]. destruct (Nat.leb_spec (hbase h) L); [lia|]. cbn. now replace L with 0 by lia. }
  unfold wthen at 1. cbn [fst snd Nat.add]. rewrite set_next by (trivial; lia). destruct (Nat.ltb_spec 1 L) as [A1|A1].
  2:{ destruct (Nat.ltb_spec L 2); [|lia]. destruct (Nat.leb_spec (hbase h) L); [lia|]. cbn. now replace L with 1 by lia. }
  destruct (Nat.ltb_spec L 2); [lia|].
  unfold wthen at 1. cbn [fst snd Nat.add]. rewrite (@put_next H M 2 2) by (trivial; lia). destruct (Nat.leb_spec (2 + 2) (length M)) as [A2|A2].
  2:{ destruct (Nat.ltb_spec (length M) 4); [|lia]. destruct (Nat.leb_spec (hbase h) L); [lia|]. reflexivity. }
  destruct (Nat.ltb_spec (length M) 4); [lia|].
  unfold wthen at 1. cbn [fst snd Nat.add]. unfold hbase in *. unfold has_seid in *. rewrite has1_odd in *. unfold H in Lh. 
  destruct (N.odd (h_flags h)) eqn:O.
  - rewrite (@put_next H M 4 8) by (trivial; try (unfold H; lia); unfold H, henc, has_seid; rewrite has1_odd, O; reflexivity).
    destruct (Nat.leb_spec (4 + 8) (length M)) as [A3|A3].
    2:{ destruct (Nat.ltb_spec (length M) (16 - 4)); [|lia]. destruct (Nat.leb_spec 16 L); [lia|]. reflexivity. }
    destruct (Nat.ltb_spec (length M) (16 - 4)); [lia|].
    unfold wthen at 1. cbn [fst snd Nat.add]. rewrite uint32To24_be. rewrite (@copy_next H M 12 3) by (trivial; try (unfold H; lia); unfold H, henc, has_seid; rewrite has1_odd, O; reflexivity).
    destruct (Nat.leb_spec (12 + 3) (length M)) as [A4|A4].
    2:{ destruct (Nat.ltb_spec (length M) (16 - 1)); [|lia]. destruct (Nat.leb_spec 16 L); [lia|]. reflexivity. }
    destruct (Nat.ltb_spec (length M) (16 - 1)); [lia|].
    unfold wthen at 1. cbn [fst snd Nat.add]. rewrite set_next by (trivial; try (unfold H; lia); unfold H, henc, has_seid; rewrite has1_odd, O; reflexivity).
    destruct (Nat.ltb_spec 15 L) as [A5|A5].
    2:{ destruct (Nat.ltb_spec L 16); [|lia]. destruct (Nat.leb_spec 16 L); [lia|]. reflexivity. }
    destruct (Nat.ltb_spec L 16); [lia|]. destruct (Nat.leb_spec 16 L); [|lia]. 
    unfold wthen at 1. cbn [fst snd andb]. change (15 + 1) with 16. change (12 + 4) with 16. subst w.
    rewrite (@copy_next H M 16 (length (h_payload h))) by (try (unfold H; lia); unfold H, henc, has_seid; rewrite has1_odd, O; cbn; now rewrite firstn_all).
    destruct (Nat.leb_spec (16 + length (h_payload h)) (length M)), (Nat.ltb_spec (length M) (16 + length (h_payload h))); try lia; reflexivity.
  - cbn [fst snd Nat.add Nat.sub]. unfold wthen at 1. cbn [fst snd]. rewrite uint32To24_be. rewrite (@copy_next H M 4 3) by (trivial; try (unfold H; lia); unfold H, henc, has_seid; rewrite has1_odd, O; reflexivity).
    destruct (Nat.ltb_spec (length M) 4); [lia|].
    destruct (Nat.leb_spec (4 + 3) (length M)) as [A4|A4].
    2:{ destruct (Nat.ltb_spec (length M) 7); [|lia]. destruct (Nat.leb_spec 8 L); [lia|]. reflexivity. }
    destruct (Nat.ltb_spec (length M) 7); [lia|].
    unfold wthen at 1. cbn [fst snd Nat.add]. rewrite set_next by (trivial; try (unfold H; lia); unfold H, henc, has_seid; rewrite has1_odd, O; reflexivity).
    destruct (Nat.ltb_spec 7 L) as [A5|A5].
    2:{ destruct (Nat.ltb_spec L 8); [|lia]. destruct (Nat.leb_spec 8 L); [lia|]. reflexivity. }
    destruct (Nat.ltb_spec L 8); [lia|]. destruct (Nat.leb_spec 8 L); [|lia]. 
    unfold wthen at 1. cbn [fst snd andb]. change (7 + 1) with 8. change (4 + 4) with 8. subst w.
    rewrite (@copy_next H M 8 (length (h_payload h))) by (try (unfold H; lia); unfold H, henc, has_seid; rewrite has1_odd, O; cbn; now rewrite firstn_all).
    destruct (Nat.leb_spec (8 + length (h_payload h)) (length M)), (Nat.ltb_spec (length M) (8 + length (h_payload h))); try lia; reflexivity.
Qed.
Theorem w_header_erase h M : settled (w_header h (length M) M) = h_marshal_to h M.
Proof.
  rewrite w_header_exact by trivial. unfold settled, reached. cbn [snd fst]. destruct (Nat.leb_spec (h_mlen h) (length M)) as [F|F].
  - rewrite h_marshal_to_fits by assumption. pose proof (h_mlen_base h). destruct (Nat.leb_spec (hbase h) (length M)); [|lia]. cbn [andb].
    assert (8 <= hbase h) by (unfold hbase; destruct (N.odd (h_flags h)); lia).
    repeat match goal with |- context [?a <? ?b] => destruct (Nat.ltb_spec a b); [lia|] end. unfold upto. rewrite firstn_all2 by now rewrite henc_length. reflexivity.
  - rewrite h_marshal_to_short by assumption. now rewrite andb_false_r.
Qed.

(** ** messages *)
Theorem w_msg_erase g k m M : settled (w_msg g k m (length M) M) = bind (msg_marshal_to g k m M) (fun p => Ok (fst p)).
Proof.
  unfold w_msg, msg_marshal_to. set (m0 := with_h m (with_payload (m_h m) [])). destruct (msg_len g k m0) as [l|e| |]; try reflexivity. cbn [bind].
  destruct (write_fields g (make (l - h_mlen (m_h m0)), 0) (m_f m0) (k_write k)) as [st|e| |]; try reflexivity. cbn [bind].
  destruct (write_nil g st (m_ies m0)) as [[p o]|e| |]; try reflexivity. cbn [bind]. rewrite w_header_erase.
  destruct (h_marshal_to (h_set_length (with_payload (m_h m0) p)) M); reflexivity.
Qed.
Theorem w_msg_exact g k m L M : consistent k = true -> shaped k m -> Forall no_nil (m_f m) -> w_msg g k m L M = w_header (final_header g m) L M.
Proof.
  intros C Sh Nn. unfold w_msg.
  set (m0 := with_h m (with_payload (m_h m) [])).
  rewrite (@msg_len_ok g k C m0) by assumption. cbn [bind].
  assert (B : body_ies m0 = body_ies m) by reflexivity.
  assert (HM : h_mlen (m_h m0) = hbase (m_h m0)) by (rewrite h_mlen_base; cbn; lia).
  rewrite HM, B. replace (hbase (m_h m0) + lens g (body_ies m) - hbase (m_h m0)) with (lens g (body_ies m)) by lia.
  set (n := lens g (body_ies m)).
  assert (EL : n = lens g (concat (map field_ies (m_f m))) + lens g (present (m_ies m))).
  { unfold n, body_ies. now rewrite lens_app. }
  rewrite (c_write k C), <- (shaped_length Sh).
  change (m_f m0) with (m_f m). change (m_ies m0) with (m_ies m).
  pose proof (@write_fields_ok g (m_f m) Nn [] (make n)) as W.
  cbn [app length] in W. unfold make in *. rewrite repeat_length in W. rewrite W by lia. cbn [bind].
  rewrite write_nil_ok by (rewrite skipn_length, repeat_length; lia).
  cbn [bind]. rewrite skipn_skipn', <- EL, skipn_all2 by (rewrite repeat_length; lia).
  rewrite app_nil_r, <- encs_app. reflexivity.
Qed.
