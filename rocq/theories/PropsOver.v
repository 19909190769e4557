(** C102: MarshalTo of IEs, headers and messages into a slice with spare capacity, and the memory after an error or a panic.
    M is the memory from the first octet of the slice to the end of its capacity, L the length of the slice. *)
From Coq Require Import String.
From Verif Require Import Base Bits IETypes IE Spec IEProofs IEProofs2 ShortProofs Header HeaderSpec HeaderProofs Message MsgSpec MsgProofs MsgProofs2 MsgTables Over OverProofs OverProofs2.
Local Open Scope list_scope.

(** without spare capacity this is what the other models say *)
Theorem C102_same : forall g M,
  (forall i, settled (w_ie g i (length M) M) = marshal_to g i M) /\
  (forall h, settled (w_header h (length M) M) = h_marshal_to h M) /\
  (forall k m, settled (w_msg g k m (length M) M) = bind (msg_marshal_to g k m M) (fun p => Ok (fst p))).
Proof. intros g M. split; [|split]; intros; [apply w_erase|apply w_header_erase|apply w_msg_erase]. Qed.
Print Assumptions C102_same.

(** a slice that is long enough: the encoding, and nothing else in memory changes *)
Theorem C102_fits : forall g i L M, mlen g i <= L -> L <= length M -> w_ie g i L M = (enc g i ++ skipn (mlen g i) M, Ok tt).
Proof. exact w_fits. Qed.
Print Assumptions C102_fits.

(** in every case no octet behind the MarshalLen octets changes, whatever the outcome *)
Theorem C102_confined : forall g i L M, L <= length M ->
  length (fst (w_ie g i L M)) = length M /\ forall j, mlen g i <= j -> nth_error (fst (w_ie g i L M)) j = nth_error M j.
Proof.
  intros g i L M H. destruct (@w_within g i L M H) as (p & P1 & P2 & ->). rewrite app_length, skipn_length. split; [lia|].
  intros j J. rewrite nth_error_app2 by lia. rewrite <- (firstn_skipn (length p) M) at 2. rewrite nth_error_app2 by (rewrite firstn_length; lia).
  f_equal. rewrite firstn_length. lia.
Qed.
Print Assumptions C102_confined.

(** ** A slice that is too short.  It ends in the own octets of one element x, s octets after the start (C08_place). *)
Lemma own_le g x : own g x <= mlen g x.
Proof. unfold own. destruct (g (ty x)); [apply mlen_ge|lia]. Qed.
Lemma own_ge g x : hdr (ty x) <= own g x.
Proof. unfold own. destruct (g (ty x)); [lia|apply mlen_ge]. Qed.
(** in its first four octets: the error, and everything before x is in place and nothing else *)
Theorem C102_error : forall g i s x L M, found g i s x -> s <= L < s + 4 -> L <= length M ->
  w_ie g i L M = (firstn s (enc g i) ++ skipn s M, Err EInvalidLength).
Proof.
  intros g i s x L M F B H. pose proof (found_inside _ _ _ _ F). pose proof (mlen_ge4 g x). pose proof (own_ge g x). pose proof (hdr_pos (ty x)).
  rewrite (w_cut F) by lia. cbv zeta. unfold wcut. destruct (Nat.ltb_spec (L - s) 4); [|lia]. reflexivity.
Qed.
Print Assumptions C102_error.
(** behind the header of an element that is not grouped: if the capacity allows it is written past the end of the slice.  That is a
    success if nothing follows and a panic otherwise. *)
Theorem C102_past : forall g i s x L M, found g i s x -> g (ty x) = false -> s + hdr (ty x) <= L < s + mlen g x -> s + mlen g x <= length M ->
  w_ie g i L M = (firstn (s + mlen g x) (enc g i) ++ skipn (s + mlen g x) M, if s + mlen g x =? mlen g i then Ok tt else Fault).
Proof.
  intros g i s x L M F G B H. pose proof (found_inside _ _ _ _ F) as In. rewrite (w_cut F) by (unfold own; rewrite ?G; lia). cbv zeta. pose proof (hdr_pos (ty x)).
  unfold wcut. destruct (Nat.ltb_spec (L - s) 4); [lia|]. rewrite G. destruct (Nat.ltb_spec (L - s) (hdr (ty x))); [lia|].
  destruct (Nat.leb_spec (mlen g x) (length (skipn s M))) as [K|K]; [|rewrite skipn_length in K; lia]. cbn [fst snd after]. f_equal.
  rewrite skipn_skipn', app_assoc. f_equal. destruct (found_octets F) as (r & E). pose proof (enc_length g i) as Le. pose proof (enc_length g x) as Lx.
  rewrite E at 2. rewrite firstn_app, firstn_firstn, firstn_length, Le. replace (Nat.min (s + mlen g x) s) with s by lia. f_equal.
  replace (s + mlen g x - Nat.min s (mlen g i)) with (mlen g x) by lia. rewrite firstn_app, Lx, Nat.sub_diag, firstn_O, app_nil_r. now rewrite firstn_all2 by lia.
Qed.
Print Assumptions C102_past.
(** if the capacity does not allow it: a panic, with the header of x in place *)
Theorem C102_panic : forall g i s x L M, found g i s x -> g (ty x) = false -> s + hdr (ty x) <= L -> L <= length M < s + mlen g x ->
  w_ie g i L M = (firstn (s + hdr (ty x)) (enc g i) ++ skipn (s + hdr (ty x)) M, Fault).
Proof.
  intros g i s x L M F G B H. pose proof (found_inside _ _ _ _ F) as In. rewrite (w_cut F) by (unfold own; rewrite ?G; lia). cbv zeta. pose proof (hdr_pos (ty x)).
  unfold wcut. destruct (Nat.ltb_spec (L - s) 4); [lia|]. rewrite G. destruct (Nat.ltb_spec (L - s) (hdr (ty x))); [lia|].
  destruct (Nat.leb_spec (mlen g x) (length (skipn s M))) as [K|K]; [rewrite skipn_length in K; lia|]. cbn [fst snd after]. f_equal.
  rewrite skipn_skipn', app_assoc. f_equal. destruct (found_octets F) as (r & E). pose proof (enc_length g i) as Le.
  rewrite E at 2. rewrite firstn_app, firstn_firstn, firstn_length, Le. replace (Nat.min (s + hdr (ty x)) s) with s by lia. f_equal.
  replace (s + hdr (ty x) - Nat.min s (mlen g i)) with (hdr (ty x)) by lia. rewrite (enc_eq g x), <- app_assoc.
  now rewrite firstn_app_exact by (symmetry; apply hdr_octets_length).
Qed.
Print Assumptions C102_panic.
(** in the enterprise ID of a vendor-specific element that is not grouped, with the capacity for it: the payload is written two octets
    early, where the enterprise ID should be, and the call succeeds if nothing follows *)
Theorem C102_enterprise : forall g i s x L M, found g i s x -> g (ty x) = false -> vendor (ty x) = true -> s + 4 <= L < s + 6 -> L <= length M ->
  w_ie g i L M =
  if s + mlen g x <=? length M
  then (firstn s (enc g i) ++ be 2 (ty x) ++ be 2 (len x) ++ payload x ++ skipn (s + 4 + length (payload x)) M, if s + mlen g x =? mlen g i then Ok tt else Fault)
  else (firstn s (enc g i) ++ be 2 (ty x) ++ be 2 (len x) ++ skipn (s + 4) M, Fault).
Proof.
  intros g i s x L M F G V B H. pose proof (found_inside _ _ _ _ F) as In. pose proof (own_ge g x) as Ow. pose proof (own_le g x).
  assert (H6 : hdr (ty x) = 6) by (unfold hdr; now rewrite V). rewrite (w_cut F) by lia. cbv zeta. unfold wcut.
  destruct (Nat.ltb_spec (L - s) 4); [lia|]. rewrite G, H6. destruct (Nat.ltb_spec (L - s) 6); [|lia]. rewrite skipn_length.
  destruct (Nat.leb_spec (mlen g x) (length M - s)), (Nat.leb_spec (s + mlen g x) (length M)); try lia; cbn [fst snd after]; rewrite skipn_skipn', <- !app_assoc; [|reflexivity].
  now rewrite Nat.add_assoc.
Qed.
Print Assumptions C102_enterprise.
(** the same of a grouped one: type and length only, success if it is empty and comes last *)
Theorem C102_enterprise_grouped : forall g i s x L M, found g i s x -> g (ty x) = true -> vendor (ty x) = true -> s + 4 <= L < s + 6 -> L <= length M ->
  w_ie g i L M = (firstn s (enc g i) ++ be 2 (ty x) ++ be 2 (len x) ++ skipn (s + 4) M,
    match children x with [] => if s + 6 =? mlen g i then Ok tt else Fault | _ :: _ => Err EInvalidLength end).
Proof.
  intros g i s x L M F G V B H. pose proof (found_inside _ _ _ _ F) as In. pose proof (own_ge g x) as Ow. pose proof (own_le g x).
  assert (H6 : hdr (ty x) = 6) by (unfold hdr; now rewrite V). rewrite (w_cut F) by lia. cbv zeta. unfold wcut.
  destruct (Nat.ltb_spec (L - s) 4); [lia|]. rewrite G. cbn [fst snd]. rewrite skipn_skipn', <- !app_assoc. f_equal.
  assert (E : mlen g x = hdr (ty x) + list_sum (map (mlen g) (children x))) by now rewrite mlen_eq, G.
  destruct (children x); [|reflexivity]. cbn [map list_sum fold_right] in E. cbn [after]. now replace (mlen g x) with 6 by lia.
Qed.
Print Assumptions C102_enterprise_grouped.
(** Hence, with the built-in grouped types, MarshalTo into a slice that is too short succeeds exactly if the slice ends behind the four
    octets of the header of the last element, that element is not grouped, and the capacity is enough for everything. *)
Theorem C102_success : forall g i L M, (forall t, g t = true -> vendor t = false) -> L < mlen g i -> L <= length M ->
  (snd (w_ie g i L M) = Ok tt <->
   exists s x, found g i s x /\ g (ty x) = false /\ s + 4 <= L < s + mlen g x /\ s + mlen g x = mlen g i /\ mlen g i <= length M).
Proof.
  intros g i L M Hg Sh H. split.
  - intros E. destruct (found_exists g i L Sh) as (s & x & F & B). pose proof (own_le g x). exists s, x. rewrite (w_cut F) in E by assumption. cbv zeta in E. cbn [snd] in E.
    unfold wcut in E. destruct (Nat.ltb_spec (L - s) 4); [discriminate|]. destruct (g (ty x)) eqn:G.
    { unfold own, hdr in B. rewrite G, (Hg _ G) in B. lia. }
    split; [exact F|]. split; [reflexivity|]. split; [lia|]. rewrite skipn_length in E.
    destruct (L - s <? hdr (ty x)), (Nat.leb_spec (mlen g x) (length M - s)); cbn [snd after] in E; try discriminate;
      destruct (Nat.eqb_spec (s + mlen g x) (mlen g i)) in E; try discriminate; lia.
  - intros (s & x & F & G & B & La & Ca). rewrite (w_cut F) by (unfold own; rewrite ?G; lia). cbv zeta. cbn [snd]. unfold wcut. destruct (Nat.ltb_spec (L - s) 4); [lia|]. rewrite G, skipn_length.
    destruct (Nat.leb_spec (mlen g x) (length M - s)); [|lia]. destruct (Nat.eqb_spec (s + mlen g x) (mlen g i)); [|lia]. destruct (L - s <? hdr (ty x)); reflexivity.
Qed.
Print Assumptions C102_success.
(** "MarshalTo stays within its argument" is false: a Cause into a slice of four octets of a memory of six *)
Theorem C102_within_refuted : ~ (forall i L M, L <= length M -> snd (w_ie default_grouped i L M) = Ok tt -> skipn L (fst (w_ie default_grouped i L M)) = skipn L M).
Proof.
  intros C. specialize (C (mkIE 19 1 0 [1%N] []) 4 [9;9;9;9;9;9]%N). cbn [length] in C.
  assert (E : w_ie default_grouped (mkIE 19 1 0 [1%N] []) 4 [9;9;9;9;9;9]%N = ([0;19;0;1;1;9]%N, Ok tt)) by reflexivity.
  rewrite E in C. cbn [fst snd] in C. specialize (C ltac:(lia) eq_refl). discriminate.
Qed.
Print Assumptions C102_within_refuted.

(** ** Headers and messages *)
(** the eight octets of the header (sixteen with a SEID) have to be within the slice, the payload only within the capacity *)
Theorem C102_header : forall h L M, L <= length M -> (hbase h <= L -> h_mlen h <= length M -> w_header h L M = (henc h ++ skipn (h_mlen h) M, Ok tt)) /\
  (L < hbase h \/ length M < h_mlen h -> exists n, n < h_mlen h /\ n <= length M /\ w_header h L M = (firstn n (henc h) ++ skipn n M, Fault)).
Proof.
  intros h L M H. rewrite w_header_exact by exact H. pose proof (h_mlen_base h) as Hb. assert (8 <= hbase h) by (unfold hbase; destruct (N.odd (h_flags h)); lia). split.
  - intros H1 H2. destruct (Nat.leb_spec (hbase h) L); [|lia]. destruct (Nat.leb_spec (h_mlen h) (length M)); [|lia]. cbn [andb]. unfold reached.
    repeat match goal with |- context [?a <? ?b] => destruct (Nat.ltb_spec a b); [lia|] end. unfold upto. now rewrite firstn_all2 by now rewrite henc_length.
  - intros [C|C].
    + destruct (Nat.leb_spec (hbase h) L); [lia|]. cbn [andb]. eexists. split; [|split; [|reflexivity]]; unfold reached;
        repeat match goal with |- context [?a <? ?b] => destruct (Nat.ltb_spec a b) end; lia.
    + destruct (Nat.leb_spec (h_mlen h) (length M)); [lia|]. rewrite andb_false_r. eexists. split; [|split; [|reflexivity]]; unfold reached;
        repeat match goal with |- context [?a <? ?b] => destruct (Nat.ltb_spec a b) end; try lia.
Qed.
Print Assumptions C102_header.
(** how far it got, exactly *)
Theorem C102_reached : forall h L M, L <= length M -> L < hbase h \/ length M < h_mlen h ->
  w_header h L M = let n := reached h L (length M) in (firstn n (henc h) ++ skipn n M, Fault).
Proof.
  intros h L M H C. rewrite w_header_exact by exact H. cbv zeta. f_equal.
  destruct (Nat.leb_spec (hbase h) L), (Nat.leb_spec (h_mlen h) (length M)); cbn [andb]; try reflexivity. lia.
Qed.
Print Assumptions C102_reached.
(** MarshalTo of a message: all its octets are written if the slice holds the header and the capacity the rest *)
Theorem C102_message : forall g k m L M, consistent k = true -> shaped k m -> Forall no_nil (m_f m) ->
  hbase (m_h m) <= L -> L <= length M -> h_mlen (final_header g m) <= length M ->
  w_msg g k m L M = (henc (final_header g m) ++ skipn (h_mlen (final_header g m)) M, Ok tt).
Proof.
  intros g k m L M C S N H1 H2 H3. rewrite w_msg_exact by assumption. apply C102_header; trivial.
Qed.
Print Assumptions C102_message.
Theorem C102_message_panic : forall g k m L M, consistent k = true -> shaped k m -> Forall no_nil (m_f m) -> L <= length M ->
  L < hbase (m_h m) \/ length M < h_mlen (final_header g m) ->
  exists n, n < h_mlen (final_header g m) /\ n <= length M /\ w_msg g k m L M = (firstn n (henc (final_header g m)) ++ skipn n M, Fault).
Proof.
  intros g k m L M C S N H1 H2. rewrite w_msg_exact by assumption. apply C102_header; trivial.
Qed.
Print Assumptions C102_message_panic.
(** a message whose own IEs cannot be written (a nil inside a list) panics and leaves the buffer alone *)
Theorem C102_message_nil : forall g k m L M, (forall b, msg_marshal_to g k m b = Fault) -> w_msg g k m L M = (M, Fault).
Proof.
  intros g k m L M H. unfold w_msg. unfold msg_marshal_to in H. set (m0 := with_h m (with_payload (m_h m) [])) in *.
  destruct (msg_len g k m0) as [l|e| |]; try (specialize (H []); discriminate); [|reflexivity]. cbn [bind] in *.
  destruct (write_fields g (make (l - h_mlen (m_h m0)), 0) (m_f m0) (k_write k)) as [st|e| |]; try (specialize (H []); discriminate); [|reflexivity]. cbn [bind] in *.
  destruct (write_nil g st (m_ies m0)) as [[p o]|e| |]; try (specialize (H []); discriminate); [|reflexivity]. cbn [bind] in *.
  set (h := h_set_length (with_payload (m_h m0) p)) in *. specialize (H (make (h_mlen h))).
  rewrite h_marshal_to_fits in H by (unfold make; now rewrite repeat_length). discriminate.
Qed.
Print Assumptions C102_message_nil.
(** "MarshalTo of a message into a slice shorter than MarshalLen does not return nil" is false for every message with IEs *)
Theorem C102_message_refuted : forall g k m r, consistent k = true -> shaped k m -> Forall no_nil (m_f m) -> 0 < lens g (body_ies m) ->
  let n := hbase (m_h m) + lens g (body_ies m) in
  forall M, length M = n + r -> hbase (m_h m) < n /\ w_msg g k m (hbase (m_h m)) M = (henc (final_header g m) ++ skipn n M, Ok tt).
Proof.
  intros g k m r C S N P n M E. split; [unfold n; lia|]. unfold n. rewrite <- (final_header_mlen g m). apply C102_message; trivial; rewrite ?final_header_mlen; fold n; unfold n in *; lia.
Qed.
Print Assumptions C102_message_refuted.

(** ** Cases *)
(** Create PDR holding PDR ID and Precedence, into slices of every length of a memory of twenty octets *)
Definition create_pdr : ie := mkIE 1 14 0 [] [mkIE 56 2 0 [0;1]%N []; mkIE 29 4 0 [0;0;0;9]%N []].
Example C102_ex : map (fun L => w_ie default_grouped create_pdr L (repeat 7%N 20)) [3; 6; 8; 12; 14; 18] =
  [(repeat 7 20, Err EInvalidLength);
   ([0;1;0;14] ++ repeat 7 16, Err EInvalidLength);
   ([0;1;0;14;0;56;0;2;0;1] ++ repeat 7 10, Fault);
   ([0;1;0;14;0;56;0;2;0;1] ++ repeat 7 10, Err EInvalidLength);
   ([0;1;0;14;0;56;0;2;0;1;0;29;0;4;0;0;0;9;7;7], Ok tt);
   ([0;1;0;14;0;56;0;2;0;1;0;29;0;4;0;0;0;9;7;7], Ok tt)]%N.
Proof. reflexivity. Qed.
(** without the capacity *)
Example C102_ex_tight : w_ie default_grouped create_pdr 14 (repeat 7%N 16) = ([0;1;0;14;0;56;0;2;0;1;0;29;0;4;7;7]%N, Fault).
Proof. reflexivity. Qed.
(** the payload of a vendor-specific IE in place of its enterprise ID *)
Definition vnd : ie := mkIE 32769 5 10415 [1;2;3]%N [].
Example C102_ex_enterprise : w_ie default_grouped vnd 5 (repeat 7%N 9) = ([128;1;0;5;1;2;3;7;7]%N, Ok tt).
Proof. reflexivity. Qed.
Example C102_ex_enterprise_enc : enc default_grouped vnd = [128;1;0;5;40;175;1;2;3]%N.
Proof. reflexivity. Qed.
(** a Heartbeat Request into a slice of eight octets of a larger array *)
Definition hb : msg := mkM (mkH 32 1 0 0 5 0 []) [FOne (Some (mkIE 96 4 0 [1;2;3;4]%N [])); FOne None] [].
Example C102_ex_message : w_msg default_grouped K_HeartbeatRequest hb 8 (repeat 7%N 18) = ([32;1;0;12;0;0;5;0;0;96;0;4;1;2;3;4;7;7]%N, Ok tt) /\
  w_msg default_grouped K_HeartbeatRequest hb 7 (repeat 7%N 18) = ([32;1;0;12;0;0;5] ++ repeat 7 11, Fault)%N /\
  consistent K_HeartbeatRequest = true /\ shaped K_HeartbeatRequest hb.
Proof. repeat split; reflexivity. Qed.
