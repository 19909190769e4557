(** Proofs about what a failed UnmarshalBinary leaves behind. *)
From Coq Require Import String.
From Verif Require Import Codec.
From Verif Require Import Base Bits IETypes IE Spec IEProofs IEProofs2 Header HeaderSpec HeaderProofs Message MsgTables MsgSpec MsgProofs MsgProofs2 MsgProps MsgProps2 Failed.
Set Implicit Arguments.
Local Open Scope list_scope.

Definition settle {A} (r : out A) : res A := x <- r ;; match x with (None, a) => Ok a | (Some e, _) => Err e end.

Section G.
Variable g : N -> bool.

Lemma slice_inv b lo hi p : slice b lo hi = Ok p -> lo <= hi <= length b /\ p = firstn (hi - lo) (skipn lo b).
Proof. unfold slice. destruct ((lo <=? hi) && (hi <=? length b)) eqn:E; [|discriminate]. apply andb_prop in E as [E1 E2]. apply Nat.leb_le in E1, E2. intros [= <-]. auto. Qed.
Lemma slice_bytes b lo hi p : bytes b -> slice b lo hi = Ok p -> bytes p /\ length p + lo <= length b.
Proof.
  intros Hb E. apply slice_inv in E as [L ->]. split.
  - apply Forall_forall. intros x I. apply (proj1 (Forall_forall _ _) Hb). rewrite <- (firstn_skipn lo b). apply in_app_iff. right.
    rewrite <- (firstn_skipn (hi - lo) (skipn lo b)). apply in_app_iff. now left.
  - rewrite firstn_length, skipn_length. lia.
Qed.
Theorem ie_agrees i0 b : bytes b -> settle (ie_unmarshal g i0 b) = unmarshalBinary g i0 b.
Proof.
  intros Hb. unfold settle, ie_unmarshal, unmarshalBinary. rewrite unmarshal_S. cbv zeta.
  destruct (length b <? 4); [reflexivity|].
  destruct (getr 2 b 0 2) as [t| | |]; try reflexivity. cbn [bind].
  destruct (getr 2 b 2 4) as [ln| | |]; try reflexivity. cbn [bind].
  assert (B : forall e offset fin, 4 <= offset ->
    (x <- (if length b <=? offset then Ok (None, mkIE t ln e (payload i0) (children i0)) else
       if length b <? offset + fin then Ok (Some EUnexpectedEOF, mkIE t ln e (payload i0) (children i0)) else
       p <- slice b offset (offset + fin) ;;
       if g t then match parseMultiIEs g p with Ok cs => Ok (None, mkIE t ln e p cs) | Err e0 => Ok (Some e0, mkIE t ln e p []) | Fault => Fault | Fuel => Fuel end
       else Ok (None, mkIE t ln e p (children i0))) ;; match x with (None, a) => Ok a | (Some e, _) => Err e end) =
    (if length b <=? offset then Ok (mkIE t ln e (payload i0) (children i0)) else
     if length b <? offset + fin then Err EUnexpectedEOF else
     p <- slice b offset (offset + fin) ;;
     if g t then cs <- parse_multi g (S (length b)) p ;; Ok (mkIE t ln e p cs) else Ok (mkIE t ln e p (children i0)))).
  { intros e offset fin O. destruct (length b <=? offset); [reflexivity|]. destruct (length b <? offset + fin); [reflexivity|].
    destruct (slice b offset (offset + fin)) as [p| | |] eqn:Sl; try reflexivity. cbn [bind]. destruct (g t); [|reflexivity].
    destruct (slice_bytes _ _ Hb Sl) as [Hp Lp]. unfold parseMultiIEs. rewrite (@parse_multi_fuel g p (S (length b)) (S (S (length p)))) by (trivial; lia).
    destruct (parse_multi g (S (S (length p))) p); reflexivity. }
  destruct (vendor t); [|now apply B].
  destruct (length b <? 6); [reflexivity|]. destruct (N.to_nat ln <? 2); [reflexivity|].
  destruct (getr 2 b 4 6) as [e| | |]; try reflexivity. cbn [bind ty len eid]. apply (B e 6 (N.to_nat ln - 2)). lia.
Qed.

(** what is left after an error, in terms of the octets *)
Inductive left_ie (i0 : ie) (b : list N) : err -> ie -> Prop :=
| li_short : length b < 4 -> left_ie i0 b EUnexpectedEOF i0
| li_vendor_short t l r : b = be 2 t ++ be 2 l ++ r -> (0x8000 <= t < 65536)%N -> (l < 65536)%N -> length r < 2 ->
    left_ie i0 b EUnexpectedEOF (mkIE t l (eid i0) (payload i0) (children i0))
| li_vendor_length t l r : b = be 2 t ++ be 2 l ++ r -> (0x8000 <= t < 65536)%N -> (l < 2)%N -> 2 <= length r ->
    left_ie i0 b EInvalidLength (mkIE t l (eid i0) (payload i0) (children i0))
| li_value t l e h r : b = h ++ r -> wire_header t l e h -> 0 < length r < announced t l ->
    left_ie i0 b EUnexpectedEOF (mkIE t l (if (0x8000 <=? t)%N then e else eid i0) (payload i0) (children i0))
| li_children t l e h body r er : b = h ++ body ++ r -> wire_header t l e h -> length body = announced t l -> body ++ r <> [] -> g t = true -> parseMultiIEs g body = Err er ->
    left_ie i0 b er (mkIE t l (if (0x8000 <=? t)%N then e else eid i0) body []).

Lemma ie_header i0 t l e h r : wire_header t l e h ->
  ie_unmarshal g i0 (h ++ r) =
  let e' := if (0x8000 <=? t)%N then e else eid i0 in
  if length r =? 0 then Ok (None, mkIE t l e' (payload i0) (children i0))
  else if length r <? announced t l then Ok (Some EUnexpectedEOF, mkIE t l e' (payload i0) (children i0))
  else let p := firstn (announced t l) r in
       if g t then match parseMultiIEs g p with Ok cs => Ok (None, mkIE t l e' p cs) | Err x => Ok (Some x, mkIE t l e' p []) | Fault => Fault | Fuel => Fuel end
       else Ok (None, mkIE t l e' p (children i0)).
Proof.
  intros H. unfold ie_unmarshal. cbv zeta. pose proof (wire_header_length H) as HL.
  rewrite app_length, HL. pose proof (hdr_pos t) as H4.
  destruct (Nat.ltb_spec (hdr t + length r) 4); [lia|].
  destruct H as [H1 H2 ->|H1 H2 H3].
  - rewrite <- app_assoc.
    rewrite (@getr_be2_0 g t (be 2 l ++ r)) by lia. cbn [bind].
    rewrite (@getr_be2 g (be 2 t) l r 2 4) by (rewrite ?be_length; reflexivity || lia). cbn [bind ty len eid payload children].
    unfold announced, hdr. rewrite (vendor_false H1). cbn [bind].
    destruct (N.ltb_spec t 0x8000); [|lia]. destruct (N.leb_spec 0x8000 t); [lia|].
    destruct (Nat.leb_spec (4 + length r) 4) as [L|L];
      destruct (Nat.eqb_spec (length r) 0) as [Z|Z]; try lia; [reflexivity|].
    destruct (Nat.ltb_spec (4 + length r) (4 + N.to_nat l)) as [M|M];
      destruct (Nat.ltb_spec (length r) (N.to_nat l)) as [Q|Q]; try lia; [reflexivity|].
    rewrite app_assoc. rewrite slice_ok by (rewrite ?app_length, ?be_length; lia). cbn [bind].
    replace (4 + N.to_nat l - 4) with (N.to_nat l) by lia.
    rewrite skipn_app_exact by (rewrite app_length, !be_length; reflexivity). reflexivity.
  - rewrite <- !app_assoc.
    rewrite (@getr_be2_0 g t (be 2 l ++ be 2 e ++ r)) by lia. cbn [bind].
    rewrite (@getr_be2 g (be 2 t) l (be 2 e ++ r) 2 4) by (rewrite ?be_length; reflexivity || lia). cbn [bind ty len eid payload children].
    unfold announced, hdr. rewrite (vendor_true H1).
    destruct (Nat.ltb_spec (6 + length r) 6); [lia|].
    destruct (Nat.ltb_spec (N.to_nat l) 2); [lia|].
    replace (be 2 t ++ be 2 l ++ be 2 e ++ r) with ((be 2 t ++ be 2 l) ++ be 2 e ++ r)
      by (rewrite <- !app_assoc; reflexivity).
    rewrite (@getr_be2 g (be 2 t ++ be 2 l) e r 4 6) by (rewrite ?app_length, ?be_length; reflexivity || lia).
    cbn [bind]. destruct (N.ltb_spec t 0x8000); [lia|]. destruct (N.leb_spec 0x8000 t); [|lia].
    replace (N.to_nat (l - 2)) with (N.to_nat l - 2) by lia.
    destruct (Nat.leb_spec (6 + length r) 6) as [L|L];
      destruct (Nat.eqb_spec (length r) 0) as [Z|Z]; try lia; [reflexivity|].
    destruct (Nat.ltb_spec (6 + length r) (6 + (N.to_nat l - 2))) as [M|M];
      destruct (Nat.ltb_spec (length r) (N.to_nat l - 2)) as [Q|Q]; try lia; [reflexivity|].
    rewrite app_assoc. rewrite slice_ok by (rewrite ?app_length, ?be_length; lia). cbn [bind].
    replace (6 + (N.to_nat l - 2) - 6) with (N.to_nat l - 2) by lia.
    rewrite skipn_app_exact by (rewrite !app_length, !be_length; reflexivity). reflexivity.
Qed.
Lemma ie_bad_vendor i0 t l r : (0x8000 <= t < 65536)%N -> (l < 65536)%N ->
  (length r < 2 -> ie_unmarshal g i0 (be 2 t ++ be 2 l ++ r) = Ok (Some EUnexpectedEOF, mkIE t l (eid i0) (payload i0) (children i0))) /\
  (2 <= length r -> (l < 2)%N -> ie_unmarshal g i0 (be 2 t ++ be 2 l ++ r) = Ok (Some EInvalidLength, mkIE t l (eid i0) (payload i0) (children i0))).
Proof.
  intros H1 H2. unfold ie_unmarshal. cbv zeta. rewrite !app_length, !be_length.
  destruct (Nat.ltb_spec (2 + (2 + length r)) 4); [lia|].
  rewrite (@getr_be2_0 g t (be 2 l ++ r)) by lia. cbn [bind].
  rewrite (@getr_be2 g (be 2 t) l r 2 4) by (rewrite ?be_length; reflexivity || lia). cbn [bind].
  rewrite (vendor_true H1). split; intros H3.
  - destruct (Nat.ltb_spec (2 + (2 + length r)) 6); [reflexivity|lia].
  - intros H4. destruct (Nat.ltb_spec (2 + (2 + length r)) 6); [lia|].
    destruct (Nat.ltb_spec (N.to_nat l) 2); [reflexivity|lia].
Qed.
Theorem ie_left_iff i0 b er i : bytes b -> (ie_unmarshal g i0 b = Ok (Some er, i) <-> left_ie i0 b er i).
Proof.
  intros Hb. split.
  - intros E. destruct (header_cases g Hb) as [S|[(t & l & r & -> & H1 & H2 & H3)|(t & l & e & h & r & H & ->)]].
    + unfold ie_unmarshal in E. cbv zeta in E. destruct (Nat.ltb_spec (length b) 4); [|lia]. assert (er = EUnexpectedEOF /\ i = i0) as [-> ->] by (split; congruence). now constructor.
    + destruct (ie_bad_vendor i0 r H1 H2) as [E1 E2]. destruct H3 as [H3|[H3 H4]].
      * rewrite E1 in E by exact H3. injection E as <- <-. now apply (@li_vendor_short _ _ t l r).
      * rewrite E2 in E by assumption. injection E as <- <-. now apply (@li_vendor_length _ _ t l r).
    + rewrite (ie_header i0 r H) in E. cbv zeta in E. destruct (Nat.eqb_spec (length r) 0) as [Z|Z]; [discriminate|].
      destruct (Nat.ltb_spec (length r) (announced t l)) as [M|M].
      * injection E as <- <-. apply (@li_value _ _ t l e h r); trivial. lia.
      * destruct (g t) eqn:G; [|discriminate]. destruct (parseMultiIEs g (firstn (announced t l) r)) as [cs|x| |] eqn:P; try discriminate.
        injection E as <- <-. apply (@li_children _ _ t l e h (firstn (announced t l) r) (skipn (announced t l) r)); trivial.
        -- now rewrite firstn_skipn.
        -- rewrite firstn_length. lia.
        -- rewrite firstn_skipn. intros ->. now elim Z.
  - intros L. destruct L as [S|t l r -> H1 H2 H3|t l r -> H1 H2 H3|t l e h r -> H L|t l e h body r er -> H L N G P].
    + unfold ie_unmarshal. cbv zeta. destruct (Nat.ltb_spec (length b) 4); [reflexivity|lia].
    + now apply ie_bad_vendor.
    + apply ie_bad_vendor; trivial. lia.
    + rewrite (ie_header i0 r H). cbv zeta. destruct (Nat.eqb_spec (length r) 0); [lia|]. destruct (Nat.ltb_spec (length r) (announced t l)); [reflexivity|lia].
    + rewrite (ie_header i0 _ H). cbv zeta. destruct (Nat.eqb_spec (length (body ++ r)) 0) as [Z|Z].
      { apply length_zero_iff_nil in Z. contradiction. }
      destruct (Nat.ltb_spec (length (body ++ r)) (announced t l)) as [M|M]; [rewrite app_length in M; lia|].
      rewrite firstn_app_exact by (symmetry; exact L). now rewrite G, P.
Qed.
Theorem ie_returns i0 b : bytes b -> exists o i, ie_unmarshal g i0 b = Ok (o, i).
Proof.
  intros Hb. destruct (header_cases g Hb) as [S|[(t & l & r & -> & H1 & H2 & H3)|(t & l & e & h & r & H & ->)]].
  - unfold ie_unmarshal. cbv zeta. destruct (Nat.ltb_spec (length b) 4); [eauto|lia].
  - destruct (ie_bad_vendor i0 r H1 H2) as [E1 E2]. destruct H3 as [H3|[H3 H4]]; [rewrite E1 by exact H3|rewrite E2 by assumption]; eauto.
  - rewrite (ie_header i0 r H). cbv zeta. destruct (length r =? 0); [eauto|]. destruct (length r <? announced t l); [eauto|]. destruct (g t); [|eauto].
    apply bytes_app in Hb as [_ Hr]. assert (F : bytes (firstn (announced t l) r)) by (rewrite <- (firstn_skipn (announced t l) r) in Hr; now apply bytes_app in Hr).
    destruct (parseMulti_returns g F) as [[cs ->]|[e' ->]]; eauto.
Qed.
Lemma ie_bytes i0 b o i : bytes b -> bytes (payload i0) -> ie_unmarshal g i0 b = Ok (o, i) -> bytes (payload i).
Proof.
  intros Hb Hp E. destruct o as [e|].
  - apply ie_left_iff in E; [|exact Hb]. destruct E as [| | | |t l e h body r er -> H L N G P]; trivial. apply bytes_app in Hb as [_ Hb]. now apply bytes_app in Hb as [Hb _].
  - destruct (header_cases g Hb) as [S|[(t & l & r & -> & H1 & H2 & H3)|(t & l & e & h & r & H & ->)]].
    + unfold ie_unmarshal in E. cbv zeta in E. destruct (Nat.ltb_spec (length b) 4); [discriminate|lia].
    + destruct (ie_bad_vendor i0 r H1 H2) as [E1 E2]. destruct H3 as [H3|[H3 H4]]; [rewrite E1 in E by exact H3|rewrite E2 in E by assumption]; discriminate.
    + rewrite (ie_header i0 r H) in E. cbv zeta in E. apply bytes_app in Hb as [_ Hr].
      destruct (length r =? 0); [injection E as <-; exact Hp|]. destruct (length r <? announced t l); [discriminate|].
      assert (F : bytes (firstn (announced t l) r)) by (rewrite <- (firstn_skipn (announced t l) r) in Hr; now apply bytes_app in Hr).
      destruct (g t); [destruct (parseMultiIEs g (firstn (announced t l) r)); try discriminate|]; injection E as <-; exact F.
Qed.
Theorem ie_feed_ok ds : forall i0, Forall bytes ds -> bytes (payload i0) -> exists i, ie_feed g i0 ds = Ok i /\ bytes (payload i).
Proof.
  induction ds as [|d ds IH]; intros i0 F B; [now exists i0|]. inversion F; subst. cbn [ie_feed].
  destruct (@ie_returns i0 d) as (o & i & E); trivial. rewrite E. cbn [bind]. apply IH; trivial. now apply ie_bytes in E.
Qed.

(** * headers *)
Theorem header_agrees h0 b : settle (header_unmarshal h0 b) = h_unmarshal h0 b.
Proof.
  unfold settle, header_unmarshal, h_unmarshal. cbv zeta. destruct (length b <? 8); [reflexivity|].
  destruct (index b 0) as [fl| | |]; try reflexivity. cbn [bind]. destruct (index b 1) as [tp| | |]; try reflexivity. cbn [bind].
  destruct (getr 2 b 2 4) as [ln| | |]; try reflexivity. cbn [bind]. unfold has_seid. cbn [h_flags h_seid h_seq h_prio h_payload].
  assert (R : forall sd offset,
    (x <- (if length b <? offset + 4 then Ok (Some EUnexpectedEOF, mkH fl tp ln sd (h_seq h0) (h_prio h0) (h_payload h0)) else
       sq <- slice b offset (offset + 3) ;; pr <- index b (offset + 3) ;;
       if negb (N.to_nat ln + (offset + 4) =? length b) then p <- from b (offset + 4) ;; Ok (None, mkH fl tp ln sd (uint24To32 sq) pr p)
       else if length b <? offset + 4 + N.to_nat ln then Ok (Some EUnexpectedEOF, mkH fl tp ln sd (uint24To32 sq) pr (h_payload h0))
       else p <- slice b (offset + 4) (offset + 4 + N.to_nat ln) ;; Ok (None, mkH fl tp ln sd (uint24To32 sq) pr p)) ;; match x with (None, a) => Ok a | (Some e, _) => Err e end) =
    (if length b <? offset + 4 then Err EUnexpectedEOF else
       sq <- slice b offset (offset + 3) ;; pr <- index b (offset + 3) ;;
       if negb (N.to_nat ln + (offset + 4) =? length b) then p <- from b (offset + 4) ;; Ok (mkH fl tp ln sd (uint24To32 sq) pr p)
       else if length b <? offset + 4 + N.to_nat ln then Err EUnexpectedEOF
       else p <- slice b (offset + 4) (offset + 4 + N.to_nat ln) ;; Ok (mkH fl tp ln sd (uint24To32 sq) pr p))).
  { intros sd offset. destruct (length b <? offset + 4); [reflexivity|]. destruct (slice b offset (offset + 3)); try reflexivity. cbn [bind].
    destruct (index b (offset + 3)); try reflexivity. cbn [bind]. destruct (negb _); [destruct (from b (offset + 4)); reflexivity|].
    destruct (length b <? _); [reflexivity|]. destruct (slice b (offset + 4) _); reflexivity. }
  destruct (has1 fl).
  - destruct (length b <? 4 + 8); [reflexivity|]. destruct (getr 8 b 4 (4 + 8)) as [sd| | |]; try reflexivity. cbn [bind]. apply (R sd (4 + 8)).
  - cbn [bind]. apply (R (h_seid h0) 4).
Qed.
(** what is left of a header after an error *)
Inductive left_header (h0 : header) (b : list N) : header -> Prop :=
| lh_short : length b < 8 -> left_header h0 b h0
| lh_seid fl tp ln r : b = [fl; tp] ++ be 2 ln ++ r -> N.odd fl = true -> (ln < 65536)%N -> 4 <= length r < 8 ->
    left_header h0 b (mkH fl tp ln (h_seid h0) (h_seq h0) (h_prio h0) (h_payload h0))
| lh_seq fl tp ln sd r : b = [fl; tp] ++ be 2 ln ++ be 8 sd ++ r -> N.odd fl = true -> (ln < 65536)%N -> (sd < 2 ^ 64)%N -> length r < 4 ->
    left_header h0 b (mkH fl tp ln sd (h_seq h0) (h_prio h0) (h_payload h0)).
Lemma header_seid h0 fl tp ln r : N.odd fl = true -> (ln < 65536)%N -> 4 <= length r < 8 ->
  header_unmarshal h0 ([fl; tp] ++ be 2 ln ++ r) = Ok (Some EUnexpectedEOF, mkH fl tp ln (h_seid h0) (h_seq h0) (h_prio h0) (h_payload h0)).
Proof.
  intros O L R. unfold header_unmarshal. cbv zeta. rewrite !app_length, be_length. cbn [length]. change (index _ 0) with (Ok fl). change (index _ 1) with (Ok tp). cbn [bind].
  rewrite (@getr_be2 g [fl; tp] ln r 2 4) by (reflexivity || exact L). cbn [bind]. unfold has_seid. cbn [h_flags h_seid h_seq h_prio h_payload]. rewrite has1_odd, O.
  destruct (Nat.ltb_spec (2 + (2 + length r)) 8); [lia|]. destruct (Nat.ltb_spec (2 + (2 + length r)) (4 + 8)); [reflexivity|lia].
Qed.
Lemma header_seq h0 fl tp ln sd r : N.odd fl = true -> (ln < 65536)%N -> (sd < 2 ^ 64)%N -> length r < 4 ->
  header_unmarshal h0 ([fl; tp] ++ be 2 ln ++ be 8 sd ++ r) = Ok (Some EUnexpectedEOF, mkH fl tp ln sd (h_seq h0) (h_prio h0) (h_payload h0)).
Proof.
  intros O L D R. unfold header_unmarshal. cbv zeta. rewrite !app_length, !be_length. cbn [length]. change (index _ 0) with (Ok fl). change (index _ 1) with (Ok tp). cbn [bind].
  rewrite (@getr_be2 g [fl; tp] ln (be 8 sd ++ r) 2 4) by (reflexivity || exact L). cbn [bind]. unfold has_seid. cbn [h_flags h_seid h_seq h_prio h_payload]. rewrite has1_odd, O.
  destruct (Nat.ltb_spec (2 + (2 + (8 + length r))) 8); [lia|]. destruct (Nat.ltb_spec (2 + (2 + (8 + length r))) (4 + 8)); [lia|].
  pose proof (@getr_app 8 ([fl; tp] ++ be 2 ln) sd r D) as G. rewrite <- app_assoc, app_length, be_length in G. cbn [length] in G. change (2 + 2) with 4 in G. rewrite G. cbn [bind].
  destruct (Nat.ltb_spec (2 + (2 + (8 + length r))) (4 + 8 + 4)); [reflexivity|lia].
Qed.
Theorem header_left_iff h0 b er h : bytes b -> (header_unmarshal h0 b = Ok (Some er, h) <-> er = EUnexpectedEOF /\ left_header h0 b h).
Proof.
  intros Hb. split.
  - intros E. assert (S : too_short b).
    { destruct (too_short_dec b) as [S|S]; [exact S|]. exfalso. pose proof (header_agrees h0 b) as A. rewrite E in A. cbn in A.
      destruct (h_unmarshal_long h0 Hb S) as (k & _ & X). rewrite X in A. discriminate. }
    destruct S as [S|[S1 (fl & r & -> & O)]].
    + unfold header_unmarshal in E. cbv zeta in E. destruct (Nat.ltb_spec (length b) 8); [|lia]. assert (er = EUnexpectedEOF /\ h = h0) as [-> ->] by (split; congruence). split; [reflexivity|]. now constructor.
    + destruct (Nat.lt_ge_cases (length (fl :: r)) 8) as [L|L].
      * unfold header_unmarshal in E. cbv zeta in E. destruct (Nat.ltb_spec (length (fl :: r)) 8); [|lia]. assert (er = EUnexpectedEOF /\ h = h0) as [-> ->] by (split; congruence). split; [reflexivity|]. now constructor.
      * destruct r as [|tp [|a [|c r]]]; try (cbn in L; lia). inv_bytes. assert (L4 : 4 <= length r) by (cbn [length] in L; lia). assert (L12 : length r < 12) by (cbn [length] in S1; lia). clear L S1.
        assert (X : exists ln, [a; c] = be 2 ln /\ (ln < 65536)%N).
        { exists (unbe [a; c]). split; [symmetry; apply be_unbe; [repeat constructor; assumption|reflexivity]|apply (@unbe_bound [a; c]); repeat constructor; assumption]. }
        destruct X as (ln & B2 & L2). change (fl :: tp :: a :: c :: r) with ([fl; tp] ++ [a; c] ++ r) in *. rewrite B2 in E |- *. clear B2.
        destruct (Nat.lt_ge_cases (length r) 8) as [R|R].
        -- rewrite header_seid in E by (trivial; lia). assert (er = EUnexpectedEOF) by congruence. assert (h = mkH fl tp ln (h_seid h0) (h_seq h0) (h_prio h0) (h_payload h0)) by congruence. subst er h. split; [reflexivity|]. apply (@lh_seid h0 _ fl tp ln r); trivial. lia.
        -- assert (Br : bytes r) by assumption. set (x := firstn 8 r). set (y := skipn 8 r). assert (Er : r = x ++ y) by (symmetry; apply firstn_skipn).
           assert (Lx : length x = 8) by (unfold x; rewrite firstn_length; lia). assert (Bx : bytes x) by (rewrite Er in Br; now apply bytes_app in Br).
           assert (Ex : be 8 (unbe x) = x) by (apply be_unbe; [exact Bx|now rewrite Lx]). assert (Sx : (unbe x < 2 ^ 64)%N). { pose proof (@unbe_bound x Bx) as U. unfold lenN in U. rewrite Lx in U. exact U. }
           assert (Ly : length y < 4) by (unfold y; rewrite skipn_length; lia).
           clearbody x y. subst r. rewrite <- Ex in E. rewrite header_seq in E by trivial. assert (er = EUnexpectedEOF) by congruence. assert (h = mkH fl tp ln (unbe x) (h_seq h0) (h_prio h0) (h_payload h0)) by congruence. subst er h.
           split; [reflexivity|]. apply (@lh_seq h0 _ fl tp ln (unbe x) y); trivial. now rewrite Ex.
  - intros [-> L]. destruct L as [S|fl tp ln r -> O L R|fl tp ln sd r -> O L D R].
    + unfold header_unmarshal. cbv zeta. destruct (Nat.ltb_spec (length b) 8); [reflexivity|lia].
    + now apply header_seid.
    + now apply header_seq.
Qed.
End G.
