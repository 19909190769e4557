(** The memory model agrees with IE.v, and which octets each call reads, writes or keeps. *)
From Verif Require Import Base IETypes IE Spec IEProofs Header HeaderSpec HeaderProofs Message MsgSpec MsgTables MsgProofs MsgProofs2 MsgProps Alias.

(** induction over in-memory IEs *)
Section Ind.
Variable P : sie -> Prop.
Hypothesis H : forall t l e p cs, Forall P cs -> P (mkSIE t l e p cs).
Fixpoint sie_ind' (i : sie) : P i :=
  match i with
  | mkSIE t l e p cs => H t l e p cs
      ((fix go (cs : list sie) : Forall P cs :=
          match cs with [] => Forall_nil P | c :: r => Forall_cons c (sie_ind' c) (go r) end) cs)
  end.
End Ind.

(** ** Slices *)
Lemma rd_length h s : valid h s -> length (rd h s) = slen s.
Proof. intros [Z|[_ V]]; unfold rd; rewrite firstn_length, skipn_length; lia. Qed.
Lemma rd_empty h s : slen s = 0 -> rd h s = [].
Proof. intros Z. unfold rd. now rewrite Z. Qed.
Lemma skipn_add {A} (l : list A) a b : skipn (a + b) l = skipn b (skipn a l).
Proof. revert l. induction a as [|a IH]; intros l; [reflexivity|]. destruct l; [now rewrite !skipn_nil|]. cbn. apply IH. Qed.
Lemma rd_part h s lo n : lo + n <= slen s -> rd h (mkSl (arr s) (off s + lo) n) = firstn n (skipn lo (rd h s)).
Proof.
  intros L. unfold rd. cbn [arr off slen]. rewrite skipn_add, skipn_firstn_comm, firstn_firstn. f_equal. lia.
Qed.
Lemma valid_part h s lo n : lo + n <= slen s -> valid h s -> valid h (mkSl (arr s) (off s + lo) n).
Proof. intros L [Z|[V1 V2]]; [left; cbn; lia|]. right. cbn. split; [exact V1|lia]. Qed.
Lemma sub_ok s lo hi s' : sub s lo hi = Ok s' -> s' = mkSl (arr s) (off s + lo) (hi - lo) /\ lo <= hi <= slen s.
Proof.
  unfold sub. destruct (Nat.leb_spec lo hi), (Nat.leb_spec hi (slen s)); cbn; try discriminate. intros [= <-]. split; [reflexivity|lia].
Qed.
Lemma tail_ok s lo : lo <= slen s -> tail s lo = Ok (mkSl (arr s) (off s + lo) (slen s - lo)).
Proof. intros H. unfold tail. now replace (lo <=? slen s) with true by (symmetry; apply Nat.leb_le; lia). Qed.
Lemma tail_fault s lo : slen s < lo -> tail s lo = Fault.
Proof. intros H. unfold tail. now replace (lo <=? slen s) with false by (symmetry; apply Nat.leb_gt; lia). Qed.

(** ** Writes *)
Definition frame (h h' : heap) (b : sl) : Prop :=
  length h' = length h /\ (forall a, length (array h' a) = length (array h a)) /\
  (forall s, disjoint s b -> rd h' s = rd h s).
Lemma frame_refl h b : frame h h b.
Proof. repeat split; auto. Qed.
Lemma frame_trans h h1 h2 b : frame h h1 b -> frame h1 h2 b -> frame h h2 b.
Proof.
  intros (A1 & A2 & A3) (B1 & B2 & B3). split; [congruence|]. split; [intros a; rewrite B2; apply A2|].
  intros s Hs. rewrite B3 by exact Hs. now apply A3.
Qed.
Lemma disjoint_within s b b' : disjoint s b -> within b' b -> disjoint s b'.
Proof.
  unfold disjoint. intros [Z|[Z|[Z|Z]]] [Y|(Y1 & Y2 & Y3)]; auto; [right; left; lia|right; right; left; congruence|right; right; right; lia].
Qed.
Lemma disjoint_part s b lo n : disjoint s b -> lo + n <= slen b -> disjoint s (mkSl (arr b) (off b + lo) n).
Proof.
  unfold disjoint. cbn. intros [Z|[Z|[Z|Z]]] L; [now left|right; left; lia|right; right; left; exact Z|right; right; right; lia].
Qed.
Lemma valid_frame h h' b s : frame h h' b -> valid h s -> valid h' s.
Proof. intros (A1 & A2 & _) [Z|[V1 V2]]; [now left|right]. rewrite A1, A2. now split. Qed.

Lemma array_poke h s lo bs a : arr s < length h ->
  array (poke h s lo bs) a = if a =? arr s then splice (array h a) (off s + lo) bs else array h a.
Proof.
  intros L. unfold poke, array. destruct (Nat.eqb_spec a (arr s)) as [->|Hn].
  - apply nth_error_nth. rewrite nth_error_upd_eq by exact L. reflexivity.
  - destruct (Nat.lt_ge_cases a (length h)) as [La|La].
    + destruct (nth_error h a) as [x|] eqn:E; [|apply nth_error_None in E; lia].
      rewrite (nth_error_nth _ _ _ E). apply nth_error_nth. rewrite nth_error_upd_neq by auto. exact E.
    + rewrite !nth_overflow; auto. now rewrite upd_length.
Qed.
Lemma splice_length a p bs : p + length bs <= length a -> length (splice a p bs) = length a.
Proof. intros L. unfold splice. rewrite !app_length, firstn_length, skipn_length. lia. Qed.
Lemma nth_error_skipn {A} (l : list A) n m : nth_error (skipn n l) m = nth_error l (n + m).
Proof. revert l. induction n as [|n IH]; intros l; [reflexivity|]. destruct l; [now destruct m|]. cbn. apply IH. Qed.
Lemma nth_error_firstn {A} (l : list A) n m : m < n -> nth_error (firstn n l) m = nth_error l m.
Proof.
  revert l m. induction n as [|n IH]; intros l m H; [lia|]. destruct l; [now destruct m|]. destruct m; [reflexivity|]. cbn. apply IH. lia.
Qed.
(** octet by octet *)
Lemma splice_nth a p bs n : p + length bs <= length a ->
  nth_error (splice a p bs) n = if (p <=? n) && (n <? p + length bs) then nth_error bs (n - p) else nth_error a n.
Proof.
  intros L. unfold splice. assert (Lf : length (firstn p a) = p) by (rewrite firstn_length; lia).
  destruct (Nat.leb_spec p n) as [H|H]; cbn [andb].
  - rewrite nth_error_app2 by lia. rewrite Lf. destruct (Nat.ltb_spec n (p + length bs)) as [H1|H1].
    + now rewrite nth_error_app1 by lia.
    + rewrite nth_error_app2 by lia. rewrite nth_error_skipn. f_equal. lia.
  - rewrite nth_error_app1 by lia. apply nth_error_firstn. exact H.
Qed.
Lemma rd_nth h s n : nth_error (rd h s) n = if n <? slen s then nth_error (array h (arr s)) (off s + n) else None.
Proof.
  unfold rd. destruct (Nat.ltb_spec n (slen s)) as [L|L].
  - rewrite nth_error_firstn by exact L. now rewrite nth_error_skipn.
  - apply nth_error_None. rewrite firstn_length. lia.
Qed.
Lemma list_ext {A} (a b : list A) : (forall n, nth_error a n = nth_error b n) -> a = b.
Proof.
  revert b. induction a as [|x a IH]; intros [|y b] H; [reflexivity|specialize (H 0); discriminate|specialize (H 0); discriminate|].
  pose proof (H 0) as H0. cbn in H0. injection H0 as ->. f_equal. apply IH. intros n. exact (H (S n)).
Qed.

Lemma poke_frame h b lo bs : valid h b -> lo + length bs <= slen b -> 0 < slen b ->
  length (poke h b lo bs) = length h /\ (forall a, length (array (poke h b lo bs) a) = length (array h a)).
Proof.
  intros [Z|[V1 V2]] L P; [lia|]. split; [unfold poke; apply upd_length|]. intros a. rewrite array_poke by exact V1.
  destruct (Nat.eqb_spec a (arr b)) as [->|]; [apply splice_length; lia|reflexivity].
Qed.
Lemma poke_other h b lo bs s : valid h b -> lo + length bs <= slen b -> 0 < slen b ->
  disjoint s (mkSl (arr b) (off b + lo) (length bs)) -> rd (poke h b lo bs) s = rd h s.
Proof.
  intros [Z|[V1 V2]] L P D; [lia|]. apply list_ext. intros n. rewrite !rd_nth. destruct (Nat.ltb_spec n (slen s)) as [Hn|]; [|reflexivity].
  rewrite array_poke by exact V1. destruct (Nat.eqb_spec (arr s) (arr b)) as [E|]; [|reflexivity]. rewrite E in *.
  rewrite splice_nth by lia. destruct (Nat.leb_spec (off b + lo) (off s + n)), (Nat.ltb_spec (off s + n) (off b + lo + length bs)); cbn [andb]; auto.
  destruct D as [D|[D|[D|D]]]; cbn in D; [lia|lia|congruence|lia].
Qed.
Lemma poke_same h b lo bs : valid h b -> lo + length bs <= slen b -> 0 < slen b ->
  rd (poke h b lo bs) b = firstn lo (rd h b) ++ bs ++ skipn (lo + length bs) (rd h b).
Proof.
  intros V L P. pose proof (rd_length _ _ V) as Lr. destruct V as [Z|[V1 V2]]; [lia|].
  change (firstn lo (rd h b) ++ bs ++ skipn (lo + length bs) (rd h b)) with (splice (rd h b) lo bs).
  apply list_ext. intros n. rewrite splice_nth by lia. rewrite !rd_nth, array_poke, Nat.eqb_refl, splice_nth by (exact V1 || lia).
  destruct (Nat.ltb_spec n (slen b)) as [Hn|Hn].
  - destruct (Nat.leb_spec lo n), (Nat.leb_spec (off b + lo) (off b + n)); try lia; cbn [andb]; [|reflexivity].
    destruct (Nat.ltb_spec n (lo + length bs)), (Nat.ltb_spec (off b + n) (off b + lo + length bs)); try lia; [|reflexivity].
    f_equal. lia.
  - destruct (Nat.leb_spec lo n); cbn [andb]; [|reflexivity]. destruct (Nat.ltb_spec n (lo + length bs)); [lia|reflexivity].
Qed.
Lemma hput_sim h b lo bs : valid h b -> 0 < slen b ->
  match put (rd h b) lo bs with
  | Ok r => exists h', hput h b lo bs = Ok h' /\ rd h' b = r /\ frame h h' b
  | x => hput h b lo bs = match x with Ok _ => Fault | Err e => Err e | Fault => Fault | Fuel => Fuel end
  end.
Proof.
  intros V P. unfold put, hput. rewrite (rd_length _ _ V). destruct (Nat.leb_spec (lo + length bs) (slen b)) as [L|L]; [|reflexivity].
  exists (poke h b lo bs). split; [reflexivity|]. split; [now apply poke_same|].
  destruct (poke_frame _ _ _ _ V L P) as [F1 F2]. split; [exact F1|]. split; [exact F2|].
  intros s D. apply poke_other; auto. now apply disjoint_part.
Qed.
Lemma hcopy_sim h b lo hi src : valid h b -> 0 < slen b ->
  match copy_range (rd h b) lo hi src with
  | Ok r => exists h', hcopy h b lo hi src = Ok h' /\ rd h' b = r /\ frame h h' b
  | x => hcopy h b lo hi src = match x with Ok _ => Fault | Err e => Err e | Fault => Fault | Fuel => Fuel end
  end.
Proof.
  intros V P. unfold copy_range, hcopy. rewrite (rd_length _ _ V).
  destruct (Nat.leb_spec lo hi), (Nat.leb_spec hi (slen b)); cbn [andb]; try reflexivity.
  assert (L : lo + length (firstn (hi - lo) src) <= slen b) by (rewrite firstn_length; lia).
  exists (poke h b lo (firstn (hi - lo) src)). split; [reflexivity|]. split; [now apply poke_same|].
  destruct (poke_frame _ _ _ _ V L P) as [F1 F2]. split; [exact F1|]. split; [exact F2|].
  intros s D. apply poke_other; auto. now apply disjoint_part.
Qed.

(** ** view *)
Lemma view_eq h t l e p cs : view h (mkSIE t l e p cs) = mkIE t l e (rd h p) (map (view h) cs).
Proof. reflexivity. Qed.
Lemma slices_eq t l e p cs : slices (mkSIE t l e p cs) = p :: flat_map slices cs.
Proof. reflexivity. Qed.
Lemma view_same h h' i : (forall s, In s (slices i) -> rd h' s = rd h s) -> view h' i = view h i.
Proof.
  induction i as [t l e p cs IH] using sie_ind'. intros H. rewrite slices_eq in H. rewrite !view_eq. f_equal.
  - apply H. now left.
  - rewrite Forall_forall in IH. apply map_ext_in. intros c Hc. apply IH; [exact Hc|]. intros s Hs. apply H. right.
    apply in_flat_map. eauto.
Qed.
Definition all_valid h (i : sie) : Prop := forall s, In s (slices i) -> valid h s.
Lemma kids_in t l e p cs c s : In c cs -> In s (slices c) -> In s (slices (mkSIE t l e p cs)).
Proof. intros Hc Hs. rewrite slices_eq. right. apply in_flat_map. eauto. Qed.
Section G.
Variable g : N -> bool.
Lemma smlen_view h i : all_valid h i -> smlen g i = mlen g (view h i).
Proof.
  induction i as [t l e p cs IH] using sie_ind'. intros H. rewrite view_eq. cbn [smlen mlen sty skids spay ty children payload].
  rewrite (rd_length h p) by (apply H; now left). destruct (g t); [|reflexivity].
  generalize (if vendor t then 4 + 2 else 4).
  assert (H' : forall c, In c cs -> all_valid h c) by (intros c Hc s Hs; apply H; eapply kids_in; eauto).
  clear H. induction IH as [|c cs Hc _ IH2]; intros n; [reflexivity|]. cbn [map fold_left].
  rewrite Hc by (apply H'; now left). apply IH2. intros c' Hc'. apply H'. now right.
Qed.

(** ** MarshalTo *)
Definition agree h b (r : res (list N)) (x : res heap) : Prop :=
  match r with
  | Ok v => exists h', x = Ok h' /\ rd h' b = v /\ frame h h' b
  | Err e => x = Err e | Fault => x = Fault | Fuel => x = Fuel
  end.
Lemma agree_bind h b r x f k : agree h b r x ->
  (forall h', frame h h' b -> agree h b (f (rd h' b)) (k h')) -> agree h b (bind r f) (bind x k).
Proof.
  intros A K. destruct r as [v| | |]; cbn in A |- *; try (now subst x).
  destruct A as (h' & -> & <- & F). cbn. now apply K.
Qed.
Lemma agree_frame h h1 b r x : frame h h1 b -> agree h1 b r x -> agree h b r x.
Proof.
  intros F A. destruct r; cbn in *; auto. destruct A as (h' & E & R & F'). exists h'. split; [exact E|]. split; [exact R|].
  eapply frame_trans; eauto.
Qed.
Lemma hput_agree h b lo bs : valid h b -> 0 < slen b -> agree h b (put (rd h b) lo bs) (hput h b lo bs).
Proof.
  intros V P. pose proof (hput_sim h b lo bs V P) as H. destruct (put (rd h b) lo bs); exact H.
Qed.
Lemma hcopy_agree h b lo hi src : valid h b -> 0 < slen b -> agree h b (copy_range (rd h b) lo hi src) (hcopy h b lo hi src).
Proof.
  intros V P. pose proof (hcopy_sim h b lo hi src V P) as H. destruct (copy_range (rd h b) lo hi src); exact H.
Qed.
Definition skids_to (b : sl) : list sie -> nat -> heap -> res heap :=
  fix go (cs : list sie) (offset : nat) (h : heap) : res heap :=
    match cs with
    | [] => Ok h
    | c :: cs' =>
        s <- tail b offset ;;
        h <- smarshal_to g c s h ;;
        go cs' (offset + smlen g c) h
    end.
Lemma smarshal_to_eq i b h : smarshal_to g i b h =
  if slen b <? 4 then Err EInvalidLength else
  h1 <- hput h b 0 (be 2 (sty i)) ;;
  h2 <- hput h1 b 2 (be 2 (sln i)) ;;
  '(h3, offset) <- (if vendor (sty i) && (6 <=? slen b)
                   then h3 <- hput h2 b 4 (be 2 (seid i)) ;; Ok (h3, 6) else Ok (h2, 4)) ;;
  if g (sty i) then skids_to b (skids i) offset h3
  else hcopy h3 b offset (smlen g i) (rd h3 (spay i)).
Proof. destruct i; reflexivity. Qed.

Definition clear_of h (i : sie) (b : sl) : Prop := forall s, In s (slices i) -> valid h s /\ disjoint s b.
Lemma clear_frame h h' b b' i : frame h h' b -> clear_of h i b' -> clear_of h' i b'.
Proof. intros F C s Hs. destruct (C s Hs) as [V D]. split; [eapply valid_frame; eauto|exact D]. Qed.
Lemma clear_view h h' b i : frame h h' b -> clear_of h i b -> view h' i = view h i.
Proof. intros (_ & _ & F) C. apply view_same. intros s Hs. apply F. now apply C. Qed.
Lemma clear_valid h i b : clear_of h i b -> all_valid h i.
Proof. intros C s Hs. now apply C. Qed.

Lemma skids_agree cs : Forall (fun c => forall b h, valid h b -> clear_of h c b ->
    agree h b (marshal_to g (view h c) (rd h b)) (smarshal_to g c b h)) cs ->
  forall h b, valid h b -> (forall c, In c cs -> clear_of h c b) -> forall o h3, frame h h3 b ->
  agree h b (marshal_children g (map (view h) cs) o (rd h3 b)) (skids_to b cs o h3).
Proof.
  intros IH h b V Cc. induction IH as [|c cs Hc _ IH2]; intros o h3 F3; pose proof (valid_frame _ _ _ _ F3 V) as V3.
      + cbn. exists h3. auto.
      + cbn [map marshal_children skids_to]. fold (skids_to b). fold (marshal_children g).
        destruct (Nat.le_gt_cases o (slen b)) as [Lo|Lo].
        2:{ rewrite tail_fault by exact Lo. unfold from. rewrite (rd_length _ _ V3).
            replace (o <=? slen b) with false by (symmetry; apply Nat.leb_gt; lia). reflexivity. }
        rewrite tail_ok by exact Lo. unfold from. rewrite (rd_length _ _ V3).
        replace (o <=? slen b) with true by (symmetry; apply Nat.leb_le; lia). cbn [bind].
        set (bt := mkSl (arr b) (off b + o) (slen b - o)).
        assert (Rt : forall h, valid h b -> rd h bt = skipn o (rd h b)).
        { intros h' Vh. unfold bt. rewrite rd_part by lia. apply firstn_all2. rewrite skipn_length, (rd_length _ _ Vh). lia. }
        assert (Vt : valid h3 bt) by (apply valid_part; [lia|exact V3]).
        assert (Ch : clear_of h c b) by (apply Cc; now left).
        assert (Ct : clear_of h3 c bt).
        { intros s Hs. destruct (Ch s Hs) as [Vs Ds]. split; [eapply valid_frame; eauto|]. apply disjoint_part; [exact Ds|lia]. }
        pose proof (Hc bt h3 Vt Ct) as A. rewrite (Rt h3 V3) in A. rewrite (clear_view _ _ _ _ F3 Ch) in A.
        destruct (marshal_to g (view h c) (skipn o (rd h3 b))) as [s'| | |]; cbn [agree bind] in A |- *; try (rewrite A; reflexivity).
        destruct A as (h4 & -> & R4 & F4). cbn [bind].
        assert (F4' : frame h3 h4 b).
        { destruct F4 as (A1 & A2 & A3). split; [exact A1|]. split; [exact A2|]. intros s Ds. apply A3. apply disjoint_part; [exact Ds|lia]. }
        assert (V4 : valid h4 b) by (eapply valid_frame; eauto).
        assert (R : rd h4 b = firstn o (rd h3 b) ++ s').
        { rewrite <- (firstn_skipn o (rd h4 b)). rewrite <- (Rt h4 V4), R4. f_equal.
          set (bf := mkSl (arr b) (off b + 0) o).
          assert (Rf : forall h, rd h bf = firstn o (rd h b)) by (intros h'; unfold bf; rewrite rd_part by lia; reflexivity).
          rewrite <- !Rf. destruct F4 as (_ & _ & A3). apply A3. right. right. right. left. cbn. lia. }
        rewrite <- R. rewrite <- (smlen_view h c) by (eapply clear_valid; exact Ch).
        apply IH2; auto.
        * intros c' Hc'. apply Cc. now right.
        * eapply frame_trans; eauto.
Qed.

Lemma smarshal_to_agree i : forall b h, valid h b -> clear_of h i b ->
  agree h b (marshal_to g (view h i) (rd h b)) (smarshal_to g i b h).
Proof.
  induction i as [t l e p cs IH] using sie_ind'. intros b h V C.
  rewrite marshal_to_eq, smarshal_to_eq, view_eq. rewrite (rd_length _ _ V).
  cbn [ty len eid children payload sty sln seid skids spay].
  destruct (Nat.ltb_spec (slen b) 4) as [L|L]; [reflexivity|].
  apply agree_bind; [apply hput_agree; auto; lia|]. intros h1 F1.
  assert (V1 : valid h1 b) by (eapply valid_frame; eauto).
  apply agree_bind; [eapply agree_frame; [exact F1|]; apply hput_agree; auto; lia|]. intros h2 F2.
  assert (V2 : valid h2 b) by (eapply valid_frame; eauto).
  assert (K : forall h3 o, frame h h3 b ->
    agree h b (if g t then marshal_children g (map (view h) cs) o (rd h3 b) else copy_range (rd h3 b) o (mlen g (mkIE t l e (rd h p) (map (view h) cs))) (rd h p))
              (if g t then skids_to b cs o h3 else hcopy h3 b o (smlen g (mkSIE t l e p cs)) (rd h3 p))).
  { intros h3 o F3. pose proof (valid_frame _ _ _ _ F3 V) as V3. destruct (g t).
    - assert (Cc : forall c, In c cs -> clear_of h c b) by (intros c Hc s Hs; apply C; eapply kids_in; eauto).
      apply skids_agree; auto.
    - assert (Cp : rd h3 p = rd h p) by (destruct F3 as (_ & _ & F3); apply F3; apply C; now left).
      rewrite Cp, <- view_eq, <- (smlen_view h) by (eapply clear_valid; exact C).
      eapply agree_frame; [exact F3|]. apply hcopy_agree; [exact V3|lia]. }
  destruct (vendor t && (6 <=? slen b)) eqn:W.
  - pose proof (hput_agree h2 b 4 (be 2 e) V2 ltac:(lia)) as A.
    destruct (put (rd h2 b) 4 (be 2 e)) as [v| | |]; cbn [agree bind] in A |- *; try (rewrite A; reflexivity).
    destruct A as (h3 & -> & <- & F3). cbn [bind]. apply K. eapply frame_trans; eauto.
  - cbn [bind]. now apply K.
Qed.

(** Marshal: a new array, nothing else touched *)
Lemma rd_new h c n : rd (h ++ [c]) (mkSl (length h) 0 n) = firstn n c.
Proof. unfold rd, array. cbn [arr off slen skipn]. now rewrite app_nth2, Nat.sub_diag by lia. Qed.
Lemma array_app h c a : a < length h -> array (h ++ [c]) a = array h a.
Proof. intros H. unfold array. now apply app_nth1. Qed.
Lemma rd_app h c s : valid h s -> rd (h ++ [c]) s = rd h s.
Proof. intros [Z|[V _]]; [now rewrite !rd_empty|]. unfold rd. now rewrite array_app. Qed.
Lemma valid_app h c s : valid h s -> valid (h ++ [c]) s.
Proof. intros [Z|[V1 V2]]; [now left|right]. rewrite app_length, array_app by exact V1. cbn. split; [lia|exact V2]. Qed.
(** writing only through a slice that covers the last array *)
Lemma frame_last h x h' : frame (h ++ [x]) h' (mkSl (length h) 0 (length x)) -> h' = h ++ [rd h' (mkSl (length h) 0 (length x))].
Proof.
  intros (F1 & F2 & F3).
  assert (Lh : length h' = length h + 1) by (rewrite F1, app_length; reflexivity).
  apply list_ext. intros a. destruct (Nat.lt_ge_cases a (length h)) as [La|La].
  - rewrite nth_error_app1 by exact La.
    assert (Ra : rd h' (mkSl a 0 (length (array h a))) = rd h (mkSl a 0 (length (array h a)))).
    { rewrite F3; [apply rd_app; right; cbn; split; [exact La|lia]|]. right. right. left. cbn. lia. }
    unfold rd in Ra. cbn [arr off slen skipn] in Ra. specialize (F2 a). rewrite array_app in F2 by exact La.
    rewrite (firstn_all2 (array h a)) in Ra by lia. rewrite firstn_all2 in Ra by lia.
    unfold array in Ra. destruct (nth_error h a) as [u|] eqn:Ex; [|apply nth_error_None in Ex; lia].
    destruct (nth_error h' a) as [y|] eqn:Ey; [|apply nth_error_None in Ey; lia].
    rewrite (nth_error_nth _ _ _ Ex), (nth_error_nth _ _ _ Ey) in Ra. now subst.
  - destruct (Nat.eq_dec a (length h)) as [->|Hn].
    + rewrite nth_error_app2, Nat.sub_diag by lia. cbn.
      destruct (nth_error h' (length h)) as [y|] eqn:Ey; [|apply nth_error_None in Ey; lia].
      f_equal. unfold rd. cbn [arr off slen skipn]. unfold array. rewrite (nth_error_nth _ _ _ Ey).
      symmetry. apply firstn_all2. specialize (F2 (length h)). unfold array in F2. rewrite (nth_error_nth _ _ _ Ey) in F2.
      rewrite F2, app_nth2, Nat.sub_diag by lia. cbn. lia.
    + rewrite (proj2 (nth_error_None h' a)) by lia. symmetry. apply nth_error_None. rewrite app_length. cbn. lia.
Qed.
Theorem smarshal_ok i h : all_valid h i ->
  smarshal g i h = Ok (mkSl (length h) 0 (mlen g (view h i)), h ++ [enc g (view h i)]).
Proof.
  intros V. unfold smarshal, halloc. set (n := smlen g i). set (b := mkSl (length h) 0 n).
  assert (Vb : valid (h ++ [make n]) b).
  { right. cbn. rewrite app_length. cbn. split; [lia|]. unfold array. rewrite app_nth2, Nat.sub_diag by lia. cbn. unfold make. now rewrite repeat_length. }
  assert (C : clear_of (h ++ [make n]) i b).
  { intros s Hs. specialize (V s Hs). split; [now apply valid_app|]. destruct V as [Z|[V1 V2]]; [now left|]. right. right. left. cbn. lia. }
  assert (Ev : view (h ++ [make n]) i = view h i) by (apply view_same; intros s Hs; apply rd_app; auto).
  pose proof (smarshal_to_agree i b _ Vb C) as A. rewrite Ev in A.
  assert (Er : rd (h ++ [make n]) b = make n) by (unfold b; rewrite rd_new; apply firstn_all2; unfold make; rewrite repeat_length; lia).
  rewrite Er in A. unfold n in A at 2. rewrite (smlen_view h i V) in A. change (marshal_to g (view h i) (make (mlen g (view h i)))) with (marshal g (view h i)) in A.
  rewrite marshal_ok in A. cbn [agree] in A. destruct A as (h' & E & R & F1 & F2 & F3).
  rewrite E. cbn [bind]. unfold b, n. rewrite (smlen_view h i V). f_equal. f_equal.
  rewrite (frame_last h (make n) h'); [|unfold make at 2; rewrite repeat_length; repeat split; assumption].
  f_equal. f_equal. rewrite <- R. unfold b. f_equal. unfold make. now rewrite repeat_length.
Qed.

(** ** Parse *)
Definition rmap {A B} (f : A -> B) (r : res A) : res B := match r with Ok a => Ok (f a) | Err e => Err e | Fault => Fault | Fuel => Fuel end.
Lemma within_refl b : within b b.
Proof. right. lia. Qed.
Lemma within_part s b lo n : within s (mkSl (arr b) (off b + lo) n) -> lo + n <= slen b -> within s b.
Proof. intros [Z|(E & H1 & H2)] L; [now left|right]. cbn in *. repeat split; [exact E|lia|lia]. Qed.
Lemma part_within b lo n : lo + n <= slen b -> within (mkSl (arr b) (off b + lo) n) b.
Proof. intros L. eapply within_part; [apply within_refl|exact L]. Qed.
Lemma within_valid h s b : within s b -> valid h b -> valid h s.
Proof. intros [Z|(E & H1 & H2)] [Y|[V1 V2]]; try (now left); [left; lia|right]. rewrite E. split; [exact V1|lia]. Qed.

Lemma sunmarshal_S h n i0 b : sunmarshal g h (S n) i0 b =
    let l := slen b in
    if l <? 4 then Err EUnexpectedEOF else
    t <- getr 2 (rd h b) 0 2 ;;
    ln <- getr 2 (rd h b) 2 4 ;;
    let offset := 4 in
    let fin := N.to_nat ln in
    '(e, offset, fin) <-
      (if vendor t then
         if l <? 6 then Err EUnexpectedEOF else
         if fin <? 2 then Err EInvalidLength else
         e <- getr 2 (rd h b) 4 6 ;; Ok (e, offset + 2, fin - 2)
       else Ok (seid i0, offset, fin)) ;;
    if l <=? offset then Ok (mkSIE t ln e (spay i0) (skids i0)) else
    if l <? offset + fin then Err EUnexpectedEOF else
    p <- sub b offset (offset + fin) ;;
    if g t then
      cs <- sparse_multi g h n p ;; Ok (mkSIE t ln e p cs)
    else Ok (mkSIE t ln e p (skids i0)).
Proof. reflexivity. Qed.
Lemma sparse_multi_S h n b : sparse_multi g h (S n) b =
    if slen b =? 0 then Ok [] else
    i <- sunmarshal g h n zeroSIE b ;;
    b' <- tail b (smlen g i) ;;
    is <- sparse_multi g h n b' ;;
    Ok (i :: is).
Proof. reflexivity. Qed.
Lemma sunmarshal_sim h n :
  (forall i0 b, valid h b -> all_valid h i0 -> rmap (view h) (sunmarshal g h n i0 b) = unmarshal g n (view h i0) (rd h b) /\
     forall i, sunmarshal g h n i0 b = Ok i -> all_valid h i /\ forall s, In s (slices i) -> within s b \/ In s (slices i0)) /\
  (forall b, valid h b -> rmap (map (view h)) (sparse_multi g h n b) = parse_multi g n (rd h b) /\
     forall is i, sparse_multi g h n b = Ok is -> In i is -> all_valid h i /\ forall s, In s (slices i) -> within s b).
Proof.
  induction n as [|n [IHu IHm]].
  { split; intros; (split; [reflexivity|discriminate]). }
  split.
  - intros i0 b V V0. rewrite sunmarshal_S, unmarshal_S. cbv zeta. rewrite (rd_length _ _ V).
    destruct (slen b <? 4); [split; [reflexivity|discriminate]|].
    destruct (getr 2 (rd h b) 0 2) as [t| | |]; cbn [bind]; try (split; [reflexivity|discriminate]).
    destruct (getr 2 (rd h b) 2 4) as [ln| | |]; cbn [bind]; try (split; [reflexivity|discriminate]).
    assert (Ee : eid (view h i0) = seid i0) by (destruct i0; reflexivity). rewrite Ee.
    destruct (if vendor t then _ else _) as [[[e o] fin]| | |]; cbn [bind]; try (split; [reflexivity|discriminate]).
    assert (Ep : payload (view h i0) = rd h (spay i0)) by (destruct i0; reflexivity).
    assert (Ec : children (view h i0) = map (view h) (skids i0)) by (destruct i0; reflexivity).
    destruct (slen b <=? o) eqn:Lo.
    { split; [rewrite Ep, Ec; reflexivity|]. intros i [= <-].
      assert (Z : forall s, In s (slices (mkSIE t ln e (spay i0) (skids i0))) -> In s (slices i0)) by (destruct i0; auto).
      split; [intros s Hs; auto|intros s Hs; auto]. }
    destruct (Nat.ltb_spec (slen b) (o + fin)) as [Lf|Lf]; [split; [reflexivity|discriminate]|].
    unfold sub, slice. rewrite (rd_length _ _ V).
    replace (o <=? o + fin) with true by (symmetry; apply Nat.leb_le; lia).
    replace (o + fin <=? slen b) with true by (symmetry; apply Nat.leb_le; lia). cbn [andb bind].
    replace (o + fin - o) with fin by lia. set (p := mkSl (arr b) (off b + o) fin).
    assert (Rp : firstn fin (skipn o (rd h b)) = rd h p) by (unfold p; now rewrite rd_part by lia).
    rewrite Rp. assert (Vp : valid h p) by (apply valid_part; [lia|exact V]).
    assert (Wp : within p b) by (apply part_within; lia).
    destruct (g t).
    + destruct (IHm p Vp) as [Em Wm]. rewrite <- Em. destruct (sparse_multi g h n p) as [cs| | |]; cbn [bind rmap]; try (split; [reflexivity|discriminate]).
      split; [reflexivity|]. intros i [= <-]. split.
      * intros s Hs. rewrite slices_eq in Hs. destruct Hs as [<-|Hs]; [exact Vp|]. apply in_flat_map in Hs. destruct Hs as (c & Hc & Hs).
        now apply (Wm cs c eq_refl Hc).
      * intros s Hs. left. rewrite slices_eq in Hs. destruct Hs as [<-|Hs]; [exact Wp|]. apply in_flat_map in Hs. destruct Hs as (c & Hc & Hs).
        eapply within_part; [now apply (Wm cs c eq_refl Hc)|lia].
    + rewrite Ec. split; [reflexivity|]. intros i [= <-].
      assert (Z : forall s, In s (flat_map slices (skids i0)) -> In s (slices i0)) by (destruct i0; intros s Hs; right; exact Hs).
      split; intros s Hs; rewrite slices_eq in Hs; destruct Hs as [<-|Hs]; auto.
  - intros b V. rewrite sparse_multi_S, parse_multi_S, (rd_length _ _ V).
    destruct (slen b =? 0); [split; [reflexivity|intros is i [= <-] []]|].
    assert (V0 : all_valid h zeroSIE) by (intros s [<-|[]]; now left).
    destruct (IHu zeroSIE b V V0) as [Eu Wu]. change (view h zeroSIE) with zeroIE in Eu. rewrite <- Eu.
    destruct (sunmarshal g h n zeroSIE b) as [i| | |]; cbn [bind rmap]; try (split; [reflexivity|discriminate]).
    destruct (Wu i eq_refl) as [Vi Wi]. rewrite (smlen_view h i Vi). unfold from. rewrite (rd_length _ _ V).
    destruct (Nat.leb_spec (mlen g (view h i)) (slen b)) as [L|L].
    2:{ rewrite tail_fault by exact L. split; [reflexivity|discriminate]. }
    rewrite tail_ok by exact L. cbn [bind]. set (bt := mkSl (arr b) (off b + mlen g (view h i)) (slen b - mlen g (view h i))).
    assert (Vt : valid h bt) by (apply valid_part; [lia|exact V]).
    assert (Rt : skipn (mlen g (view h i)) (rd h b) = rd h bt).
    { unfold bt. rewrite rd_part by lia. symmetry. apply firstn_all2. rewrite skipn_length, (rd_length _ _ V). lia. }
    rewrite Rt. destruct (IHm bt Vt) as [Em Wm]. rewrite <- Em.
    destruct (sparse_multi g h n bt) as [is| | |]; cbn [bind rmap]; try (split; [reflexivity|discriminate]).
    split; [reflexivity|]. intros is' i' [= <-] [<-|Hi].
    + split; [exact Vi|]. intros s Hs. destruct (Wi s Hs) as [Hw|[<-|[]]]; [exact Hw|now left].
    + destruct (Wm is i' eq_refl Hi) as [A1 A2]. split; [exact A1|]. intros s Hs. eapply within_part; [now apply A2|lia].
Qed.
Theorem sparse_sim h b : valid h b -> rmap (view h) (sparse g h b) = parse g (rd h b).
Proof.
  intros V. unfold sparse, parse. rewrite (rd_length _ _ V).
  assert (V0 : all_valid h zeroSIE) by (intros s [<-|[]]; now left).
  exact (proj1 (proj1 (sunmarshal_sim h _) zeroSIE b V V0)).
Qed.
Theorem sparse_within h b i : valid h b -> sparse g h b = Ok i -> all_valid h i /\ forall s, In s (slices i) -> within s b.
Proof.
  intros V E. assert (V0 : all_valid h zeroSIE) by (intros s [<-|[]]; now left).
  destruct (proj2 (proj1 (sunmarshal_sim h _) zeroSIE b V V0) i E) as [A1 A2]. split; [exact A1|].
  intros s Hs. destruct (A2 s Hs) as [H|[<-|[]]]; [exact H|now left].
Qed.
Theorem sparseMulti_sim h b : valid h b -> rmap (map (view h)) (sparseMultiIEs g h b) = parseMultiIEs g (rd h b).
Proof. intros V. unfold sparseMultiIEs, parseMultiIEs. rewrite (rd_length _ _ V). exact (proj1 (proj2 (sunmarshal_sim h _) b V)). Qed.
Theorem sparseMulti_within h b is i : valid h b -> sparseMultiIEs g h b = Ok is -> In i is -> all_valid h i /\ forall s, In s (slices i) -> within s b.
Proof. intros V E Hi. exact (proj2 (proj2 (sunmarshal_sim h _) b V) is i E Hi). Qed.
End G.
