(** MarshalTo of the structs in buffers of any contents and size: what is written does not depend on what the buffer holds. *)
From Verif Require Import Base Bits Codec Codec2 Utils Fields1 Fields2 Fields3 Fields4 Access Reuse AnySpec AnyProofs.
From Verif Require FieldsProofs4c.
Set Implicit Arguments.

(** A write: the octets put in place, None where the buffer is left alone. *)
Definition over (m : list (option N)) (c : list N) : list N :=
  map (fun p => match fst p with Some x => x | None => snd p end) (combine m c).
Definition hole (n : nat) : list (option N) := repeat None n.
Lemma over_length m c : length m = length c -> length (over m c) = length c.
Proof. intros H. unfold over. rewrite map_length, combine_length. lia. Qed.
Lemma combine_app {A B} (a a' : list A) (b b' : list B) : length a = length b -> combine (a ++ a') (b ++ b') = combine a b ++ combine a' b'.
Proof. revert b. induction a as [|x a IH]; intros [|y b] H; cbn in *; try discriminate; [reflexivity|]. now rewrite IH by lia. Qed.
Lemma over_app m m' c c' : length m = length c -> over (m ++ m') (c ++ c') = over m c ++ over m' c'.
Proof. intros H. unfold over. now rewrite combine_app, map_app by exact H. Qed.
Lemma over_hole c : over (hole (length c)) c = c.
Proof. induction c as [|x c IH]; [reflexivity|]. cbn. f_equal. exact IH. Qed.
Lemma over_some s c : length c = length s -> over (map Some s) c = s.
Proof. revert c. induction s as [|x s IH]; intros [|y c] H; cbn in *; try discriminate; [reflexivity|]. f_equal. apply IH. lia. Qed.
(** one write after another *)
Definition after (m2 m1 : list (option N)) : list (option N) := map (fun p => match snd p with Some x => Some x | None => fst p end) (combine m1 m2).
Lemma after_length m2 m1 : length m1 = length m2 -> length (after m2 m1) = length m1.
Proof. intros H. unfold after. rewrite map_length, combine_length. lia. Qed.
Lemma over_over m2 : forall m1 c, length m1 = length c -> length m2 = length c -> over m2 (over m1 c) = over (after m2 m1) c.
Proof.
  induction m2 as [|y m2 IH]; intros [|x m1] [|a c] H1 H2; cbn [length] in *; try discriminate; [reflexivity|].
  unfold over, after. cbn [combine map fst snd]. f_equal; [destruct y; reflexivity|]. apply IH; lia.
Qed.

(** [steady m]: for each length of the buffer, the outcome is always the same: a fixed write that leaves the octets beyond alone, or a fixed error, or a panic. *)
Definition steady {A} (m : list N -> res (list N * A)) : Prop := forall n,
  (exists w a, length w = n /\ forall c r, length c = n -> m (c ++ r) = Ok (over w c ++ r, a)) \/
  (exists e, forall c, length c = n -> m c = Err e) \/ (forall c, length c = n -> m c = Fault).
Definition steady1 (m : list N -> res (list N)) : Prop := forall n,
  (exists w, length w = n /\ forall c r, length c = n -> m (c ++ r) = Ok (over w c ++ r)) \/
  (exists e, forall c, length c = n -> m c = Err e) \/ (forall c, length c = n -> m c = Fault).

Ltac three H n := let w := fresh "w" in let a := fresh "a" in let L := fresh "L" in let E := fresh "E" in let e := fresh "e" in
  destruct (H n) as [(w & a & L & E)|[(e & E)|E]].
Ltac three1 H n := let w := fresh "w" in let L := fresh "L" in let E := fresh "E" in let e := fresh "e" in
  destruct (H n) as [(w & L & E)|[(e & E)|E]].
Lemma nil_r {A} (c : list A) : c = c ++ []. Proof. now rewrite app_nil_r. Qed.
Section Bind.
Variables A B : Type.
Lemma steady_ok (a : A) : steady (fun b => Ok (b, a)).
Proof. intros n. left. exists (hole n), a. split; [apply repeat_length|]. intros c r <-. now rewrite over_hole. Qed.
Lemma steady_bind (m : list N -> res (list N * A)) (k : list N -> A -> res (list N * B)) :
  steady m -> (forall a, steady (fun b => k b a)) -> steady (fun b => '(b, a) <- m b ;; k b a).
Proof.
  intros Hm Hk n. three Hm n; [three (Hk a) n|right; left; exists e|right; right].
  - left. exists (after w0 w), a0. split; [rewrite after_length; congruence|]. intros c r Hc. rewrite E by exact Hc. cbn [bind]. rewrite E0 by (rewrite over_length; congruence). rewrite over_over by congruence. reflexivity.
  - right. left. exists e. intros c Hc. rewrite (nil_r c), E by exact Hc. cbn [bind]. rewrite app_nil_r. apply E0. rewrite over_length; congruence.
  - right. right. intros c Hc. rewrite (nil_r c), E by exact Hc. cbn [bind]. rewrite app_nil_r. apply E0. rewrite over_length; congruence.
  - intros c Hc. now rewrite E.
  - intros c Hc. now rewrite E.
Qed.
Lemma steady_bind1 (m : list N -> res (list N)) (k : list N -> res (list N * B)) : steady1 m -> steady k -> steady (fun b => b <- m b ;; k b).
Proof.
  intros Hm Hk n. three1 Hm n; [three Hk n|right; left; exists e|right; right].
  - left. exists (after w0 w), a. split; [rewrite after_length; congruence|]. intros c r Hc. rewrite E by exact Hc. cbn [bind]. rewrite E0 by (rewrite over_length; congruence). rewrite over_over by congruence. reflexivity.
  - right. left. exists e. intros c Hc. rewrite (nil_r c), E by exact Hc. cbn [bind]. rewrite app_nil_r. apply E0. rewrite over_length; congruence.
  - right. right. intros c Hc. rewrite (nil_r c), E by exact Hc. cbn [bind]. rewrite app_nil_r. apply E0. rewrite over_length; congruence.
  - intros c Hc. now rewrite E.
  - intros c Hc. now rewrite E.
Qed.
Lemma steady1_bind (m : list N -> res (list N * A)) (k : list N -> A -> res (list N)) :
  steady m -> (forall a, steady1 (fun b => k b a)) -> steady1 (fun b => '(b, a) <- m b ;; k b a).
Proof.
  intros Hm Hk n. three Hm n; [three1 (Hk a) n|right; left; exists e|right; right].
  - left. exists (after w0 w). split; [rewrite after_length; congruence|]. intros c r Hc. rewrite E by exact Hc. cbn [bind]. rewrite E0 by (rewrite over_length; congruence). rewrite over_over by congruence. reflexivity.
  - right. left. exists e. intros c Hc. rewrite (nil_r c), E by exact Hc. cbn [bind]. rewrite app_nil_r. apply E0. rewrite over_length; congruence.
  - right. right. intros c Hc. rewrite (nil_r c), E by exact Hc. cbn [bind]. rewrite app_nil_r. apply E0. rewrite over_length; congruence.
  - intros c Hc. now rewrite E.
  - intros c Hc. now rewrite E.
Qed.
Lemma steady_need (k : list N -> res (list N * A)) n : steady k -> steady (fun b => need n in b ;; k b).
Proof.
  intros Hk l. destruct (Nat.ltb_spec l n) as [X|X].
  - right. left. exists EUnexpectedEOF. intros c <-. now destruct (Nat.ltb_spec (length c) n); [|lia].
  - three Hk l; [left; exists w, a; split; [exact L|]|right; left; exists e|right; right].
    + intros c r Hc. rewrite app_length. destruct (Nat.ltb_spec (length c + length r) n); [lia|]. now apply E.
    + intros c Hc. destruct (Nat.ltb_spec (length c) n); [lia|]. now apply E.
    + intros c Hc. destruct (Nat.ltb_spec (length c) n); [lia|]. now apply E.
Qed.
(** a value that does not come from the buffer *)
Lemma steady_val (v : res B) (k : B -> list N -> res (list N * A)) : v <> Fuel -> (forall x, steady (k x)) -> steady (fun b => x <- v ;; k x b).
Proof. intros F H. destruct v; [apply H|intros n; right; left; eexists; reflexivity|intros n; right; right; reflexivity|congruence]. Qed.
Lemma steady1_val (v : res B) (k : B -> list N -> res (list N)) : v <> Fuel -> (forall x, steady1 (k x)) -> steady1 (fun b => x <- v ;; k x b).
Proof. intros F H. destruct v; [apply H|intros n; right; left; eexists; reflexivity|intros n; right; right; reflexivity|congruence]. Qed.
End Bind.
Lemma steady1_ok : steady1 (fun b => Ok b).
Proof. intros n. left. exists (hole n). split; [apply repeat_length|]. intros c r <-. now rewrite over_hole. Qed.
Lemma steady1_bind1 (m k : list N -> res (list N)) : steady1 m -> steady1 k -> steady1 (fun b => b <- m b ;; k b).
Proof.
  intros Hm Hk n. three1 Hm n; [three1 Hk n|right; left; exists e|right; right].
  - left. exists (after w0 w). split; [rewrite after_length; congruence|]. intros c r Hc. rewrite E by exact Hc. cbn [bind]. rewrite E0 by (rewrite over_length; congruence). rewrite over_over by congruence. reflexivity.
  - right. left. exists e. intros c Hc. rewrite (nil_r c), E by exact Hc. cbn [bind]. rewrite app_nil_r. apply E0. rewrite over_length; congruence.
  - right. right. intros c Hc. rewrite (nil_r c), E by exact Hc. cbn [bind]. rewrite app_nil_r. apply E0. rewrite over_length; congruence.
  - intros c Hc. now rewrite E.
  - intros c Hc. now rewrite E.
Qed.
Lemma steady1_need (k : list N -> res (list N)) n : steady1 k -> steady1 (fun b => need n in b ;; k b).
Proof.
  intros Hk l. destruct (Nat.ltb_spec l n) as [X|X].
  - right. left. exists EUnexpectedEOF. intros c <-. now destruct (Nat.ltb_spec (length c) n); [|lia].
  - three1 Hk l; [left; exists w; split; [exact L|]|right; left; exists e|right; right].
    + intros c r Hc. rewrite app_length. destruct (Nat.ltb_spec (length c + length r) n); [lia|]. now apply E.
    + intros c Hc. destruct (Nat.ltb_spec (length c) n); [lia|]. now apply E.
    + intros c Hc. destruct (Nat.ltb_spec (length c) n); [lia|]. now apply E.
Qed.

(** ** The writers *)
Lemma splice_over lo s c r : lo + length s <= length c ->
  firstn lo (c ++ r) ++ s ++ skipn (lo + length s) (c ++ r) = over (hole lo ++ map Some s ++ hole (length c - lo - length s)) c ++ r.
Proof.
  intros H. rewrite firstn_app, skipn_app. replace (lo - length c) with 0 by lia. replace (lo + length s - length c) with 0 by lia. cbn [firstn skipn]. rewrite app_nil_r.
  set (a := firstn lo c). set (t := skipn (lo + length s) c). set (mid := firstn (length s) (skipn lo c)).
  assert (C : c = a ++ mid ++ t) by (unfold a, mid, t; rewrite <- skipn_skipn', firstn_skipn; now rewrite firstn_skipn).
  assert (La : length a = lo) by (unfold a; rewrite firstn_length; lia). assert (Lm : length mid = length s) by (unfold mid; rewrite firstn_length, skipn_length; lia).
  assert (Lt : length c - lo - length s = length t) by (unfold t; rewrite skipn_length; lia). rewrite Lt. rewrite C at 1. rewrite over_app by (unfold hole; rewrite repeat_length; lia). rewrite over_app by (rewrite map_length; lia).
  rewrite <- La at 1. rewrite over_hole, over_some, over_hole by exact Lm. now rewrite <- !app_assoc.
Qed.
Lemma steady_put o s : steady1 (fun b => put b o s).
Proof.
  intros n. unfold put. destruct (Nat.leb_spec (o + length s) n) as [H|H].
  - left. exists (hole o ++ map Some s ++ hole (n - o - length s)). split; [unfold hole; rewrite !app_length, !repeat_length, map_length; lia|]. intros c r <-. rewrite app_length.
    destruct (Nat.leb_spec (o + length s) (length c + length r)); [|lia]. now rewrite splice_over.
  - right. right. intros c <-. destruct (Nat.leb_spec (o + length s) (length c)); [lia|reflexivity].
Qed.
Lemma steady_copy lo hi s : steady1 (fun b => copy_range b lo hi s).
Proof.
  intros n. unfold copy_range. destruct (Nat.leb_spec lo hi) as [K|K]; cbn [andb]; [|right; right; reflexivity]. destruct (Nat.leb_spec hi n) as [H|H].
  - set (x := firstn (hi - lo) s). assert (length x <= hi - lo) by (unfold x; rewrite firstn_length; lia). left. exists (hole lo ++ map Some x ++ hole (n - lo - length x)). split; [unfold hole; rewrite !app_length, !repeat_length, map_length; lia|]. intros c r <-. rewrite app_length.
    destruct (Nat.leb_spec hi (length c + length r)); [|lia]. cbv zeta. fold x. now rewrite splice_over by lia.
  - right. right. intros c <-. destruct (Nat.leb_spec hi (length c)); [lia|reflexivity].
Qed.
Ltac st := repeat first [apply steady_put|apply steady_copy|apply steady_ok|apply steady1_ok].
Lemma steady_wrb c n s o : steady (fun b => wrb c n s b o).
Proof. unfold wrb. destruct c; [|apply steady_ok]. apply steady_need, steady_bind1; st. Qed.
Lemma steady_wrn c n v o : steady (fun b => wrn c n v b o).
Proof. unfold wrn. destruct c; [|apply steady_ok]. apply steady_need, steady_bind1; st. Qed.
Lemma steady_cpb c n s o : steady (fun b => cpb c n s b o).
Proof. unfold cpb. destruct c; [|apply steady_ok]. apply steady_bind1; st. Qed.
Lemma steady_cpn c n v o : steady (fun b => cpn c n v b o).
Proof. unfold cpn. destruct c; [|apply steady_ok]. apply steady_bind1; st. Qed.
Lemma steady_cp8s c n s o : steady (fun b => cp8s c n s b o).
Proof. unfold cp8s. destruct c; [|apply steady_ok]. apply steady_bind1; [st|]. apply (@steady_bind1 nat (fun b => copy_range b _ _ s) (fun b => Ok (b, _))); st. Qed.
Lemma steady_cp16s c n s o : steady (fun b => cp16s c n s b o).
Proof. unfold cp16s. destruct c; [|apply steady_ok]. apply steady_bind1; [st|]. apply (@steady_bind1 nat (fun b => copy_range b _ _ s) (fun b => Ok (b, _))); st. Qed.
Lemma steady_cp_items l : forall o, steady (fun b => cp_items l b o).
Proof.
  induction l as [|a l IH]; intros o; cbn [cp_items]; [apply steady_ok|]. apply (@steady_bind1 nat (fun b => put b o _) (fun b => b <- copy_range b _ _ a ;; cp_items l b _)); [st|].
  apply (@steady_bind1 nat (fun b => copy_range b _ _ a) (fun b => cp_items l b _)); [st|apply IH].
Qed.
Lemma steady_cp16l c n l o : steady (fun b => cp16l c n l b o).
Proof. unfold cp16l. destruct c; [|apply steady_ok]. apply (@steady_bind1 nat (fun b => put b o _) (fun b => cp_items l b _)); [st|apply steady_cp_items]. Qed.
Lemma steady_cp_macs l : forall o, steady (fun b => cp_macs l b o).
Proof. induction l as [|a l IH]; intros o; cbn [cp_macs]; [apply steady_ok|]. apply (@steady_bind1 nat (fun b => copy_range b _ _ a) (fun b => cp_macs l b _)); [st|apply IH]. Qed.
Lemma steady_wr1x x o : steady (fun b => wr1x x b o).
Proof. unfold wr1x. apply steady_need, steady_bind1; st. Qed.
Lemma steady_wrmac c a o : steady (fun b => wrmac c a b o).
Proof.
  unfold wrmac. destruct c; [|apply steady_ok]. apply steady_need. apply (@steady_val nat (list N) (slice (octs a) 0 6) (fun s b => b <- copy_range b o (o + 6) s ;; Ok (b, o + 6))).
  - unfold slice. destruct (_ && _); discriminate.
  - intros x. apply steady_bind1; st.
Qed.

(** ** The structs *)
Create HintDb writers.
#[local] Hint Resolve steady_put steady_copy steady_wrb steady_wrn steady_cpb steady_cpn steady_cp8s steady_cp16s steady_cp16l steady_cp_macs steady_wr1x steady_wrmac steady_ok steady1_ok : writers.
Ltac sw := cbv zeta;
  repeat first
  [ solve [auto with writers]
  | apply steady1_need
  | match goal with |- steady1 (fun b => bind (put b _ _) _) => apply steady1_bind1; [apply steady_put|] end
  | match goal with |- steady1 (fun b => bind (copy_range b _ _ _) _) => apply steady1_bind1; [apply steady_copy|] end
  | match goal with |- steady1 (fun b => bind _ (fun p => let '(_, _) := p in _)) => apply steady1_bind; [solve [auto with writers]|intro] end
  | match goal with |- steady1 (fun b => if ?c then _ else _) => destruct c end ].
Lemma fteid_steady f : steady1 (fteid_marshal_to f). Proof. unfold fteid_marshal_to. sw. Qed.
Lemma fseid_steady f : steady1 (fseid_marshal_to f). Proof. unfold fseid_marshal_to. sw. Qed.
Lemma ueip_steady f : steady1 (ueip_marshal_to f). Proof. unfold ueip_marshal_to. sw. Qed.
Lemma altip_steady f : steady1 (altip_marshal_to f). Proof. unfold altip_marshal_to. sw. Qed.
Lemma srcip_steady f : steady1 (srcip_marshal_to f). Proof. unfold srcip_marshal_to. sw. Qed.
Lemma ulip_steady f : steady1 (ulip_marshal_to f). Proof. unfold ulip_marshal_to. sw. Qed.
Lemma mptcp_steady f : steady1 (mptcp_marshal_to f). Proof. unfold mptcp_marshal_to. sw. Qed.
Lemma pmf_steady f : steady1 (pmf_marshal_to f). Proof. unfold pmf_marshal_to. sw. Qed.
Lemma mcast_steady f : steady1 (mcast_marshal_to f). Proof. unfold mcast_marshal_to. sw. Qed.
Lemma volm_steady f : steady1 (volm_marshal_to f). Proof. unfold volm_marshal_to. sw. Qed.
Lemma vol3_steady f : steady1 (vol3_marshal_to f). Proof. unfold vol3_marshal_to. sw. Qed.
Lemma nue_steady f : steady1 (nue_marshal_to f). Proof. unfold nue_marshal_to. sw. Qed.
Lemma delays_steady f : steady1 (delays_marshal_to f). Proof. unfold delays_marshal_to. sw. Qed.
Lemma prate_steady f : steady1 (prate_marshal_to f). Proof. unfold prate_marshal_to. sw. Qed.
Lemma dlfl_steady f : steady1 (dlfl_marshal_to f). Proof. unfold dlfl_marshal_to. sw. Qed.
Lemma prstat_steady f : steady1 (prstat_marshal_to f). Proof. unfold prstat_marshal_to. sw. Qed.
Lemma tag_steady f : steady1 (tag_marshal_to f). Proof. unfold tag_marshal_to. sw. Qed.
Lemma sdf_steady f : steady1 (sdf_marshal_to f). Proof. unfold sdf_marshal_to. sw. Qed.
Lemma ohc_steady f : steady1 (ohc_marshal_to f). Proof. unfold ohc_marshal_to. sw. Qed.
Lemma henr_steady f : steady1 (henr_marshal_to f). Proof. unfold henr_marshal_to. sw. Qed.
Lemma macaddr_steady f : steady1 (macaddr_marshal_to f). Proof. unfold macaddr_marshal_to. sw. Qed.
Lemma upri_steady f : steady1 (upri_marshal_to f). Proof. unfold upri_marshal_to. sw. Qed.
Lemma pfdc_steady f : steady1 (pfdc_marshal_to f). Proof. unfold pfdc_marshal_to. sw. Qed.
Lemma macl_steady f : steady1 (macl_marshal_to f). Proof. unfold macl_marshal_to. sw. Qed.
Lemma rpeer_steady f : steady1 (rpeer_marshal_to f).
Proof.
  unfold rpeer_marshal_to. cbv zeta. apply steady1_need, steady1_bind1; [apply steady_put|]. apply steady1_bind; [apply steady_cpb|intros o]. apply steady1_bind; [apply steady_cpb|intros o1]. apply steady1_bind.
  - destruct (has3 (rg_flags f)); [|apply steady_ok]. apply (@steady_bind nat nat (fun b => cpn true 2 (rg_dilen f) b o1) (fun b o => b <- put b o [rg_di f] ;; Ok (b, o + N.to_nat (rg_dilen f)))); [apply steady_cpn|].
    intros o2. apply steady_bind1; [apply steady_put|apply steady_ok].
  - intros o2. destruct (has4 (rg_flags f)); [|apply steady1_ok]. apply (@steady1_bind nat (fun b => cpn true 2 (rg_nilen f) b o2) (fun b o => copy_range b o _ (rg_ni f))); [apply steady_cpn|intros o3; apply steady_copy].
Qed.
Lemma swapped_nofuel s : str_to_swapped s ascii_f <> Fuel.
Proof. pose proof (bcd_any true s) as E. unfold bcd_octets in E. rewrite E. destruct (_ || _); discriminate. Qed.
Lemma steady_cpbcd c n s o : steady (fun b => cpbcd c n s b o).
Proof.
  destruct c; [|apply steady_ok]. unfold cpbcd. apply steady_bind1; [apply steady_put|]. apply steady_val; [apply swapped_nofuel|intros v]. apply steady_bind1; [apply steady_copy|apply steady_ok].
Qed.
Lemma userid_steady f : steady1 (userid_marshal_to f).
Proof.
  unfold userid_marshal_to. cbv zeta. apply steady1_need, steady1_bind1; [apply steady_put|].
  apply steady1_bind; [apply steady_cpbcd|intros o1]. apply steady1_bind; [apply steady_cpbcd|intros o2]. apply steady1_bind; [apply steady_cpbcd|intros o3]. sw.
Qed.
Lemma trace_steady f : steady1 (trace_marshal_to f).
Proof.
  unfold trace_marshal_to. cbv zeta. apply steady1_need. apply (@steady1_val (list N) (encode_plmn (ti_mcc f) (ti_mnc f))); [|intros p; sw].
  rewrite plmn_any. destruct (_ && _); [|discriminate]. destruct (_ || _); discriminate.
Qed.
(** the length in the checks of Redirect Information is that of the buffer at any time *)
Lemma redir_steady f : steady1 (redir_marshal_to f).
Proof.
  set (n := N.to_nat (ri_len f)).
  assert (H : steady1 (fun b => need 1 in b ;; b <- put b 0 [ri_type f] ;; need (1 + n) in b ;; b <- put b 1 (be 2 (ri_len f)) ;; b <- copy_range b 3 (3 + n) (ri_addr f) ;;
     match ri_other f with [] => put b (3 + n) (be 2 (ri_olen f)) | _ => need (3 + n + N.to_nat (ri_olen f)) in b ;; b <- put b (3 + n) (be 2 (ri_olen f)) ;; copy_range b (3 + n + 2) (3 + n + 2 + N.to_nat (ri_olen f)) (ri_other f) end)).
  { apply steady1_need. sw. }
  intros l. specialize (H l). 
  assert (E : forall b, redir_marshal_to f b = (fun b => need 1 in b ;; b <- put b 0 [ri_type f] ;; need (1 + n) in b ;; b <- put b 1 (be 2 (ri_len f)) ;; b <- copy_range b 3 (3 + n) (ri_addr f) ;;
     match ri_other f with [] => put b (3 + n) (be 2 (ri_olen f)) | _ => need (3 + n + N.to_nat (ri_olen f)) in b ;; b <- put b (3 + n) (be 2 (ri_olen f)) ;; copy_range b (3 + n + 2) (3 + n + 2 + N.to_nat (ri_olen f)) (ri_other f) end) b).
  { intros b. unfold redir_marshal_to. cbv zeta beta. fold n. change (1 + 2) with 3. destruct (length b <? 1); [reflexivity|].
    destruct (@FieldsProofs4c.put_cases b 0 [ri_type f]) as [->|(b1 & -> & L1 & _)]; [reflexivity|]. cbn [bind]. rewrite L1. destruct (length b <? 1 + n); [reflexivity|].
    destruct (@FieldsProofs4c.put_cases b1 1 (be 2 (ri_len f))) as [->|(b2 & -> & L2 & _)]; [reflexivity|]. cbn [bind].
    destruct (@FieldsProofs4c.copy_range_cases b2 3 (3 + n) (ri_addr f)) as [->|(b3 & -> & L3 & _)]; [reflexivity|]. cbn [bind]. rewrite L3, L2, L1. reflexivity. }
  destruct H as [(w & L & H)|[(e & H)|H]]; [left; exists w; split; [exact L|]|right; left; exists e|right; right]; intros; rewrite E; now apply H.
Qed.
Theorem fields_steady f : steady1 (marshal_to_fields f).
Proof.
  destruct f as [x|x|x|x|x|x|x|x|x|x|x|x|x|x|x|x|x|x|x|x|x|x|x|x|x|x|x|x].
  - exact (fteid_steady x).
  - exact (fseid_steady x).
  - exact (ueip_steady x).
  - exact (altip_steady x).
  - exact (srcip_steady x).
  - exact (ulip_steady x).
  - exact (mptcp_steady x).
  - exact (pmf_steady x).
  - exact (rpeer_steady x).
  - exact (mcast_steady x).
  - exact (volm_steady x).
  - exact (vol3_steady x).
  - exact (nue_steady x).
  - exact (delays_steady x).
  - exact (prate_steady x).
  - exact (dlfl_steady x).
  - exact (prstat_steady x).
  - exact (tag_steady x).
  - exact (sdf_steady x).
  - exact (ohc_steady x).
  - exact (userid_steady x).
  - exact (henr_steady x).
  - exact (redir_steady x).
  - exact (macaddr_steady x).
  - exact (upri_steady x).
  - exact (trace_steady x).
  - exact (pfdc_steady x).
  - exact (macl_steady x).
Qed.
