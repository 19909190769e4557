(** Proofs about Seen.v. *)
From Verif Require Import Base IETypes IE Bits Codec Utils Fields1 Time Fields2 Fields3 Fields4 Access Seen.
Set Implicit Arguments.

(** the members of a struct that are slices of its payload, and the struct without them *)
Definition slots (f : fields) : list bslice :=
  match f with
  | F_fteid f => [ft_v4 f; ft_v6 f]
  | F_fseid f => [fs_v4 f; fs_v6 f]
  | F_ueip f => [ue_v4 f; ue_v6 f]
  | F_altip f => [ai_v4 f; ai_v6 f]
  | F_srcip f => [si_v4 f; si_v6 f]
  | F_ulip f => [ul_v4 f; ul_v6 f; ul_nv4 f; ul_nv6 f]
  | F_mptcp f => [mp_v4 f; mp_v6 f]
  | F_pmf f => [pm_v4 f; pm_v6 f]
  | F_rpeer f => [rg_v4 f; rg_v6 f]
  | F_mcast f => [mc_sv4 f; mc_sv6 f; mc_ev4 f; mc_ev6 f]
  | F_ohc f => [oh_v4 f; oh_v6 f]
  | F_upri f => [up_v4 f; up_v6 f]
  | F_macl f => map Some (ml_macs f)
  | _ => []
  end.
Definition rest (f : fields) : fields :=
  match f with
  | F_fteid f => F_fteid {| ft_flags := ft_flags f; ft_teid := ft_teid f; ft_v4 := None; ft_v6 := None; ft_chid := ft_chid f |}
  | F_fseid f => F_fseid {| fs_flags := fs_flags f; fs_seid := fs_seid f; fs_v4 := None; fs_v6 := None |}
  | F_ueip f => F_ueip {| ue_flags := ue_flags f; ue_v4 := None; ue_v6 := None; ue_v6d := ue_v6d f; ue_v6pl := ue_v6pl f |}
  | F_altip f => F_altip {| ai_flags := ai_flags f; ai_v4 := None; ai_v6 := None |}
  | F_srcip f => F_srcip {| si_flags := si_flags f; si_v4 := None; si_v6 := None; si_mpl := si_mpl f |}
  | F_ulip f => F_ulip {| ul_flags := ul_flags f; ul_v4 := None; ul_v6 := None; ul_nv4 := None; ul_nv6 := None |}
  | F_mptcp f => F_mptcp {| mp_flags := mp_flags f; mp_type := mp_type f; mp_port := mp_port f; mp_v4 := None; mp_v6 := None |}
  | F_pmf f => F_pmf {| pm_flags := pm_flags f; pm_v4 := None; pm_v6 := None; pm_port1 := pm_port1 f; pm_port2 := pm_port2 f; pm_mac1 := pm_mac1 f; pm_mac2 := pm_mac2 f |}
  | F_rpeer f => F_rpeer {| rg_flags := rg_flags f; rg_v4 := None; rg_v6 := None; rg_dilen := rg_dilen f; rg_di := rg_di f; rg_nilen := rg_nilen f; rg_ni := rg_ni f |}
  | F_mcast f => F_mcast {| mc_flags := mc_flags f; mc_sv4 := None; mc_sv6 := None; mc_ev4 := None; mc_ev6 := None |}
  | F_ohc f => F_ohc {| oh_desc := oh_desc f; oh_teid := oh_teid f; oh_v4 := None; oh_v6 := None; oh_port := oh_port f; oh_ctag := oh_ctag f; oh_stag := oh_stag f |}
  | F_upri f => F_upri {| up_flags := up_flags f; up_range := up_range f; up_v4 := None; up_v6 := None; up_ni := up_ni f; up_si := up_si f |}
  | F_macl f => F_macl {| ml_n := ml_n f; ml_macs := []; ml_ctlen := ml_ctlen f; ml_ctag := ml_ctag f; ml_stlen := ml_stlen f; ml_stag := ml_stag f |}
  | f => f
  end.
(** together they are the struct *)
Lemma parts f f' : slots f = slots f' -> rest f = rest f' -> f = f'.
Proof.
  destruct f as [x|x|x|x|x|x|x|x|x|x|x|x|x|x|x|x|x|x|x|x|x|x|x|x|x|x|x|x], f' as [y|y|y|y|y|y|y|y|y|y|y|y|y|y|y|y|y|y|y|y|y|y|y|y|y|y|y|y];
    cbn [slots rest]; intros Hs Hr; try discriminate Hr; try exact Hr;
    (* the layouts with slices *)
    try (destruct x, y; cbn in *; injection Hr; injection Hs; intros; subst; reflexivity).
  destruct x as [n macs ctl ct stl st], y as [n' macs' ctl' ct' stl' st']; cbn in *. injection Hr; intros; subst.
  assert (E : forall a b : list (list N), map Some a = map Some b -> a = b)
    by (induction a as [|x a IH]; intros [|y b] E; try discriminate; [reflexivity|cbn in E; injection E; intros; subst; f_equal; auto]).
  apply E in Hs. subst. reflexivity.
Qed.

(** a slice by its position, None for nil *)
Definition see (m : list N) (w : option (nat * nat)) : bslice := match w with Some (o, n) => Some (window o n m) | None => None end.
Definition fits (l : nat) (w : option (nat * nat)) : Prop := match w with Some (o, n) => o + n <= l | None => True end.
Definition at_ (c : bool) (o n : nat) : option (nat * nat) := if c then Some (o, n) else None.

Lemma rdw_inv c n b o w o' : rdw c n b o = Ok (w, o') ->
  w = (fun m => see m (at_ c o n)) /\ o' = o + len_if c n /\ fits (length b) (at_ c o n).
Proof.
  unfold rdw, at_, len_if. destruct c.
  - destruct (Nat.ltb_spec (length b) (o + n)); [discriminate|]. rewrite slice_ok by lia. cbn [bind]. intros [= <- <-]. repeat split. cbn. lia.
  - intros [= <- <-]. repeat split. lia.
Qed.
Lemma rdb_inv' c n b o x o' : rdb c n b o None = Ok (x, o') -> x = see b (at_ c o n) /\ o' = o + len_if c n.
Proof.
  unfold rdb, rd, at_, len_if, see, window. destruct c.
  - destruct (Nat.ltb_spec (length b) (o + n)); [discriminate|]. rewrite slice_ok by lia. cbn [bind]. intros [= <- <-].
    split; [|reflexivity]. now replace (o + n - o) with n by lia.
  - intros [= <- <-]. split; [reflexivity|lia].
Qed.
Definition at_once {A} (b : list N) (r : res ((list N -> A) * nat)) : res (A * nat) := '(w, o) <- r ;; Ok (w b, o).
Lemma rdw_rdb c n b o : rdb c n b o None = at_once b (rdw c n b o).
Proof.
  unfold rdb, rd, rdw, at_once, window. destruct c; [|reflexivity].
  destruct (Nat.ltb_spec (length b) (o + n)); [reflexivity|]. rewrite slice_ok by lia. cbn [bind].
  now replace (o + n - o) with n by lia.
Qed.
Lemma rdw_to4 c b o w o' : rdw c 4 b o = Ok (w, o') -> to4 (w b) = w b.
Proof.
  intros E. apply rdw_inv in E. destruct E as (-> & _ & F). destruct c; [|reflexivity]. unfold see, at_, fits, to4, window in *.
  now rewrite firstn_length, skipn_length, Nat.min_l by lia.
Qed.
Lemma rdw_to16 c b o w o' : rdw c 16 b o = Ok (w, o') -> to16 (w b) = w b.
Proof.
  intros E. apply rdw_inv in E. destruct E as (-> & _ & F). destruct c; [|reflexivity]. unfold see, at_, fits, to16, window in *.
  now rewrite firstn_length, skipn_length, Nat.min_l by lia.
Qed.

(** * What is read at once is what the decoder of Fields1.v to Fields4.v returns *)
Definition now {A} (b : list N) (r : res (list N -> A)) : res A := v <- r ;; Ok (v b).
Lemma now_ok A b (v : list N -> A) : now b (Ok v) = Ok (v b). Proof. reflexivity. Qed.
Lemma now_if A b (c : bool) (x y : res (list N -> A)) : now b (if c then x else y) = if c then now b x else now b y.
Proof. destruct c; reflexivity. Qed.
Lemma now_same A B b (r : res A) (k1 : A -> res B) k2 : (forall x, r = Ok x -> k1 x = now b (k2 x)) -> bind r k1 = now b (bind r k2).
Proof. destruct r; cbn; auto. Qed.
Lemma now_read A c n b o (k1 : _ -> res A) k2 :
  (forall w e, rdw c n b o = Ok (w, e) -> k1 (w b, e) = now b (k2 (w, e))) ->
  bind (rdb c n b o None) k1 = now b (bind (rdw c n b o) k2).
Proof. rewrite rdw_rdb. destruct (rdw c n b o) as [[w e]| | |]; cbn; auto. Qed.
Ltac step := match goal with
  | |- (if ?c then _ else _) = now _ (if ?c then _ else _) => destruct c; [try reflexivity|try reflexivity]
  | |- bind (rdb _ _ _ _ None) _ = now _ (bind (rdw _ _ _ _) _) => apply now_read; intros ? ? ?
  | |- bind ?r _ = now _ (bind ?r _) => apply now_same; let x := fresh in intros x _; try (destruct x as [[? ?] ?]); try (destruct x as [? ?])
  | |- Ok _ = now _ (Ok _) => rewrite now_ok
  end.
Ltac fix_to := repeat match goal with
  | E : rdw _ 4 ?b _ = Ok (?w, _) |- _ => progress rewrite ?(rdw_to4 _ _ _ E)
  | E : rdw _ 16 ?b _ = Ok (?w, _) |- _ => progress rewrite ?(rdw_to16 _ _ _ E)
  end.
Lemma fteid_now b : fteid_parse b = now b (fteid_seen b).
Proof. unfold fteid_parse, fteid_seen. cbv zeta. repeat step; reflexivity. Qed.
Lemma fseid_now b : fseid_parse b = now b (fseid_seen b).
Proof. unfold fseid_parse, fseid_seen. cbv zeta. repeat step; reflexivity. Qed.
Lemma altip_now b : altip_parse b = now b (altip_seen b).
Proof. unfold altip_parse, altip_seen. cbv zeta. repeat step; reflexivity. Qed.
Lemma srcip_now b : srcip_parse b = now b (srcip_seen b).
Proof. unfold srcip_parse, srcip_seen. cbv zeta. repeat step; reflexivity. Qed.
Lemma ulip_now b : ulip_parse b = now b (ulip_seen b).
Proof. unfold ulip_parse, ulip_seen. cbv zeta. repeat step; reflexivity. Qed.
Lemma mptcp_now b : mptcp_parse b = now b (mptcp_seen b).
Proof. unfold mptcp_parse, mptcp_seen. cbv zeta. repeat step; reflexivity. Qed.
Lemma pmf_now b : pmf_parse b = now b (pmf_seen b).
Proof. unfold pmf_parse, pmf_seen. cbv zeta. repeat step; reflexivity. Qed.
Lemma mcast_now b : mcast_parse b = now b (mcast_seen b).
Proof. unfold mcast_parse, mcast_seen. cbv zeta. repeat step; reflexivity. Qed.
Lemma ueip_now b : ueip_parse b = now b (ueip_seen b).
Proof. unfold ueip_parse, ueip_seen. cbv zeta. repeat step; fix_to; reflexivity. Qed.
Lemma rpeer_now b : rpeer_parse b = now b (rpeer_seen b).
Proof. unfold rpeer_parse, rpeer_seen. cbv zeta. repeat step; fix_to; reflexivity. Qed.
Lemma ohc_now b : ohc_parse b = now b (ohc_seen b).
Proof. unfold ohc_parse, ohc_seen. cbv zeta. repeat step; fix_to; reflexivity. Qed.
Lemma upri_now b : upri_parse b = now b (upri_seen b).
Proof. unfold upri_parse, upri_seen. cbv zeta. repeat step; fix_to; reflexivity. Qed.
Lemma macs_now b : forall k o, rd_macs k b o = at_once b (macs_seen k b o).
Proof.
  induction k as [|k IH]; intros o; [reflexivity|]. cbn [rd_macs macs_seen]. unfold rd.
  destruct (Nat.ltb_spec (length b) (o + 6)); [reflexivity|]. rewrite slice_ok by lia. cbn [bind]. rewrite IH.
  destruct (macs_seen k b (o + 6)) as [[r e]| | |]; try reflexivity. unfold window. cbn [at_once bind]. now replace (o + 6 - o) with 6 by lia.
Qed.
Lemma macl_now b : macl_parse b = now b (macl_seen b).
Proof.
  unfold macl_parse, macl_seen. step. apply now_same; intros n _. rewrite macs_now.
  destruct (macs_seen (S (N.to_nat n)) b 1) as [[r e]| | |]; try reflexivity. cbn [at_once bind]. repeat step; reflexivity.
Qed.

Theorem fseen_now k b : fparse k b = (v <- fseen k b ;; Ok (VF (v b))).
Proof.
  assert (H : forall A (c : A -> fields) r p, p = now b r -> as_f c p = (v <- seen_as c r ;; Ok (VF (v b))))
    by (intros A c r p ->; unfold as_f, seen_as; destruct r; reflexivity).
  destruct k; cbn [fseen fparse];
    try (apply H; first [apply fteid_now|apply fseid_now|apply ueip_now|apply altip_now|apply srcip_now|apply ulip_now
      |apply mptcp_now|apply pmf_now|apply rpeer_now|apply mcast_now|apply ohc_now|apply upri_now|apply macl_now]);
    unfold as_f; match goal with |- bind ?r _ = _ => destruct r; reflexivity end.
Qed.

(** * Where the slices are: given by the first octet of the payload *)
Definition v4v6 (c4 c6 : bool) (o : nat) : list (option (nat * nat)) := [at_ c4 o 4; at_ c6 (o + len_if c4 4) 16].
Definition v6v4 (c4 c6 d4 d6 : bool) (o : nat) : list (option (nat * nat)) :=
  v4v6 c4 c6 o ++ v4v6 d4 d6 (o + len_if c4 4 + len_if c6 16).
Definition places (k : fkind) (x : N) : list (option (nat * nat)) :=
  match k with
  | K_FTEID => if has3 x then [None; None] else v4v6 (has1 x) (has2 x) 5
  | K_FSEID => v4v6 (has2 x) (has1 x) 9
  | K_UEIPAddress => v4v6 (has2 x && negb (has5 x)) (has1 x && negb (has6 x)) 1
  | K_AlternativeSMFIPAddress | K_CPPFCPEntityIPAddress | K_SourceIPAddress | K_RemoteGTPUPeer => v4v6 (has2 x) (has1 x) 1
  | K_UELinkSpecificIPAddress => v6v4 (has1 x) (has2 x) (has3 x) (has4 x) 1
  | K_MPTCPAddressInformation => v4v6 (has1 x) (has2 x) 4
  | K_PMFAddressInformation => v4v6 (has1 x) (has2 x) 1
  | K_IPMulticastAddress => if has4 x then [None; None; None; None] else v6v4 (has2 x) (has1 x) (has3 x && has2 x) (has3 x && has1 x) 1
  | K_OuterHeaderCreation => v4v6 (oh_has_v4 x) (oh_has_v6 x) (2 + len_if (oh_has_teid x) 4)
  | K_UserPlaneIPResourceInformation => v4v6 (has1 x) (has2 x) (1 + len_if (teidri x) 1)
  | K_MACAddressesDetected | K_MACAddressesRemoved => map (fun j => Some (1 + 6 * j, 6)) (seq 0 (S (N.to_nat x)))
  | _ => []
  end.

Lemma rdn_pos c n b o d x o' : rdn c n b o d = Ok (x, o') -> o' = o + len_if c n.
Proof.
  unfold rdn, rd, len_if. destruct c.
  - destruct (_ <? _); [discriminate|]. destruct (slice _ _ _); cbn; try discriminate. now intros [= <- <-].
  - intros [= <- <-]. lia.
Qed.
Lemma index_hd b x : index b 0 = Ok x -> x = hd 0%N b.
Proof. unfold index. destruct b; cbn; [discriminate|]. now intros [= <-]. Qed.
(** every successful path through a decoder *)
Definition ok_with {A} (r : res A) (P : A -> Prop) : Prop := forall a, r = Ok a -> P a.
Lemma ok_bind {A B} (r : res A) (k : A -> res B) P : (forall a, r = Ok a -> ok_with (k a) P) -> ok_with (bind r k) P.
Proof. intros H b E. apply bind_ok in E. destruct E as (a & E1 & E2). eapply H; eauto. Qed.
Lemma ok_if {A} (c : bool) (x y : res A) P : (c = true -> ok_with x P) -> (c = false -> ok_with y P) -> ok_with (if c then x else y) P.
Proof. destruct c; auto. Qed.
Lemma ok_err {A} e (P : A -> Prop) : ok_with (Err e) P. Proof. intros a E. discriminate E. Qed.
Lemma ok_ok {A} a (P : A -> Prop) : P a -> ok_with (Ok a) P. Proof. intros H b [= <-]. exact H. Qed.

Definition shows {A} (c : A -> fields) (l : nat) (ws : list (option (nat * nat))) (b : list N) (v : list N -> A) : Prop :=
  Forall (fits l) ws /\ forall m, slots (c (v m)) = map (see m) ws /\ rest (c (v m)) = rest (c (v b)).
Ltac path := match goal with
  | |- ok_with (if _ then _ else _) _ => apply ok_if; intros ?
  | |- ok_with (bind (rdw _ _ _ _) _) _ => apply ok_bind; let a := fresh in let E := fresh in intros a E; destruct a; apply rdw_inv in E; destruct E as (? & ? & ?); subst; cbv beta iota
  | |- ok_with (bind (rdn _ _ _ _ _) _) _ => apply ok_bind; let a := fresh in let E := fresh in intros a E; destruct a; apply rdn_pos in E; subst; cbv beta iota
  | |- ok_with (bind (index _ 0) _) _ => apply ok_bind; let a := fresh in let E := fresh in intros a E; apply index_hd in E; subst; cbv beta iota
  | |- ok_with (bind _ _) _ => apply ok_bind; let a := fresh in let E := fresh in intros a E; try (destruct a as [[? ?] ?]); try (destruct a as [? ?]); clear E; cbv beta iota
  | |- ok_with (Err _) _ => apply ok_err
  | |- ok_with (Ok _) _ => apply ok_ok
  end.
Ltac fin := split; [repeat (apply Forall_cons; [assumption || exact I|]); apply Forall_nil|intros ?; split; reflexivity].
Ltac places_tac := cbv zeta; repeat path; unfold places, v6v4, v4v6;
  repeat match goal with E : _ = _ |- _ => rewrite E in * end; fin.
Lemma fteid_places b : ok_with (fteid_seen b) (shows F_fteid (length b) (places K_FTEID (hd 0%N b)) b).
Proof. unfold fteid_seen. places_tac. Qed.
Lemma fseid_places b : ok_with (fseid_seen b) (shows F_fseid (length b) (places K_FSEID (hd 0%N b)) b).
Proof. unfold fseid_seen. places_tac. Qed.
Lemma ueip_places b : ok_with (ueip_seen b) (shows F_ueip (length b) (places K_UEIPAddress (hd 0%N b)) b).
Proof. unfold ueip_seen. places_tac. Qed.
Lemma altip_places b : ok_with (altip_seen b) (shows F_altip (length b) (places K_AlternativeSMFIPAddress (hd 0%N b)) b).
Proof. unfold altip_seen. places_tac. Qed.
Lemma srcip_places b : ok_with (srcip_seen b) (shows F_srcip (length b) (places K_SourceIPAddress (hd 0%N b)) b).
Proof. unfold srcip_seen. places_tac. Qed.
Lemma ulip_places b : ok_with (ulip_seen b) (shows F_ulip (length b) (places K_UELinkSpecificIPAddress (hd 0%N b)) b).
Proof. unfold ulip_seen. places_tac. Qed.
Lemma mptcp_places b : ok_with (mptcp_seen b) (shows F_mptcp (length b) (places K_MPTCPAddressInformation (hd 0%N b)) b).
Proof. unfold mptcp_seen. places_tac. Qed.
Lemma pmf_places b : ok_with (pmf_seen b) (shows F_pmf (length b) (places K_PMFAddressInformation (hd 0%N b)) b).
Proof. unfold pmf_seen. places_tac. Qed.
Lemma rpeer_places b : ok_with (rpeer_seen b) (shows F_rpeer (length b) (places K_RemoteGTPUPeer (hd 0%N b)) b).
Proof. unfold rpeer_seen. places_tac. Qed.
Lemma mcast_places b : ok_with (mcast_seen b) (shows F_mcast (length b) (places K_IPMulticastAddress (hd 0%N b)) b).
Proof. unfold mcast_seen. places_tac. Qed.
Lemma ohc_places b : ok_with (ohc_seen b) (shows F_ohc (length b) (places K_OuterHeaderCreation (hd 0%N b)) b).
Proof. unfold ohc_seen. places_tac. Qed.
Lemma upri_places b : ok_with (upri_seen b) (shows F_upri (length b) (places K_UserPlaneIPResourceInformation (hd 0%N b)) b).
Proof. unfold upri_seen. places_tac. Qed.
Lemma macs_places b : forall k o, ok_with (macs_seen k b o) (fun p =>
  let ws := map (fun j => Some (o + 6 * j, 6)) (seq 0 k) in
  Forall (fits (length b)) ws /\ forall m, map Some (fst p m) = map (see m) ws).
Proof.
  induction k as [|k IH]; intros o [r e] E.
  - injection E as <- <-. split; [constructor|reflexivity].
  - cbn [macs_seen] in E. destruct (Nat.ltb_spec (length b) (o + 6)); [discriminate|]. rewrite slice_ok in E by lia. cbn [bind] in E.
    apply bind_ok in E. destruct E as ([r' e'] & E1 & [= <- <-]). destruct (IH _ _ E1) as (F & S). cbn [fst] in *.
    assert (W : map (fun j => Some (o + 6 * j, 6)) (seq 0 (Datatypes.S k)) = Some (o, 6) :: map (fun j => Some (o + 6 + 6 * j, 6)) (seq 0 k)).
    { cbn [seq map]. f_equal; [f_equal; f_equal; lia|]. rewrite <- seq_shift, map_map. apply map_ext. intros j. f_equal. f_equal. lia. }
    cbv zeta. rewrite W. split; [constructor; [cbn; lia|exact F]|]. intros m. cbn [map]. rewrite S. reflexivity.
Qed.
Lemma macl_places b : ok_with (macl_seen b) (shows F_macl (length b) (places K_MACAddressesDetected (hd 0%N b)) b).
Proof.
  unfold macl_seen. path; [path|]. path. apply ok_bind. intros [r e] E. apply macs_places in E. cbv zeta in E. cbn [fst] in E. destruct E as (F & S).
  repeat path. split; [exact F|]. intros m. split; [apply S|reflexivity].
Qed.

Theorem fseen_places k b v : fseen k b = Ok v ->
  Forall (fits (length b)) (places k (hd 0%N b)) /\
  forall m, slots (v m) = map (see m) (places k (hd 0%N b)) /\ rest (v m) = rest (v b).
Proof.
  assert (H : forall A (c : A -> fields) r ws, ok_with r (shows c (length b) ws b) -> seen_as c r = Ok v ->
    Forall (fits (length b)) ws /\ forall m, slots (v m) = map (see m) ws /\ rest (v m) = rest (v b)).
  { intros A c r ws P E. apply bind_ok in E. destruct E as (a & E & [= <-]). exact (P _ E). }
  destruct k; cbn [fseen];
    try (apply H; first [apply fteid_places|apply fseid_places|apply ueip_places|apply altip_places|apply srcip_places|apply ulip_places
      |apply mptcp_places|apply pmf_places|apply rpeer_places|apply mcast_places|apply ohc_places|apply upri_places|apply macl_places]);
    intros E; apply bind_ok in E; destruct E as (x & E & E2); cbn [fparse] in E; apply bind_ok in E; destruct E as (y & _ & [= <-]); injection E2 as <-;
    (split; [constructor|intros m; split; reflexivity]).
Qed.
