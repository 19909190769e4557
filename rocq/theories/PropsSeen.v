(** C100: results of accessors after the receive buffer was used again. *)
From Verif Require Import Base IETypes IE Bits Codec Fields1 Access AccTable AccRun Seen SeenProofs SeenMem SeenProofs2.
From Verif Require Import Alias AliasProofs AliasProofs2.

(** [reads h b i a x]: with the memory h, the IE i was parsed from the buffer b and its accessor a returned x. *)
Definition reads g (h : heap) (b : sl) (i : sie) (a : acc) (x : sval) : Prop :=
  valid h b /\ sparse g h b = Ok i /\ saccess g h a i = Ok x.
Lemma reads_within g h b i a x : reads g h b i a x -> proper h x /\ forall s, In s (reach x) -> within s b.
Proof.
  intros (V & P & A). destruct (sparse_within g h b i V P) as (Vi & W).
  assert (Ii : In (spay i) (slices i)) by (destruct i; now left).
  destruct (@saccess_sims g h a i (Vi _ Ii)) as (_ & R). destruct (R x A) as (Q & S). split; [exact Q|].
  intros s Hs. eapply within_trans; [apply S, Hs|apply W, Ii].
Qed.

(** Read at once, a result is the one of the accessor properties (C39, C69 to C72), and so are the errors. *)
Theorem C100_now : forall g h b a, valid h b ->
  rmap (shown h) (i <- sparse g h b ;; saccess g h a i) = (i <- parse g (rd h b) ;; access g a i).
Proof.
  intros g h b a V. rewrite <- (sparse_sim g h b V). destruct (sparse g h b) as [i| | |] eqn:E; try reflexivity. cbn [bind rmap].
  destruct (sparse_within g h b i V E) as (Vi & _). apply saccess_sims, Vi. destruct i; now left.
Qed.
Print Assumptions C100_now.
(** Nothing outside the buffer matters. *)
Theorem C100_buffer : forall g h b i a x h', reads g h b i a x -> rd h' b = rd h b -> shown h' x = shown h x.
Proof.
  intros g h b i a x h' R E. destruct (reads_within _ _ _ _ _ _ R) as (_ & W).
  assert (S : forall s, In s (reach x) -> rd h' s = rd h s).
  { intros s Hs. destruct (rd_within s b (W s Hs)) as (o & n & _ & F). now rewrite !F, E. }
  destruct x as [v|s|l|v p]; cbn [shown reach] in *; [reflexivity| | |].
  - now rewrite S by now left.
  - f_equal. apply map_ext_in. intros j Hj. apply view_same. intros s Hs. apply S, in_flat_map. eauto.
  - now rewrite S by now left.
Qed.
Print Assumptions C100_buffer.
(** Numbers, pairs and lists of numbers, strings, node IDs, times and durations stay as they were, whatever comes into the buffer. *)
Theorem C100_copy : forall g h b i a x h', reads g h b i a x ->
  match shown h x with VB _ | VIEs _ | VF _ => True | v => shown h' x = v end.
Proof. intros g h b i a x h' _. destruct x as [v| | |]; cbn; auto. destruct v; auto. Qed.
Print Assumptions C100_copy.
(** Octet strings are a fixed window of the buffer, whatever it holds. *)
Theorem C100_octets : forall g h b i a x y, reads g h b i a x -> shown h x = VB y ->
  exists o n, o + n <= slen b /\ forall h', shown h' x = VB (firstn n (skipn o (rd h' b))).
Proof.
  intros g h b i a x y R E. destruct (reads_within _ _ _ _ _ _ R) as (P & W). destruct x as [v|s|l|v p]; try discriminate.
  - cbn in E. subst v. destruct P.
  - destruct (rd_within s b (W s (or_introl eq_refl))) as (o & n & L & F). exists o, n. split; [exact L|]. intros h'. cbn. now rewrite F.
Qed.
Print Assumptions C100_octets.
(** IEs keep type, length, vendor and nesting; their values are windows of the buffer. *)
Theorem C100_ies : forall g h b i a x y, reads g h b i a x -> shown h x = VIEs y ->
  exists ws, Forall (fun w => inside w (slen b)) ws /\ forall h', shown h' x = VIEs (map (fill (rd h' b)) ws).
Proof.
  intros g h b i a x y R E. destruct (reads_within _ _ _ _ _ _ R) as (P & W). destruct x as [v|s|l|v p]; try discriminate.
  - cbn in E. subst v. destruct P.
  - cbn [reach shown] in *. clear E R P. induction l as [|j l IH]; [exists []; split; [constructor|reflexivity]|].
    destruct IH as (ws & F & V); [intros s Hs; apply W; cbn; apply in_or_app; now right|].
    destruct (win_of j b) as (w & Iw & Vw); [intros s Hs; apply W; cbn; apply in_or_app; now left|].
    exists (w :: ws). split; [now constructor|]. intros h'. specialize (V h'). injection V as V. cbn. now rewrite Vw, V.
Qed.
Print Assumptions C100_ies.
(** Structs: the IP addresses and the listed MAC addresses ([slots]) are windows of the buffer, all else ([rest]) is a copy.  Together they are the
    struct. *)
Theorem C100_struct : forall g h b i a x f, reads g h b i a x -> shown h x = VF f ->
  exists ws, Forall (fits (slen b)) ws /\
    forall h', exists f', shown h' x = VF f' /\ slots f' = map (see (rd h' b)) ws /\ rest f' = rest f.
Proof.
  intros g h b i a x f R E. destruct (reads_within _ _ _ _ _ _ R) as (P & W). destruct x as [v|s|l|v p]; try discriminate.
  - cbn in E. subst v. exists []. split; [constructor|]. intros h'. exists f. cbn in *. auto.
  - cbn [reach shown proper] in *. injection E as E. destruct P as (k & Ev). destruct (@fseen_places k _ _ Ev) as (T & V).
    destruct (rd_within p b (W p (or_introl eq_refl))) as (o & n & L & F).
    assert (Ln : length (rd h p) = n).
    { rewrite F, firstn_length, skipn_length, rd_length by apply R. lia. }
    set (x0 := hd 0%N (rd h p)) in *.
    exists (map (option_map (fun q => (o + fst q, snd q))) (places k x0)). rewrite Ln in T. split.
    + apply Forall_map. eapply Forall_impl; [|exact T]. intros [[c d]|]; cbn; lia.
    + intros h'. exists (v (rd h' p)). split; [reflexivity|]. destruct (V (rd h' p)) as (-> & ->). split; [|now rewrite <- E].
      rewrite map_map. apply map_ext_in. intros [[c d]|] Hin; [|reflexivity]. rewrite Forall_forall in T. specialize (T _ Hin). cbn in T.
      cbn [option_map see fst snd]. f_equal. unfold window. rewrite F, skipn_firstn_comm, firstn_firstn, <- skipn_add, Nat.min_l by lia. reflexivity.
Qed.
Print Assumptions C100_struct.
Theorem C100_parts : forall f f', slots f = slots f' -> rest f = rest f' -> f = f'.
Proof. exact parts. Qed.
Print Assumptions C100_parts.
(** The windows of a struct depend on the first octet of the payload only.  So when the buffer has come to hold, at the same place, another value of the
    same kind with the same first octet, the struct decoded before shows the addresses of the new one beside the numbers of the old one. *)
Theorem C100_mixed : forall k h h' p v f', fseen k (rd h p) = Ok v -> fparse k (rd h' p) = Ok (VF f') -> hd 0%N (rd h' p) = hd 0%N (rd h p) ->
  slots (v (rd h' p)) = slots f' /\ rest (v (rd h' p)) = rest (v (rd h p)).
Proof.
  intros k h h' p v f' E E' H. rewrite fseen_now in E'. apply bind_ok in E'. destruct E' as (v' & E' & Ef). injection Ef as <-.
  destruct (@fseen_places k _ _ E) as (_ & V). destruct (@fseen_places k _ _ E') as (_ & V'). destruct (V (rd h' p)) as (S & R).
  split; [|exact R]. destruct (V' (rd h' p)) as (-> & _). now rewrite S, H.
Qed.
Print Assumptions C100_mixed.
(** Structs without addresses, and the MAC Address struct, which copies them, do not change at all. *)
Definition owned : list fkind :=
  [K_CTAG; K_STAG; K_DLFlowLevelMarking; K_HeaderEnrichment; K_MACAddress; K_NumberOfUEIPAddresses; K_PacketDelayThresholds; K_PacketRateStatus; K_PacketRate;
   K_PFDContents; K_QoSMonitoringMeasurement; K_RedirectInformation; K_SDFFilter; K_SubsequentVolumeQuota; K_SubsequentVolumeThreshold; K_TraceInformation;
   K_UserID; K_VolumeMeasurement; K_VolumeQuota; K_VolumeThreshold].
Theorem C100_owned : forall k b v m, fseen k b = Ok v -> In k owned -> v m = v b.
Proof.
  intros k b v m E I. destruct (@fseen_places k _ _ E) as (_ & V). cbn [hd] in V.
  assert (P : places k (hd 0%N b) = []) by (cbn [owned In] in I; repeat (destruct I as [<-|I]; [reflexivity|]); destruct I).
  rewrite P in V. destruct (V m) as (S & R), (V b) as (S' & _). cbn [map] in S, S'. apply parts; congruence.
Qed.
Print Assumptions C100_owned.
(** every other kind has a value that does change *)
Theorem C100_shared : forall k, ~ In k owned -> exists b v m, fseen k b = Ok v /\ length m = length b /\ hd 0%N m = hd 0%N b /\ v m <> v b.
Proof.
  intros k H. set (x := match k with K_MACAddressesDetected | K_MACAddressesRemoved => 0%N | K_OuterHeaderCreation => 5%N | _ => 3%N end).
  exists (x :: repeat 0%N 40).
  cut ((exists f, fparse k (x :: repeat 0%N 40) = Ok (VF f)) /\ map (see (x :: repeat 0%N 40)) (places k x) <> map (see (x :: repeat 1%N 40)) (places k x)).
  { intros ((f & E) & D). rewrite fseen_now in E. apply bind_ok in E. destruct E as (v & E & _). exists v, (x :: repeat 1%N 40).
    split; [exact E|]. split; [reflexivity|]. split; [reflexivity|]. intros Q. apply D. destruct (@fseen_places k _ _ E) as (_ & V). cbn [hd] in V.
    rewrite <- (proj1 (V (x :: repeat 0%N 40))), <- (proj1 (V (x :: repeat 1%N 40))). now rewrite Q. }
  subst x. destruct k; try (exfalso; apply H; unfold owned; solve [repeat first [left; reflexivity | right]]);
    (split; [eexists; vm_compute; reflexivity|intros E; vm_compute in E; discriminate E]).
Qed.
Print Assumptions C100_shared.
(** "What an accessor returned stays what it was" is false: the F-SEID of a session, kept while the next datagram comes into the same buffer, is neither
    the one received first nor the one received next: the SEID of the first with the address of the second. *)
Theorem C100_refuted : exists h h' b i x f1 f2 f,
  reads default_grouped h b i A_FSEID x /\ shown h x = VF (F_fseid f1) /\
  (j <- parse default_grouped (rd h' b) ;; access default_grouped A_FSEID j) = Ok (VF (F_fseid f2)) /\
  shown h' x = VF (F_fseid f) /\ f <> f1 /\ f <> f2 /\ fs_seid f = fs_seid f1 /\ fs_v4 f = fs_v4 f2.
Proof.
  exists [[0;57;0;13;2;0;0;0;0;0;0;0;1;192;0;2;1]]%N, [[0;57;0;13;2;0;0;0;0;0;0;0;2;198;51;100;7]]%N, (mkSl 0 0 17). do 5 eexists.
  split; [split; [right; split; [constructor|cbn; lia]|split; vm_compute; reflexivity]|].
  split; [vm_compute; reflexivity|]. split; [vm_compute; reflexivity|]. split; [vm_compute; reflexivity|].
  split; [intros E; vm_compute in E; discriminate E|]. split; [intros E; vm_compute in E; discriminate E|]. split; reflexivity.
Qed.
Print Assumptions C100_refuted.
(** Apply Action inside Create FAR: the octets at 14 and 15 of the buffer; FAR ID: a number *)
Example C100_ex : let h := [[0;3;0;14; 0;108;0;4;0;0;0;1; 0;44;0;2;2;0]]%N in let h' := [[9;9;9;9; 9;9;9;9;9;9;9;9; 9;9;9;9;7;8]]%N in let b := mkSl 0 0 18 in
  exists i x y, reads default_grouped h b i A_ApplyAction x /\ shown h x = VB [2;0]%N /\ shown h' x = VB [7;8]%N /\
    reads default_grouped h b i A_FARID y /\ shown h y = VN 1 /\ shown h' y = VN 1.
Proof.
  cbv zeta. exists (mkSIE 3 14 0 (mkSl 0 4 14) [mkSIE 108 4 0 (mkSl 0 8 4) []; mkSIE 44 2 0 (mkSl 0 16 2) []]), (SB (mkSl 0 16 2)), (SV (VN 1)).
  assert (V : valid [[0;3;0;14; 0;108;0;4;0;0;0;1; 0;44;0;2;2;0]]%N (mkSl 0 0 18)) by (right; split; [constructor|cbn; lia]).
  repeat split; try exact V; vm_compute; reflexivity.
Qed.
