(** Property C101: slices with spare capacity; which accessors return octets from behind the element. *)
From Verif Require Import Base IETypes IE Bits Header IEProofs IEProofs2 Codec Codec2 Utils UtilsProofs Fields1 Time Fields2 Fields3 Fields4 Access AccTable AccRun
  AccProofs AccProofs2 AccProofs3 AccProofs4 FieldsProofs3 Spare SpareProofs SpareProofs2 SpareProofs3 SpareProofs4.
Set Implicit Arguments.

(** b are the octets handed to the decoder, r what lies behind them in the same array. *)

(** ** Decoding takes no octet of r, and says where payloads lie *)
Theorem C101_decode g b r : (l <- cparseMultiIEs g (length b) (b ++ r) ;; Ok (map fst l)) = parseMultiIEs g b
  /\ (x <- cparse g (length b) (b ++ r) ;; Ok (fst x)) = parse g b.
Proof. split; [exact (proj2 (decode_seen g _) b r)|exact (proj1 (decode_seen g _) b r)]. Qed.
(** the payload is a part of b, and its spare capacity is the rest of b and then r *)
Theorem C101_place g b r l i s : cparseMultiIEs g (length b) (b ++ r) = Ok l -> In (i, s) l ->
  (payload i = [] /\ s = []) \/ exists pre post, b = pre ++ payload i ++ post /\ s = post ++ r.
Proof. intros E I. apply (proj2 (decode_lies g _)) in E. rewrite Forall_forall in E. exact (E _ I). Qed.
Print Assumptions C101_decode.
Print Assumptions C101_place.

(** ** An accessor that does not panic on the element alone is not affected by what lies behind it *)
Theorem C101_kept g a i r : access g a i <> Fault -> caccess g a (i, r) = access g a i.
Proof. apply caccess_keeps. Qed.
(** and, but for thirteen pairs of accessor and type, none is, panic or not *)
Theorem C101_same g a i r : ~ In (a, ty i)
    [(A_FlowDescription, T_ApplicationDetectionInformation); (A_FlowDescription, T_FlowInformation);
     (A_PFDContents, T_ApplicationIDsPFDs); (A_PFDContents, T_PFDContext); (A_PFDContents, T_PFDContents);
     (A_SDFFilter, T_CreatePDR); (A_SDFFilter, T_PDI); (A_SDFFilter, T_SDFFilter); (A_SDFFilter, T_EthernetPacketFilter);
     (A_SubsequentTimeQuota, T_CreateURR); (A_SubsequentTimeQuota, T_UpdateURR); (A_SubsequentTimeQuota, T_SubsequentTimeQuota);
     (A_SubsequentTimeQuota, T_AdditionalMonitoringTime)] -> caccess g a (i, r) = access g a i.
Proof.
  intros H. apply caccess_same. intros (ts & I & J). apply H. cbn [over_table In] in I. cbn [In].
  repeat (destruct I as [I|I]; [assert (a = fst (a, ts)) as Ea by reflexivity; assert (ts = snd (a, ts)) as Et by reflexivity; rewrite <- I in Ea, Et; cbn [fst snd] in Ea, Et; subst a ts;
    cbn [In] in J; clear - J; repeat (destruct J as [<-|J]); try contradiction; solve [repeat first [left; reflexivity | right]]|]). destruct I.
Qed.
Print Assumptions C101_kept.
Print Assumptions C101_same.

(** ** Each of the thirteen gives different results for the same element, depending on what lies behind it *)
Definition spill (l : leaf) : option (N * list N) :=
  match l with
  | LFields K_PFDContents => Some (6, [1; 0; 0; 5; 1; 2])
  | LFields K_SDFFilter => Some (5, [1; 0; 0; 5; 1])
  | LSecs32 => Some (1, [0])
  | LFlowDescription => Some (4, [0; 0; 2; 0])
  | _ => None
  end%N.
Fixpoint spills (n : nat) (a : acc) (t : N) : option (N * list N) :=
  match n with
  | O => None
  | S n =>
      match look a t with
      | Leaf l => spill l
      | Via _ ts b => match first_some (spills n b) ts with Some (t', w) => let p := bad_child t' w in Some (lenN p, p) | None => None end
      | _ => None
      end
  end.
Definition behind1 : list N := [1; 1; 1; 1]%N.
Definition behind2 : list N := [2; 2; 2; 2]%N.
(** the octets that differ: the string of a flow description, the description of a filter, the one of a PFD, the seconds *)
Definition mark (v : val) : list N :=
  match v with
  | VS s => s
  | VF (F_sdf f) => sd_fd f
  | VF (F_pfdc f) => pc_fd f
  | VD d => [Z.to_N d]
  | _ => []
  end.
Definition spill_ok (a : acc) (t : N) : bool :=
  match spills 4 a t with
  | Some w =>
      let b := bad_child t w in
      forallb (fun x => N.ltb x 256) b &&
      match parse default_grouped b, cparse default_grouped (length b) (b ++ behind1), cparse default_grouped (length b) (b ++ behind2) with
      | Ok i, Ok x1, Ok x2 => (ty i =? t)%N &&
          match caccess default_grouped a x1, caccess default_grouped a x2 with
          | Ok v1, Ok v2 => negb (if list_eq_dec N.eq_dec (mark v1) (mark v2) then true else false)
          | _, _ => false
          end
      | _, _, _ => false
      end
  | None => false
  end.
Theorem C101_spills_refuted a t : can_overread a t ->
  exists b r1 r2 i s1 s2 v1 v2, bytes b /\ bytes r1 /\ bytes r2 /\ parse default_grouped b = Ok i /\ ty i = t
    /\ cparse default_grouped (length b) (b ++ r1) = Ok (i, s1) /\ cparse default_grouped (length b) (b ++ r2) = Ok (i, s2)
    /\ caccess default_grouped a (i, s1) = Ok v1 /\ caccess default_grouped a (i, s2) = Ok v2 /\ v1 <> v2.
Proof.
  assert (H : forallb (fun '(a, ts) => forallb (spill_ok a) ts) over_table = true) by (vm_compute; reflexivity).
  intros (ts & I & It). rewrite forallb_forall in H. specialize (H _ I). cbn beta iota in H. rewrite forallb_forall in H. specialize (H _ It).
  unfold spill_ok in H. destruct (spills 4 a t) as [w|]; [|discriminate]. cbv zeta in H. apply andb_prop in H as [H1 H2]. set (b := bad_child t w) in *.
  destruct (C101_decode default_grouped b behind1) as [_ D1]. destruct (C101_decode default_grouped b behind2) as [_ D2].
  destruct (parse default_grouped b) as [i| | |] eqn:P; try discriminate. destruct (cparse _ _ (b ++ behind1)) as [[i1 s1]| | |] eqn:P1; try discriminate.
  destruct (cparse _ _ (b ++ behind2)) as [[i2 s2]| | |] eqn:P2; try discriminate. cbn [bind fst] in D1, D2. apply andb_prop in H2 as [H2 H3]. apply N.eqb_eq in H2.
  assert (i1 = i) as -> by congruence. assert (i2 = i) as -> by congruence.
  destruct (caccess _ a (i, s1)) as [v1| | |] eqn:A1; try discriminate. destruct (caccess _ a (i, s2)) as [v2| | |] eqn:A2; try discriminate.
  exists b, behind1, behind2, i, s1, s2, v1, v2. split; [|split; [|split; [|repeat split]]]; trivial.
  - apply Forall_forall. rewrite forallb_forall in H1. intros x J. specialize (H1 x J). apply N.ltb_lt in H1. exact H1.
  - repeat constructor.
  - repeat constructor.
  - intros ->. destruct (list_eq_dec N.eq_dec (mark v2) (mark v2)); [discriminate|congruence].
Qed.
Print Assumptions C101_spills_refuted.

(** ** What they return *)
Lemma own_leaf g a i r l : look a (ty i) = Leaf l -> check (guards (acc_def a)) i = Ok tt -> caccess g a (i, r) = (v <- cleaf_run g l (i, r) ;; Ok (plain v)).
Proof.
  intros E C. unfold caccess. change (4 * S (length (payload (fst (i, r))))) with (S (length (payload i) + 3 * S (length (payload i)))).
  cbn [crun fst]. cbv zeta. rewrite C. cbn [bind]. fold (look a (ty i)). now rewrite E.
Qed.
(** SDF Filter: the flow description announces more octets than the element has.  They are taken from behind it, up to 65534 of them. *)
Theorem C101_sdf_filter g i x t s r : ty i = T_SDFFilter -> payload i = [1%N; x] ++ be 2 (lenN (t ++ s)) ++ t -> t <> [] -> (lenN (t ++ s) < 65536)%N ->
  caccess g A_SDFFilter (i, s ++ r) =
    Ok (VF (F_sdf {| sd_flags := 1; sd_fdlen := lenN (t ++ s); sd_fd := t ++ s; sd_ttc := []; sd_spi := []; sd_fl := []; sd_fid := 0 |})).
Proof.
  intros E P T B. rewrite (@own_leaf g A_SDFFilter i (s ++ r) (LFields K_SDFFilter)); [|rewrite E; reflexivity|reflexivity].
  unfold cleaf_run. cbn [fst snd]. cbv zeta. cbn [cfparse]. unfold as_f, sdf_cap.
  assert (Lp : length (payload i) = 4 + length t) by (rewrite P, !app_length, be_length; reflexivity). rewrite Lp.
  assert (0 < length t) as Lt by (destruct t; [now elim T|cbn; lia]). destruct (Nat.ltb_spec (4 + length t) 3); [lia|].
  assert (C : cindex (4 + length t) (payload i ++ s ++ r) 0 = Ok 1%N) by (rewrite <- Lp, cindex_eq, P; reflexivity). rewrite C. cbn [bind]. change (has1 1) with true. cbv iota zeta.
  unfold cfrom. destruct (Nat.leb_spec 2 (4 + length t)); [|lia]. cbn [bind]. destruct (Nat.ltb_spec (4 + length t) (2 + 3)); [lia|].
  assert (M : payload i ++ s ++ r = [1%N; x] ++ be 2 (lenN (t ++ s)) ++ (t ++ s) ++ r) by now rewrite P, <- !app_assoc. rewrite M.
  rewrite (@getr_be2 g [1%N; x]) by (reflexivity || assumption). cbn [bind]. rewrite app_assoc.
  rewrite slice_mid; [|reflexivity|unfold lenN; lia]. cbn [bind]. reflexivity.
Qed.
(** PFD Contents: the same, for a flow description of at least two octets within the element *)
Theorem C101_pfd_contents g i x t s r : ty i = T_PFDContents -> payload i = [1%N; x] ++ be 2 (lenN (t ++ s)) ++ t -> 2 <= length t -> (lenN (t ++ s) < 65536)%N ->
  exists f, caccess g A_PFDContents (i, s ++ r) = Ok (VF (F_pfdc f)) /\ pc_fd f = t ++ s /\ pc_fdlen f = lenN (t ++ s).
Proof.
  intros E P T B. rewrite (@own_leaf g A_PFDContents i (s ++ r) (LFields K_PFDContents)); [|rewrite E; reflexivity|reflexivity].
  unfold cleaf_run. cbn [fst snd]. cbv zeta. cbn [cfparse]. unfold as_f, pfdc_cap.
  assert (Lp : length (payload i) = 4 + length t) by (rewrite P, !app_length, be_length; reflexivity). rewrite Lp.
  destruct (Nat.ltb_spec (4 + length t) 2); [lia|].
  assert (C : cindex (4 + length t) (payload i ++ s ++ r) 0 = Ok 1%N) by (rewrite <- Lp, cindex_eq, P; reflexivity). rewrite C. cbn [bind]. change (has1 1) with true. cbv zeta.
  unfold crd16s at 1. unfold cfrom. destruct (Nat.leb_spec 2 (4 + length t)); [|lia]. cbn [bind]. destruct (Nat.ltb_spec (4 + length t) (2 + (2 + 2))); [lia|].
  assert (M : payload i ++ s ++ r = [1%N; x] ++ be 2 (lenN (t ++ s)) ++ (t ++ s) ++ r) by now rewrite P, <- !app_assoc. rewrite M.
  rewrite (@getr_be2 g [1%N; x]) by (reflexivity || assumption). cbn [bind].
  rewrite (app_assoc [1%N; x] (be 2 (lenN (t ++ s)))). rewrite slice_mid; [|reflexivity|unfold lenN; lia]. cbn [bind].
  eexists. split; [reflexivity|]. split; reflexivity.
Qed.
(** Subsequent Time Quota: the four octets from the start of the payload, however short it is *)
Theorem C101_subsequent_time_quota g i t s r : ty i = T_SubsequentTimeQuota -> payload i = t -> length (t ++ s) = 4 ->
  caccess g A_SubsequentTimeQuota (i, s ++ r) = Ok (VD (Z.of_N (unbe (t ++ s)) * 1000000000)).
Proof.
  intros E P T. rewrite (@own_leaf g A_SubsequentTimeQuota i (s ++ r) LSecs32); [|rewrite E; reflexivity|reflexivity].
  unfold cleaf_run. cbn [fst snd]. cbv zeta. rewrite P, app_assoc. unfold getr. change ((t ++ s) ++ r) with ([] ++ (t ++ s) ++ r).
  rewrite slice_mid; [|reflexivity|now rewrite T]. cbn [bind]. unfold getn. rewrite T. cbn [Nat.leb bind]. rewrite <- T at 1. rewrite firstn_all. reflexivity.
Qed.
(** Flow Information: up to three octets, as the length announced is compared with the whole payload *)
Theorem C101_flow_description g i x t s r : ty i = T_FlowInformation -> payload i = [x] ++ be 2 (lenN (t ++ s)) ++ t -> length s <= 3 -> (lenN (t ++ s) < 65533)%N ->
  caccess g A_FlowDescription (i, s ++ r) = Ok (VS (t ++ s)).
Proof.
  intros E P T B. rewrite (@own_leaf g A_FlowDescription i (s ++ r) LFlowDescription); [|rewrite E; reflexivity|reflexivity].
  unfold cleaf_run. cbn [fst snd]. cbv zeta. unfold cflow_description.
  assert (Lp : length (payload i) = 3 + length t) by (rewrite P, !app_length, be_length; reflexivity). rewrite Lp.
  assert (M : payload i ++ s ++ r = [x] ++ be 2 (lenN (t ++ s)) ++ (t ++ s) ++ r) by now rewrite P, <- !app_assoc. rewrite M.
  rewrite (@getr_be2 g [x]) by (reflexivity || lia). cbn [bind]. destruct (Nat.ltb_spec (3 + length t) (N.to_nat (lenN (t ++ s)))) as [H|H]; [unfold lenN in H; rewrite app_length in H; lia|].
  rewrite app_assoc. rewrite slice_mid; [reflexivity|reflexivity|]. unfold u16. rewrite N.mod_small by lia. unfold lenN. cbn [app length be]. lia.
Qed.
Print Assumptions C101_sdf_filter.
Print Assumptions C101_pfd_contents.
Print Assumptions C101_subsequent_time_quota.
Print Assumptions C101_flow_description.

(** A datagram of nine octets, and a buffer that still holds 60000 octets of an earlier one: the whole of it comes out of SDFFilter. *)
Theorem C101_stale_refuted old : lenN old = 60000%N -> let b := [0x00; 0x17; 0x00; 0x05; 0x01; 0x00; 0xEA; 0x61; 0x07]%N in
  exists i s f, cparse default_grouped (length b) (b ++ old) = Ok (i, s) /\ parse default_grouped b = Ok i
    /\ caccess default_grouped A_SDFFilter (i, s) = Ok (VF (F_sdf f)) /\ sd_fd f = 7%N :: old.
Proof.
  intros Lo b. exists (mkIE T_SDFFilter 5 0 [1; 0; 0xEA; 0x61; 7]%N []), old. eexists. split; [vm_compute; reflexivity|]. split; [vm_compute; reflexivity|].
  assert (E : lenN ([7%N] ++ old) = 60001%N) by (unfold lenN in *; rewrite app_length; cbn [length]; lia). split.
  - rewrite <- (app_nil_r old) at 1. apply C101_sdf_filter with (x := 0%N) (t := [7%N]); [reflexivity| |discriminate|rewrite E; reflexivity]. cbn [payload]. rewrite E. reflexivity.
  - reflexivity.
Qed.
Print Assumptions C101_stale_refuted.
(** two elements one after the other: the filter's description runs into the element behind it *)
Example C101_ex : let b := [0x00; 0x17; 0x00; 0x05; 0x01; 0x00; 0x00; 0x04; 0x61;  0x00; 0x38; 0x00; 0x02; 0x00; 0x07]%N in
  exists i s j q f, cparseMultiIEs default_grouped (length b) b = Ok [(i, s); (j, q)] /\ s = [0x00; 0x38; 0x00; 0x02; 0x00; 0x07]%N
    /\ caccess default_grouped A_SDFFilter (i, s) = Ok (VF (F_sdf f)) /\ sd_fd f = [0x61; 0x00; 0x38; 0x00]%N /\ access default_grouped A_SDFFilter i = Fault.
Proof. intros b. do 5 eexists. split; [vm_compute; reflexivity|]. split; [reflexivity|]. split; [vm_compute; reflexivity|]. split; vm_compute; reflexivity. Qed.
(** an accessor and type outside of the thirteen, on a payload with the same stale octets behind it *)
Example C101_same_ex old : caccess default_grouped A_FTEID (mkIE T_FTEID 9 0 [1; 0; 0; 0; 1; 127; 0; 0; 1]%N [], old)
  = Ok (VF (F_fteid {| ft_flags := 1; ft_teid := 1; ft_v4 := Some [127; 0; 0; 1]%N; ft_v6 := None; ft_chid := 0 |})).
Proof.
  rewrite C101_same; [vm_compute; reflexivity|]. cbn [ty In].
  intros H. repeat (destruct H as [H|H]; [discriminate H|]). exact H.
Qed.
