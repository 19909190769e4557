(** UnmarshalBinary: the Go bodies against the models of Reuse.v, the structs read by loops. *)
From Coq Require Import String.
From Verif Require Import Base Bits Codec Codec2 Utils Fields1 Time Fields2 Fields3 Fields4 Access Reuse Go GoFields GoRep GoProofs.
Set Implicit Arguments.
Open Scope string_scope.
Open Scope list_scope.
Open Scope nat_scope.

Lemma upd_same x v F : look x F = Some v -> upd x v F = F.
Proof. induction F as [|[y w] F IH]; cbn; [discriminate|]. destruct (String.eqb x y) eqn:E; [intros [= ->]; reflexivity|]. intros H. now rewrite IH. Qed.
Lemma upd_upd x v w F : upd x v (upd x w F) = upd x v F.
Proof. induction F as [|[y u] F IH]; cbn; [now rewrite String.eqb_refl|]. destruct (String.eqb x y) eqn:E; cbn; rewrite E; [reflexivity|]. now rewrite IH. Qed.
Lemma look_upd x v F : look x (upd x v F) = Some v.
Proof. induction F as [|[y u] F IH]; cbn; [now rewrite String.eqb_refl|]. destruct (String.eqb x y) eqn:E; cbn; now rewrite E. Qed.

(** the loop over the items of a list of PFD Contents, f.x the list *)
Definition item_body (x : string) : stmt :=
  SBlock (SSeq (SLet "e" (EAdd (EVar "s") (EInt 2)))
  (SSeq (SIf (CLe (ELen (EVar "p")) (EVar "e")) SBreak)
  (SSeq (SLet "l2" (EToInt (EBE 2 (ESlice (EVar "p") (EVar "s") (EVar "e")))))
  (SSeq (SIf (CLt (ELen (EVar "p")) (EAdd (EVar "e") (EVar "l2"))) SBreak)
  (SSeq (SSet x (EApp (EFld x) (EStr (ESlice (EVar "p") (EVar "e") (EAdd (EVar "e") (EVar "l2"))))))
  (SLet "s" (EAdd (EVar "s") (EAdd (EInt 2) (EVar "l2"))))))))).
Lemma item_loop n x b vl vo p : forall fuel s acc F k, look x F = Some (GL acc) -> length p < fuel + s -> 0 < fuel -> fuel <= k ->
  exists r s', pfd_items_from fuel p s = Ok r /\
    loop n k (item_body x) (St F [("l", vl); ("offset", vo); ("p", GB (Some p)); ("s", GI s)] b)
    = Next (St (upd x (GL (acc ++ r)) F) [("l", vl); ("offset", vo); ("p", GB (Some p)); ("s", GI s')] b).
Proof.
  induction fuel as [|fuel IH]; intros s acc F k HF Hl H0 Hk; [lia|]. destruct k as [|k]; [lia|].
  cbn [loop pfd_items_from]. unfold item_body at 1.
  cbn [exec fails within eval test bind of_look look upd setf setv setb leave cut flds vars buf int num oct has octs String.eqb Ascii.eqb Bool.eqb].
  destruct (Nat.leb_spec (length p) (s + 2)) as [L|L].
  - exists [], s. split; [reflexivity|]. rewrite app_nil_r, (upd_same x F HF). reflexivity.
  - cbn [exec fails within eval test bind of_look look upd setf setv setb leave cut flds vars buf int num oct has octs String.eqb Ascii.eqb Bool.eqb].
    unfold getr. destruct (slice p s (s + 2)) as [q| | |] eqn:E1; try (unfold slice in E1; destruct (Nat.leb_spec s (s + 2)); [|lia]; destruct (Nat.leb_spec (s + 2) (length p)); [|lia]; discriminate E1).
    pose proof (@getn_slice _ _ _ 2 _ E1 ltac:(lia)) as E2.
    cbn [exec fails within eval test bind of_look look upd setf setv setb leave cut flds vars buf int num oct has octs String.eqb Ascii.eqb Bool.eqb]. rewrite E2.
    cbn [exec fails within eval test bind of_look look upd setf setv setb leave cut flds vars buf int num oct has octs String.eqb Ascii.eqb Bool.eqb].
    set (l := N.to_nat (unbe q)).
    destruct (Nat.ltb_spec (length p) (s + 2 + l)) as [M|M].
    + exists [], s. split; [reflexivity|]. rewrite app_nil_r, (upd_same x F HF). reflexivity.
    + cbn [exec fails within eval test bind of_look look upd setf setv setb leave cut flds vars buf int num oct has octs String.eqb Ascii.eqb Bool.eqb].
      destruct (slice p (s + 2) (s + 2 + l)) as [a| | |] eqn:E3; try (unfold slice in E3; destruct (Nat.leb_spec (s + 2) (s + 2 + l)); [|lia]; destruct (Nat.leb_spec (s + 2 + l) (length p)); [|lia]; discriminate E3).
      repeat (cbn [exec fails within eval test bind of_look look upd setf setv setb leave cut flds vars buf int num oct has octs String.eqb Ascii.eqb Bool.eqb]; rewrite ?HF, ?E3). cbn [exec fails within eval test bind of_look look upd setf setv setb leave cut flds vars buf int num oct has octs String.eqb Ascii.eqb Bool.eqb].
      destruct (IH (s + (2 + l)) (acc ++ [a]) (upd x (GL (acc ++ [a])) F) k (look_upd x _ F)) as (r & s' & E4 & E5); [lia|lia|lia|].
      exists (a :: r), s'. split; [now rewrite E4|]. etransitivity; [exact E5|]. rewrite upd_upd, <- app_assoc. reflexivity.
Qed.

(** a list of PFD Contents: the effect of its block *)
Definition sNL x y (s : state) (p : N * list (list N) * nat) : state := setv "offset" (GI (snd p)) (setf y (GL (snd (fst p))) (setf x (GN (fst (fst p))) s)).
Definition uNL x y (s : state) (p : N * list (list N) * nat) : state := setf y (GL (snd (fst p))) (setf x (GN (fst (fst p))) s).
Lemma slice_short b i j x : slice b i j = Ok x -> length x <= length b.
Proof. unfold slice. destruct ((i <=? j) && (j <=? length b)); [|discriminate]. intros [= <-]. rewrite firstn_length, skipn_length. lia. Qed.
Ltac items x := lazymatch goal with
  | E : slice ?b _ _ = Ok ?p, Hn : length ?b < ?n |- _ (_ (exec ?n (SSeq (SLoop _) ?c) (St ?F [("l", ?vl); ("offset", ?vo); ("p", GB (Some ?p)); ("s", _)] ?b))) _ =>
      rewrite ex_loop;
      let r := fresh "r" in let s' := fresh "s'" in let E1 := fresh "E1" in let E2 := fresh "E2" in
      destruct (@item_loop n x b vl vo p (S (length p)) 0 _ F n eq_refl ltac:(lia) ltac:(lia) ltac:(pose proof (slice_short _ _ _ E); lia)) as (r & s' & E1 & E2);
      rewrite E1; setoid_rewrite E2; clear E1 E2; norm
  end.
Ltac lblk f x := lazymatch goal with
  | |- un_agrees _ _ (fin (exec ?n (SSeq ?a ?c) ?s)) (bind ?r ?k) =>
      refine (@agree_bind _ _ (f s) n _ _ a c s r k _ _);
      [norm; unfold sNL, uNL; norm; repeat step; try leaf; items x; repeat step; rewrite ?Nat.add_assoc; leaf
      |let p := fresh "p" in intros p; destruct p as [[? ?] ?]; unfold sNL, uNL; normL; pre]
  end.
(** a block the method goes on after *)
Definition finb n c (s : state) (o : out) : state * res gval := fin (match o with Next s' => exec n c (leave s s') | Brk s' => Brk (leave s s') | Done s' r => Done s' r end).
Lemma fin_block n a c s : fin (exec n (SSeq (SBlock a) c) s) = finb n c s (exec n (SSeq a SSkip) s).
Proof. unfold finb. cbn [exec]. now destruct (exec n a s). Qed.
Lemma finb_skip n c s s' : finb n c s (exec n SSkip s') = fin (exec n c (leave s s')). Proof. reflexivity. Qed.
Lemma un_PFDContents n b f : length b < n -> un_agrees rep_pfdc b (call n go_un_PFDContents (rep_pfdc f) b) (pfdc_unmarshal f b).
Proof.
  intros Hn. unfold go_un_PFDContents, rep_pfdc, pfdc_unmarshal, rd16list, rd16old, pfd_items. start. change (0 + 2) with 2.
  blk (sNS "FDLength" "FlowDescription"). blk (sNS "URLLength" "URL"). blk (sNS "DNLength" "DomainName").
  blk (sNS "CPLength" "CustomPFDContent"). blk (sNS "DNPLength" "DomainNameProtocol").
  lblk (sNL "AFDLength" "AdditionalFlowDescription") "AdditionalFlowDescription".
  lblk (sNL "AURLLength" "AdditionalURL") "AdditionalURL".
  do 2 stepL. destruct (has8 a).
  - rewrite fin_block. norm. repeat step; try leaf. items "AdditionalDomainNameAndProtocol". repeat split; reflexivity.
  - pre.
Qed.

(** the loop over the MAC addresses *)
Definition mac_body : stmt :=
  SSeq (SIf (CNot (CLe (EVar "i") (EToInt (EFld "NumberOfMACAddresses")))) SBreak)
  (SSeq (SSeq (SIf (CLt (EVar "l") (EAdd (EVar "offset") (EInt 6))) SEof)
        (SSeq (SSet "MACAddresses" (EApp (EFld "MACAddresses") (ESlice EBuf (EVar "offset") (EAdd (EVar "offset") (EInt 6)))))
              (SLet "offset" (EAdd (EVar "offset") (EInt 6)))))
        (SLet "i" (EAdd (EVar "i") (EInt 1)))).
Definition mac_state c acc vc1 vc2 vs1 vs2 b o i : state :=
  St [("NumberOfMACAddresses", GN c); ("MACAddresses", GL acc); ("CTAGLength", vc1); ("CTAG", vc2); ("STAGLength", vs1); ("STAG", vs2)]
     [("l", GI (length b)); ("offset", GI o); ("i", GI i)] b.
Lemma mac_iter n c vc1 vc2 vs1 vs2 b i o acc :
  exec n mac_body (mac_state c acc vc1 vc2 vs1 vs2 b o i) =
  if i <=? N.to_nat c then
    if length b <? o + 6 then Done (mac_state c acc vc1 vc2 vs1 vs2 b o i) (Err EUnexpectedEOF)
    else fails (mac_state c acc vc1 vc2 vs1 vs2 b o i) (slice b o (o + 6)) (fun x => Next (mac_state c (acc ++ [x]) vc1 vc2 vs1 vs2 b (o + 6) (i + 1)))
  else Brk (mac_state c acc vc1 vc2 vs1 vs2 b o i).
Proof.
  unfold mac_body, mac_state. cbn [exec eval test bind of_look look String.eqb Ascii.eqb Bool.eqb vars flds buf int num oct octs fails].
  destruct (i <=? N.to_nat c); [|reflexivity]. cbn [negb exec eval test bind of_look look String.eqb Ascii.eqb Bool.eqb vars flds buf int num oct octs fails].
  destruct (length b <? o + 6); [reflexivity|]. cbn [negb exec eval test bind of_look look String.eqb Ascii.eqb Bool.eqb vars flds buf int num oct octs fails].
  destruct (slice b o (o + 6)); reflexivity.
Qed.
Lemma mac_loop n c vc1 vc2 vs1 vs2 b : forall m i k o acc, i + m = S (N.to_nat c) -> length b < k + o -> o <= length b ->
  match rd_macs m b o with
  | Ok (r, o') => exists i', loop n k mac_body (mac_state c acc vc1 vc2 vs1 vs2 b o i) = Next (mac_state c (acc ++ r) vc1 vc2 vs1 vs2 b o' i')
  | Err e => exists s, loop n k mac_body (mac_state c acc vc1 vc2 vs1 vs2 b o i) = Done s (Err e)
  | Fault => exists s, loop n k mac_body (mac_state c acc vc1 vc2 vs1 vs2 b o i) = Done s Fault
  | Fuel => exists s, loop n k mac_body (mac_state c acc vc1 vc2 vs1 vs2 b o i) = Done s Fuel
  end.
Proof.
  induction m as [|m IH]; intros i k o acc Hi Hk Ho; (destruct k as [|k]; [lia|]); cbn [loop rd_macs]; rewrite mac_iter.
  - destruct (Nat.leb_spec i (N.to_nat c)); [lia|]. exists i. now rewrite app_nil_r.
  - destruct (Nat.leb_spec i (N.to_nat c)); [|lia]. unfold rd.
    destruct (Nat.ltb_spec (length b) (o + 6)) as [L|L]; [eexists; reflexivity|].
    destruct (slice b o (o + 6)) as [x| | |]; cbn [bind fails]; [|eexists; reflexivity..].
    specialize (IH (i + 1) k (o + 6) (acc ++ [x]) ltac:(lia) ltac:(lia) ltac:(lia)).
    destruct (rd_macs m b (o + 6)) as [[r o']| | |]; cbn [bind]; try exact IH.
    destruct IH as (i' & ->). exists i'. now rewrite <- app_assoc.
Qed.
Lemma un_MACAddressesDetected n b f : length b < n -> un_agrees rep_macl b (call n go_un_MACAddressesDetected (rep_macl f) b) (macl_unmarshal f b).
Proof.
  intros Hn. unfold go_un_MACAddressesDetected, rep_macl, macl_unmarshal. start. rewrite fin_block. do 3 stepL.
  destruct (Nat.ltb_spec (length b) 1); [discriminate|].
  pose proof (@mac_loop n a (GN (ml_ctlen f)) (GB (Some (ml_ctag f))) (GN (ml_stlen f)) (GB (Some (ml_stag f))) b (S (N.to_nat a)) 0 n 1 (ml_macs f) eq_refl ltac:(lia) ltac:(lia)) as M.
  rewrite ex_loop.
  destruct (rd_macs (S (N.to_nat a)) b 1) as [[r o]|e| |]; cbn [bind].
  - destruct M as (i' & M). setoid_rewrite M. clear M. rewrite finb_skip. unfold mac_state, leave, cut. normL. pre.
  - destruct M as (s & M). setoid_rewrite M. reflexivity.
  - destruct M as (s & M). setoid_rewrite M. reflexivity.
  - destruct M as (s & M). setoid_rewrite M. reflexivity.
Qed.
Lemma un_MACAddressesRemoved n b f : length b < n -> un_agrees rep_macl b (call n go_un_MACAddressesRemoved (rep_macl f) b) (macl_unmarshal f b).
Proof. exact (@un_MACAddressesDetected n b f). Qed.
