(** IE.MarshalTo into a slice with spare capacity: the memory afterwards and the outcome, exactly. *)
From Verif Require Import Base IETypes IE Spec IEProofs IEProofs2 ShortProofs Header Message Over.
Set Implicit Arguments.

Lemma write_mid p r s : length s <= length r -> write (p ++ r) (length p) s = p ++ s ++ skipn (length s) r.
Proof. intros H. unfold write. rewrite firstn_app_exact by reflexivity. f_equal. f_equal. rewrite skipn_app, skipn_all2, app_nil_l by lia. f_equal. lia. Qed.
Lemma write_length M lo s : lo + length s <= length M -> length (write M lo s) = length M.
Proof. intros H. unfold write. rewrite !app_length, firstn_length, skipn_length. lia. Qed.
Lemma wput_mid p r s n : n = length p -> length s <= length r -> wput (p ++ r) n s = (p ++ s ++ skipn (length s) r, Ok tt).
Proof. intros -> H. unfold wput. rewrite app_length. destruct (Nat.leb_spec (length p + length s) (length p + length r)); [|lia]. now rewrite write_mid. Qed.
Lemma wcopy_mid p r s n m : n = length p -> m = n + length s -> length s <= length r -> wcopy (p ++ r) n m s = (p ++ s ++ skipn (length s) r, Ok tt).
Proof.
  intros -> -> H. unfold wcopy. rewrite app_length. destruct (Nat.leb_spec (length p) (length p + length s)); [|lia].
  destruct (Nat.leb_spec (length p + length s) (length p + length r)); [|lia]. cbn [andb]. replace (length p + length s - length p) with (length s) by lia.
  rewrite firstn_all. now rewrite write_mid.
Qed.

Lemma skip_exact {A} (p r : list A) n : length p = n -> skipn n (p ++ r) = r.
Proof. intros <-. rewrite skipn_app, Nat.sub_diag, skipn_all. reflexivity. Qed.

Section G.
Variable g : N -> bool.
Definition wkids (L : nat) : list ie -> nat -> list N -> wr :=
  fix go (cs : list ie) (offset : nat) (M : list N) : wr :=
       match cs with
       | [] => (M, Ok tt)
       | c :: cs' =>
           if offset <=? L then
             let r := w_ie g c (L - offset) (skipn offset M) in
             wthen (firstn offset M ++ fst r, snd r) (fun M => go cs' (offset + mlen g c) M)
           else (M, Fault)
       end.
Lemma w_ie_eq i L M : w_ie g i L M =
  if L <? 4 then (M, Err EInvalidLength) else
  wthen (wput M 0 (be 2 (ty i))) (fun M =>
  wthen (wput M 2 (be 2 (len i))) (fun M =>
  wthen (if vendor (ty i) && (6 <=? L) then wput M 4 (be 2 (eid i)) else (M, Ok tt)) (fun M =>
  if g (ty i) then wkids L (children i) (if vendor (ty i) && (6 <=? L) then 6 else 4) M
  else wcopy M (if vendor (ty i) && (6 <=? L) then 6 else 4) (mlen g i) (payload i)))).
Proof. destruct i; reflexivity. Qed.
Lemma w_tiny i L M : L < 4 -> w_ie g i L M = (M, Err EInvalidLength).
Proof. intros H. rewrite w_ie_eq. destruct (Nat.ltb_spec L 4); [reflexivity|lia]. Qed.
(** type and length are written, the enterprise ID is not reached *)
Lemma w_first i L M : 4 <= L -> L <= length M -> vendor (ty i) && (6 <=? L) = false ->
  w_ie g i L M = let M := be 2 (ty i) ++ be 2 (len i) ++ skipn 4 M in if g (ty i) then wkids L (children i) 4 M else wcopy M 4 (mlen g i) (payload i).
Proof.
  intros H1 H2 V. rewrite w_ie_eq. destruct (Nat.ltb_spec L 4); [lia|]. rewrite V. change M with ([] ++ M) at 1. rewrite wput_mid by (rewrite ?be_length; trivial; lia).
  unfold wthen at 1. cbn [snd fst app]. rewrite be_length. rewrite wput_mid by (rewrite ?be_length, ?skipn_length; trivial; lia).
  unfold wthen at 1. cbn [snd fst]. rewrite be_length, skipn_skipn'. reflexivity.
Qed.
Lemma w_hdr i L M : hdr (ty i) <= L -> L <= length M ->
  w_ie g i L M = let M := hdr_octets i ++ skipn (hdr (ty i)) M in if g (ty i) then wkids L (children i) (hdr (ty i)) M else wcopy M (hdr (ty i)) (mlen g i) (payload i).
Proof.
  intros H1 H2. unfold hdr, hdr_octets in *. destruct (vendor (ty i)) eqn:V.
  - rewrite w_ie_eq. destruct (Nat.ltb_spec L 4); [lia|]. rewrite V. destruct (Nat.leb_spec 6 L); [|lia]. cbn [andb].
    change M with ([] ++ M) at 1. rewrite wput_mid by (rewrite ?be_length; trivial; lia).
    unfold wthen at 1. cbn [snd fst app]. rewrite be_length. rewrite wput_mid by (rewrite ?be_length, ?skipn_length; trivial; lia).
    unfold wthen at 1. cbn [snd fst]. rewrite be_length, skipn_skipn'. rewrite app_assoc. rewrite wput_mid by (rewrite ?app_length, ?be_length, ?skipn_length; trivial; lia).
    unfold wthen at 1. cbn [snd fst]. rewrite be_length, skipn_skipn', <- !app_assoc. reflexivity.
  - rewrite w_first by (trivial; now rewrite V). cbv zeta. now rewrite app_nil_r, <- !app_assoc.
Qed.
Lemma wkids_app l L : Forall (fun c => forall L M, mlen g c <= L -> L <= length M -> w_ie g c L M = (enc g c ++ skipn (mlen g c) M, Ok tt)) l ->
  forall cs d M, length d + list_sum (map (mlen g) l) <= L -> L <= length d + length M ->
  wkids L (l ++ cs) (length d) (d ++ M) = wkids L cs (length d + list_sum (map (mlen g) l)) ((d ++ concat (map (enc g) l)) ++ skipn (list_sum (map (mlen g) l)) M).
Proof.
  induction 1 as [|c l Hc _ IH]; intros cs d M H1 H2. { cbn [map list_sum fold_right concat app skipn]. now rewrite app_nil_r, Nat.add_0_r. }
  cbn [map list_sum fold_right concat] in *. change (fold_right Nat.add 0 (map (mlen g) l)) with (list_sum (map (mlen g) l)) in *.
  cbn [app wkids]. fold (wkids L). destruct (Nat.leb_spec (length d) L); [|lia]. rewrite skip_exact by reflexivity.
  rewrite Hc by lia. cbn [fst snd]. unfold wthen. cbn [fst snd]. rewrite firstn_app_exact by reflexivity. rewrite app_assoc.
  replace (length d + mlen g c) with (length (d ++ enc g c)) by now rewrite app_length, enc_length.
  rewrite IH by (rewrite ?app_length, ?enc_length, ?skipn_length; lia). rewrite app_length, enc_length, skipn_skipn', <- !app_assoc. now rewrite !Nat.add_assoc.
Qed.
Theorem w_fits i : forall L M, mlen g i <= L -> L <= length M -> w_ie g i L M = (enc g i ++ skipn (mlen g i) M, Ok tt).
Proof.
  induction i as [t l e p cs IH] using ie_ind'. intros L M H1 H2. set (i := mkIE t l e p cs) in *. pose proof (mlen_ge g i) as Hh.
  rewrite w_hdr by lia. cbv zeta. rewrite (enc_eq g i). rewrite (mlen_eq g i) in *. change (ty i) with t in *. change (children i) with cs in *. change (payload i) with p in *. destruct (g t).
  - rewrite <- (hdr_octets_length i : _ = hdr t) at 1. rewrite <- (app_nil_r cs) at 1. rewrite wkids_app; trivial.
    + cbn [wkids]. rewrite skipn_skipn', <- !app_assoc. reflexivity.
    + rewrite hdr_octets_length. change (ty i) with t. lia.
    + rewrite hdr_octets_length, skipn_length. change (ty i) with t. lia.
  - rewrite wcopy_mid; [|symmetry; exact (hdr_octets_length i)|reflexivity|rewrite skipn_length; lia]. rewrite skipn_skipn', <- app_assoc. reflexivity.
Qed.
Lemma kids_fit l : Forall (fun c => forall L M, mlen g c <= L -> L <= length M -> w_ie g c L M = (enc g c ++ skipn (mlen g c) M, Ok tt)) l.
Proof. apply Forall_forall. intros c _. apply w_fits. Qed.

(** x alone, in a slice that ends k octets after its first one, within its own octets; T is the memory from there on *)
Definition wcut (x : ie) (k : nat) (T : list N) : wr :=
  let start := be 2 (ty x) ++ be 2 (len x) in
  if k <? 4 then (T, Err EInvalidLength)
  else if g (ty x) then (start ++ skipn 4 T, match children x with [] => Ok tt | _ :: _ => Err EInvalidLength end)
  else if k <? hdr (ty x) then
    if mlen g x <=? length T then (start ++ payload x ++ skipn (4 + length (payload x)) T, Ok tt) else (start ++ skipn 4 T, Fault)
  else if mlen g x <=? length T then (enc g x ++ skipn (mlen g x) T, Ok tt) else (hdr_octets x ++ skipn (hdr (ty x)) T, Fault).
(** success of x is success of the whole if nothing follows, and a panic otherwise *)
Definition after (last : bool) (r : res unit) : res unit := match r with Ok _ => if last then Ok tt else Fault | _ => r end.
Lemma wcopy_over M lo hi s : length M < hi -> wcopy M lo hi s = (M, Fault).
Proof. intros H. unfold wcopy. destruct (Nat.leb_spec hi (length M)); [lia|]. now rewrite andb_false_r. Qed.

Lemma w_self x L M : L < own g x -> L <= length M -> w_ie g x L M = wcut x L M.
Proof.
  intros H1 H2. unfold wcut. cbv zeta. destruct (Nat.ltb_spec L 4) as [T|T]; [now apply w_tiny|]. unfold own in H1.
  assert (L4 : length (be 2 (ty x) ++ be 2 (len x)) = 4) by now rewrite app_length, !be_length.
  assert (S4 : vendor (ty x) = true -> L < 6 -> w_ie g x L M = let M := (be 2 (ty x) ++ be 2 (len x)) ++ skipn 4 M in if g (ty x) then wkids L (children x) 4 M else wcopy M 4 (mlen g x) (payload x)).
  { intros V H. rewrite w_first; trivial. rewrite V. destruct (Nat.leb_spec 6 L); [lia|reflexivity]. }
  destruct (g (ty x)) eqn:G.
  - unfold hdr in H1. destruct (vendor (ty x)) eqn:V; [|lia]. rewrite S4 by (trivial; lia). cbv zeta.
    destruct (children x) as [|c cs]; [reflexivity|]. cbn [wkids]. destruct (Nat.leb_spec 4 L); [|lia].
    rewrite (@skip_exact _ _ _ _ L4). rewrite w_tiny by lia. unfold wthen. cbn [fst snd]. now rewrite firstn_app_exact.
  - destruct (Nat.ltb_spec L (hdr (ty x))) as [K|K].
    + unfold hdr in K. destruct (vendor (ty x)) eqn:V; [|lia]. rewrite S4 by (trivial; lia). cbv zeta.
      assert (ML : mlen g x = 6 + length (payload x)) by (rewrite mlen_eq, G; unfold hdr; now rewrite V).
      destruct (Nat.leb_spec (mlen g x) (length M)) as [C|C]; [|apply wcopy_over; rewrite app_length, L4, skipn_length; lia].
      unfold wcopy. rewrite app_length, L4, skipn_length. destruct (Nat.leb_spec 4 (mlen g x)); [|lia]. destruct (Nat.leb_spec (mlen g x) (4 + (length M - 4))); [|lia]. cbn [andb].
      rewrite firstn_all2 by lia. rewrite <- L4 at 1. rewrite write_mid by (rewrite skipn_length; lia). now rewrite skipn_skipn', <- !app_assoc.
    + rewrite w_hdr by trivial. cbv zeta. rewrite G. assert (ML : mlen g x = hdr (ty x) + length (payload x)) by now rewrite mlen_eq, G.
      destruct (Nat.leb_spec (mlen g x) (length M)) as [C|C].
      * rewrite wcopy_mid; [|symmetry; apply hdr_octets_length|assumption|rewrite skipn_length; lia].
        rewrite enc_eq, G, ML, skipn_skipn', <- app_assoc. reflexivity.
      * apply wcopy_over. rewrite app_length, hdr_octets_length, skipn_length. lia.
Qed.
Theorem w_cut i s x : found g i s x -> forall L M, s <= L < s + own g x -> L < mlen g i -> L <= length M ->
  w_ie g i L M = let r := wcut x (L - s) (skipn s M) in (firstn s (enc g i) ++ fst r, after (s + mlen g x =? mlen g i) (snd r)).
Proof.
  induction 1 as [i|i l c r s x G C F IH]; intros L M B H1 H2; cbv zeta.
  - rewrite Nat.sub_0_r, !Nat.add_0_l, Nat.eqb_refl. cbn [skipn firstn app]. rewrite w_self by lia. destruct (wcut i L M) as [M' [[]|?| |]]; reflexivity.
  - pose proof (found_inside _ _ _ _ F) as In. set (q := hdr (ty i) + list_sum (map (mlen g) l)) in *.
    assert (E : mlen g i = q + mlen g c + list_sum (map (mlen g) r)).
    { rewrite (mlen_eq g i), G, C, map_app, list_sum_app. cbn [map list_sum fold_right].
      change (fold_right Nat.add 0 (map (mlen g) r)) with (list_sum (map (mlen g) r)). unfold q. lia. }
    assert (own g x <= mlen g x) as Ow by (unfold own; destruct (g (ty x)); [apply mlen_ge|lia]).
    rewrite w_hdr by (unfold q in B; lia). cbv zeta. rewrite G, C. rewrite <- (hdr_octets_length i) at 1.
    rewrite wkids_app; [|apply kids_fit|rewrite hdr_octets_length; unfold q in B; lia|rewrite hdr_octets_length, skipn_length; unfold q in B; lia].
    rewrite hdr_octets_length, skipn_skipn'. fold q. set (d := hdr_octets i ++ concat (map (enc g) l)).
    assert (Ld : length d = q).
    { unfold d. rewrite app_length, hdr_octets_length, length_concat_enc; [reflexivity|]. apply Forall_forall. intros; apply enc_length. }
    cbn [wkids]. fold (wkids L). destruct (Nat.leb_spec q L); [|lia]. rewrite (@skip_exact _ _ _ _ Ld).
    rewrite firstn_app_exact by now rewrite Ld. rewrite IH by (rewrite ?skipn_length; lia). cbv zeta. rewrite skipn_skipn'. replace (L - q - s) with (L - (q + s)) by lia.
    assert (D : firstn (q + s) (enc g i) = d ++ firstn s (enc g c)).
    { rewrite (enc_eq g i), G, C, map_app, concat_app. cbn [map concat]. rewrite (app_assoc (hdr_octets i)). fold d.
      rewrite firstn_app, Ld. rewrite firstn_all2 by lia. f_equal. replace (q + s - q) with s by lia. rewrite firstn_app, enc_length.
      replace (s - mlen g c) with 0 by lia. now rewrite firstn_O, app_nil_r. }
    rewrite D. set (w := wcut x (L - (q + s)) (skipn (q + s) M)). destruct w as [M' R]. unfold wthen. cbn [fst snd]. rewrite <- !app_assoc.
    destruct R as [[]|e| |]; cbn [after]; try reflexivity.
    destruct r as [|c1 r].
    + cbn [map list_sum fold_right] in E. destruct (Nat.eqb_spec (s + mlen g x) (mlen g c)), (Nat.eqb_spec (q + s + mlen g x) (mlen g i)); try lia; reflexivity.
    + pose proof (mlen_ge4 g c1) as M4. assert (list_sum (map (mlen g) (c1 :: r)) >= 4) by (cbn [map list_sum fold_right]; lia).
      destruct (Nat.eqb_spec (q + s + mlen g x) (mlen g i)); [lia|]. destruct (Nat.eqb_spec (s + mlen g x) (mlen g c)) as [La|La]; [|reflexivity].
      cbn [wkids]. destruct (Nat.leb_spec (q + mlen g c) L); [lia|reflexivity].
Qed.

(** nothing behind the encoding is touched, whatever happens *)
Definition within (n : nat) (M M' : list N) : Prop := exists p, length p <= n /\ length p <= length M /\ M' = p ++ skipn (length p) M.
Lemma within_length n M M' : within n M M' -> length M' = length M.
Proof. intros (p & H1 & H2 & ->). rewrite app_length, skipn_length. lia. Qed.
Lemma within_refl n M : within n M M.
Proof. exists []. cbn. repeat split; lia. Qed.
Lemma wcut_within x k T : k < own g x -> k <= length T -> within (mlen g x) T (fst (wcut x k T)).
Proof.
  intros H1 H2. assert (L4 : length (be 2 (ty x) ++ be 2 (len x)) = 4) by now rewrite app_length, !be_length. pose proof (mlen_ge g x) as Hh. pose proof (mlen_ge4 g x).
  unfold wcut. cbv zeta. destruct (Nat.ltb_spec k 4); [apply within_refl|].
  assert (P4 : within (mlen g x) T ((be 2 (ty x) ++ be 2 (len x)) ++ skipn 4 T)) by (exists (be 2 (ty x) ++ be 2 (len x)); rewrite L4; repeat split; lia).
  destruct (g (ty x)) eqn:G; [exact P4|]. assert (ML : mlen g x = hdr (ty x) + length (payload x)) by now rewrite mlen_eq, G.
  destruct (Nat.ltb_spec k (hdr (ty x))).
  - destruct (Nat.leb_spec (mlen g x) (length T)); [|exact P4]. exists ((be 2 (ty x) ++ be 2 (len x)) ++ payload x). rewrite app_length, L4.
    split; [|split]; [unfold hdr in *; destruct (vendor (ty x)); lia| |reflexivity]. unfold hdr in *; destruct (vendor (ty x)); lia.
  - destruct (Nat.leb_spec (mlen g x) (length T)); cbn [fst].
    + exists (enc g x). rewrite enc_length. repeat split; lia.
    + exists (hdr_octets x). rewrite hdr_octets_length. repeat split; lia.
Qed.
Theorem w_within i L M : L <= length M -> within (mlen g i) M (fst (w_ie g i L M)).
Proof.
  intros H. destruct (Nat.le_gt_cases (mlen g i) L) as [Fi|Sh].
  - rewrite w_fits by assumption. exists (enc g i). rewrite enc_length. repeat split; trivial; lia.
  - destruct (found_exists g i L Sh) as (s & x & F & B). rewrite (w_cut F) by assumption. cbv zeta. cbn [fst].
    pose proof (found_inside _ _ _ _ F). destruct (@wcut_within x (L - s) (skipn s M)) as (p & P1 & P2 & ->); [lia|rewrite skipn_length; lia|].
    rewrite skipn_length in P2. exists (firstn s (enc g i) ++ p). rewrite app_length, firstn_length, enc_length, skipn_skipn', <- app_assoc.
    replace (Nat.min s (mlen g i)) with s by lia. repeat split; lia.
Qed.
End G.
