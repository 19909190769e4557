(** PFD Contents: the decoder, the encoder and the round trip. *)
From Verif Require Import Base Bits Codec Codec2 HeaderProofs Fields3 Fields4 FieldsSpec4 FieldsProofs4.
Set Implicit Arguments.

Lemma pfd_fields_has fl : pfd_fields fl = [(has1 fl, true); (has2 fl, true); (has3 fl, true); (has4 fl, true); (has5 fl, true);
  (has6 fl, false); (has7 fl, false); (has8 fl, false)].
Proof. unfold pfd_fields. now rewrite has1_testbit, has2_testbit, has3_testbit, has4_testbit, has5_testbit, has6_testbit, has7_testbit, has8_testbit. Qed.

(** the length field always is the length of the contents *)
Lemma rd16s_len st c b o n s o' : rd16s st c b o = Ok (n, s, o') -> o <= length b -> bytes b -> n = lenN s /\ bytes s /\ o' <= length b.
Proof.
  intros E L B. rewrite <- (firstn_skipn o b) in E. assert (Hp : length (firstn o b) = o) by (apply firstn_length_le; exact L).
  rewrite <- Hp in E at 3. apply rd16s_inv in E; [|now apply bytes_skipn]. destruct E as (q' & Eq & Eq1 & -> & Sh & -> & _).
  split; [reflexivity|]. rewrite firstn_skipn in Eq. apply (f_equal (@length N)) in Eq. rewrite (app_length _ q') in Eq. split; [|lia].
  destruct c; [apply Sh|]. cbn [short] in Sh. subst. constructor.
Qed.
(** the decoder is: read the eight fields, then split the three lists *)
Definition pfdc_finish (fl : N) (ss : list (list N)) : res pfdc :=
  match ss with
  | [fd; url; dn; cp; dnp; pa; pu; pd] =>
      afd <- pfd_items pa ;; aurl <- pfd_items pu ;; adnp <- pfd_items pd ;; Ok (pfdc_of fl fd url dn cp dnp pa pu pd afd aurl adnp)
  | _ => Fault
  end.
Lemma bind_cons (A : res (list (list N))) s (F : list (list N) -> res pfdc) : (ss <- (r <- A ;; Ok (s :: r)) ;; F ss) = (r <- A ;; F (s :: r)).
Proof. now destruct A. Qed.
Lemma pfdc_parse_all b : bytes b -> pfdc_parse b =
  (need 2 in b ;; fl <- index b 0 ;; ss <- rdall (pfd_fields fl) b 2 ;; pfdc_finish fl ss).
Proof.
  intros B. unfold pfdc_parse. destruct (Nat.ltb_spec (length b) 2) as [|L]; [reflexivity|]. destruct (index b 0) as [fl| | |]; [|reflexivity..]. cbn [bind].
  rewrite pfd_fields_has. cbn [rdall].
  assert (H : forall st c (k : N * list N * nat -> res pfdc) (k' : N * list N * nat -> res (list (list N))) (F : list (list N) -> res pfdc) o, o <= length b ->
    (forall s o', o' <= length b -> bytes s -> k (lenN s, s, o') = (ss <- k' (lenN s, s, o') ;; F ss)) ->
    bind (rd16s st c b o) k = (ss <- (bind (rd16s st c b o) k') ;; F ss)).
  { intros st c k k' F o Lo Hk. destruct (rd16s st c b o) as [[[n s] o']| | |] eqn:E; cbn [bind]; try reflexivity.
    destruct (@rd16s_len _ _ _ _ _ _ _ E Lo B) as (-> & Bs & Lo'). now apply Hk. }
  do 5 (apply H; [assumption || lia|]; let s := fresh "s" in let o := fresh "o" in let Lo := fresh "Lo" in let Bs := fresh "Bs" in intros s o Lo Bs;
    cbv beta iota; rewrite bind_cons).
  apply H; [assumption|]. intros pa o6 Lo6 Ba. cbv beta iota. rewrite bind_cons. destruct (pfd_items_ok Ba) as (afd & Ea & _). rewrite Ea. unfold bind at 1.
  apply H; [assumption|]. intros pu o7 Lo7 Bu. cbv beta iota. rewrite bind_cons. destruct (pfd_items_ok Bu) as (aurl & Eu & _). rewrite Eu. unfold bind at 1.
  apply H; [assumption|]. intros pd o8 Lo8 Bd. cbn [bind pfdc_finish]. rewrite Ea, Eu. reflexivity.
Qed.
Lemma two (b : list N) : 2 <= length b -> exists x y q, b = [x; y] ++ q.
Proof. destruct b as [|x [|y q]]; cbn; try lia. intros _. now exists x, y, q. Qed.

Lemma shorts_bytes l : forall ss, shorts l ss -> Forall bytes ss.
Proof.
  induction l as [|[c st] l IH]; intros [|s ss]; cbn [shorts]; try contradiction; [constructor|]. intros [H Hs]. constructor; [|auto].
  destruct c; [apply H|]. cbn in H. subst. constructor.
Qed.
Lemma shorts_len l : forall ss, shorts l ss -> length ss = length l.
Proof. induction l as [|[c st] l IH]; intros [|s ss]; cbn [shorts]; try contradiction; [reflexivity|]. intros [_ H]. cbn. f_equal. auto. Qed.

Theorem pfdc_parse_exact b f : bytes b -> (pfdc_parse b = Ok f <-> pfdc_wire b f).
Proof.
  intros B. rewrite pfdc_parse_all by exact B. split.
  - destruct (Nat.ltb_spec (length b) 2) as [|L]; [discriminate|]. destruct (@two b L) as (fl & sp & q & ->).
    change (index ([fl; sp] ++ q) 0) with (Ok fl). unfold bind at 1. intros H. apply bind_ok in H. destruct H as (ss & E & H).
    change 2 with (length [fl; sp]) in E. apply rdall_inv in E; [|now apply bytes_app in B]. destruct E as (q' & Eq & Sh & R & _).
    assert (Ls := shorts_len _ _ Sh). do 8 (destruct ss as [|? ss]; [discriminate|]). destruct ss; [|discriminate]. cbn [pfdc_finish] in H.
    assert (Bs := shorts_bytes _ _ Sh). do 5 (apply Forall_inv_tail in Bs). assert (B6 := Forall_inv Bs). apply Forall_inv_tail in Bs.
    assert (B7 := Forall_inv Bs). apply Forall_inv_tail in Bs. assert (B8 := Forall_inv Bs).
    destruct (pfd_items_ok B6) as (afd & Ea & Ha). destruct (pfd_items_ok B7) as (aurl & Eu & Hu). destruct (pfd_items_ok B8) as (adnp & Ed & Hd).
    rewrite Ea, Eu, Ed in H. cbn [bind] in H. unfold pfdc_wire. do 13 eexists. exists q'. cbn zeta.
    refine (conj _ (conj Sh (conj R (conj Ha (conj Hu (conj Hd _)))))); [now rewrite <- Eq|congruence].
  - intros (fl & sp & fd & url & dn & cp & dnp & pa & pu & pd & afd & aurl & adnp & r & Eb & Sh & R & Ha & Hu & Hd & ->).
    destruct (Nat.ltb_spec (length b) 2) as [L|_]; [rewrite Eb, app_length in L; cbn in L; lia|].
    rewrite Eb at 1. change (index ([fl; sp] ++ ?q) 0) with (Ok fl). cbn [app index nth_error]. unfold bind at 1.
    assert (E : rdall (pfd_fields fl) b 2 = Ok [fd; url; dn; cp; dnp; pa; pu; pd]).
    { rewrite Eb in R |- *. change 2 with (length [fl; sp]) at 1. apply rdall_app; assumption. }
    rewrite E. cbn [bind pfdc_finish].
    assert (Bs := shorts_bytes _ _ Sh). do 5 (apply Forall_inv_tail in Bs). assert (B6 := Forall_inv Bs). apply Forall_inv_tail in Bs.
    assert (B7 := Forall_inv Bs). apply Forall_inv_tail in Bs. assert (B8 := Forall_inv Bs).
    apply pfd_items_exact in Ha; [|exact B6]. apply pfd_items_exact in Hu; [|exact B7]. apply pfd_items_exact in Hd; [|exact B8].
    now rewrite Ha, Hu, Hd.
Qed.
Theorem pfdc_parse_fault b : bytes b -> (pfdc_parse b = Fault <-> pfdc_overrun b).
Proof.
  intros B. rewrite pfdc_parse_all by exact B. split.
  - destruct (Nat.ltb_spec (length b) 2) as [|L]; [discriminate|]. destruct (@two b L) as (fl & sp & q & ->).
    change (index ([fl; sp] ++ q) 0) with (Ok fl). unfold bind at 1. intros H.
    assert (F : rdall (pfd_fields fl) ([fl; sp] ++ q) 2 = Fault).
    { destruct (rdall (pfd_fields fl) ([fl; sp] ++ q) 2) as [ss| | |] eqn:E; cbn [bind] in H; try congruence. exfalso.
      change 2 with (length [fl; sp]) in E. apply rdall_inv in E; [|now apply bytes_app in B]. destruct E as (q' & Eq & Sh & R & _).
      assert (Ls := shorts_len _ _ Sh). do 8 (destruct ss as [|? ss]; [discriminate|]). destruct ss; [|discriminate]. cbn [pfdc_finish] in H.
      assert (Bs := shorts_bytes _ _ Sh). do 5 (apply Forall_inv_tail in Bs). assert (B6 := Forall_inv Bs). apply Forall_inv_tail in Bs.
      assert (B7 := Forall_inv Bs). apply Forall_inv_tail in Bs. assert (B8 := Forall_inv Bs).
      destruct (pfd_items_ok B6) as (afd & Ea & Ha). destruct (pfd_items_ok B7) as (aurl & Eu & Hu). destruct (pfd_items_ok B8) as (adnp & Ed & Hd).
      rewrite Ea, Eu, Ed in H. discriminate. }
    change 2 with (length [fl; sp]) in F. apply rdall_fault in F; [|now apply bytes_app in B].
    destruct F as (l1 & st & l2 & ss & n & r & El & Eq & Sh & R & G & Ln & Lr).
    exists fl, sp, l1, st, l2, ss, n, r. refine (conj El (conj _ (conj Sh (conj R (conj G (conj Ln Lr)))))). now rewrite <- Eq.
  - intros (fl & sp & l1 & st & l2 & ss & n & r & El & Eb & Sh & R & G & Ln & Lr).
    destruct (Nat.ltb_spec (length b) 2) as [L|_]; [rewrite Eb, app_length in L; cbn in L; lia|].
    rewrite Eb at 1. cbn [app index nth_error]. unfold bind at 1.
    assert (F : rdall (pfd_fields fl) b 2 = Fault).
    { rewrite Eb. change 2 with (length [fl; sp]). apply rdall_fault; [rewrite Eb in B; now apply bytes_app in B|].
      exists l1, st, l2, ss, n, r. refine (conj El (conj eq_refl (conj Sh (conj _ (conj G (conj Ln Lr)))))). rewrite Eb in R. exact R. }
    now rewrite F.
Qed.
Lemma pfdc_parse_cases b : bytes b -> pfdc_parse b = Fault \/ pfdc_parse b = Err EUnexpectedEOF \/ exists f, pfdc_parse b = Ok f.
Proof.
  intros B. rewrite pfdc_parse_all by exact B. destruct (Nat.ltb_spec (length b) 2) as [|L]; [auto|].
  destruct (@two b L) as (fl & sp & q & ->). change (index ([fl; sp] ++ q) 0) with (Ok fl). unfold bind at 1 3 5.
  destruct (@rdall_cases (pfd_fields fl) _ _ B L) as [->|[->|[ss E]]]; cbn [bind]; [auto..|]. rewrite E. cbn [bind].
  change 2 with (length [fl; sp]) in E. apply rdall_inv in E; [|now apply bytes_app in B]. destruct E as (q' & Eq & Sh & R & _).
  assert (Ls := shorts_len _ _ Sh). do 8 (destruct ss as [|? ss]; [discriminate|]). destruct ss; [|discriminate].
  assert (Bs := shorts_bytes _ _ Sh). do 5 (apply Forall_inv_tail in Bs). assert (B6 := Forall_inv Bs). apply Forall_inv_tail in Bs.
  assert (B7 := Forall_inv Bs). apply Forall_inv_tail in Bs. assert (B8 := Forall_inv Bs). cbn [pfdc_finish].
  destruct (pfd_items_ok B6) as (afd & -> & Ha). destruct (pfd_items_ok B7) as (aurl & -> & Hu). destruct (pfd_items_ok B8) as (adnp & -> & Hd).
  cbn [bind]. eauto.
Qed.
(** every other payload is refused with ErrUnexpectedEOF *)
Theorem pfdc_parse_refused b : bytes b -> (pfdc_parse b = Err EUnexpectedEOF <-> ~ pfdc_overrun b /\ ~ exists f, pfdc_wire b f).
Proof.
  intros B. split.
  - intros E. split; [intros H; apply pfdc_parse_fault in H; [congruence|exact B]|]. intros [f H]. apply pfdc_parse_exact in H; [congruence|exact B].
  - intros [NF NW]. destruct (pfdc_parse_cases B) as [H|[H|[f H]]]; [|exact H|]; exfalso; [apply NF; now apply pfdc_parse_fault|].
    apply NW. exists f. now apply pfdc_parse_exact.
Qed.
