(** More building blocks for the structured payloads: length-prefixed strings, and guards written on len(b[offset:]). *)
From Verif Require Import Base Bits Codec.
Set Implicit Arguments.

(** [if len(b[offset:]) < n { return io.ErrUnexpectedEOF }; x = b[offset:offset+n]; offset += n] *)
Definition rdf (n : nat) (b : list N) (o : nat) : res (list N * nat) :=
  r <- from b o ;; need n in r ;; x <- slice b o (o + n) ;; Ok (x, o + n).
Definition rdsf (c : bool) n b o (d : list N) : res (list N * nat) := if c then rdf n b o else Ok (d, o).
Definition rdnf (c : bool) n b o (d : N) : res (N * nat) := if c then '(x, o) <- rdf n b o ;; Ok (unbe x, o) else Ok (d, o).
(** a string after its one-octet length:
    [if l < offset+1 { EOF }; n = b[offset]; offset++; if l < offset+int(n) { EOF }; s = b[offset:offset+int(n)]; offset += int(n)] *)
Definition rd8s (c : bool) (b : list N) (o : nat) : res (N * list N * nat) :=
  if c then need (o + 1) in b ;; n <- index b o ;; '(s, o) <- rd (N.to_nat n) b (o + 1) ;; Ok (n, s, o) else Ok (0%N, [], o).
(** [b[offset] = n; offset++; copy(b[offset:offset+int(n)], s); offset += int(n)] *)
Definition cp8s (c : bool) (n : N) (s b : list N) (o : nat) : res (list N * nat) :=
  if c then b <- put b o [n] ;; b <- copy_range b (o + 1) (o + 1 + N.to_nat n) s ;; Ok (b, o + 1 + N.to_nat n) else Ok (b, o).
(** [binary.BigEndian.PutUint16(b[offset:offset+2], n); copy(b[offset+2:offset+2+int(n)], s); offset += 2+int(n)] *)
Definition cp16s (c : bool) (n : N) (s b : list N) (o : nat) : res (list N * nat) :=
  if c then b <- put b o (be 2 n) ;; b <- copy_range b (o + 2) (o + 2 + N.to_nat n) s ;; Ok (b, o + 2 + N.to_nat n) else Ok (b, o).

(** * Specification vocabulary *)
(** an optional string after its length in one or two octets *)
Definition seg8 (c : bool) (s : list N) : list N := if c then lenN s :: s else [].
Definition seg16 (c : bool) (s : list N) : list N := if c then be 2 (lenN s) ++ s else [].
Definition short (c : bool) (n : N) (s : list N) : Prop := if c then bytes s /\ (lenN s < n)%N else s = [].

(** * Lemmas *)
Lemma rdf_rd n p q : rdf n (p ++ q) (length p) = rd n (p ++ q) (length p).
Proof.
  unfold rdf, rd. rewrite from_app by reflexivity. cbn [bind]. rewrite app_length.
  destruct (Nat.ltb_spec (length q) n), (Nat.ltb_spec (length p + length q) (length p + n)); try lia; reflexivity.
Qed.
Lemma rdsf_rds c n p q d : rdsf c n (p ++ q) (length p) d = rds c n (p ++ q) (length p) d.
Proof. unfold rdsf, rds. destruct c; [apply rdf_rd|reflexivity]. Qed.
Lemma rdnf_rdn c n p q d : rdnf c n (p ++ q) (length p) d = rdn c n (p ++ q) (length p) d.
Proof. unfold rdnf, rdn. destruct c; [now rewrite rdf_rd|reflexivity]. Qed.
Lemma rd8s_returns c b o : returns (rd8s c b o).
Proof. unfold rd8s. tot. Qed.
Lemma lenN_nat (s : list N) : N.to_nat (lenN s) = length s.
Proof. unfold lenN. lia. Qed.
Lemma rd8s_app c p s q : short c 256 s -> rd8s c (p ++ seg8 c s ++ q) (length p) = Ok (if c then lenN s else 0%N, s, length (p ++ seg8 c s)).
Proof.
  unfold rd8s, seg8, short. destruct c; [|intros ->; now rewrite app_nil_r]. intros _.
  destruct (Nat.ltb_spec (length (p ++ (lenN s :: s) ++ q)) (length p + 1)) as [L|_]; [rewrite !app_length in L; cbn [length] in L; lia|].
  change ((lenN s :: s) ++ q) with (lenN s :: (s ++ q)). rewrite index_app by reflexivity. cbn [bind].
  change (p ++ lenN s :: s ++ q) with (p ++ [lenN s] ++ s ++ q). rewrite app_assoc.
  replace (length p + 1) with (length (p ++ [lenN s])) by (rewrite app_length; reflexivity).
  rewrite rd_app by (symmetry; apply lenN_nat). cbn [bind]. now rewrite <- app_assoc.
Qed.
Lemma rd8s_inv c p q n s o : rd8s c (p ++ q) (length p) = Ok (n, s, o) -> bytes q ->
  exists q', p ++ q = (p ++ seg8 c s) ++ q' /\ o = length (p ++ seg8 c s) /\ short c 256 s /\ n = (if c then lenN s else 0%N) /\ bytes q'.
Proof.
  unfold rd8s, seg8, short. destruct c; intros H Hq.
  - destruct (Nat.ltb_spec (length (p ++ q)) (length p + 1)) as [|L]; [discriminate|]. rewrite app_length in L. destruct q as [|x q]; [cbn [length] in L; lia|].
    rewrite index_app in H by reflexivity. cbn [bind] in H. change (x :: q) with ([x] ++ q) in *. apply bytes_hd in Hq. destruct Hq as [Hx Hq].
    rewrite app_assoc in H. replace (length p + 1) with (length (p ++ [x])) in H by (rewrite app_length; reflexivity).
    apply bind_ok in H. destruct H as ([s' o'] & E & H). apply rd_inv in E; [|exact Hq]. destruct E as (q' & -> & Ls & Bs & Bq & ->).
    assert (x = n /\ s' = s /\ length ((p ++ [x]) ++ s') = o) as (-> & -> & <-) by (repeat split; congruence). clear H.
    assert (E : lenN s = n) by (unfold lenN; lia).
    exists q'. rewrite E. rewrite <- !app_assoc in *. split; [reflexivity|]. split; [reflexivity|]. split; [split; [exact Bs|exact Hx]|]. auto.
  - injection H as <- <- <-. exists q. rewrite app_nil_r. auto 10.
Qed.
Lemma seg8_length c s : length (seg8 c s) = len_if c (1 + length s).
Proof. now destruct c. Qed.
Lemma seg16_length c s : length (seg16 c s) = len_if c (2 + length s).
Proof. destruct c; [|reflexivity]. unfold seg16. rewrite app_length, be_length. reflexivity. Qed.
Lemma cp8s_ok c s w z : length (seg8 c s) <= length z ->
  cp8s c (lenN s) s (w ++ z) (length w) = Ok ((w ++ seg8 c s) ++ skipn (length (seg8 c s)) z, length (w ++ seg8 c s)).
Proof.
  unfold cp8s, seg8. destruct c; [|cbn [length skipn]; now rewrite app_nil_r].
  intros H. cbn [length] in H. rewrite put_seg by (cbn [length]; lia). cbn [bind]. rewrite lenN_nat.
  replace (length w + 1) with (length (w ++ [lenN s])) by (rewrite app_length; reflexivity).
  rewrite copy_seg by (auto; rewrite skipn_length; cbn [length]; lia). cbn [bind].
  rewrite skipn_skipn'. do 2 f_equal; [|rewrite !app_length; cbn [length]; lia]. rewrite <- !app_assoc. reflexivity.
Qed.
Lemma cp16s_ok c s w z : length (seg16 c s) <= length z ->
  cp16s c (lenN s) s (w ++ z) (length w) = Ok ((w ++ seg16 c s) ++ skipn (length (seg16 c s)) z, length (w ++ seg16 c s)).
Proof.
  unfold cp16s, seg16. destruct c; [|cbn [length skipn]; now rewrite app_nil_r].
  intros H. rewrite app_length, be_length in H. rewrite put_seg by (rewrite be_length; lia). cbn [bind]. rewrite lenN_nat.
  replace (length w + 2) with (length (w ++ be 2 (lenN s))) by (rewrite app_length, be_length; reflexivity).
  rewrite copy_seg by (auto; rewrite skipn_length, be_length; lia). cbn [bind].
  rewrite skipn_skipn'. do 2 f_equal; [|rewrite !app_length; lia]. rewrite <- !app_assoc, app_length. reflexivity.
Qed.
(** on arbitrary fields the writers stay inside the buffer *)
Lemma cp8s_len c n s b o : o + len_if c (1 + N.to_nat n) <= length b -> exists b', cp8s c n s b o = Ok (b', o + len_if c (1 + N.to_nat n)) /\ length b' = length b.
Proof.
  unfold cp8s, len_if. destruct c; intros H; [|rewrite Nat.add_0_r; eauto].
  destruct (@put_len b o [n]) as (b1 & -> & L1); [cbn [length]; lia|]. cbn [bind].
  destruct (@copy_range_len b1 (o + 1) (o + 1 + N.to_nat n) s) as (b2 & -> & L2); [lia..|]. cbn [bind]. exists b2. split; [do 2 f_equal; lia|lia].
Qed.
Lemma cp16s_len c n s b o : o + len_if c (2 + N.to_nat n) <= length b -> exists b', cp16s c n s b o = Ok (b', o + len_if c (2 + N.to_nat n)) /\ length b' = length b.
Proof.
  unfold cp16s, len_if. destruct c; intros H; [|rewrite Nat.add_0_r; eauto].
  destruct (@put_len b o (be 2 n)) as (b1 & -> & L1); [rewrite be_length; lia|]. cbn [bind].
  destruct (@copy_range_len b1 (o + 2) (o + 2 + N.to_nat n) s) as (b2 & -> & L2); [lia..|]. cbn [bind]. exists b2. split; [do 2 f_equal; lia|lia].
Qed.
Ltac wl2 :=
  let b' := fresh "b" in let L := fresh "L" in
  match goal with
  | |- context [cp8s ?c ?n ?s ?b ?o] => destruct (@cp8s_len c n s b o) as (b' & -> & L); [unfold len_if in *; try lenb|cbn [bind]]
  | |- context [cp16s ?c ?n ?s ?b ?o] => destruct (@cp16s_len c n s b o) as (b' & -> & L); [unfold len_if in *; try lenb|cbn [bind]]
  | _ => wl1
  end.
Ltac inv2 H Hq :=
  match type of H with
  | bind (rd8s _ (_ ++ _) _) _ = Ok _ =>
      apply bind_ok in H; let n := fresh "n" in let v := fresh "v" in let o := fresh "o" in let E := fresh "E" in
      destruct H as ([[n v] o] & E & H); apply rd8s_inv in E; [|exact Hq]; clear Hq;
      let q := fresh "q" in let Eq := fresh "Eq" in let P := fresh "P" in
      destruct E as (q & Eq & -> & P & -> & Hq); rewrite Eq in *; clear Eq
  | bind (rdsf _ _ (?p ++ _) (length ?p) _) _ = Ok _ => rewrite rdsf_rds in H; inv1 H Hq
  | bind (rdnf _ _ (?p ++ _) (length ?p) _) _ = Ok _ => rewrite rdnf_rdn in H; inv1 H Hq
  | _ => inv1 H Hq
  end.
Ltac fwd2 :=
  match goal with
  | |- context [rd8s ?c (?p ++ seg8 ?c ?v ++ ?q) (length ?p)] =>
      rewrite (@rd8s_app c p v q) by assumption; cbn [bind]; try rewrite (app_assoc p (seg8 c v) q)
  | |- context [rdsf ?c ?n (?p ++ ?q) (length ?p) ?d] => rewrite (@rdsf_rds c n p q d)
  | |- context [rdnf ?c ?n (?p ++ ?q) (length ?p) ?d] => rewrite (@rdnf_rdn c n p q d)
  | _ => fwd1
  end.
Ltac lens2 := repeat first
  [ rewrite skipn_length | rewrite make_length | rewrite app_length | rewrite be_length
  | erewrite optb_length by eassumption | rewrite optn_length | rewrite opts_length | rewrite seg8_length | rewrite seg16_length ]; cbn [length len_if].
Ltac wr2 :=
  match goal with
  | |- context [cp8s ?c (lenN ?s) ?s (?w ++ ?z) (length ?w)] => rewrite (@cp8s_ok c s w z) by (lens2; lia); cbn [bind]
  | |- context [cp16s ?c (lenN ?s) ?s (?w ++ ?z) (length ?w)] => rewrite (@cp16s_ok c s w z) by (lens2; lia); cbn [bind]
  | |- context [wrb ?c ?n (octs ?v) (?w ++ ?z) (length ?w)] => rewrite (@wrb_ok c n v w z) by (assumption || (lens2; lia)); cbn [bind]
  | |- context [cpb ?c ?n (octs ?v) (?w ++ ?z) (length ?w)] => rewrite (@cpb_ok c n v w z) by (assumption || (lens2; lia)); cbn [bind]
  | |- context [cpb ?c ?n ?s (?w ++ ?z) (length ?w)] => rewrite (@cps_ok c n s w z) by (assumption || (lens2; lia)); cbn [bind]
  | |- context [wrn ?c ?n ?v (?w ++ ?z) (length ?w)] => rewrite (@wrn_ok c n v w z) by (assumption || (lens2; lia)); cbn [bind]
  | |- context [cpn ?c ?n ?v (?w ++ ?z) (length ?w)] => rewrite (@cpn_ok c n v w z) by (assumption || (lens2; lia)); cbn [bind]
  end.
Ltac wr_done2 := f_equal; rewrite skipn_all_nil by (lens2; lia); rewrite app_nil_r, <- ?app_assoc; reflexivity.
