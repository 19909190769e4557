(** Building blocks for the codecs of the structured IE payloads (ie/*.go, types XxxFields).
    The Go code is written in a small number of idioms; each gets one definition here. *)
From Verif Require Import Base Bits.
Set Implicit Arguments.

(** A Go []byte / net.IP / net.HardwareAddr struct field; None is nil. *)
Definition bslice := option (list N).
Definition octs (o : bslice) : list N := match o with Some x => x | None => [] end.
Definition notnil (o : bslice) : bool := match o with Some _ => true | None => false end.

(** net.IP.To4 and To16 (standard library) *)
Definition v4prefix : list N := repeat 0%N 10 ++ [255; 255]%N.
Definition to4 (ip : bslice) : bslice :=
  match ip with
  | Some x =>
      if length x =? 4 then Some x
      else if length x =? 16 then if list_eq_dec N.eq_dec (firstn 12 x) v4prefix then Some (skipn 12 x) else None
      else None
  | None => None
  end.
Definition to16 (ip : bslice) : bslice :=
  match ip with
  | Some x => if length x =? 4 then Some (v4prefix ++ x) else if length x =? 16 then Some x else None
  | None => None
  end.

(** [if l < n { return io.ErrUnexpectedEOF }] with l = len(b) *)
Notation "'need' n 'in' b ;; k" := (if length b <? n then Err EUnexpectedEOF else k)
  (at level 61, n at next level, b at next level, right associativity).

(** [if l < offset+n { return io.ErrUnexpectedEOF }; x = b[offset:offset+n]; offset += n] *)
Definition rd (n : nat) (b : list N) (o : nat) : res (list N * nat) :=
  need (o + n) in b ;; x <- slice b o (o + n) ;; Ok (x, o + n).
(** the same under a condition, for a slice, an integer and a string field; d is the old value *)
Definition rdb (c : bool) n b o (d : bslice) : res (bslice * nat) :=
  if c then '(x, o) <- rd n b o ;; Ok (Some x, o) else Ok (d, o).
Definition rdn (c : bool) n b o (d : N) : res (N * nat) :=
  if c then '(x, o) <- rd n b o ;; Ok (unbe x, o) else Ok (d, o).
Definition rds (c : bool) n b o (d : list N) : res (list N * nat) :=
  if c then rd n b o else Ok (d, o).

(** [if l < offset+n { return io.ErrUnexpectedEOF }; copy(b[offset:offset+n], s); offset += n] under a condition *)
Definition wrb (c : bool) n (s : list N) (b : list N) (o : nat) : res (list N * nat) :=
  if c then need (o + n) in b ;; b <- copy_range b o (o + n) s ;; Ok (b, o + n) else Ok (b, o).
(** the same with binary.BigEndian.PutUint(8n)(b[offset:offset+n], v) or, for n = 1, b[offset] = v *)
Definition wrn (c : bool) n (v : N) (b : list N) (o : nat) : res (list N * nat) :=
  if c then need (o + n) in b ;; b <- put b o (be n v) ;; Ok (b, o + n) else Ok (b, o).
(** both without the length check *)
Definition cpb (c : bool) n (s : list N) (b : list N) (o : nat) : res (list N * nat) :=
  if c then b <- copy_range b o (o + n) s ;; Ok (b, o + n) else Ok (b, o).
Definition cpn (c : bool) n (v : N) (b : list N) (o : nat) : res (list N * nat) :=
  if c then b <- put b o (be n v) ;; Ok (b, o + n) else Ok (b, o).
(** [if c { l += n }] *)
Definition len_if (c : bool) (n : nat) : nat := if c then n else 0.

(** * Specification vocabulary *)
(** an optional segment of the payload *)
Definition optb (c : bool) (o : bslice) : list N := if c then octs o else [].
Definition optn (c : bool) n (v : N) : list N := if c then be n v else [].
Definition opts (c : bool) (s : list N) : list N := if c then s else [].
(** a field that is n octets when the flag is set and nil otherwise *)
Definition present (c : bool) (n : nat) (o : bslice) : Prop :=
  if c then exists x, o = Some x /\ length x = n /\ bytes x else o = None.
Definition ranged (c : bool) (n : nat) (v : N) : Prop := if c then (v < 256 ^ N.of_nat n)%N else v = 0%N.
Definition sized (c : bool) (n : nat) (s : list N) : Prop := if c then length s = n /\ bytes s else s = [].

(** * Lemmas *)
Lemma bind_ok {A B} (r : res A) (k : A -> res B) y : bind r k = Ok y -> exists a, r = Ok a /\ k a = Ok y.
Proof. destruct r; cbn; try discriminate. eauto. Qed.
Lemma returns_ok {A} (a : A) : returns (Ok a). Proof. left; eauto. Qed.
Lemma returns_err {A} e : returns (@Err A e). Proof. right; eauto. Qed.
Lemma returns_bind {A B} (r : res A) (k : A -> res B) : returns r -> (forall a, r = Ok a -> returns (k a)) -> returns (bind r k).
Proof. intros [[a ->]|[e ->]] H; cbn; [now apply H|apply returns_err]. Qed.
Lemma returns_if {A} (c : bool) (x y : res A) : (c = true -> returns x) -> (c = false -> returns y) -> returns (if c then x else y).
Proof. destruct c; auto. Qed.

Lemma rd_returns n b o : returns (rd n b o).
Proof.
  unfold rd. destruct (Nat.ltb_spec (length b) (o + n)); [apply returns_err|].
  rewrite slice_ok by lia. apply returns_ok.
Qed.
Lemma rdb_returns c n b o d : returns (rdb c n b o d).
Proof. unfold rdb. destruct c; [|apply returns_ok]. apply returns_bind; [apply rd_returns|]. intros [x o'] _. apply returns_ok. Qed.
Lemma rdn_returns c n b o d : returns (rdn c n b o d).
Proof. unfold rdn. destruct c; [|apply returns_ok]. apply returns_bind; [apply rd_returns|]. intros [x o'] _. apply returns_ok. Qed.
Lemma rds_returns c n b o d : returns (rds c n b o d).
Proof. unfold rds. destruct c; [apply rd_returns|apply returns_ok]. Qed.

(** forwards: reading a segment that is there *)
Lemma rd_app p x q n : length x = n -> rd n (p ++ x ++ q) (length p) = Ok (x, length (p ++ x)).
Proof.
  intros <-. unfold rd. rewrite !app_length. destruct (Nat.ltb_spec (length p + (length x + length q)) (length p + length x)); [lia|].
  rewrite slice_app by lia. reflexivity.
Qed.
Lemma rdb_app c n p v q : present c n v -> rdb c n (p ++ optb c v ++ q) (length p) None = Ok (v, length (p ++ optb c v)).
Proof.
  unfold rdb, present, optb. destruct c.
  - intros (x & -> & L & _). cbn [octs]. now rewrite rd_app.
  - intros ->. now rewrite app_nil_r.
Qed.
Lemma rdn_app c n p v q : ranged c n v -> rdn c n (p ++ optn c n v ++ q) (length p) 0 = Ok (v, length (p ++ optn c n v)).
Proof.
  unfold rdn, ranged, optn. destruct c.
  - intros H. rewrite rd_app by apply be_length. cbn [bind]. now rewrite unbe_be_small.
  - intros ->. now rewrite app_nil_r.
Qed.
Lemma rds_app c n p v q : sized c n v -> rds c n (p ++ opts c v ++ q) (length p) [] = Ok (v, length (p ++ opts c v)).
Proof.
  unfold rds, sized, opts. destruct c.
  - intros (L & _). now rewrite rd_app.
  - intros ->. now rewrite app_nil_r.
Qed.
Lemma getr_app n p v q : (v < 256 ^ N.of_nat n)%N -> getr n (p ++ be n v ++ q) (length p) (length p + n) = Ok v.
Proof.
  intros H. unfold getr. rewrite slice_app by (rewrite ?be_length; lia). cbn [bind]. unfold getn.
  rewrite be_length, Nat.leb_refl, firstn_all2 by (rewrite be_length; lia). now rewrite unbe_be_small.
Qed.

(** backwards: what a successful read says about the buffer *)
Lemma rd_inv n p q x o : rd n (p ++ q) (length p) = Ok (x, o) -> bytes q ->
  exists q', q = x ++ q' /\ length x = n /\ bytes x /\ bytes q' /\ o = length (p ++ x).
Proof.
  unfold rd. rewrite app_length. destruct (Nat.ltb_spec (length p + length q) (length p + n)) as [|L]; [discriminate|].
  intros H Hq. assert (E : p ++ q = p ++ firstn n q ++ skipn n q) by now rewrite firstn_skipn.
  rewrite E in H. rewrite slice_app in H by (rewrite ?firstn_length; lia). cbn [bind] in H.
  injection H as <- <-. exists (skipn n q). rewrite firstn_skipn, app_length, firstn_length.
  repeat split; auto using bytes_firstn, bytes_skipn; lia.
Qed.
Lemma rdb_inv c n p q v o : rdb c n (p ++ q) (length p) None = Ok (v, o) -> bytes q ->
  exists q', p ++ q = (p ++ optb c v) ++ q' /\ o = length (p ++ optb c v) /\ present c n v /\ bytes q'.
Proof.
  unfold rdb, optb, present. destruct c; intros H Hq.
  - apply bind_ok in H. destruct H as ([x o'] & E & H). injection H as <- <-.
    destruct (@rd_inv _ _ _ _ _ E Hq) as (q' & -> & L & Hx & Hq' & ->). exists q'. cbn [octs]. rewrite app_assoc. eauto 10.
  - injection H as <- <-. exists q. rewrite app_nil_r. auto.
Qed.
Lemma rdn_inv c n p q v o : rdn c n (p ++ q) (length p) 0 = Ok (v, o) -> bytes q ->
  exists q', p ++ q = (p ++ optn c n v) ++ q' /\ o = length (p ++ optn c n v) /\ ranged c n v /\ bytes q'.
Proof.
  unfold rdn, optn, ranged. destruct c; intros H Hq.
  - apply bind_ok in H. destruct H as ([x o'] & E & H). injection H as <- <-.
    destruct (@rd_inv _ _ _ _ _ E Hq) as (q' & -> & L & Hx & Hq' & ->). exists q'. rewrite be_unbe by (auto; congruence).
    rewrite app_assoc. split; [reflexivity|]. split; [reflexivity|]. split; [|exact Hq'].
    pose proof (unbe_bound Hx) as UB. unfold lenN in UB. now rewrite L in UB.
  - injection H as <- <-. exists q. rewrite app_nil_r. auto.
Qed.
Lemma rds_inv c n p q v o : rds c n (p ++ q) (length p) [] = Ok (v, o) -> bytes q ->
  exists q', p ++ q = (p ++ opts c v) ++ q' /\ o = length (p ++ opts c v) /\ sized c n v /\ bytes q'.
Proof.
  unfold rds, opts, sized. destruct c; intros H Hq.
  - destruct (@rd_inv _ _ _ _ _ H Hq) as (q' & -> & L & Hx & Hq' & ->). exists q'. rewrite app_assoc. auto.
  - injection H as <- <-. exists q. rewrite app_nil_r. auto.
Qed.
Lemma getr_inv n p q v hi : getr n (p ++ q) (length p) hi = Ok v -> hi = length p + n -> bytes q ->
  exists q', p ++ q = (p ++ be n v) ++ q' /\ (v < 256 ^ N.of_nat n)%N /\ bytes q'.
Proof.
  intros H -> Hq. unfold getr in H. apply bind_ok in H. destruct H as (s & E & H).
  unfold slice in E. destruct (Nat.leb_spec (length p) (length p + n)); [|lia]. cbn [andb] in E.
  rewrite app_length in E. destruct (Nat.leb_spec (length p + n) (length p + length q)) as [L|]; [|discriminate].
  injection E as <-. rewrite skipn_app_exact in * by reflexivity. replace (length p + n - length p) with n in * by lia.
  unfold getn in H. rewrite firstn_length in H. destruct (Nat.leb_spec n (min n (length q))); [|lia]. injection H as <-.
  rewrite firstn_firstn, Nat.min_id. exists (skipn n q).
  assert (Hf : bytes (firstn n q)) by now apply bytes_firstn.
  assert (Lf : length (firstn n q) = n) by (rewrite firstn_length; lia).
  rewrite be_unbe by auto. rewrite <- app_assoc, firstn_skipn. split; [reflexivity|].
  split; [|now apply bytes_skipn]. pose proof (unbe_bound Hf) as UB. unfold lenN in UB. now rewrite Lf in UB.
Qed.
Lemma getr_returns n b lo hi : lo <= hi -> hi <= length b -> n <= hi - lo -> exists v, getr n b lo hi = Ok v.
Proof.
  intros. unfold getr. rewrite slice_ok by lia. cbn [bind]. unfold getn. rewrite firstn_length, skipn_length.
  destruct (Nat.leb_spec n (min (hi - lo) (length b - lo))); [eauto|lia].
Qed.
Lemma index0 b x : index b 0 = Ok x -> exists q, b = [x] ++ q.
Proof. destruct b; cbn; [discriminate|]. intros [= ->]. eauto. Qed.
Lemma index0_app x q : index ([x] ++ q) 0 = Ok x. Proof. reflexivity. Qed.
Lemma index_returns b i : i < length b -> returns (index b i).
Proof. intros H. destruct (index_ok b H) as (x & -> & _). apply returns_ok. Qed.

(** ** writers *)
(** [room w M]: the buffer holds w and M more octets *)
Lemma put_seg w z s : length s <= length z -> put (w ++ z) (length w) s = Ok ((w ++ s) ++ skipn (length s) z).
Proof. intros H. rewrite put_app by exact H. now rewrite app_assoc. Qed.
Lemma copy_seg w z s n : length s = n -> n <= length z ->
  copy_range (w ++ z) (length w) (length w + n) s = Ok ((w ++ s) ++ skipn (length s) z).
Proof. intros L H. rewrite copy_range_app by assumption. rewrite <- L. now rewrite app_assoc. Qed.
Lemma wrb_ok c n v w z : present c n v -> length (optb c v) <= length z ->
  wrb c n (octs v) (w ++ z) (length w) = Ok ((w ++ optb c v) ++ skipn (length (optb c v)) z, length (w ++ optb c v)).
Proof.
  unfold wrb, present, optb. destruct c.
  - intros (x & -> & L & _) H. cbn [octs] in *. rewrite app_length. destruct (Nat.ltb_spec (length w + length z) (length w + n)); [lia|].
    rewrite copy_seg by lia. cbn [bind]. rewrite app_length. now rewrite L.
  - intros -> _. cbn [length skipn]. now rewrite app_nil_r.
Qed.
Lemma cpb_ok c n v w z : present c n v -> length (optb c v) <= length z ->
  cpb c n (octs v) (w ++ z) (length w) = Ok ((w ++ optb c v) ++ skipn (length (optb c v)) z, length (w ++ optb c v)).
Proof.
  unfold cpb, present, optb. destruct c.
  - intros (x & -> & L & _) H. cbn [octs] in *. rewrite copy_seg by lia. cbn [bind]. rewrite app_length. now rewrite L.
  - intros -> _. cbn [length skipn]. now rewrite app_nil_r.
Qed.
Lemma cps_ok c n s w z : (c = true -> length s = n) -> length (opts c s) <= length z ->
  cpb c n s (w ++ z) (length w) = Ok ((w ++ opts c s) ++ skipn (length (opts c s)) z, length (w ++ opts c s)).
Proof.
  unfold cpb, opts. destruct c.
  - intros L H. specialize (L eq_refl). rewrite copy_seg by lia. cbn [bind]. rewrite app_length. now rewrite L.
  - intros _ _. cbn [length skipn]. now rewrite app_nil_r.
Qed.
Lemma wrn_ok c n v w z : length (optn c n v) <= length z ->
  wrn c n v (w ++ z) (length w) = Ok ((w ++ optn c n v) ++ skipn (length (optn c n v)) z, length (w ++ optn c n v)).
Proof.
  unfold wrn, optn. destruct c.
  - intros H. rewrite be_length in H. rewrite app_length. destruct (Nat.ltb_spec (length w + length z) (length w + n)); [lia|].
    rewrite put_seg by (rewrite be_length; lia). cbn [bind]. now rewrite app_length, be_length.
  - intros _. cbn [length skipn]. now rewrite app_nil_r.
Qed.
Lemma cpn_ok c n v w z : length (optn c n v) <= length z ->
  cpn c n v (w ++ z) (length w) = Ok ((w ++ optn c n v) ++ skipn (length (optn c n v)) z, length (w ++ optn c n v)).
Proof.
  unfold cpn, optn. destruct c.
  - intros H. rewrite be_length in H. rewrite put_seg by (rewrite be_length; lia). cbn [bind]. now rewrite app_length, be_length.
  - intros _. cbn [length skipn]. now rewrite app_nil_r.
Qed.

Lemma optb_length c n v : present c n v -> length (optb c v) = len_if c n.
Proof. unfold present, optb, len_if. destruct c; [|reflexivity]. intros (x & -> & L & _). exact L. Qed.
Lemma optn_length c n v : length (optn c n v) = len_if c n.
Proof. unfold optn, len_if. destruct c; [apply be_length|reflexivity]. Qed.
Lemma opts_length c s : length (opts c s) = len_if c (length s).
Proof. now destruct c. Qed.
Lemma optb_bytes c n v : present c n v -> bytes (optb c v).
Proof. unfold present, optb. destruct c; [|constructor]. intros (x & -> & _ & B). exact B. Qed.
Lemma optn_bytes c n v : bytes (optn c n v).
Proof. unfold optn. destruct c; [apply be_bytes|constructor]. Qed.
Lemma to4_4 x : length x = 4 -> to4 (Some x) = Some x.
Proof. intros H. cbn. now rewrite H. Qed.
Lemma to16_16 x : length x = 16 -> to16 (Some x) = Some x.
Proof. intros H. cbn. now rewrite H. Qed.
Lemma present_to4 c v : present c 4 v -> present c 4 (to4 v) /\ to4 v = v.
Proof. unfold present. destruct c; [|now intros ->]. intros (x & -> & L & B). rewrite to4_4 by exact L. eauto 10. Qed.
Lemma present_to16 c v : present c 16 v -> present c 16 (to16 v) /\ to16 v = v.
Proof. unfold present. destruct c; [|now intros ->]. intros (x & -> & L & B). rewrite to16_16 by exact L. eauto 10. Qed.
Lemma skipn_all_nil {A} (l : list A) n : length l <= n -> skipn n l = [].
Proof. apply skipn_all2. Qed.
Lemma make_length n : length (make n) = n. Proof. apply repeat_length. Qed.

(** ** tactics *)
(** totality of a reader *)
Ltac tot1 :=
  match goal with
  | |- returns (Ok _) => apply returns_ok
  | |- returns (Err _) => apply returns_err
  | |- returns (rd _ _ _) => apply rd_returns
  | |- returns (rdb _ _ _ _ _) => apply rdb_returns
  | |- returns (rdn _ _ _ _ _) => apply rdn_returns
  | |- returns (rds _ _ _ _ _) => apply rds_returns
  | |- returns (index _ _) => apply index_returns; lia
  | |- returns (bind _ _) => apply returns_bind; [|intros ? ?]
  | |- returns (let '(_, _) := ?p in _) => destruct p
  | |- returns (if ?a <? ?b then _ else _) => destruct (Nat.ltb_spec a b)
  | |- returns (if _ then _ else _) => apply returns_if; intros ?
  end.
Ltac tot := repeat tot1.
(** one step of the backwards direction; H : ... = Ok f, Hq : bytes q *)
Ltac inv1 H Hq :=
  match type of H with
  | bind (rdb _ _ (_ ++ _) _ _) _ = Ok _ =>
      apply bind_ok in H; let v := fresh "v" in let o := fresh "o" in let E := fresh "E" in
      destruct H as ([v o] & E & H); apply rdb_inv in E; [|exact Hq]; clear Hq;
      let q := fresh "q" in let Eq := fresh "Eq" in let P := fresh "P" in
      destruct E as (q & Eq & -> & P & Hq); rewrite Eq in *; clear Eq
  | bind (rdn _ _ (_ ++ _) _ _) _ = Ok _ =>
      apply bind_ok in H; let v := fresh "v" in let o := fresh "o" in let E := fresh "E" in
      destruct H as ([v o] & E & H); apply rdn_inv in E; [|exact Hq]; clear Hq;
      let q := fresh "q" in let Eq := fresh "Eq" in let P := fresh "P" in
      destruct E as (q & Eq & -> & P & Hq); rewrite Eq in *; clear Eq
  | bind (rds _ _ (_ ++ _) _ _) _ = Ok _ =>
      apply bind_ok in H; let v := fresh "v" in let o := fresh "o" in let E := fresh "E" in
      destruct H as ([v o] & E & H); apply rds_inv in E; [|exact Hq]; clear Hq;
      let q := fresh "q" in let Eq := fresh "Eq" in let P := fresh "P" in
      destruct E as (q & Eq & -> & P & Hq); rewrite Eq in *; clear Eq
  end.
Lemma present_notnil c n v : present c n v -> c && notnil v = c.
Proof. destruct c; [|reflexivity]. now intros (x & -> & _). Qed.
Lemma present_nn c n v : present c n v -> notnil v = c.
Proof. destruct c; [now intros (x & -> & _)|now intros ->]. Qed.

(** one step of the forwards direction *)
Ltac fwd1 :=
  match goal with
  | |- context [rdb ?c ?n (?p ++ optb ?c ?v ++ ?q) (length ?p) None] =>
      rewrite (@rdb_app c n p v q) by assumption; cbn [bind]; try rewrite (app_assoc p (optb c v) q)
  | |- context [rdn ?c ?n (?p ++ optn ?c ?n ?v ++ ?q) (length ?p) 0%N] =>
      rewrite (@rdn_app c n p v q) by assumption; cbn [bind]; try rewrite (app_assoc p (optn c n v) q)
  | |- context [rds ?c ?n (?p ++ opts ?c ?v ++ ?q) (length ?p) []] =>
      rewrite (@rds_app c n p v q) by assumption; cbn [bind]; try rewrite (app_assoc p (opts c v) q)
  end.
(** lengths *)
Ltac lens := repeat first
  [ rewrite skipn_length | rewrite make_length | rewrite app_length | rewrite be_length
  | erewrite optb_length by eassumption | rewrite optn_length | rewrite opts_length ]; cbn [length len_if].
Ltac lenlia := lens; lia.
(** one step of a writer *)
Ltac wr1 :=
  match goal with
  | |- context [wrb ?c ?n (octs ?v) (?w ++ ?z) (length ?w)] => rewrite (@wrb_ok c n v w z) by (assumption || lenlia); cbn [bind]
  | |- context [cpb ?c ?n (octs ?v) (?w ++ ?z) (length ?w)] => rewrite (@cpb_ok c n v w z) by (assumption || lenlia); cbn [bind]
  | |- context [wrn ?c ?n ?v (?w ++ ?z) (length ?w)] => rewrite (@wrn_ok c n v w z) by (assumption || lenlia); cbn [bind]
  | |- context [cpn ?c ?n ?v (?w ++ ?z) (length ?w)] => rewrite (@cpn_ok c n v w z) by (assumption || lenlia); cbn [bind]
  end.
Ltac wr_done := f_equal; rewrite skipn_all_nil by lenlia; rewrite app_nil_r, <- ?app_assoc; reflexivity.
Lemma put0 x n : put (make (1 + n)) 0 [x] = Ok ([x] ++ make n). Proof. reflexivity. Qed.
Ltac bits := rewrite ?has1_testbit, ?has2_testbit, ?has3_testbit, ?has4_testbit, ?has5_testbit, ?has6_testbit, ?has7_testbit, ?has8_testbit in *.
(** enter a reader/writer whose first octet is the flags octet *)
Lemma need_app {A} k (p q : list A) : k <= length p -> (length (p ++ q) <? k) = false.
Proof. intros H. apply Nat.ltb_ge. rewrite app_length. lia. Qed.
Ltac enter fl :=
  repeat match goal with
  | |- context [rdn ?c ?n ?b 1 ?d] => change (rdn c n b 1 d) with (rdn c n b (length [fl]) d)
  | |- context [rdb ?c ?n ?b 1 ?d] => change (rdb c n b 1 d) with (rdb c n b (length [fl]) d)
  | |- context [rds ?c ?n ?b 1 ?d] => change (rds c n b 1 d) with (rds c n b (length [fl]) d)
  | |- context [wrb ?c ?n ?s ?b 1] => change (wrb c n s b 1) with (wrb c n s b (length [fl]))
  | |- context [wrn ?c ?n ?s ?b 1] => change (wrn c n s b 1) with (wrn c n s b (length [fl]))
  | |- context [cpb ?c ?n ?s ?b 1] => change (cpb c n s b 1) with (cpb c n s b (length [fl]))
  | |- context [cpn ?c ?n ?s ?b 1] => change (cpn c n s b 1) with (cpn c n s b (length [fl]))
  end.
Ltac enter_in fl H :=
  repeat match type of H with
  | context [rdn ?c ?n ?b 1 ?d] => change (rdn c n b 1 d) with (rdn c n b (length [fl]) d) in H
  | context [rdb ?c ?n ?b 1 ?d] => change (rdb c n b 1 d) with (rdb c n b (length [fl]) d) in H
  | context [rds ?c ?n ?b 1 ?d] => change (rds c n b 1 d) with (rds c n b (length [fl]) d) in H
  end.
(** b = [fl] ++ q from a successful parse whose first step is index b 0 *)
Lemma bytes_hd fl q : bytes ([fl] ++ q) -> octet fl /\ bytes q.
Proof. intros H. apply bytes_app in H. destruct H as [H1 H2]. split; [now inversion H1|exact H2]. Qed.
(** simplify To4/To16 and nil tests of fields that are present exactly when flagged *)
Ltac pres := repeat match goal with
  | H : present ?c 4 ?v |- context [to4 ?v] => rewrite (proj2 (@present_to4 c v H))
  | H : present ?c 16 ?v |- context [to16 ?v] => rewrite (proj2 (@present_to16 c v H))
  | H : present ?c ?n ?v |- context [?c && notnil ?v] => rewrite (@present_notnil c n v H)
  | H : present ?c ?n ?v |- context [notnil ?v] => rewrite (@present_nn c n v H)
  end.

(** writers on arbitrary fields: they stay inside the buffer and keep its length *)
Lemma copy_range_len b lo hi s : lo <= hi -> hi <= length b -> exists b', copy_range b lo hi s = Ok b' /\ length b' = length b.
Proof.
  intros H1 H2. rewrite copy_range_ok by lia. eexists. split; [reflexivity|].
  rewrite !app_length, ?firstn_length, ?skipn_length. lia.
Qed.
Lemma put_len b lo s : lo + length s <= length b -> exists b', put b lo s = Ok b' /\ length b' = length b.
Proof.
  intros H. rewrite put_ok by lia. eexists. split; [reflexivity|]. rewrite !app_length, ?firstn_length, ?skipn_length. lia.
Qed.
Lemma wrb_len c n s b o : o + len_if c n <= length b -> exists b', wrb c n s b o = Ok (b', o + len_if c n) /\ length b' = length b.
Proof.
  unfold wrb, len_if. destruct c; intros H; [|rewrite Nat.add_0_r; eauto].
  destruct (Nat.ltb_spec (length b) (o + n)); [lia|]. destruct (@copy_range_len b o (o + n) s) as (b' & -> & L); [lia..|]. cbn. eauto.
Qed.
Lemma cpb_len c n s b o : o + len_if c n <= length b -> exists b', cpb c n s b o = Ok (b', o + len_if c n) /\ length b' = length b.
Proof.
  unfold cpb, len_if. destruct c; intros H; [|rewrite Nat.add_0_r; eauto].
  destruct (@copy_range_len b o (o + n) s) as (b' & -> & L); [lia..|]. cbn. eauto.
Qed.
Lemma wrn_len c n v b o : o + len_if c n <= length b -> exists b', wrn c n v b o = Ok (b', o + len_if c n) /\ length b' = length b.
Proof.
  unfold wrn, len_if. destruct c; intros H; [|rewrite Nat.add_0_r; eauto].
  destruct (Nat.ltb_spec (length b) (o + n)); [lia|]. destruct (@put_len b o (be n v)) as (b' & -> & L); [rewrite be_length; lia|]. cbn. eauto.
Qed.
Lemma cpn_len c n v b o : o + len_if c n <= length b -> exists b', cpn c n v b o = Ok (b', o + len_if c n) /\ length b' = length b.
Proof.
  unfold cpn, len_if. destruct c; intros H; [|rewrite Nat.add_0_r; eauto].
  destruct (@put_len b o (be n v)) as (b' & -> & L); [rewrite be_length; lia|]. cbn. eauto.
Qed.
Ltac lenb := repeat match goal with |- context [if ?c then _ else _] => destruct c end; cbn [length]; lia.
Ltac wl1 :=
  let b' := fresh "b" in let L := fresh "L" in
  match goal with
  | |- context [wrb ?c ?n ?s ?b ?o] => destruct (@wrb_len c n s b o) as (b' & -> & L); [unfold len_if in *; try lenb|cbn [bind]]
  | |- context [wrn ?c ?n ?s ?b ?o] => destruct (@wrn_len c n s b o) as (b' & -> & L); [unfold len_if in *; try lenb|cbn [bind]]
  | |- context [cpb ?c ?n ?s ?b ?o] => destruct (@cpb_len c n s b o) as (b' & -> & L); [unfold len_if in *; try lenb|cbn [bind]]
  | |- context [cpn ?c ?n ?s ?b ?o] => destruct (@cpn_len c n s b o) as (b' & -> & L); [unfold len_if in *; try lenb|cbn [bind]]
  | |- context [put ?b ?o ?s] => destruct (@put_len b o s) as (b' & -> & L); [unfold len_if in *; rewrite ?be_length; try lenb|cbn [bind]]
  end.

(** IP address arguments: an IPv4 address may be given in its 4- or 16-octet form *)
Definition canon4 (c : bool) (v : bslice) : bslice := if c then to4 v else None.
Definition canon16 (c : bool) (v : bslice) : bslice := if c then to16 v else None.
(** when flagged, an address of the right kind is given *)
Definition ok4 (c : bool) (v : bslice) : Prop := c = true -> exists x, to4 v = Some x /\ bytes (octs v).
Definition ok16 (c : bool) (v : bslice) : Prop := c = true -> exists x, to16 v = Some x /\ bytes (octs v).
Lemma to4_len v x : to4 v = Some x -> length x = 4.
Proof.
  destruct v as [y|]; cbn [to4 octs]; [|discriminate]. destruct (Nat.eqb_spec (length y) 4); [congruence|].
  destruct (Nat.eqb_spec (length y) 16); [|discriminate]. match goal with |- context [list_eq_dec ?a ?b ?c] => destruct (list_eq_dec a b c) end; [|discriminate].
  intros E. assert (x = skipn 12 y) by congruence. subst x. rewrite skipn_length. lia.
Qed.
Lemma to4_bytes v x : to4 v = Some x -> bytes (octs v) -> bytes x.
Proof.
  destruct v as [y|]; cbn [to4 octs]; [|discriminate]. destruct (Nat.eqb_spec (length y) 4); [congruence|].
  destruct (Nat.eqb_spec (length y) 16); [|discriminate]. match goal with |- context [list_eq_dec ?a ?b ?c] => destruct (list_eq_dec a b c) end; [|discriminate].
  intros E. assert (x = skipn 12 y) by congruence. subst x. apply bytes_skipn.
Qed.
Lemma v4prefix_bytes : bytes v4prefix.
Proof. repeat (constructor; [reflexivity|]). constructor. Qed.
Lemma to16_len v x : to16 v = Some x -> length x = 16.
Proof.
  destruct v as [y|]; cbn [to16]; [|discriminate]. destruct (Nat.eqb_spec (length y) 4) as [E|].
  - intros [= <-]. change (length (v4prefix ++ y) = 16). rewrite app_length, E. reflexivity.
  - destruct (Nat.eqb_spec (length y) 16); [congruence|discriminate].
Qed.
Lemma to16_bytes v x : to16 v = Some x -> bytes (octs v) -> bytes x.
Proof.
  destruct v as [y|]; cbn [to16 octs]; [|discriminate]. destruct (Nat.eqb_spec (length y) 4) as [E|].
  - intros [= <-] H. change (bytes (v4prefix ++ y)). apply bytes_app. split; [apply v4prefix_bytes|exact H].
  - destruct (Nat.eqb_spec (length y) 16); [congruence|discriminate].
Qed.
Lemma canon4_present c v : ok4 c v -> present c 4 (canon4 c v).
Proof.
  unfold ok4, present, canon4. destruct c; [|reflexivity]. intros H. destruct (H eq_refl) as (x & E & B).
  exists x. eauto using to4_len, to4_bytes.
Qed.
Lemma canon16_present c v : ok16 c v -> present c 16 (canon16 c v).
Proof.
  unfold ok16, present, canon16. destruct c; [|reflexivity]. intros H. destruct (H eq_refl) as (x & E & B).
  exists x. eauto using to16_len, to16_bytes.
Qed.
Lemma ok4_notnil c v : ok4 c v -> c && notnil v = c.
Proof. destruct c; [|reflexivity]. intros H. destruct (H eq_refl) as (x & E & B). now destruct v. Qed.
Lemma ok16_notnil c v : ok16 c v -> c && notnil v = c.
Proof. destruct c; [|reflexivity]. intros H. destruct (H eq_refl) as (x & E & B). now destruct v. Qed.
Lemma wrb_canon4 c v b o : wrb c 4 (octs (to4 v)) b o = wrb c 4 (octs (canon4 c v)) b o.
Proof. now destruct c. Qed.
Lemma wrb_canon16 c v b o : wrb c 16 (octs (to16 v)) b o = wrb c 16 (octs (canon16 c v)) b o.
Proof. now destruct c. Qed.
(** a 4-octet slice is the canonical form of itself, and so is a 16-octet one *)
Lemma present_ok4 c v : present c 4 v -> ok4 c v /\ canon4 c v = v.
Proof.
  unfold present, ok4, canon4. destruct c; [|now intros ->]. intros (x & -> & L & B). rewrite to4_4 by exact L.
  split; [intros _; eauto|reflexivity].
Qed.
Lemma present_ok16 c v : present c 16 v -> ok16 c v /\ canon16 c v = v.
Proof.
  unfold present, ok16, canon16. destruct c; [|now intros ->]. intros (x & -> & L & B). rewrite to16_16 by exact L.
  split; [intros _; eauto|reflexivity].
Qed.
Lemma canon_notnil4 c v : ok4 c v -> notnil (canon4 c v) = c.
Proof. unfold ok4, canon4. destruct c; [|reflexivity]. intros H. now destruct (H eq_refl) as (x & -> & B). Qed.
Lemma canon_notnil16 c v : ok16 c v -> notnil (canon16 c v) = c.
Proof. unfold ok16, canon16. destruct c; [|reflexivity]. intros H. now destruct (H eq_refl) as (x & -> & B). Qed.
