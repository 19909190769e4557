(** Decoding with further octets behind the payload: readings that succeed on b give the same on b ++ r. *)
From Verif Require Import Base IETypes IE Bits Codec Codec2 Utils Fields1 Time Fields2 Fields3 Fields4 Access Reuse.
Set Implicit Arguments.

Definition ext {A} (x y : res A) : Prop := forall v, x = Ok v -> y = Ok v.
Lemma ext_refl {A} (x : res A) : ext x x. Proof. now intros v. Qed.
Lemma ext_bind {A B} (x x' : res A) (k k' : A -> res B) : ext x x' -> (forall a, x = Ok a -> ext (k a) (k' a)) -> ext (bind x k) (bind x' k').
Proof. intros H K v E. apply bind_ok in E as (a & Ea & E). rewrite (H a Ea). cbn [bind]. now apply (K a Ea). Qed.
Lemma ext_need {A} n (b r : list N) (x y : res A) : (n <= length b -> ext x y) -> ext (need n in b ;; x) (need n in (b ++ r) ;; y).
Proof.
  intros H v. destruct (Nat.ltb_spec (length b) n); [discriminate|]. destruct (Nat.ltb_spec (length (b ++ r)) n) as [L|L]; [rewrite app_length in L; lia|].
  now apply H.
Qed.
Lemma ext_index b r i : ext (index b i) (index (b ++ r) i).
Proof.
  intros v. unfold index. destruct (nth_error b i) eqn:E; [|discriminate]. intros H. rewrite nth_error_app1; [now rewrite E|].
  apply nth_error_Some. congruence.
Qed.
Lemma ext_slice b r i j : ext (slice b i j) (slice (b ++ r) i j).
Proof.
  intros v. unfold slice. destruct (Nat.leb_spec i j) as [H|H]; [|discriminate]. cbn [andb]. destruct (Nat.leb_spec j (length b)) as [L|L]; [|discriminate].
  intros E. rewrite app_length. destruct (Nat.leb_spec j (length b + length r)); [|lia]. rewrite <- E. f_equal.
  rewrite skipn_app, firstn_app, skipn_length. replace (j - i - (length b - i)) with 0 by lia. cbn [firstn]. now rewrite app_nil_r.
Qed.
Lemma ext_getr n b r i j : ext (getr n b i j) (getr n (b ++ r) i j).
Proof. unfold getr. apply ext_bind; [apply ext_slice|]. intros a _. apply ext_refl. Qed.
Lemma ext_if {A} (c : bool) (x x' y y' : res A) : (c = true -> ext x x') -> (c = false -> ext y y') -> ext (if c then x else y) (if c then x' else y').
Proof. destruct c; auto. Qed.
(** [from] gives a longer rest, of which only the length is used *)
Lemma ext_from {B} b r o (k k' : list N -> res B) : (forall q, from b o = Ok q -> ext (k q) (k' (q ++ r))) -> ext (bind (from b o) k) (bind (from (b ++ r) o) k').
Proof.
  intros K v. unfold from in *. destruct (Nat.leb_spec o (length b)) as [L|L]; [|discriminate]. rewrite app_length.
  destruct (Nat.leb_spec o (length b + length r)); [|lia]. cbn [bind]. rewrite skipn_app. replace (o - length b) with 0 by lia. cbn [skipn]. now apply K.
Qed.
Lemma ext_rd n b r o : ext (rd n b o) (rd n (b ++ r) o).
Proof. unfold rd. apply ext_need. intros _. apply ext_bind; [apply ext_slice|]. intros a _. apply ext_refl. Qed.

Ltac step :=
  cbv beta zeta;
  match goal with
  | |- ext ?x ?x => apply ext_refl
  | |- ext (need _ in ?b ;; _) (need _ in (?b ++ _) ;; _) => apply ext_need; intros _
  | |- ext (bind (from ?b _) _) (bind (from (?b ++ _) _) _) => apply ext_from; intros ? _
  | |- ext (bind _ _) (bind _ _) => apply ext_bind; [|intros ? _]
  | |- ext (index ?b _) (index (?b ++ _) _) => apply ext_index
  | |- ext (slice ?b _ _) (slice (?b ++ _) _ _) => apply ext_slice
  | |- ext (getr _ ?b _ _) (getr _ (?b ++ _) _ _) => apply ext_getr
  | |- ext (rd _ ?b _) (rd _ (?b ++ _) _) => apply ext_rd
  | |- ext (let '(_, _) := ?p in _) (let '(_, _) := ?p in _) => destruct p
  | |- ext (if ?c then _ else _) (if ?c then _ else _) => apply ext_if; intros _
  end.
Ltac steps := repeat step.
Lemma ext_rdb c n b r o d : ext (rdb c n b o d) (rdb c n (b ++ r) o d). Proof. unfold rdb. steps. Qed.
Lemma ext_rdn c n b r o d : ext (rdn c n b o d) (rdn c n (b ++ r) o d). Proof. unfold rdn. steps. Qed.
Lemma ext_rds c n b r o d : ext (rds c n b o d) (rds c n (b ++ r) o d). Proof. unfold rds. steps. Qed.
Lemma ext_rdf n b r o : ext (rdf n b o) (rdf n (b ++ r) o). Proof. unfold rdf. steps. Qed.
Lemma ext_rdsf c n b r o d : ext (rdsf c n b o d) (rdsf c n (b ++ r) o d). Proof. unfold rdsf. apply ext_if; intros _; [apply ext_rdf|steps]. Qed.
Lemma ext_rdnf c n b r o d : ext (rdnf c n b o d) (rdnf c n (b ++ r) o d). Proof. unfold rdnf. apply ext_if; intros _; [apply ext_bind; [apply ext_rdf|]; intros ? _|]; steps. Qed.
Lemma ext_rd8s c b r o : ext (rd8s c b o) (rd8s c (b ++ r) o). Proof. unfold rd8s. steps. Qed.
Lemma ext_rd1 b r o : ext (rd1 b o) (rd1 (b ++ r) o). Proof. unfold rd1. steps. Qed.
Lemma ext_copy_in d n b r o : ext (copy_in d n b o) (copy_in d n (b ++ r) o). Proof. unfold copy_in. steps. Qed.
Lemma ext_rate c b r o : ext (rd_rate c b o) (rd_rate c (b ++ r) o). Proof. unfold rd_rate. steps. Qed.
Lemma ext_macs k b r : forall o, ext (rd_macs k b o) (rd_macs k (b ++ r) o).
Proof. induction k as [|k IH]; intros o; cbn [rd_macs]; [steps|]. step; [steps|]. step. step; [apply IH|]. steps. Qed.
Lemma ext_orold {A} c (x y : res (A * nat)) d o : ext x y -> ext (orold c x d o) (orold c y d o).
Proof. intros H. unfold orold. apply ext_if; intros _; [exact H|apply ext_refl]. Qed.
Lemma ext_rd16old s n b r o : ext (rd16old s n b o) (rd16old s n (b ++ r) o). Proof. unfold rd16old. steps. Qed.
Lemma ext_rd16list c n l b r o : ext (rd16list c n l b o) (rd16list c n l (b ++ r) o).
Proof. unfold rd16list. apply ext_orold. step; [apply ext_rd16old|]. steps. Qed.
Ltac step1 :=
  first [ apply ext_rdb | apply ext_rdn | apply ext_rds | apply ext_rdsf | apply ext_rdnf | apply ext_rd8s | apply ext_rd1 | apply ext_copy_in | apply ext_rate
        | apply ext_macs | apply ext_rd16old | apply ext_rd16list | apply ext_orold | step ].
(** a network instance is never decoded *)
Lemma upri_ext f b r : ext (upri_unmarshal f b) (upri_unmarshal f (b ++ r)).
Proof.
  unfold upri_unmarshal. cbv zeta. apply ext_need. intros L.
  step; [steps|]. apply ext_bind; [apply ext_rdn|]. intros [? o1] E1. apply ext_bind; [repeat step1|]. intros [? o2] E2. apply ext_bind; [repeat step1|]. intros [? o3] E3.
  destruct (has6 a); [|repeat step1].
  assert (O : 1 <= o3).
  { unfold rdn, orold, rdb, rd in *. destruct (teidri a); [apply bind_ok in E1 as ([? ?] & X & E1); destruct (length b <? _) in X; [discriminate X|]; apply bind_ok in X as (? & _ & X)|];
      try (injection X as <- <-); injection E1 as _ <-;
    (destruct (has1 a); [repeat (apply bind_ok in E2 as ([? ?] & X2 & E2)); apply bind_ok in X2 as ([? ?] & Y2 & X2); destruct (length b <? _) in Y2; [discriminate Y2|]; apply bind_ok in Y2 as (? & _ & Y2); injection Y2 as <- <-; injection X2 as _ <-|]);
      injection E2 as _ <-;
    (destruct (has2 a); [repeat (apply bind_ok in E3 as ([? ?] & X3 & E3)); apply bind_ok in X3 as ([? ?] & Y3 & X3); destruct (length b <? _) in Y3; [discriminate Y3|]; apply bind_ok in Y3 as (? & _ & Y3); injection Y3 as <- <-; injection X3 as _ <-|]);
      injection E3 as _ <-; lia. }
  intros v E. exfalso. destruct (has7 a).
  - unfold index in E. rewrite (proj2 (nth_error_None b (length b))) in E by lia. discriminate E.
  - cbn [bind] in E. destruct (Nat.ltb_spec (length b) (o3 + length b)); [discriminate E|lia].
Qed.
Theorem longer f b r y : unmarshal f b = Ok y -> unmarshal f (b ++ r) = Ok y.
Proof.
  revert y. change (ext (unmarshal f b) (unmarshal f (b ++ r))).
  destruct f; cbn [unmarshal]; (apply ext_bind; [|intros; apply ext_refl]).
  all: try apply upri_ext.
  all: match goal with |- ext (?u ?f ?x) _ => unfold u; try unfold henr_parse end.
  all: repeat step1.
Qed.
