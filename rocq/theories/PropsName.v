(** C88: the printed name of an IE type. *)
From Coq Require Import String Ascii DecimalString DecimalN.
From Verif Require Import Base IENames TypeString.
Local Open Scope string_scope.
Local Open Scope N_scope.

(** decimal digits of a number, most significant first, as a specification of its own *)
Fixpoint value_of (acc : N) (s : string) : option N :=
  match s with
  | EmptyString => Some acc
  | String c r => let d := N_of_ascii c in if (48 <=? d) && (d <=? 57) then value_of (10 * acc + (d - 48)) r else None
  end.

Definition first_name (t : N) : option string := option_map snd (find (fun p => fst p =? t) ie_type_names).
Definition codes : list N := map N.of_nat (seq 1 271).
Lemma codes_ok t : 1 <= t < 272 -> In t codes.
Proof.
  intros H. unfold codes. apply in_map_iff. exists (N.to_nat t). split; [lia|]. apply in_seq. lia.
Qed.
Definition string_res_eqb (r : res string) (s : string) : bool := match r with Ok x => String.eqb x s | _ => false end.
Lemma all_codes : forallb (fun t => match first_name t with Some n => string_res_eqb (ietype_string t) n && negb (prefix "IEType(" n) | None => false end) codes = true.
Proof. vm_compute. reflexivity. Qed.
Lemma code_ok t : 1 <= t < 272 -> exists n, first_name t = Some n /\ ietype_string t = Ok n /\ prefix "IEType(" n = false.
Proof.
  intros H. pose proof (proj1 (forallb_forall _ _) all_codes t (codes_ok t H)) as Q. cbv beta in Q. destruct (first_name t) as [n|]; [|discriminate].
  exists n. split; [reflexivity|]. apply andb_prop in Q. destruct Q as [Q R]. unfold string_res_eqb in Q. destruct (ietype_string t) as [x| | |]; try discriminate.
  apply String.eqb_eq in Q. subst x. split; [reflexivity|]. now destruct (prefix _ n).
Qed.
Lemma other t : t < 1 \/ 272 <= t -> ietype_string t = Ok ("IEType(" ++ format_int t ++ ")").
Proof.
  intros H. unfold ietype_string. replace (length ietype_index) with 272%nat by (vm_compute; reflexivity).
  replace ((t <? 1) || (Z.of_nat 272 - 1 <=? Z.of_N t - 1)%Z) with true; [reflexivity|]. symmetry. apply orb_true_iff. rewrite N.ltb_lt, Z.leb_le. lia.
Qed.

Lemma value_pos d : forall p, value_of (Npos p) (NilEmpty.string_of_uint d) = Some (Npos (Pos.of_uint_acc d p)).
Proof.
  induction d; intros p; [reflexivity|..]; cbn [NilEmpty.string_of_uint value_of Pos.of_uint_acc];
    match goal with |- context [N_of_ascii ?c] => let v := eval vm_compute in (N_of_ascii c) in change (N_of_ascii c) with v end; cbn [N.leb N.compare andb];
    (match goal with |- context [if ?b then _ else _] => change b with true end); cbv iota; (rewrite <- IHd; f_equal); lia.
Qed.
Lemma value_uint d : value_of 0 (NilEmpty.string_of_uint d) = Some (N.of_uint d).
Proof.
  unfold N.of_uint. induction d; [reflexivity|exact IHd|..]; cbn [Pos.of_uint]; exact (value_pos d _).
Qed.
Lemma value_format n : value_of 0 (format_int n) = Some n.
Proof. unfold format_int. rewrite value_uint. now rewrite DecimalN.Unsigned.of_to. Qed.
Lemma first_digit n : format_int n = "0" \/ forall r, format_int n <> String "0" r.
Proof.
  unfold format_int. replace (N.to_uint n) with (Decimal.unorm (N.to_uint n)) by now rewrite <- DecimalN.Unsigned.to_of, DecimalN.Unsigned.of_to.
  generalize (N.to_uint n). intros d.
  unfold Decimal.unorm. destruct (Decimal.nzhead d) eqn:E; try (right; intros r; discriminate); [now left|].
  exfalso. clear - E. induction d; try discriminate. apply IHd. exact E.
Qed.

Lemma tail_eq (a b : string) c : a ++ c = b ++ c -> a = b.
Proof.
  intros H. assert (L : String.length a = String.length b).
  { assert (K : forall x y, String.length (x ++ y) = (String.length x + String.length y)%nat) by (induction x; intros; cbn; [|rewrite IHx]; reflexivity).
    apply (f_equal String.length) in H. rewrite !K in H. lia. }
  revert b H L. induction a as [|x a IH]; intros [|y b] H L; try discriminate; [reflexivity|]. cbn in H, L. injection H as -> H. f_equal. apply IH; [exact H|congruence].
Qed.
Lemma prefix_app p s : prefix p (p ++ s) = true.
Proof. induction p as [|c p IH]; [destruct s; reflexivity|]. cbn. destruct (ascii_dec c c); [exact IH|contradiction]. Qed.

(** String() returns: it never indexes outside its tables *)
Theorem C88_total t : exists s, ietype_string t = Ok s.
Proof.
  destruct (N.lt_ge_cases t 1) as [H|H]; [rewrite other by lia; eauto|]. destruct (N.lt_ge_cases t 272) as [K|K]; [|rewrite other by lia; eauto].
  destruct (code_ok t) as (n & _ & E & _); [lia|eauto].
Qed.
Print Assumptions C88_total.
(** a type with a constant is printed as the name of the first constant of that value *)
Theorem C88_defined t n : find (fun p => fst p =? t) ie_type_names = Some (t, n) -> ietype_string t = Ok n.
Proof.
  intros F. assert (H : 1 <= t < 272).
  { assert (A : forallb (fun p => (1 <=? fst p) && (fst p <? 272)) ie_type_names = true) by (vm_compute; reflexivity).
    apply find_some in F. destruct F as [I _]. apply (proj1 (forallb_forall _ _) A) in I. cbn [fst] in I. lia. }
  destruct (code_ok t H) as (m & G & E & _). unfold first_name in G. rewrite F in G. cbn in G. congruence.
Qed.
Print Assumptions C88_defined.
(** a type without one as its number: IEType(n), n in decimal without superfluous zeros *)
Theorem C88_undefined t : ~ In t (map fst ie_type_names) ->
  exists d, ietype_string t = Ok ("IEType(" ++ d ++ ")") /\ value_of 0 d = Some t /\ (d = "0" \/ forall r, d <> String "0" r).
Proof.
  intros H. exists (format_int t). rewrite other; [split; [reflexivity|]; split; [apply value_format|apply first_digit]|].
  destruct (N.lt_ge_cases t 1) as [|A]; [now left|]. destruct (N.lt_ge_cases t 272) as [B|]; [|now right]. exfalso. apply H.
  destruct (code_ok t) as (m & G & _); [lia|]. unfold first_name in G. destruct (find _ _) as [[u n]|] eqn:F; [|discriminate]. apply find_some in F. destruct F as [I E]. apply N.eqb_eq in E. cbn in E. subst u.
  apply in_map_iff. exists (t, n). now split.
Qed.
Print Assumptions C88_undefined.
(** no two types print alike *)
Theorem C88_distinct t u s : ietype_string t = Ok s -> ietype_string u = Ok s -> t = u.
Proof.
  intros T U.
  assert (D : forall x, (1 <= x < 272) \/ (x < 1 \/ 272 <= x)) by (intros; lia).
  destruct (D t) as [A|A], (D u) as [B|B].
  - assert (Q : forallb (fun a => forallb (fun b => (a =? b) || match first_name a, first_name b with Some x, Some y => negb (String.eqb x y) | _, _ => false end) codes) codes = true) by (vm_compute; reflexivity).
    pose proof (proj1 (forallb_forall _ _) (proj1 (forallb_forall _ _) Q t (codes_ok t A)) u (codes_ok u B)) as R. cbv beta in R. clear Q.
    destruct (code_ok t A) as (n & F & E & _), (code_ok u B) as (m & G & E' & _). rewrite F, G in R. assert (n = m) by congruence. subst m. rewrite String.eqb_refl, orb_false_r in R. now apply N.eqb_eq.
  - destruct (code_ok t A) as (n & F & E & P). rewrite other in U by exact B. assert (X : n = "IEType(" ++ format_int u ++ ")") by congruence. rewrite X, prefix_app in P. discriminate.
  - destruct (code_ok u B) as (n & F & E & P). rewrite other in T by exact A. assert (X : n = "IEType(" ++ format_int t ++ ")") by congruence. rewrite X, prefix_app in P. discriminate.
  - rewrite other in T, U by assumption. assert (U' : "IEType(" ++ format_int t ++ ")" = "IEType(" ++ format_int u ++ ")") by congruence. cbn [append] in U'. injection U' as U'. apply tail_eq in U'. pose proof (value_format t) as V. rewrite U', value_format in V. congruence.
Qed.
Print Assumptions C88_distinct.
Example C88_ex : ietype_string 1 = Ok "CreatePDR" /\ ietype_string 271 = Ok "TransportDelayReporting" /\ ietype_string 199 = Ok "TSCManagementInformationWithinSessionModificationRequest" /\
  ietype_string 0 = Ok "IEType(0)" /\ ietype_string 0x8001 = Ok "IEType(32769)" /\ find (fun p => fst p =? 56) ie_type_names = Some (56, "PDRID") /\ ~ In 272 (map fst ie_type_names).
Proof. repeat (split; [vm_compute; reflexivity|]). intros H. assert (E : existsb (N.eqb 272) (map fst ie_type_names) = false) by (vm_compute; reflexivity). rewrite <- not_true_iff_false in E. apply E. apply existsb_exists. exists 272. split; [exact H|reflexivity]. Qed.
