(** What an accessor reads, and which calls can succeed. *)
From Verif Require Import Base IETypes IE Spec Bits Header IEProofs IEProofs2 Codec Codec2 Utils UtilsProofs Fields1 Time Fields2 Fields3 Fields4
  FieldsProofs1 FieldsProofs2 Access AccTable AccRun AccProofs AccProofs2 AccProofs3 AccProofs4.
Set Implicit Arguments.

Lemma search_find p f l : search p f l = match find p l with Some x => f x | None => Err EIENotFound end.
Proof. induction l as [|x r IH]; cbn [search find]; [reflexivity|]. now destruct (p x). Qed.

(** ** the accessor applied to the child found is the same accessor, or FTEID for LocalFTEID *)
Definition same_acc (a b : acc) : bool := (acc_id a =? acc_id b)%N || ((acc_id a =? acc_id A_LocalFTEID)%N && (acc_id b =? acc_id A_FTEID)%N).
Lemma via_same a t c ts b : look a t = Via c ts b -> b = a \/ (a = A_LocalFTEID /\ b = A_FTEID).
Proof.
  assert (H : cases_ok (fun a _ x => match x with Via _ _ b => same_acc a b | _ => true end) (fun a x => match x with Via _ _ b => same_acc a b | _ => true end) = true) by (vm_compute; reflexivity).
  intros L. destruct (cases_ok_ok _ _ H a t) as [K|[_ K]]; rewrite L in K; unfold same_acc in K; apply orb_prop in K as [K|K];
    try (apply N.eqb_eq in K; apply acc_id_inj in K; now left); apply andb_prop in K as [K1 K2]; apply N.eqb_eq in K1, K2;
    apply acc_id_inj in K1, K2; now right.
Qed.
(** ... and it knows the types looked for *)
Lemma via_known a t c ts b : look a t = Via c ts b -> forall t', In t' ts -> look b t' <> Leaf LInvalid.
Proof.
  assert (H : cases_ok (fun _ _ x => match x with Via _ ts b => forallb (fun t' => match look b t' with Leaf LInvalid => false | _ => true end) ts | _ => true end)
     (fun a x => match x with Via _ _ _ => false | _ => true end) = true) by (vm_compute; reflexivity).
  intros L t' I E. destruct (cases_ok_ok _ _ H a t) as [K|[_ K]]; rewrite L in K; [|discriminate]. rewrite forallb_forall in K. specialize (K _ I). rewrite E in K. discriminate.
Qed.
(** only guards on the length stand before a search *)
Definition len_guards (gs : list guard) : bool := forallb (fun x => match x with GLen _ => true | GType _ => false end) gs.
Lemma via_guards a t c ts b : look a t = Via c ts b -> len_guards (guards (acc_def a)) = true.
Proof.
  assert (H : cases_ok (fun a _ x => match x with Via _ _ _ => len_guards (guards (acc_def a)) | _ => true end)
     (fun a x => match x with Via _ _ _ => false | _ => true end) = true) by (vm_compute; reflexivity).
  intros L. destruct (cases_ok_ok _ _ H a t) as [K|[_ K]]; rewrite L in K; [assumption|discriminate].
Qed.
Lemma check_len gs i : len_guards gs = true -> check gs i = if length (payload i) <? glen gs then Err EUnexpectedEOF else Ok tt.
Proof.
  induction gs as [|[n|t] r IH]; cbn [len_guards forallb check glen fold_right]; intros H; [reflexivity| |discriminate]. fold (glen r). rewrite IH by assumption.
  destruct (Nat.ltb_spec (length (payload i)) n), (Nat.ltb_spec (length (payload i)) (glen r)), (Nat.ltb_spec (length (payload i)) (Nat.max n (glen r))); trivial; lia.
Qed.
(** the shortest payload the accessor accepts *)
Definition least (a : acc) : nat := glen (guards (acc_def a)).

Section G.
Variable g : N -> bool.
Definition first_of (ts : list N) (is : list ie) : option ie := find (fun x => memb (ty x) ts) is.
Theorem access_via a i c ts b : bytes (payload i) -> look a (ty i) = Via c ts b ->
  access g a i = if length (payload i) <? least a then Err EUnexpectedEOF else
    (is <- parseMultiIEs g (payload i) ;; match first_of ts is with Some x => access g b x | None => Err EIENotFound end).
Proof.
  intros Hb L. rewrite access_eq by assumption. rewrite L, check_len by now apply (via_guards _ _ L). fold (least a). destruct (_ <? _); [reflexivity|]. cbn [bind].
  destruct (parseMultiIEs g (payload i)); [|reflexivity..]. cbn [bind]. apply search_find.
Qed.
(** the elements a group was built from are the ones the accessors see *)
Theorem access_wires a i c ts b is : wires g is (payload i) -> look a (ty i) = Via c ts b ->
  access g a i = if length (payload i) <? least a then Err EUnexpectedEOF else match first_of ts is with Some x => access g b x | None => Err EIENotFound end.
Proof.
  intros W L. pose proof (wires_bytes W) as Hb. rewrite (@access_via _ _ _ _ _ Hb L).
  pose proof (@parseMulti_app g is (payload i) [] W (Forall_nil _)) as P. rewrite app_nil_r, parseMulti_nil in P. rewrite P. cbn [bind]. now rewrite app_nil_r.
Qed.
Lemma access_least a i v : bytes (payload i) -> access g a i = Ok v -> least a <= length (payload i).
Proof. intros Hb. rewrite access_eq by assumption. intros E. apply bind_ok in E as (u & C & _). now apply check_glen in C. Qed.
Lemma wires_shorter is b x : wires g is b -> In x is -> bytes (payload x) /\ length (payload x) <= length b.
Proof.
  intros W I. pose proof (wires_bytes W) as Hb. pose proof (@parseMulti_app g is b [] W (Forall_nil _)) as P. rewrite app_nil_r, parseMulti_nil in P. cbn [bind] in P. rewrite app_nil_r in P.
  destruct (@parsed_child g _ _ _ Hb P I) as (_ & Bx & Lx). split; [assumption|lia].
Qed.
(** a value in the first element of a type looked for is the value of the group, whatever the guard *)
Theorem access_wires_ok a i c ts b is v : wires g is (payload i) -> look a (ty i) = Via c ts b ->
  (access g a i = Ok v <-> exists x, first_of ts is = Some x /\ access g b x = Ok v).
Proof.
  intros W L. rewrite (@access_wires _ _ _ _ _ _ W L). split.
  - destruct (_ <? _); [discriminate|]. destruct (first_of ts is) as [x|]; [|discriminate]. intros E. now exists x.
  - intros (x & F & E). rewrite F. destruct (Nat.ltb_spec (length (payload i)) (least a)); [|assumption]. exfalso.
    pose proof (find_some _ _ F) as [I _]. destruct (@wires_shorter _ _ _ W I) as [Bx Lx]. apply access_least in E; [|assumption].
    destruct (via_same _ _ L) as [->|[-> ->]]; [lia|]. cbn in H. lia.
Qed.
Theorem access_new_grouped a t e ies i c ts b v : new_grouped g t e ies = Ok (Some i) -> Forall (fun x => wire g x (enc g x)) (somes ies) ->
  look a t = Via c ts b ->
  (access g a i = Ok v <-> exists x, first_of ts (somes ies) = Some x /\ access g b x = Ok v).
Proof.
  intros B W L. rewrite new_grouped_ok in B. assert (E : i = set_length (mkIE t 0 e (concat (map (enc g) (somes ies))) (somes ies))) by congruence.
  apply (@access_wires_ok a i c ts b); [|now rewrite E]. rewrite E. cbn. now apply concat_enc_wires.
Qed.

(** ** an accessor reads Type and Payload only (and Length, in one case) *)
Lemma check_same gs i j : ty i = ty j -> payload i = payload j -> check gs i = check gs j.
Proof. intros T P. induction gs as [|[n|t] r IH]; cbn [check]; [reflexivity| |]; now rewrite ?T, ?P, IH. Qed.
Lemma leaf_same l i j : ty i = ty j -> payload i = payload j -> (l = LSuggestedCount -> len i = len j) -> leaf_run g l i = leaf_run g l j.
Proof.
  intros T P L. destruct l; cbn [leaf_run]; unfold value_as_uint, value_as_string; rewrite ?T, ?P; try reflexivity.
  unfold suggested_count, value_as_uint. now rewrite T, P, (L eq_refl).
Qed.
Lemma post_same f i j v : payload i = payload j -> post_run f i v = post_run f j v.
Proof. intros P. destruct f; cbn [post_run]; rewrite ?P; reflexivity. Qed.
Lemma count_leaf a t : look a t = Leaf LSuggestedCount -> a = A_DLBufferingSuggestedPacketCount /\ t = T_DLBufferingSuggestedPacketCount.
Proof.
  assert (H : cases_ok (fun a t x => match x with Leaf LSuggestedCount => (acc_id a =? acc_id A_DLBufferingSuggestedPacketCount)%N && (t =? T_DLBufferingSuggestedPacketCount)%N | _ => true end)
     (fun a x => match x with Leaf LSuggestedCount => false | _ => true end) = true) by (vm_compute; reflexivity).
  intros L. destruct (cases_ok_ok _ _ H a t) as [K|[_ K]]; rewrite L in K; [|discriminate]. apply andb_prop in K as [K1 K2]. apply N.eqb_eq in K1, K2. apply acc_id_inj in K1. now split.
Qed.
Lemma run_same n : forall a i j, ty i = ty j -> payload i = payload j -> (ty i = T_DLBufferingSuggestedPacketCount -> len i = len j) -> run g n a i = run g n a j.
Proof.
  induction n as [|n IH]; intros a i j T P L; [reflexivity|]. rewrite !run_S, (check_same _ i j T P), <- T. destruct (check _ j); [|reflexivity..]. cbn [bind].
  destruct (look a (ty i)) as [l|c ts x|c ts x|c f|c d] eqn:E.
  - apply leaf_same; trivial. intros ->. apply L. now apply count_leaf in E.
  - now rewrite (IH c i j).
  - now rewrite (IH c i j).
  - rewrite (IH c i j) by assumption. destruct (run g n c j); [|reflexivity..]. cbn [bind]. now apply post_same.
  - rewrite (IH c i j), (IH d i j) by assumption. reflexivity.
Qed.
Theorem access_same a i j : ty i = ty j -> payload i = payload j -> (ty i = T_DLBufferingSuggestedPacketCount -> len i = len j) -> access g a i = access g a j.
Proof. intros T P L. unfold access. rewrite P. now apply run_same. Qed.

(** ** an accessor given an IE it does not handle *)
Theorem access_invalid a i : bytes (payload i) -> look a (ty i) = Leaf LInvalid ->
  access g a i = Err (EInvalidTypeT (ty i)) \/ (access g a i = Err EUnexpectedEOF /\ length (payload i) < least a).
Proof.
  intros Hb L. rewrite access_eq by assumption. rewrite L. cbn [leaf_run]. unfold least. induction (guards (acc_def a)) as [|[n|t] r IH]; cbn [check glen fold_right]; [now left| |].
  - destruct (Nat.ltb_spec (length (payload i)) n); [right; split; [reflexivity|lia]|]. fold (glen r). destruct IH as [E|[E IH]]; [now left|right; split; [assumption|lia]].
  - destruct (negb _); [now left|]. exact IH.
Qed.

(** ** LocalFTEIDN *)
Lemma nth_fteid_spec n l : forall c, (c < n)%Z -> nth_fteid g n c l =
  match nth_error (filter (fun x => (ty x =? T_FTEID)%N) l) (Z.to_nat (n - c - 1)) with Some x => access g A_FTEID x | None => Err EIENotFound end.
Proof.
  induction l as [|x r IH]; intros c L; cbn [nth_fteid filter].
  - destruct (Z.to_nat (n - c - 1)); reflexivity.
  - destruct (ty x =? T_FTEID)%N; [|now apply IH]. destruct (Z.eqb_spec (c + 1) n).
    + replace (n - c - 1)%Z with 0%Z by lia. reflexivity.
    + rewrite IH by lia. replace (Z.to_nat (n - c - 1)) with (S (Z.to_nat (n - (c + 1) - 1))) by lia. reflexivity.
Qed.
Theorem local_fteid_n_spec n i : bytes (payload i) -> ty i = T_CreatedTrafficEndpoint -> (1 <= n)%Z ->
  local_fteid_n g n i = (is <- parseMultiIEs g (payload i) ;;
    match nth_error (filter (fun x => (ty x =? T_FTEID)%N) is) (Z.to_nat (n - 1)) with Some x => access g A_FTEID x | None => Err EIENotFound end).
Proof.
  intros Hb T L. unfold local_fteid_n. destruct (Z.ltb_spec n 1); [lia|]. rewrite T, N.eqb_refl.
  assert (C : check (guards (acc_def A_CreatedTrafficEndpoint)) i = Ok tt) by (cbn [guards acc_def check]; now rewrite T).
  rewrite access_eq, C, T by assumption.
  change (look A_CreatedTrafficEndpoint T_CreatedTrafficEndpoint) with (@Leaf acc LChildren). cbn [leaf_run]. unfold as_ies.
  cbn [bind]. destruct (parseMultiIEs g (payload i)); [|reflexivity..]. cbn [bind]. rewrite nth_fteid_spec by lia. now rewrite Z.sub_0_r.
Qed.
Theorem local_fteid_n_low n i : (n < 1)%Z -> local_fteid_n g n i = Err EIENotFound.
Proof. intros L. unfold local_fteid_n. destruct (Z.ltb_spec n 1); [reflexivity|lia]. Qed.
Theorem local_fteid_n_type n i : (1 <= n)%Z -> ty i <> T_CreatedTrafficEndpoint -> local_fteid_n g n i = Err (EInvalidTypeT (ty i)).
Proof. intros L T. unfold local_fteid_n. destruct (Z.ltb_spec n 1); [lia|]. destruct (N.eqb_spec (ty i) T_CreatedTrafficEndpoint); [contradiction|reflexivity]. Qed.
End G.
