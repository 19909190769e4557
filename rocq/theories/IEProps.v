(** Statements of PropsIE.v that are combinations of the lemmas in IEProofs/IEProofs2/IEWf. *)
From Verif Require Import Base IETypes IE Spec IEProofs IEProofs2 IEWf IEWitness.
Set Implicit Arguments.
Local Open Scope N_scope.

Lemma parseMulti_tiles : forall g b is, bytes b -> parseMultiIEs g b = Ok is ->
  exists bs, Forall2 (fun i x => marshal g i = Ok x /\ mlen g i = length x /\ (4 <= length x)%nat) is bs
             /\ concat bs = b.
Proof.
  intros g b is Hb H. apply parseMulti_iff in H; [|exact Hb].
  exists (map (enc g) is). split; [|now apply enc_accepteds].
  clear. induction is as [|i is IH]; simpl; constructor; auto.
  rewrite marshal_ok, enc_length. pose proof (mlen_ge4 g i). auto.
Qed.
Lemma wire_roundtrip : forall g i b, wire g i b ->
  marshal g i = Ok b /\ forall rest, bytes rest -> parse g (b ++ rest) = Ok i.
Proof.
  intros g i b H. split; [rewrite marshal_ok; f_equal; now apply wire_enc|].
  intros rest Hr. now apply parse_wire.
Qed.
Lemma wellformed_iff : forall g i, (exists b, wire g i b) <-> wfb g i = true.
Proof.
  intros g i. split; [intros [b H]; now apply wire_wfb in H|]. intros H. eexists. now apply wfb_wire.
Qed.
Lemma ex_wire_enc g i : (exists b, wire g i b) -> wire g i (enc g i).
Proof. intros [b H]. now rewrite (wire_enc H). Qed.
Lemma ex_wire_encs g is : Forall (fun i => exists b, wire g i b) is -> Forall (fun i => wire g i (enc g i)) is.
Proof. intros H. eapply Forall_impl; [|exact H]. intros a. apply ex_wire_enc. Qed.
Lemma fits_bound t n : N.of_nat n + 2 < 65536 -> fits t n.
Proof. unfold fits. destruct (vendor t); lia. Qed.
Lemma vendor_eid t e : t < 65536 -> (t < 0x8000 -> e = 0) -> vendor t = false -> e = 0.
Proof. intros Ht H V. rewrite vendor_iff in V by exact Ht. apply N.leb_gt in V. auto. Qed.
Lemma new_grouped_wf : forall g t e ies,
  g t = true -> t < 65536 -> e < 65536 -> (t < 0x8000 -> e = 0) ->
  Forall (fun c => exists b, wire g c b) (somes ies) ->
  N.of_nat (list_sum (map (mlen g) (somes ies))) + 2 < 65536 ->
  exists i b, new_grouped g t e ies = Ok (Some i) /\ wire g i b /\ ty i = t /\ eid i = e /\ children i = somes ies.
Proof.
  intros g t e ies G Ht He Hv Hc Hs. eexists. eexists. split; [apply new_grouped_ok|].
  split; [|repeat split]. eapply new_grouped_wire; try exact (new_grouped_ok g t e ies); auto.
  - intros V. now apply (vendor_eid Ht Hv V).
  - now apply ex_wire_encs.
  - now apply fits_bound.
Qed.
Lemma list_marshal_parse : forall g is, Forall (fun i => exists b, wire g i b) is ->
  exists bs, Forall2 (fun i b => marshal g i = Ok b) is bs /\ parseMultiIEs g (concat bs) = Ok is.
Proof.
  intros g is H. exists (map (enc g) is). split.
  - clear. induction is as [|i is IH]; simpl; constructor; auto. apply marshal_ok.
  - apply parseMulti_wires, concat_enc_wires. now apply ex_wire_encs.
Qed.
Lemma marshal_never_fails : forall g i, exists b, marshal g i = Ok b /\ length b = mlen g i.
Proof. intros g i. exists (enc g i). split; [apply marshal_ok|apply enc_length]. Qed.
Lemma marshal_to_frame : forall g i b b', marshal g i = Ok b -> (length b <= length b')%nat ->
  marshal_to g i b' = Ok (b ++ skipn (length b) b').
Proof.
  intros g i b b' H L. rewrite marshal_ok in H. injection H as <-. rewrite enc_length in *. now apply marshal_to_fits.
Qed.
Lemma default_not_vendor : forall t, default_grouped t = true -> vendor t = false.
Proof.
  intros t H. unfold default_grouped in H. apply existsb_exists in H as (x & Hx & E).
  apply N.eqb_eq in E. subst x. apply vendor_false.
  assert (A : forallb (fun x => x <? 0x8000) grouped_list = true) by (vm_compute; reflexivity).
  rewrite forallb_forall in A. apply N.ltb_lt. now apply A.
Qed.
Lemma default_short : forall i b, (length b < mlen default_grouped i)%nat ->
  forall s, marshal_to default_grouped i b <> Ok s.
Proof. intros i. exact (@marshal_to_short default_grouped i default_not_vendor). Qed.

Lemma new_vendor_length : forall g t e p, g t = false ->
  len (new_vendor t e p) = (N.of_nat (mlen g (new_vendor t e p)) - 4) mod 65536.
Proof.
  intros g t e p G. rewrite mlen_eq. unfold new_vendor, set_length. cbn [ty len payload]. rewrite G.
  unfold u16, lenN, hdr. f_equal. destruct (vendor t); lia.
Qed.
Lemma new_length : forall g t p, g t = false ->
  len (new t p) = (N.of_nat (mlen g (new t p)) - 4) mod 65536.
Proof. intros g t p G. exact (@new_vendor_length g t 0 p G). Qed.
Lemma coherent_length g i : g (ty i) = true -> coherent g i -> len i = (N.of_nat (mlen g i) - 4) mod 65536.
Proof.
  intros G [Hp Hl]. rewrite Hl, mlen_eq, G. unfold u16, lenN, hdr. f_equal.
  assert (L : length (payload i) = list_sum (map (mlen g) (children i))).
  { rewrite Hp. apply length_concat_enc, Forall_forall. intros; apply enc_length. }
  destruct (vendor (ty i)); lia.
Qed.
Lemma new_grouped_coherent : forall g t e ies i, new_grouped g t e ies = Ok (Some i) -> coherent g i.
Proof.
  intros g t e ies i H. rewrite new_grouped_ok in H. injection H as <-.
  split; [reflexivity|]. unfold set_length. cbn [ty len payload]. now rewrite N.add_comm.
Qed.
Lemma new_grouped_length : forall g t e ies i, g t = true -> new_grouped g t e ies = Ok (Some i) ->
  len i = (N.of_nat (mlen g i) - 4) mod 65536.
Proof.
  intros g t e ies i G H. apply coherent_length; [|now apply new_grouped_coherent in H].
  rewrite new_grouped_ok in H. injection H as <-. exact G.
Qed.
Lemma new_on_grouped_type :
  exists t p b, default_grouped t = true /\ marshal default_grouped (new t p) = Ok b /\
    N.of_nat (length b) <> len (new t p) + 4.
Proof.
  exists T_CreateFAR, [0;108;0;4;0;0;0;1], [0;3;0;8].
  split; [reflexivity|]. split; [reflexivity|]. vm_compute. discriminate.
Qed.
Lemma wire_coherent : forall g i b, wire g i b -> g (ty i) = true -> coherent g i.
Proof.
  intros g i b H G. apply wire_wfb in H. rewrite wfb_eq, G, !andb_true_iff in H.
  destruct H as [[[[[[Ht He] Hv] Hp] Hl] Hlen] [Hc _]]. apply leqb_eq in Hc. split; [exact Hc|].
  apply N.eqb_eq in Hlen. apply N.ltb_lt in Hl. unfold u16. rewrite <- Hlen. symmetry. now apply N.mod_small.
Qed.
Lemma coherent_wellformed : forall g i, g (ty i) = true -> ty i < 65536 -> eid i < 65536 ->
  (ty i < 0x8000 -> eid i = 0) -> coherent g i ->
  Forall (fun c => exists b, wire g c b) (children i) -> lenN (payload i) + 2 < 65536 ->
  exists b, wire g i b.
Proof.
  intros g i G Ht He Hv C Hc Hs. eexists. apply coherent_wire; auto.
  - intros V. now apply (vendor_eid Ht Hv V).
  - now apply ex_wire_encs.
  - now apply fits_bound.
Qed.
Lemma remove_exact : forall g i typ, g (ty i) = true ->
  exists j, remove g i typ = Ok j /\ ty j = ty i /\ eid j = eid i /\
    children j = filter (fun c => negb (ty c =? typ)) (children i).
Proof. intros g i typ G. eexists. split; [now apply remove_ok|]. repeat split. Qed.
Lemma keep_keep t cs : keep t (keep t cs) = keep t cs.
Proof. unfold keep. induction cs as [|c r IH]; simpl; [reflexivity|]. destruct (ty c =? t) eqn:E; simpl; rewrite ?E; simpl; [auto|now rewrite IH]. Qed.
Lemma remove_then_find : forall g i j typ, g (ty i) = true -> remove g i typ = Ok j ->
  find_by_type g j typ = Err EIENotFound /\
  (forall u, u <> typ -> find_by_type g j u = find_by_type g i u) /\
  remove g j typ = Ok j.
Proof.
  intros g i j typ G H. rewrite remove_ok in H by exact G. injection H as <-.
  assert (G' : g (ty (rebuilt g i (keep typ (children i)))) = true) by exact G.
  split; [|split].
  - apply find_by_type_miss; [exact G'|]. apply Forall_forall. intros x Hx.
    change (In x (keep typ (children i))) in Hx. apply filter_In in Hx as [_ Hx].
    intros E. rewrite E, N.eqb_refl in Hx. discriminate.
  - intros u Hu. unfold find_by_type. rewrite G', G. cbn [negb].
    change (children (rebuilt g i (keep typ (children i)))) with (keep typ (children i)).
    clear G'. induction (children i) as [|c r IH]; simpl; [reflexivity|].
    destruct (N.eqb_spec (ty c) typ) as [E|E]; simpl.
    + destruct (N.eqb_spec (ty c) u); [congruence|exact IH].
    + destruct (N.eqb_spec (ty c) u); [reflexivity|exact IH].
  - rewrite remove_ok by exact G'. f_equal.
    change (children (rebuilt g i (keep typ (children i)))) with (keep typ (children i)).
    rewrite keep_keep. reflexivity.
Qed.
Lemma plain_noop : forall g i ies typ, g (ty i) = false ->
  add g i ies = Ok i /\ remove g i typ = Ok i /\ find_by_type g i typ = Err EInvalidType.
Proof. intros g i ies typ G. split; [now apply add_plain|]. split; [now apply remove_plain|now apply find_by_type_plain]. Qed.
Lemma value_as_uint_exact : forall g k i,
  value_as_uint g k i =
  if g (ty i) then Err (EInvalidTypeT (ty i))
  else if (length (payload i) <? k)%nat then Err EUnexpectedEOF
  else Ok (unbe (firstn k (payload i))).
Proof.
  intros g k i. unfold value_as_uint. destruct (g (ty i)); [reflexivity|].
  destruct (Nat.ltb_spec (length (payload i)) k) as [L|L]; [reflexivity|].
  unfold getr. rewrite slice_ok by lia. cbn [bind]. unfold getn. rewrite Nat.sub_0_r, firstn_length. cbn [skipn].
  destruct (Nat.leb_spec k (Nat.min k (length (payload i)))); [|lia]. now rewrite firstn_firstn, Nat.min_id.
Qed.
Lemma value_as_string_new : forall g t s, g t = false -> value_as_string g (new_string t s) = Ok s.
Proof. intros g t s G. unfold value_as_string, new_string, new, set_length. cbn [ty payload]. now rewrite G. Qed.
Lemma uint_wire : forall g k t v b, t < 0x8000 -> g t = false -> (k <= 8)%nat -> v < 256 ^ N.of_nat k ->
  marshal g (new_uint k t v) = Ok b ->
  exists i, parse g b = Ok i /\ value_as_uint g k i = Ok v.
Proof.
  intros g k t v b Ht G Hk Hv H. exists (new_uint k t v). split; [|now apply value_as_uint_new].
  assert (W : wire g (new_uint k t v) (be 2 t ++ be 2 (lenN (be k v)) ++ be k v)).
  { apply new_wire; auto; [apply be_bytes|]. unfold lenN. rewrite be_length. lia. }
  rewrite marshal_ok, (wire_enc W) in H.
  assert (E : b = be 2 t ++ be 2 (lenN (be k v)) ++ be k v) by congruence. rewrite E.
  pose proof (parse_wire W (Forall_nil _)) as P. now rewrite app_nil_r in P.
Qed.
Lemma receiver_stale :
  exists i0 b i, bytes b /\ parse default_grouped b = Ok i /\ unmarshalBinary default_grouped i0 b <> Ok i.
Proof.
  exists (new T_Cause [1]), [0;22;0;0], (mkIE 22 0 0 [] []). split; [repeat constructor|].
  split; [vm_compute; reflexivity|]. vm_compute. discriminate.
Qed.
