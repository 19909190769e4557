(** More proofs about the generic IE codec: fuel-free equations, truncation, constructors,
    editing of grouped elements, lookups, receiver reuse, scalar values. *)
From Verif Require Import Base IETypes IE Spec IEProofs.
Set Implicit Arguments.

Section G.
Variable g : N -> bool.
Notation enc := (enc g).

(** ** Fuel is irrelevant *)

Lemma bind_not_fuel {A B} (r : res A) (f : A -> res B) : bind r f <> Fuel -> r <> Fuel.
Proof. destruct r; simpl; congruence. Qed.
Lemma bind_cong {A B} (r r' : res A) (f f' : A -> res B) :
  r' = r -> (forall a, r = Ok a -> f' a = f a) -> bind r' f' = bind r f.
Proof. intros -> H. destruct r; simpl; auto. Qed.

Lemma fuel_mono n :
  (forall b i0, unmarshal g n i0 b <> Fuel -> unmarshal g (S n) i0 b = unmarshal g n i0 b) /\
  (forall b, parse_multi g n b <> Fuel -> parse_multi g (S n) b = parse_multi g n b).
Proof.
  induction n as [|n [IHu IHm]]; [split; intros; exfalso; auto|]. split.
  - intros b i0. rewrite (unmarshal_S _ (S n)), (unmarshal_S _ n). cbv zeta.
    destruct (length b <? 4); [reflexivity|].
    destruct (getr 2 b 0 2) as [t| | |]; cbn [bind]; try reflexivity.
    destruct (getr 2 b 2 4) as [ln| | |]; cbn [bind]; try reflexivity.
    set (h := if vendor t then _ else _). destruct h as [[[e o] f]| | |]; cbn [bind]; try reflexivity.
    destruct (length b <=? o); [reflexivity|]. destruct (length b <? o + f); [reflexivity|].
    destruct (slice b o (o + f)) as [p| | |]; cbn [bind]; try reflexivity.
    destruct (g t); [|reflexivity]. intros H. rewrite IHm; [reflexivity|].
    now apply bind_not_fuel in H.
  - intros b. rewrite (parse_multi_S _ (S n)), (parse_multi_S _ n).
    destruct (length b =? 0); [reflexivity|]. intros H.
    rewrite IHu by (now apply bind_not_fuel in H).
    destruct (unmarshal g n zeroIE b) as [i| | |]; cbn [bind] in *; try reflexivity.
    destruct (from b (mlen g i)) as [b'| | |]; cbn [bind] in *; try reflexivity.
    rewrite IHm by (now apply bind_not_fuel in H). reflexivity.
Qed.

Lemma returns_not_fuel {A} (r : res A) : returns r -> r <> Fuel.
Proof. intros [[a ->]|[e ->]]; discriminate. Qed.

Lemma unmarshal_fuel b i0 n m : bytes b -> length b + 1 <= m <= n -> unmarshal g n i0 b = unmarshal g m i0 b.
Proof.
  intros Hb [H1 H2]. induction H2 as [|n H2 IH]; [reflexivity|].
  rewrite (proj1 (fuel_mono n)); [exact IH|]. apply returns_not_fuel, (proj1 (unmarshal_total g n)); [exact Hb|lia].
Qed.
Lemma parse_multi_fuel b n m : bytes b -> length b + 2 <= m <= n -> parse_multi g n b = parse_multi g m b.
Proof.
  intros Hb [H1 H2]. induction H2 as [|n H2 IH]; [reflexivity|].
  rewrite (proj2 (fuel_mono n)); [exact IH|]. apply returns_not_fuel, (proj2 (unmarshal_total g n)); [exact Hb|lia].
Qed.

Lemma parseMulti_nil : parseMultiIEs g [] = Ok [].
Proof. reflexivity. Qed.

(** ParseMultiIEs as an ordinary recursive equation. *)
Lemma parseMulti_eq b : bytes b -> b <> [] ->
  parseMultiIEs g b = (i <- parse g b ;; b' <- from b (mlen g i) ;; is <- parseMultiIEs g b' ;; Ok (i :: is)).
Proof.
  intros Hb Hn. unfold parseMultiIEs at 1. rewrite parse_multi_S.
  destruct (Nat.eqb_spec (length b) 0) as [Z|Z]; [apply length_zero_iff_nil in Z; contradiction|].
  unfold parse. rewrite (unmarshal_fuel zeroIE (n := S (S (length b))) (m := S (length b)) Hb) by lia.
  apply bind_cong; [reflexivity|]. intros i Hi.
  destruct (proj1 (unmarshal_sound g _) _ _ Hb Hi) as (b1 & rest & -> & Ha).
  pose proof (accepted_nonempty Ha) as H4.
  rewrite from_app by (now rewrite <- enc_length, (enc_accepted Ha)). cbn [bind].
  apply bytes_app in Hb as [_ Hr]. unfold parseMultiIEs.
  rewrite (@parse_multi_fuel rest (S (length (b1 ++ rest))) (S (S (length rest)))); auto.
  rewrite app_length. lia.
Qed.

(** A well-formed prefix is decoded and the rest is decoded as if it stood alone. *)
Theorem parseMulti_app is b r : wires g is b -> bytes r ->
  parseMultiIEs g (b ++ r) = (js <- parseMultiIEs g r ;; Ok (is ++ js)).
Proof.
  intros H Hr. induction H as [|i b is bs Hi His IH].
  - simpl. destruct (parseMultiIEs g r); reflexivity.
  - assert (Hb : bytes ((b ++ bs) ++ r)).
    { rewrite !bytes_app. repeat split; [now apply wire_bytes in Hi|now apply wires_bytes in His|exact Hr]. }
    rewrite parseMulti_eq; auto.
    2:{ intros E. pose proof (accepted_nonempty (wire_accepted Hi [])) as X.
        apply (f_equal (@length N)) in E. rewrite !app_length in E. simpl in E. lia. }
    rewrite <- app_assoc in *. rewrite (parse_wire Hi) by (now apply bytes_app in Hb). cbn [bind].
    rewrite from_app by (now rewrite <- enc_length, (wire_enc Hi)). cbn [bind]. rewrite IH.
    destruct (parseMultiIEs g r); reflexivity.
Qed.

Lemma accepteds_one i b rest : accepted g i b rest -> rest = [] -> accepteds g [i] b.
Proof. intros H ->. rewrite <- (app_nil_r b). econstructor; [exact H|constructor]. Qed.

(** Fuel-free step for Parse. *)
Lemma parse_header t l e h r : wire_header t l e h -> bytes r ->
  parse g (h ++ r) =
  if length r =? 0 then Ok (mkIE t l e [] [])
  else if length r <? announced t l then Err EUnexpectedEOF
  else let p := firstn (announced t l) r in
       if g t then cs <- parseMultiIEs g p ;; Ok (mkIE t l e p cs)
       else Ok (mkIE t l e p []).
Proof.
  intros H Hr. unfold parse. rewrite (unmarshal_header g _ zeroIE r H). cbn zeta.
  assert (He : (if vendor t then e else eid zeroIE) = e).
  { destruct H as [A1 A2 ->|A1 A2 A3]; [now rewrite vendor_false|now rewrite vendor_true]. }
  rewrite He. cbn [payload children zeroIE].
  destruct (length r =? 0); [reflexivity|].
  destruct (Nat.ltb_spec (length r) (announced t l)); [reflexivity|].
  destruct (g t); [|reflexivity].
  pose proof (wire_header_nonempty H) as H4.
  unfold parseMultiIEs. rewrite (@parse_multi_fuel _ _ (S (S (length (firstn (announced t l) r))))); [reflexivity| |].
  - now apply bytes_firstn.
  - rewrite app_length, firstn_length. lia.
Qed.

(** ** Truncation *)

Lemma parse_cut i b k : wire g i b -> k < length b ->
  parse g (firstn k b) =
  if k <? hdr (ty i) then Err EUnexpectedEOF
  else if k =? hdr (ty i) then Ok (mkIE (ty i) (len i) (eid i) [] [])
  else Err EUnexpectedEOF.
Proof.
  intros H Hk. destruct H as [t l e cs h body H1 H2 H3 H4 H5]. cbn [ty len eid].
  pose proof (wire_header_length H1) as HL. rewrite app_length, HL in Hk.
  destruct (Nat.ltb_spec k (hdr t)) as [L|L].
  - (* inside the header *)
    unfold parse. rewrite firstn_app.
    replace (k - length h) with 0 by lia. rewrite firstn_O, app_nil_r.
    destruct (Nat.lt_ge_cases k 4) as [K|K].
    + apply unmarshal_short. rewrite firstn_length. lia.
    + unfold hdr in L. destruct H1 as [A1 A2 A3|A1 A2 A3].
      * rewrite (vendor_false A1) in L. lia.
      * rewrite (vendor_true A1) in L.
        rewrite (@firstn_app_plus _ (be 2 t) _ k (k - 2)) by (rewrite be_length; lia).
        rewrite (@firstn_app_plus _ (be 2 l) _ (k - 2) (k - 4)) by (rewrite be_length; lia).
        apply unmarshal_bad_vendor; [lia|lia|]. rewrite firstn_length, be_length. lia.
  - rewrite (@firstn_app_plus _ h body k (k - hdr t)) by lia.
    rewrite (parse_header H1) by (now apply bytes_firstn). rewrite firstn_length.
    destruct (Nat.eqb_spec k (hdr t)) as [E|E].
    + destruct (Nat.eqb_spec (Nat.min (k - hdr t) (length body)) 0); [reflexivity|lia].
    + destruct (Nat.eqb_spec (Nat.min (k - hdr t) (length body)) 0); [lia|].
      destruct (Nat.ltb_spec (Nat.min (k - hdr t) (length body)) (announced t l)); [reflexivity|lia].
Qed.

Lemma wire_length i b : wire g i b -> length b = mlen g i.
Proof. intros H. now rewrite <- enc_length, (wire_enc H). Qed.
Lemma wire_hdr_le i b : wire g i b -> hdr (ty i) <= length b.
Proof. intros H. rewrite (wire_length H). apply mlen_ge. Qed.

Lemma wires_app is b js c : wires g is b -> wires g js c -> wires g (is ++ js) (b ++ c).
Proof.
  intros H1 H2. induction H1 as [|i b is bs Hi His IH]; [exact H2|].
  rewrite <- app_assoc. simpl. now constructor.
Qed.

(** Cutting a sequence inside its element [i], k octets into it. *)
Theorem parseMulti_cut is b i c k : wires g is b -> wire g i c -> 0 < k < length c ->
  parseMultiIEs g (b ++ firstn k c) =
  if k =? hdr (ty i) then Ok (is ++ [mkIE (ty i) (len i) (eid i) [] []]) else Err EUnexpectedEOF.
Proof.
  intros H1 H2 Hk.
  assert (Hc : bytes (firstn k c)) by (apply bytes_firstn; now apply wire_bytes in H2).
  rewrite (parseMulti_app H1 Hc).
  rewrite parseMulti_eq; auto.
  2:{ intros E. apply (f_equal (@length N)) in E. rewrite firstn_length in E. simpl in E. lia. }
  rewrite (parse_cut H2) by lia.
  pose proof (hdr_pos (ty i)).
  destruct (Nat.ltb_spec k (hdr (ty i))) as [L|L].
  - destruct (Nat.eqb_spec k (hdr (ty i))); [lia|]. reflexivity.
  - destruct (Nat.eqb_spec k (hdr (ty i))) as [E|E]; [|reflexivity].
    cbn [bind]. rewrite mlen_eq. cbn [ty children payload].
    replace (hdr (ty i) + (if g (ty i) then list_sum (map (mlen g) []) else length (@nil N)))
      with (length (firstn k c)) by (rewrite firstn_length; destruct (g (ty i)); simpl; lia).
    rewrite from_ok by lia. cbn [bind]. rewrite skipn_all. reflexivity.
Qed.

(** ** Constructors build well-formed elements *)

Lemma announced_3gpp t l : (t < 0x8000)%N -> announced t l = N.to_nat l.
Proof. intros H. unfold announced. now apply N.ltb_lt in H as ->. Qed.
Lemma announced_vendor t l : (0x8000 <= t)%N -> announced t l = N.to_nat (l - 2).
Proof. intros H. unfold announced. now apply N.ltb_ge in H as ->. Qed.

(** Length as it should be, without wrap-around *)
Definition fits (t : N) (n : nat) : Prop := (N.of_nat n + (if vendor t then 2 else 0) < 65536)%N.

Lemma set_length_wire t e p cs l0 :
  (t < 65536)%N -> (e < 65536)%N -> (vendor t = false -> e = 0%N) -> bytes p -> fits t (length p) ->
  (g t = true -> wires g cs p) -> (g t = false -> cs = []) ->
  let i := set_length (mkIE t l0 e p cs) in wire g i (hdr_octets i ++ p).
Proof.
  intros Ht He Hv Hp Hf Hg Hn. cbn zeta. unfold set_length. cbn [ty eid payload children].
  unfold fits in Hf. unfold u16, lenN.
  rewrite N.mod_small by (rewrite N.add_comm; exact Hf).
  set (l := ((if vendor t then 2 else 0) + N.of_nat (length p))%N) in *.
  assert (W : wire_header t l e (hdr_octets (mkIE t l e p cs))).
  { unfold hdr_octets. cbn [ty len eid]. destruct (vendor t) eqn:V.
    - rewrite vendor_iff in V by exact Ht. apply N.leb_le in V. constructor; unfold l; try lia.
    - rewrite app_nil_r. rewrite vendor_iff in V by exact Ht. apply N.leb_gt in V. constructor; unfold l; auto; lia. }
  constructor; auto.
  unfold l in *. destruct (vendor t) eqn:V; rewrite vendor_iff in V by exact Ht.
  - apply N.leb_le in V. rewrite announced_vendor by exact V. lia.
  - apply N.leb_gt in V. rewrite announced_3gpp by exact V. lia.
Qed.

Theorem new_wire t p : (t < 0x8000)%N -> g t = false -> bytes p -> (lenN p < 65536)%N ->
  wire g (new t p) (be 2 t ++ be 2 (lenN p) ++ p).
Proof.
  intros Ht G Hp Hf.
  pose proof (vendor_false Ht) as V.
  pose proof (@set_length_wire t 0%N p [] 0%N) as W. cbn zeta in W.
  assert (E : hdr_octets (set_length (mkIE t 0 0 p [])) = be 2 t ++ be 2 (lenN p)).
  { unfold hdr_octets, set_length. cbn [ty len eid payload]. rewrite V, app_nil_r.
    unfold u16. rewrite N.mod_small by lia. reflexivity. }
  rewrite E, <- app_assoc in W. apply W; auto; try lia; try congruence.
  unfold fits. rewrite V. unfold lenN in Hf. lia.
Qed.
Theorem new_vendor_wire t e p : (0x8000 <= t < 65536)%N -> g t = false -> (e < 65536)%N -> bytes p ->
  (lenN p + 2 < 65536)%N -> wire g (new_vendor t e p) (be 2 t ++ be 2 (lenN p + 2) ++ be 2 e ++ p).
Proof.
  intros Ht G He Hp Hf.
  pose proof (vendor_true Ht) as V.
  pose proof (@set_length_wire t e p [] 0%N) as W. cbn zeta in W.
  assert (E : hdr_octets (set_length (mkIE t 0 e p [])) = be 2 t ++ be 2 (lenN p + 2) ++ be 2 e).
  { unfold hdr_octets, set_length. cbn [ty len eid payload]. rewrite V.
    unfold u16. rewrite N.mod_small by lia. rewrite (N.add_comm 2). reflexivity. }
  rewrite E, <- !app_assoc in W. apply W; auto; try lia; try congruence.
  unfold fits. rewrite V. unfold lenN in Hf. lia.
Qed.

(** non-nil entries, in order *)
Fixpoint somes {A} (l : list (option A)) : list A :=
  match l with [] => [] | Some x :: r => x :: somes r | None :: r => somes r end.

Lemma new_grouped_loop_ok ies : forall i,
  new_grouped_loop g i ies =
  Ok (Some (set_length (mkIE (ty i) (len i) (eid i)
        (payload i ++ concat (map enc (somes ies))) (children i ++ somes ies)))).
Proof.
  induction ies as [|[c|] r IH]; intros i; cbn [new_grouped_loop somes map concat].
  - rewrite !app_nil_r. destruct i; reflexivity.
  - rewrite marshal_ok, IH. cbn [ty len eid payload children]. rewrite <- !app_assoc. reflexivity.
  - apply IH.
Qed.
Theorem new_grouped_ok t e ies :
  new_grouped g t e ies =
  Ok (Some (set_length (mkIE t 0 e (concat (map enc (somes ies))) (somes ies)))).
Proof. unfold new_grouped. now rewrite new_grouped_loop_ok. Qed.

Lemma concat_enc_wires cs : Forall (fun c => wire g c (enc c)) cs -> wires g cs (concat (map enc cs)).
Proof. induction 1; simpl; constructor; auto. Qed.

Theorem new_grouped_wire t e ies i :
  g t = true -> (t < 65536)%N -> (e < 65536)%N -> (vendor t = false -> e = 0%N) ->
  Forall (fun c => wire g c (enc c)) (somes ies) ->
  fits t (list_sum (map (mlen g) (somes ies))) ->
  new_grouped g t e ies = Ok (Some i) -> wire g i (enc i).
Proof.
  intros G Ht He Hv Hc Hf H. rewrite new_grouped_ok in H. injection H as <-.
  pose proof (concat_enc_wires Hc) as W.
  assert (L : length (concat (map enc (somes ies))) = list_sum (map (mlen g) (somes ies))).
  { apply length_concat_enc. apply Forall_forall. intros c _. apply enc_length. }
  set (i := set_length _).
  replace (enc i) with (hdr_octets i ++ concat (map enc (somes ies))).
  - apply set_length_wire; auto; [now apply wires_bytes in W|now rewrite L|congruence].
  - rewrite enc_eq. unfold i, set_length. cbn [ty children]. rewrite G. reflexivity.
Qed.

(** ** Editing grouped elements *)

Lemma append_serialized_ok cs : forall acc, append_serialized g acc cs = Ok (acc ++ concat (map enc cs)).
Proof.
  induction cs as [|c r IH]; intros acc; cbn [append_serialized map concat]; [now rewrite app_nil_r|].
  now rewrite marshal_ok, IH, app_assoc.
Qed.
Lemma all_some_ok (cs : list ie) : all_some (map Some cs) = Ok cs.
Proof. induction cs as [|c r IH]; simpl; [reflexivity|now rewrite IH]. Qed.

(** The element with the given children, payload and Length recomputed from them. *)
Definition rebuilt (i : ie) (cs : list ie) : ie :=
  set_length (mkIE (ty i) (len i) (eid i) (concat (map enc cs)) cs).

Theorem add_ok i new : g (ty i) = true -> add g i (map Some new) = Ok (rebuilt i (children i ++ new)).
Proof. intros G. unfold add. rewrite G, all_some_ok. cbn [negb bind]. now rewrite append_serialized_ok. Qed.
Theorem add_plain i ies : g (ty i) = false -> add g i ies = Ok i.
Proof. intros G. unfold add. now rewrite G. Qed.
Theorem add_nil_faults i pre post : g (ty i) = true -> add g i (map Some pre ++ None :: post) = Fault.
Proof.
  intros G. unfold add. rewrite G. cbn [negb].
  assert (E : all_some (map Some pre ++ None :: post) = Fault) by (induction pre as [|c r IH]; simpl; [reflexivity|now rewrite IH]).
  now rewrite E.
Qed.

Definition keep (typ : N) (cs : list ie) : list ie := filter (fun c => negb (ty c =? typ)%N) cs.

Lemma map_repeat_None_app {A} (l : list (option A)) n : l ++ repeat None (S n) = (l ++ repeat None n) ++ [None].
Proof. rewrite <- app_assoc. f_equal. induction n as [|n IH]; [reflexivity|]. simpl in *. now rewrite <- IH. Qed.

Lemma remove_loop_ok typ cs : forall kept p,
  remove_loop g typ cs (map Some kept ++ repeat None (length cs)) (length kept) p =
  Ok (map Some (kept ++ keep typ cs), p ++ concat (map enc (keep typ cs))).
Proof.
  induction cs as [|c r IH]; intros kept p; cbn [remove_loop length keep filter].
  - simpl. now rewrite !app_nil_r.
  - destruct (N.eqb_spec (ty c) typ) as [E|E]; cbn [negb].
    + rewrite map_repeat_None_app. rewrite app_length. cbn [length].
      destruct (Nat.eqb_spec (length (map Some kept ++ repeat None (length r)) + 1) 0); [lia|].
      rewrite firstn_app_exact by lia. apply IH.
    + rewrite app_length, map_length, repeat_length.
      destruct (Nat.ltb_spec (length kept) (length kept + S (length r))); [|lia].
      rewrite marshal_ok.
      rewrite firstn_app_exact by now rewrite map_length.
      rewrite (@skipn_app_plus _ (map Some kept) _ (S (length kept)) 1) by (rewrite map_length; lia).
      cbn [repeat skipn].
      replace (map Some kept ++ Some c :: repeat None (length r))
        with (map Some (kept ++ [c]) ++ repeat None (length r)) by (rewrite map_app, <- app_assoc; reflexivity).
      replace (S (length kept)) with (length (kept ++ [c])) by (rewrite app_length; simpl; lia).
      rewrite IH. cbn [map concat]. rewrite <- !app_assoc. reflexivity.
Qed.
Theorem remove_ok i typ : g (ty i) = true -> remove g i typ = Ok (rebuilt i (keep typ (children i))).
Proof.
  intros G. unfold remove. rewrite G. cbn [negb].
  pose proof (remove_loop_ok typ (children i) [] []) as E. simpl in E. rewrite E.
  cbn [bind]. now rewrite all_some_ok.
Qed.
Theorem remove_plain i typ : g (ty i) = false -> remove g i typ = Ok i.
Proof. intros G. unfold remove. now rewrite G. Qed.

Lemma find_loop_ok typ cs : find_loop typ cs =
  match find (fun c => (ty c =? typ)%N) cs with Some c => Ok c | None => Err EIENotFound end.
Proof. induction cs as [|c r IH]; simpl; [reflexivity|]. destruct (ty c =? typ)%N; auto. Qed.

Theorem find_by_type_hit i typ c : g (ty i) = true ->
  (find_by_type g i typ = Ok c <->
   exists pre post, children i = pre ++ c :: post /\ ty c = typ /\ Forall (fun x => ty x <> typ) pre).
Proof.
  intros G. unfold find_by_type. rewrite G. cbn [negb]. induction (children i) as [|x r IH]; simpl.
  - split; [discriminate|]. intros ([|y pre] & post & E & _); discriminate.
  - destruct (N.eqb_spec (ty x) typ) as [E|E].
    + split.
      * intros H. injection H as <-. exists [], r. repeat split; auto.
      * intros ([|y pre] & post & H & Hc & Hp); [now injection H as -> _|].
        injection H as <- _. inversion Hp; subst. contradiction.
    + rewrite IH. split.
      * intros (pre & post & -> & Hc & Hp). exists (x :: pre), post. repeat split; auto.
      * intros ([|y pre] & post & H & Hc & Hp).
        -- injection H as -> _. contradiction.
        -- injection H as -> ->. inversion Hp; subst. exists pre, post. auto.
Qed.
Theorem find_by_type_miss i typ : g (ty i) = true ->
  (find_by_type g i typ = Err EIENotFound <-> Forall (fun x => ty x <> typ) (children i)).
Proof.
  intros G. unfold find_by_type. rewrite G. cbn [negb]. induction (children i) as [|x r IH]; simpl.
  - split; auto.
  - destruct (N.eqb_spec (ty x) typ) as [E|E].
    + split; [discriminate|]. intros H. inversion H; subst. contradiction.
    + rewrite IH. split; [now constructor|]. intros H; now inversion H.
Qed.
Theorem find_by_type_plain i typ : g (ty i) = false -> find_by_type g i typ = Err EInvalidType.
Proof. intros G. unfold find_by_type. now rewrite G. Qed.

(** Any sequence of edits, against the obvious list semantics. *)
Inductive edit := EAdd (new : list ie) | ERemove (typ : N).
Definition apply_edit (r : res ie) (e : edit) : res ie :=
  i <- r ;; match e with EAdd new => add g i (map Some new) | ERemove typ => remove g i typ end.
Definition list_edit (cs : list ie) (e : edit) : list ie :=
  match e with EAdd new => cs ++ new | ERemove typ => keep typ cs end.

(** payload and Length agree with the children *)
Definition coherent (i : ie) : Prop :=
  payload i = concat (map enc (children i)) /\
  len i = u16 (lenN (payload i) + (if vendor (ty i) then 2 else 0)).

Lemma rebuilt_coherent i cs : coherent (rebuilt i cs).
Proof. split; [reflexivity|]. unfold rebuilt, set_length. cbn [ty len payload]. now rewrite N.add_comm. Qed.
Lemma rebuilt_fields i cs : ty (rebuilt i cs) = ty i /\ eid (rebuilt i cs) = eid i /\ children (rebuilt i cs) = cs.
Proof. repeat split. Qed.

Theorem edits_ok es : forall i, g (ty i) = true -> coherent i ->
  exists j, fold_left apply_edit es (Ok i) = Ok j /\
    ty j = ty i /\ eid j = eid i /\
    children j = fold_left list_edit es (children i) /\ coherent j.
Proof.
  induction es as [|e es IH]; intros i G C; cbn [fold_left].
  - exists i. auto.
  - set (cs := list_edit (children i) e).
    assert (E : apply_edit (Ok i) e = Ok (rebuilt i cs)).
    { unfold apply_edit. cbn [bind]. destruct e as [new|typ]; [now apply add_ok|now apply remove_ok]. }
    rewrite E. destruct (IH (rebuilt i cs)) as (j & H1 & H2 & H3 & H4 & H5); [exact G|apply rebuilt_coherent|].
    exists j. auto.
Qed.

(** A coherent grouped element of acceptable size with well-formed children is itself well-formed. *)
Theorem coherent_wire i : g (ty i) = true -> (ty i < 65536)%N -> (eid i < 65536)%N ->
  (vendor (ty i) = false -> eid i = 0%N) -> coherent i ->
  Forall (fun c => wire g c (enc c)) (children i) -> fits (ty i) (length (payload i)) ->
  wire g i (enc i).
Proof.
  intros G Ht He Hv [Hp Hl] Hc Hf. pose proof (concat_enc_wires Hc) as W. rewrite <- Hp in W.
  pose proof (@set_length_wire (ty i) (eid i) (payload i) (children i) 0%N Ht He Hv) as X.
  cbn zeta in X. assert (E : set_length (mkIE (ty i) 0 (eid i) (payload i) (children i)) = i).
  { unfold set_length. cbn [ty eid payload children]. rewrite N.add_comm, <- Hl. destruct i; reflexivity. }
  rewrite E in X. rewrite enc_eq, G, <- Hp. apply X; auto; [now apply wires_bytes in W|congruence].
Qed.

(** ** Editing a child in place leaves the parent's Length behind *)

Definition with_children (p : ie) (cs : list ie) : ie := mkIE (ty p) (len p) (eid p) (payload p) cs.

Theorem stale_parent_unparsable p cs b : g (ty p) = true -> bytes b ->
  length (concat (map enc cs)) <> length (payload p) ->
  parse g b <> Ok (with_children p cs).
Proof.
  intros G Hb Hne H. apply parse_iff in H as (b1 & rest & -> & H); [|exact Hb].
  inversion H as [t l e cs0 h body r H1 H2 H3 H4 H5 E1 E2|t l e h H1 E1 E2 E3]; subst; apply Hne.
  - specialize (H4 G). now rewrite (enc_accepteds H4).
  - cbn. now rewrite <- H3.
Qed.
(** and Add with no argument repairs it *)
Theorem add_nothing_repairs p cs : g (ty p) = true ->
  exists q, add g (with_children p cs) [] = Ok q /\ coherent q /\ children q = cs.
Proof.
  intros G. exists (rebuilt (with_children p cs) cs).
  split; [|split; [apply rebuilt_coherent|reflexivity]].
  pose proof (@add_ok (with_children p cs) [] G) as E. cbn [map] in E. rewrite E.
  cbn [children with_children]. now rewrite app_nil_r.
Qed.

(** ** UnmarshalBinary on a used receiver *)

Theorem unmarshalBinary_fresh b : unmarshalBinary g zeroIE b = parse g b.
Proof. reflexivity. Qed.

(** Exactly which fields survive from the receiver. *)
Theorem unmarshalBinary_receiver i0 b : bytes b ->
  unmarshalBinary g i0 b =
  (i <- parse g b ;;
   let cut := length b <=? hdr (ty i) in
   Ok (mkIE (ty i) (len i) (if vendor (ty i) then eid i else eid i0)
         (if cut then payload i0 else payload i)
         (if cut then children i0 else if g (ty i) then children i else children i0))).
Proof.
  intros Hb. unfold unmarshalBinary, parse.
  destruct (header_cases g Hb) as [S|[(t & l & r & -> & H1 & H2 & H3)|(t & l & e & h & r & H & ->)]].
  - now rewrite !unmarshal_short by exact S.
  - destruct (unmarshal_bad_vendor g (S (length (be 2 t ++ be 2 l ++ r))) i0 r H1 H2) as [E1 E2].
    destruct (unmarshal_bad_vendor g (S (length (be 2 t ++ be 2 l ++ r))) zeroIE r H1 H2) as [F1 F2].
    destruct H3 as [H3|[H3 H4]]; [now rewrite E1, F1 by exact H3|now rewrite E2, F2 by assumption].
  - rewrite !(unmarshal_header g _ _ r H). cbn zeta. cbn [payload children zeroIE].
    rewrite !app_length, (wire_header_length H).
    destruct (Nat.eqb_spec (length r) 0) as [Z|Z].
    + cbn [bind ty len eid payload children].
      destruct (Nat.leb_spec (hdr t + length r) (hdr t)); [|lia]. now destruct (vendor t).
    + destruct (length r <? announced t l); [reflexivity|].
      destruct (g t) eqn:G.
      * destruct (parse_multi g _ (firstn (announced t l) r)); try reflexivity.
        cbn [bind ty len eid payload children].
        destruct (Nat.leb_spec (hdr t + length r) (hdr t)); [lia|]. rewrite G. now destruct (vendor t).
      * cbn [bind ty len eid payload children].
        destruct (Nat.leb_spec (hdr t + length r) (hdr t)); [lia|]. rewrite G. now destruct (vendor t).
Qed.

(** ** Scalar values *)

Lemma getr_be k v : (v < 256 ^ N.of_nat k)%N -> getr k (be k v) 0 k = Ok v.
Proof.
  intros Hv. unfold getr. rewrite slice_ok by (rewrite ?be_length; lia). cbn [bind].
  rewrite Nat.sub_0_r. cbn [skipn]. rewrite firstn_all2 by (rewrite be_length; lia).
  unfold getn. rewrite be_length. destruct (Nat.leb_spec k k); [|lia].
  rewrite firstn_all2 by (rewrite be_length; lia). now rewrite unbe_be_small.
Qed.
Theorem value_as_uint_new k t v : g t = false -> (v < 256 ^ N.of_nat k)%N ->
  value_as_uint g k (new_uint k t v) = Ok v.
Proof.
  intros G Hv. unfold value_as_uint, new_uint, new, set_length. cbn [ty payload].
  rewrite G, be_length. destruct (Nat.ltb_spec k k); [lia|]. now apply getr_be.
Qed.
Theorem value_as_uint_returns k i : returns (value_as_uint g k i).
Proof.
  unfold value_as_uint. destruct (g (ty i)); [right; eauto|].
  destruct (Nat.ltb_spec (length (payload i)) k) as [L|L]; [right; eauto|].
  left. unfold getr. rewrite slice_ok by lia. cbn [bind]. unfold getn. rewrite firstn_length, Nat.sub_0_r. cbn [skipn].
  destruct (Nat.leb_spec k (Nat.min k (length (payload i)))); [eauto|lia].
Qed.
End G.
