(** IE.MarshalTo into a buffer shorter than MarshalLen, for every table of grouped types and every nesting. *)
From Verif Require Import Base IETypes IE Spec IEProofs IEProofs2 IEProps.
Local Open Scope nat_scope.
Local Open Scope list_scope.

Section Short.
Variable g : N -> bool.

(** the element x begins s octets into the encoding of i *)
Inductive found (i : ie) : nat -> ie -> Prop :=
| found_self : found i 0 i
| found_child l c r s x : g (ty i) = true -> children i = l ++ c :: r -> found c s x ->
    found i (hdr (ty i) + list_sum (map (mlen g) l) + s) x.
(** the octets of x that are not octets of one of its children *)
Definition own (x : ie) : nat := if g (ty x) then hdr (ty x) else mlen g x.
(** what MarshalTo does with a buffer that ends k octets after the first octet of x, in x's own octets; last: nothing follows x *)
Definition cut (x : ie) (k : nat) (last : bool) : option (res unit) :=
  if k <? 4 then Some (Err EInvalidLength)
  else if g (ty x) then match children x with [] => if last then None else Some Fault | _ :: _ => Some (Err EInvalidLength) end
  else Some Fault.
Definition shape_of (x : ie) (i : ie) (s : nat) (b : list N) : res (list N) :=
  match cut x (length b - s) (s + mlen g x =? mlen g i) with
  | Some (Err e) => Err e
  | Some _ => Fault
  | None => Ok (firstn (s + 4) (enc g i) ++ skipn (s + 4) b)
  end.

Lemma found_inside i s x : found i s x -> s + mlen g x <= mlen g i.
Proof.
  induction 1 as [|i l c r s x G C F IH]; [lia|]. rewrite (mlen_eq g i), G, C, map_app, list_sum_app. cbn [map list_sum fold_right].
  change (fold_right Nat.add 0 (map (mlen g) r)) with (list_sum (map (mlen g) r)). lia.
Qed.
(** every octet of the encoding belongs to one element *)
Lemma found_exists i : forall n, n < mlen g i -> exists s x, found i s x /\ s <= n < s + own x.
Proof.
  induction i as [t l e p cs IH] using ie_ind'. intros n L. set (i := mkIE t l e p cs) in *.
  destruct (Nat.lt_ge_cases n (own i)) as [O|O]. { exists 0, i. split; [constructor|lia]. }
  unfold own in O. rewrite mlen_eq in L. change (ty i) with t in *. change (children i) with cs in L. destruct (g t) eqn:G.
  2:{ rewrite mlen_eq in O. change (ty i) with t in O. rewrite G in O. lia. }
  assert (X : forall r0 l0, cs = l0 ++ r0 -> hdr t + list_sum (map (mlen g) l0) <= n ->
    exists l c r, cs = l ++ c :: r /\ hdr t + list_sum (map (mlen g) l) <= n < hdr t + list_sum (map (mlen g) l) + mlen g c).
  { clear IH. induction r0 as [|c r0 IHr]; intros l0 E P.
    - rewrite app_nil_r in E. subst. lia.
    - destruct (Nat.lt_ge_cases n (hdr t + list_sum (map (mlen g) l0) + mlen g c)) as [Q|Q].
      + exists l0, c, r0. auto.
      + apply (IHr (l0 ++ [c])).
        * now rewrite <- app_assoc.
        * rewrite map_app, list_sum_app. cbn [map list_sum fold_right]. lia. }
  destruct (X cs [] eq_refl) as (l1 & c & r & E & B). { cbn. lia. }
  assert (Ic : In c cs) by (rewrite E; apply in_or_app; cbn; auto).
  rewrite Forall_forall in IH. destruct (IH c Ic (n - (hdr t + list_sum (map (mlen g) l1)))) as (s & x & F & B'). { lia. }
  exists (hdr (ty i) + list_sum (map (mlen g) l1) + s), x. split; [now apply found_child with c r|]. change (ty i) with t. lia.
Qed.

Lemma marshal_children_app l : forall cs done b, list_sum (map (mlen g) l) <= length b ->
  marshal_children g (l ++ cs) (length done) (done ++ b) =
  marshal_children g cs (length done + list_sum (map (mlen g) l)) ((done ++ concat (map (enc g) l)) ++ skipn (list_sum (map (mlen g) l)) b).
Proof.
  induction l as [|c l IH]; intros cs done b L. { cbn [map list_sum fold_right concat app skipn]. now rewrite app_nil_r, Nat.add_0_r. }
  cbn [map list_sum fold_right concat] in *. change (fold_right Nat.add 0 (map (mlen g) l)) with (list_sum (map (mlen g) l)) in *.
  cbn [app marshal_children]. fold (marshal_children g). rewrite from_app by reflexivity. cbn [bind]. rewrite marshal_to_fits by lia. cbn [bind].
  rewrite firstn_app_exact by reflexivity. rewrite app_assoc.
  replace (length done + mlen g c) with (length (done ++ enc g c)) by now rewrite app_length, enc_length.
  rewrite IH by (rewrite skipn_length; lia). rewrite app_length, enc_length, skipn_skipn', <- !app_assoc. now rewrite !Nat.add_assoc.
Qed.

(** MarshalTo with a short buffer, exactly *)
Theorem marshal_to_cut i s x : found i s x -> forall b, s <= length b < s + own x -> length b < mlen g i ->
  marshal_to g i b = shape_of x i s b.
Proof.
  induction 1 as [i|i l c r s x G C F IH]; intros b B L.
  - unfold shape_of, cut. rewrite Nat.sub_0_r, Nat.add_0_l, Nat.eqb_refl. destruct (Nat.ltb_spec (length b) 4) as [T|T]; [now apply marshal_to_tiny|].
    unfold own in B. destruct (g (ty i)) eqn:G; [|apply marshal_to_plain_short; [exact G|lia]].
    rewrite marshal_to_eq. destruct (Nat.ltb_spec (length b) 4); [lia|]. unfold hdr in B. destruct (vendor (ty i)) eqn:V; [|lia].
    destruct b as [|b0 [|b1 [|b2 [|b3 r]]]]; simpl in B, T; try lia.
    change (put (b0 :: b1 :: b2 :: b3 :: r) 0 (be 2 (ty i))) with (Ok (be 2 (ty i) ++ b2 :: b3 :: r)). cbn [bind].
    change (put (be 2 (ty i) ++ b2 :: b3 :: r) 2 (be 2 (len i))) with (Ok (be 2 (ty i) ++ be 2 (len i) ++ r)). cbn [bind andb].
    destruct (Nat.leb_spec 6 (length (b0 :: b1 :: b2 :: b3 :: r))) as [S6|S6]; [simpl in S6; lia|]. cbn [bind]. rewrite G.
    destruct (children i) as [|c cs] eqn:Cs.
    + cbn [marshal_children]. f_equal. rewrite enc_eq. unfold hdr_octets. rewrite V. rewrite <- !app_assoc. reflexivity.
    + cbn [marshal_children]. rewrite app_assoc. rewrite from_app by reflexivity. cbn [bind]. rewrite marshal_to_tiny by (simpl in B; lia). reflexivity.
  - pose proof (found_inside _ _ _ F) as In. set (q := hdr (ty i) + list_sum (map (mlen g) l)) in *.
    assert (E : mlen g i = q + mlen g c + list_sum (map (mlen g) r)).
    { rewrite (mlen_eq g i), G, C, map_app, list_sum_app. cbn [map list_sum fold_right].
      change (fold_right Nat.add 0 (map (mlen g) r)) with (list_sum (map (mlen g) r)). unfold q. lia. }
    rewrite header_writes by (unfold q in B; lia). rewrite G, C. rewrite <- (hdr_octets_length i).
    rewrite marshal_children_app by (rewrite skipn_length, hdr_octets_length; unfold q in B; lia).
    rewrite hdr_octets_length, skipn_skipn'. fold q.
    set (d := hdr_octets i ++ concat (map (enc g) l)).
    assert (Ld : length d = q).
    { unfold d. rewrite app_length, hdr_octets_length, length_concat_enc; [reflexivity|]. apply Forall_forall. intros; apply enc_length. }
    cbn [marshal_children]. fold (marshal_children g). rewrite from_app by congruence. cbn [bind].
    rewrite IH.
    2:{ rewrite skipn_length. lia. }
    2:{ rewrite skipn_length.
        pose proof (found_inside _ _ _ F). assert (own x <= mlen g x) by (unfold own; destruct (g (ty x)); [apply mlen_ge|lia]). lia. }
    unfold shape_of. rewrite skipn_length. replace (length b - q - s) with (length b - (q + s)) by lia.
    unfold cut. destruct (Nat.ltb_spec (length b - (q + s)) 4) as [T|T]; [reflexivity|]. destruct (g (ty x)) eqn:Gx; [|reflexivity].
    destruct (children x) as [|c0 cs0] eqn:Cx; [|reflexivity].
    assert (Own : mlen g x = own x). { unfold own. rewrite Gx, mlen_eq, Gx, Cx. cbn. lia. }
    destruct (Nat.eqb_spec (s + mlen g x) (mlen g c)) as [La|La].
    2:{ destruct (Nat.eqb_spec (q + s + mlen g x) (mlen g i)); [lia|]. reflexivity. }
    cbn [bind]. destruct r as [|c1 r].
    + cbn [map list_sum fold_right] in E. destruct (Nat.eqb_spec (q + s + mlen g x) (mlen g i)); [|lia]. cbn [marshal_children]. f_equal.
      rewrite firstn_app_exact by congruence. rewrite (enc_eq g i), G, C, map_app, concat_app. cbn [map concat]. rewrite app_nil_r. rewrite (app_assoc (hdr_octets i)). fold d.
      rewrite skipn_skipn'. rewrite (firstn_app (q + s + 4) d), Ld, (@firstn_all2 N (q + s + 4) d) by lia.
      replace (q + s + 4 - q) with (s + 4) by lia. now rewrite <- !app_assoc, !Nat.add_assoc.
    + pose proof (mlen_ge4 g c1) as M4. assert (list_sum (map (mlen g) (c1 :: r)) >= 4).
      { cbn [map list_sum fold_right]. lia. }
      destruct (Nat.eqb_spec (q + s + mlen g x) (mlen g i)); [lia|]. cbn [marshal_children]. fold (marshal_children g).
      unfold from. match goal with |- context [?a <=? ?b] => destruct (Nat.leb_spec a b) as [X|X] end; [|reflexivity]. exfalso.
      repeat (rewrite ?app_length, ?firstn_length, ?skipn_length, ?enc_length in X). clearbody q d.
      pose proof (hdr_pos (ty x)). lia.
Qed.
End Short.
