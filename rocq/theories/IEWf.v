(** A boolean well-formedness check on elements, equivalent to having an encoding in Spec.wire. *)
From Verif Require Import Base IETypes IE Spec IEProofs IEProofs2.
Set Implicit Arguments.

Fixpoint leqb (a b : list N) : bool :=
  match a, b with
  | [], [] => true
  | x :: a, y :: b => (x =? y)%N && leqb a b
  | _, _ => false
  end.
Lemma leqb_eq a : forall b, leqb a b = true <-> a = b.
Proof.
  induction a as [|x a IH]; intros [|y b]; simpl; try (split; congruence).
  rewrite andb_true_iff, IH, N.eqb_eq. split; [intros [-> ->]; reflexivity|intros H; injection H; auto].
Qed.
Definition octetsb (l : list N) : bool := forallb (fun x => (x <? 256)%N) l.
Lemma octetsb_bytes l : octetsb l = true <-> bytes l.
Proof.
  unfold octetsb, bytes. rewrite forallb_forall, Forall_forall.
  split; intros H x Hx; [apply N.ltb_lt|apply N.ltb_lt]; now apply H in Hx.
Qed.

Section G.
Variable g : N -> bool.

Fixpoint wfb (i : ie) : bool :=
  (ty i <? 65536)%N && (eid i <? 65536)%N && (vendor (ty i) || (eid i =? 0)%N) &&
  octetsb (payload i) && (len i <? 65536)%N &&
  (len i =? lenN (payload i) + (if vendor (ty i) then 2 else 0))%N &&
  (if g (ty i) then leqb (payload i) (concat (map (enc g) (children i))) && forallb wfb (children i)
   else match children i with [] => true | _ => false end).

Lemma wfb_eq i : wfb i =
  (ty i <? 65536)%N && (eid i <? 65536)%N && (vendor (ty i) || (eid i =? 0)%N) &&
  octetsb (payload i) && (len i <? 65536)%N &&
  (len i =? lenN (payload i) + (if vendor (ty i) then 2 else 0))%N &&
  (if g (ty i) then leqb (payload i) (concat (map (enc g) (children i))) && forallb wfb (children i)
   else match children i with [] => true | _ => false end).
Proof. destruct i; reflexivity. Qed.

Theorem wfb_wire i : wfb i = true -> wire g i (enc g i).
Proof.
  induction i as [t l e p cs IH] using ie_ind'. intros H. rewrite wfb_eq in H.
  cbn [ty len eid payload children] in H. rewrite !andb_true_iff in H.
  destruct H as [[[[[[Ht He] Hv] Hp] Hl] Hlen] Hg].
  apply N.ltb_lt in Ht, He, Hl. apply N.eqb_eq in Hlen. apply octetsb_bytes in Hp.
  pose proof (@set_length_wire g t e p cs l Ht He) as W. cbn zeta in W.
  assert (E : set_length (mkIE t l e p cs) = mkIE t l e p cs).
  { unfold set_length. cbn [ty eid payload children]. f_equal. unfold u16.
    rewrite N.add_comm, <- Hlen. now apply N.mod_small. }
  rewrite E in W.
  assert (Hfit : fits t (length p)) by (unfold fits; unfold lenN in Hlen; rewrite <- Hlen; exact Hl).
  assert (Hvv : vendor t = false -> e = 0%N).
  { intros V. rewrite V in Hv. cbn [orb] in Hv. now apply N.eqb_eq in Hv. }
  rewrite enc_eq. cbn [ty children payload]. destruct (g t) eqn:G.
  - apply andb_true_iff in Hg as [Hc Hw]. apply leqb_eq in Hc. rewrite <- Hc.
    apply W; auto; [|congruence]. intros _. rewrite Hc. apply concat_enc_wires.
    rewrite forallb_forall in Hw. rewrite Forall_forall in IH |- *. intros c Hin. auto.
  - destruct cs; [|discriminate]. apply W; auto. congruence.
Qed.

Theorem wire_wfb i b : wire g i b -> wfb i = true.
Proof.
  apply (@wire_mut g (fun i _ => wfb i = true) (fun is _ => forallb wfb is = true)).
  - intros t l e cs h body H1 H2 H3 H4 H5 H6. rewrite wfb_eq. cbn [ty len eid payload children].
    rewrite !andb_true_iff. pose proof (wire_header_ty H1) as Ht.
    assert (X : (e < 65536 /\ (vendor t = false -> e = 0) /\ l < 65536 /\ l = lenN body + (if vendor t then 2 else 0))%N).
    { unfold lenN. rewrite H3. destruct H1 as [A1 A2 ->|A1 A2 A3].
      - rewrite (vendor_false A1), announced_3gpp by exact A1. repeat split; lia.
      - rewrite (vendor_true A1), announced_vendor by lia. repeat split; try lia; discriminate. }
    destruct X as (X1 & X2 & X3 & X4). repeat split.
    + now apply N.ltb_lt. + now apply N.ltb_lt.
    + destruct (vendor t); [reflexivity|]. rewrite X2 by reflexivity. reflexivity.
    + now apply octetsb_bytes. + now apply N.ltb_lt. + now apply N.eqb_eq.
    + destruct (g t) eqn:G.
      * rewrite andb_true_iff. split; [|now apply H5]. apply leqb_eq. symmetry.
        apply enc_accepteds, wires_accepteds. auto.
      * now rewrite H6.
  - reflexivity.
  - intros i0 b0 is bs H1 H2 H3 H4. simpl. now rewrite H2, H4.
Qed.
End G.
