(** Property C08, the exact part: IE.MarshalTo into every buffer shorter than MarshalLen. *)
From Verif Require Import Base IETypes IE Spec IEProofs IEProofs2 IEProps ShortProofs.
Local Open Scope nat_scope.
Local Open Scope list_scope.

(** The buffer ends in the own octets of some element of the tree (its header, or for a non-grouped one its payload too): *)
Theorem C08_place : forall g i n, n < mlen g i -> exists s x, found g i s x /\ s <= n < s + own g x.
Proof. exact found_exists. Qed.
Print Assumptions C08_place.
(** within the first four octets of that element MarshalTo returns the error; *)
Theorem C08_header : forall g i s x b, found g i s x -> s <= length b < s + 4 -> marshal_to g i b = Err EInvalidLength.
Proof.
  intros g i s x b F B. pose proof (found_inside _ _ _ _ F). pose proof (mlen_ge4 g x).
  rewrite (marshal_to_cut g i s x F b); [|unfold own; destruct (g (ty x)); pose proof (hdr_pos (ty x)); lia|lia].
  unfold shape_of, cut. destruct (Nat.ltb_spec (length b - s) 4); [reflexivity|lia].
Qed.
Print Assumptions C08_header.
(** within the rest of a non-grouped element it panics; *)
Theorem C08_payload : forall g i s x b, found g i s x -> g (ty x) = false -> s + 4 <= length b < s + mlen g x -> marshal_to g i b = Fault.
Proof.
  intros g i s x b F G B. pose proof (found_inside _ _ _ _ F).
  rewrite (marshal_to_cut g i s x F b); [|unfold own; rewrite G; lia|lia].
  unfold shape_of, cut. rewrite G. destruct (Nat.ltb_spec (length b - s) 4); [lia|reflexivity].
Qed.
Print Assumptions C08_payload.
(** within the enterprise ID of an element of a vendor-specific type registered as grouped: the error if it has children, otherwise a panic if
    anything follows it, and success, without the enterprise ID, if it comes last. *)
Theorem C08_enterprise : forall g i s x b, found g i s x -> g (ty x) = true -> vendor (ty x) = true -> s + 4 <= length b < s + 6 ->
  marshal_to g i b =
  match children x with
  | _ :: _ => Err EInvalidLength
  | [] => if s + 6 =? mlen g i then Ok (firstn (s + 4) (enc g i) ++ skipn (s + 4) b) else Fault
  end.
Proof.
  intros g i s x b F G V B. pose proof (found_inside _ _ _ _ F) as I.
  assert (H6 : hdr (ty x) = 6) by (unfold hdr; now rewrite V). pose proof (mlen_ge g x) as M.
  rewrite (marshal_to_cut g i s x F b); [|unfold own; rewrite G; lia|lia].
  unfold shape_of, cut. rewrite G. destruct (Nat.ltb_spec (length b - s) 4); [lia|]. destruct (children x) as [|c cs] eqn:C; [|reflexivity].
  assert (E : mlen g x = 6) by (rewrite mlen_eq, G, C, H6; reflexivity). rewrite E. now destruct (s + 6 =? mlen g i).
Qed.
Print Assumptions C08_enterprise.
(** With the built-in grouped types only the first two cases are left, and they exclude each other. *)
Theorem C08_exact : forall g i b, (forall t, g t = true -> vendor t = false) -> length b < mlen g i ->
  (marshal_to g i b = Err EInvalidLength <-> exists s x, found g i s x /\ s <= length b < s + 4) /\
  (marshal_to g i b = Fault <-> exists s x, found g i s x /\ g (ty x) = false /\ s + 4 <= length b < s + mlen g x).
Proof.
  intros g i b HG L. destruct (found_exists g i (length b) L) as (s & x & F & B).
  assert (W : forall s x, found g i s x -> s <= length b < s + own g x ->
    length b < s + 4 \/ g (ty x) = false /\ s + 4 <= length b < s + mlen g x).
  { intros s0 x0 F0 B0. unfold own in B0. destruct (g (ty x0)) eqn:G; [|lia]. unfold hdr in B0. rewrite (HG _ G) in B0. lia. }
  split; split.
  - intros E. destruct (W s x F B) as [Q|[G Q]]; [exists s, x; split; [exact F|lia]|]. rewrite (C08_payload g i s x b F G Q) in E. discriminate.
  - intros (s0 & x0 & F0 & B0). now apply (C08_header g i s0 x0).
  - intros E. destruct (W s x F B) as [Q|[G Q]]; [|exists s, x; auto]. rewrite (C08_header g i s x b F) in E by lia. discriminate.
  - intros (s0 & x0 & F0 & G0 & B0). now apply (C08_payload g i s0 x0).
Qed.
Print Assumptions C08_exact.
(** Create PDR holding PDR ID and Precedence: every length *)
Definition create_pdr : ie := mkIE 1 14 0 [0;56;0;2;0;1;0;29;0;4;0;0;0;9]%N [mkIE 56 2 0 [0;1]%N []; mkIE 29 4 0 [0;0;0;9]%N []].
Example C08_ex : map (fun n => marshal_to default_grouped create_pdr (make n)) (seq 0 18) =
  repeat (Err EInvalidLength) 4 ++ repeat (Err EInvalidLength) 4 ++ repeat Fault 2 ++ repeat (Err EInvalidLength) 4 ++ repeat Fault 4.
Proof. reflexivity. Qed.
Example C08_ex_found : found default_grouped create_pdr 10 (mkIE 29 4 0 [0;0;0;9]%N []).
Proof. change 10 with (hdr 1 + list_sum (map (mlen default_grouped) [mkIE 56 2 0 [0;1]%N []]) + 0). eapply found_child; [reflexivity|reflexivity|constructor]. Qed.
