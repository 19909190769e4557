(** C110: reading an IE that holds a single value and building it again.  [formats] and [encodes] (Formats.v) tabulate the coding of TS 29.244, [width f p] is the
    number of octets of p that belong to the value, [fmin f] the smallest number of octets of the format. *)
From Coq Require Import Floats.SpecFloat.
From Verif Require Import Base IETypes IE Codec Utils Time Access AccTable AccNames AccRun New NewTable NewRun IENames AccProofs MemberProofs Formats FormatProofs SameProofs.
Local Open Scope list_scope.

Lemma not_exempt c : c <> N_NetworkInstanceFQDN -> c <> N_UPFunctionFeatures -> exempt c = false.
Proof. now destruct c. Qed.

(** the same octets, without those that follow the value: in the formats in which all octets stand for a value (integers, flags, texts, times, durations) *)
Theorem C110_same g beyond a c i f : In (ty i, f) formats -> (forall k, f <> FBits k) -> f <> FName -> f <> FTimer ->
  named a (ty i) -> g (ty i) = false -> con_type c = Some (ty i) -> c <> N_NetworkInstanceFQDN -> c <> N_UPFunctionFeatures ->
  bytes (payload i) -> fmin f <= length (payload i) ->
  exists v x j, access g a i = Ok v /\ val_of (con_shape c) x = Some v /\ calls g beyond c (con_shape c) x (Ok (Some j)) /\
    ty j = ty i /\ payload j = firstn (width f (payload i)) (payload i).
Proof.
  intros I B1 B2 B3 M G T X Y. apply same_octets; try assumption; [|now apply not_exempt].
  destruct f; try reflexivity; [elim (B1 k eq_refl)|now elim B2|now elim B3].
Qed.
Print Assumptions C110_same.
(** in every format: the octets are the same if they are a coding of a value, and the format is not that of the timers; the value is the same in any case *)
Theorem C110_coded g beyond a c i f v p rest : In (ty i, f) formats -> named a (ty i) -> g (ty i) = false -> con_type c = Some (ty i) ->
  c <> N_NetworkInstanceFQDN -> c <> N_UPFunctionFeatures -> encodes f v p -> (trails f = true \/ rest = []) -> payload i = p ++ rest ->
  access g a i = Ok v /\ exists x j, val_of (con_shape c) x = Some v /\ calls g beyond c (con_shape c) x (Ok (Some j)) /\
    ty j = ty i /\ access g a j = Ok v /\ (f <> FTimer -> payload j = p).
Proof. intros I M G T X Y. apply same_value; try assumption. now apply not_exempt. Qed.
Print Assumptions C110_coded.
(** values of a few bits: the octet is the same, or the same without its spare bits *)
Theorem C110_bits g beyond a c i k y r : In (ty i, FBits k) formats -> named a (ty i) -> g (ty i) = false -> con_type c = Some (ty i) ->
  c <> N_NetworkInstanceFQDN -> c <> N_UPFunctionFeatures -> payload i = y :: r -> (y < 256)%N ->
  exists n x j, access g a i = Ok (VN n) /\ val_of (con_shape c) x = Some (VN n) /\ calls g beyond c (con_shape c) x (Ok (Some j)) /\ ty j = ty i /\
    (payload j = [y] \/ payload j = [y mod 2 ^ k]%N).
Proof. intros I M G T X Y. apply same_bits; try assumption. now apply not_exempt. Qed.
Print Assumptions C110_bits.
(** timers: the same duration, whatever the octet *)
Theorem C110_timer g beyond a c i y r : In (ty i, FTimer) formats -> named a (ty i) -> g (ty i) = false -> con_type c = Some (ty i) ->
  payload i = y :: r -> (y < 256)%N ->
  exists d x j, access g a i = Ok (VD d) /\ val_of (con_shape c) x = Some (VD d) /\ calls g beyond c (con_shape c) x (Ok (Some j)) /\ ty j = ty i /\
    length (payload j) = 1 /\ access g a j = Ok (VD d).
Proof.
  intros I M G T. apply same_timer; try assumption. destruct c; try reflexivity; cbn in T; injection T as T; rewrite <- T in I; exfalso;
    repeat (destruct I as [I|I]; [discriminate I|]); exact I.
Qed.
Print Assumptions C110_timer.
(** intended: and the same octet.  30 units of 2 s become one of a minute; a stopped timer (all bits zero, TS 29.244 8.2.35) becomes 0 units of 10 h *)
Theorem C110_timer_octet_refuted beyond : exists i j d, ty i = T_Timer /\ payload i = [30%N] /\ access default_grouped A_Timer i = Ok (VD d) /\
  calls default_grouped beyond N_Timer STimer d (Ok (Some j)) /\ payload j = [0x21%N].
Proof. exists (new T_Timer [30%N]), (new T_Timer [0x21%N]), 60000000000%Z. repeat split. Qed.
Print Assumptions C110_timer_octet_refuted.
Theorem C110_stopped_refuted beyond : exists i j d, ty i = T_Timer /\ payload i = [0%N] /\ access default_grouped A_Timer i = Ok (VD d) /\
  calls default_grouped beyond N_Timer STimer d (Ok (Some j)) /\ payload j = [0x80%N].
Proof. exists (new T_Timer [0%N]), (new T_Timer [0x80%N]), 0%Z. repeat split. Qed.
Print Assumptions C110_stopped_refuted.
(** intended: the units that are not defined count minutes (the comment in ie/timer.go says so).  They give 0 *)
Theorem C110_units_refuted : access default_grouped A_Timer (new T_Timer [0xa1%N]) = Ok (VD 0) /\ access default_grouped A_Timer (new T_Timer [0xc1%N]) = Ok (VD 0).
Proof. split; reflexivity. Qed.
Print Assumptions C110_units_refuted.
(** each of the types has such an accessor and such a constructor *)
Definition type_of (c : con) : list N := match con_type c with Some t => if exempt c then [] else [t] | None => [] end.
Definition both (la lc : list N) (tab : list (N * fmt)) : bool := forallb (fun '(t, _) => memb t la && ((t =? T_UPFunctionFeatures)%N || memb t lc)) tab.
Theorem C110_which t f : In (t, f) formats -> exists a, named a t /\ (t = T_UPFunctionFeatures \/ exists c, con_type c = Some t /\ c <> N_NetworkInstanceFQDN /\ c <> N_UPFunctionFeatures).
Proof.
  assert (H : both (flat_map codes all_accs) (flat_map type_of all_cons) formats = true) by (vm_compute; reflexivity).
  revert H. unfold both. generalize formats. intros tab H I. rewrite forallb_forall in H. specialize (H _ I). cbn beta iota in H. apply andb_prop in H as [H1 H2].
  apply memb_spec, in_flat_map in H1 as (a & _ & A). exists a. split; [now apply (proj1 (codes_ok a t))|].
  apply Bool.orb_prop in H2 as [H2|H2]; [left; now apply N.eqb_eq|right]. apply memb_spec, in_flat_map in H2 as (c & _ & C). exists c. unfold type_of in C.
  destruct (con_type c) as [u|] eqn:U; [|elim C]. destruct (exempt c) eqn:X; [elim C|]. destruct C as [<-|[]]. split; [reflexivity|]. split; intros ->; discriminate X.
Qed.
Print Assumptions C110_which.
(** the hypotheses are met *)
Example C110_ex : In (T_PDRID, FUint 2) formats /\ named A_PDRID T_PDRID /\ con_type N_PDRID = Some T_PDRID /\ fmin (FUint 2) <= length [1; 2; 3]%N /\ firstn (width (FUint 2) [1; 2; 3]%N) [1; 2; 3]%N = [1; 2]%N.
Proof.
  split; [cbn; tauto|]. split; [|repeat split; cbn; lia]. refine (proj1 (codes_ok _ _) _). refine (proj1 (memb_spec _ _) _). vm_compute. reflexivity.
Qed.
