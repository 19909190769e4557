(** C93: several goroutines calling Marshal on one message. *)
From Verif Require Import Base Codec IETypes IE Spec IEProofs Header HeaderSpec HeaderProofs Message MsgSpec MsgTables MsgProofs2 MsgProps IEProps Share ShareProofs ShareProofs2.
Local Open Scope list_scope.

Section C93.
Variable g : N -> bool.
Variable k : kind.
Variable m : msg.
Hypothesis K : In k kinds.
Hypothesis Sh : shaped k m.
Hypothesis Nn : Forall no_nil (m_f m).
Notation calls := (run g (m_h m) (body_ies m)).
(** octets before the IEs *)
Notation header_octets := (if has_seid (m_h m) then 16 else 8).

Lemma right_marshal : exists m', msg_marshal g k m = Ok (right_out g (m_h m) (body_ies m), m').
Proof.
  eexists. rewrite (@msg_marshal_ok g k (kind_consistent K) m Sh Nn). do 2 f_equal. unfold right_out, flen. rewrite <- henc_hd. unfold final_header, h_set_length, hx. do 2 f_equal.
  change (has_seid (with_payload (m_h m) _)) with (has_seid (m_h m)). cbn [with_payload h_payload]. unfold lenN. rewrite encs_length. reflexivity.
Qed.

Lemma be2 x : exists a b, be 2 x = [a; b].
Proof. pose proof (be_length 2 x) as L. destruct (be 2 x) as [|a [|b [|c r]]]; try discriminate L. eauto. Qed.

(** whatever the others do, a call returns after 16 steps of its own and two for each IE *)
Theorem C93_finishes s ps sched t : nth_error ps t = Some Len1 -> 16 + 2 * length (body_ies m) <= count_occ Nat.eq_dec sched t ->
  exists r, nth_error (snd (calls s ps sched)) t = Some (Fin r).
Proof.
  intros H C. destruct (calls s ps sched) as [s' ps'] eqn:E. destruct (@run_rank g (m_h m) (body_ies m) sched s ps s' ps' t Len1 E H) as (p' & P & R). destruct (@rank_fin g (body_ies m) p') as [r ->]; [cbn [rank] in R; lia|]. exists r. exact P.
Qed.
(** a call that is not interrupted returns what Marshal returns, whatever the memory holds and wherever the other calls stand *)
Theorem C93_alone s ps t n : nth_error ps t = Some Len1 -> 16 + 2 * length (body_ies m) <= n ->
  exists b m' s', msg_marshal g k m = Ok (b, m') /\ calls s ps (repeat t n) = (s', replace t (Fin (Ok b)) ps).
Proof.
  intros H Hn. destruct right_marshal as [m' R]. destruct (mv_whole g (m_h m) (body_ies m) s) as [s' M]. destruct (mv_steps M) as [j J].
  exists (right_out g (m_h m) (body_ies m)), m', s'. split; [exact R|]. rewrite (run_steps g (m_h m) (body_ies m) t n s ps H). now rewrite (@steps_done g (m_h m) (body_ies m) j n s Len1 s' _ J Hn).
Qed.
(** any number of calls, any schedule: octets of the header apart from Length are right, and an octet of an IE is right or 0 *)
Theorem C93_any_schedule s n sched w : (forall t, g t = true -> vendor t = false) ->
  In (Fin (Ok w)) (snd (calls s (repeat Len1 n) sched)) ->
  exists b m', msg_marshal g k m = Ok (b, m') /\ header_octets <= length w /\
  forall j y, nth_error w j = Some y -> j = 2 \/ j = 3 \/ nth_error b j = Some y \/ (header_octets <= j /\ y = 0%N).
Proof.
  intros Hg I. destruct right_marshal as [m' R]. exists (right_out g (m_h m) (body_ies m)), m'. split; [exact R|].
  destruct (calls s (repeat Len1 n) sched) as [s' ps'] eqn:E. cbn [snd] in I.
  assert (D : damaged g (m_h m) (body_ies m) w).
  { destruct (@run_inv g (m_h m) (body_ies m) (length (s_arrays s)) Hg sched s (repeat Len1 n) s' ps') as [_ F].
    - split; [lia|]. intros x Hx. rewrite nth_overflow by exact Hx. apply partial_nil.
    - apply Forall_forall. intros p Hp. apply repeat_spec in Hp. now subst p.
    - exact E.
    - exact (proj1 (Forall_forall _ _) F _ I). }
  destruct D as (x & q & -> & P). pose proof (hd_length g (m_h m) x) as Lx. change (length (ShareProofs.hd (m_h m) x) = header_octets) in Lx. split; [rewrite app_length; lia|].
  intros j y. unfold right_out. set (f := flen _ _ _). pose proof (hd_length g (m_h m) f) as Lf. change (length (ShareProofs.hd (m_h m) f) = header_octets) in Lf.
  destruct (Nat.lt_ge_cases j header_octets) as [L|L].
  - rewrite !nth_error_app1 by lia. unfold ShareProofs.hd, henc. cbn [hx h_flags h_type h_length h_seid h_seq h_prio h_payload]. destruct (be2 x) as (a & b & ->). destruct (be2 f) as (c & d & ->). cbn [app]. destruct j as [|[|[|[|j]]]]; cbn [nth_error]; auto.
  - rewrite !nth_error_app2 by lia. rewrite Lx, Lf. intros H. destruct (P _ _ H) as [->|P']; auto.
Qed.

(** two calls with an interleaving where one returns an error, panics, or returns wrong octets without an error *)
Theorem C93_error_refuted s : body_ies m <> [] ->
  exists sched b m' s', msg_marshal g k m = Ok (b, m') /\ calls s [Len1; Len1] sched = (s', [Fin (Err EInvalidLength); Fin (Ok b)]).
Proof. intros H. destruct right_marshal as [m' R]. destruct (@race_error g (m_h m) (body_ies m) s H) as (s' & sched & E). do 4 eexists. split; [exact R|exact E]. Qed.
Theorem C93_panic_refuted s : 2 <= length (body_ies m) ->
  exists sched b m' s', msg_marshal g k m = Ok (b, m') /\ calls s [Len1; Len1] sched = (s', [Fin Fault; Fin (Ok b)]).
Proof. intros H. destruct right_marshal as [m' R]. destruct (@race_panic g (m_h m) (body_ies m) s H) as (s' & sched & E). do 4 eexists. split; [exact R|exact E]. Qed.
(** all the octets of the IEs are 0 *)
Theorem C93_zeros_refuted s :
  exists sched b m' s', msg_marshal g k m = Ok (b, m') /\
  calls s [Len1; Len1] sched = (s', [Fin (Ok (firstn header_octets b ++ repeat 0%N (length b - header_octets))); Fin (Ok b)]).
Proof.
  destruct right_marshal as [m' R]. destruct (race_zeros g (m_h m) (body_ies m) s) as (s' & sched & E). do 4 eexists. split; [exact R|]. rewrite E. do 4 f_equal.
  unfold right_out. set (f := flen _ _ _). pose proof (hd_length g (m_h m) f) as Lf. change (length (ShareProofs.hd (m_h m) f) = header_octets) in Lf.
  rewrite firstn_app_exact by (symmetry; exact Lf). rewrite app_length, Lf, encs_length. unfold make. do 2 f_equal. lia.
Qed.
(** the Length field of both is 8 too large *)
Theorem C93_length_refuted s : has_seid (m_h m) = true ->
  exists sched b m' s', msg_marshal g k m = Ok (b, m') /\
  let w := firstn 2 b ++ be 2 (unbe (firstn 2 (skipn 2 b)) + 8) ++ skipn 4 b in calls s [Len1; Len1] sched = (s', [Fin (Ok w); Fin (Ok w)]).
Proof.
  intros H. destruct right_marshal as [m' R]. destruct (@race_length g (m_h m) (body_ies m) s H) as (s' & sched & E). do 4 eexists. split; [exact R|]. cbv zeta. rewrite E.
  assert (W : forall f p, f = u16 f -> ShareProofs.hd (m_h m) (u16 (f + 8)) ++ p = (let b := ShareProofs.hd (m_h m) f ++ p in firstn 2 b ++ be 2 (unbe (firstn 2 (skipn 2 b)) + 8) ++ skipn 4 b)).
  { intros f p F. cbv zeta. unfold ShareProofs.hd, henc. cbn [hx h_flags h_type h_length h_seid h_seq h_prio h_payload].
    assert (U : unbe (be 2 f) = f). { rewrite unbe_be. symmetry. exact F. }
    destruct (be2 f) as (a & c & B). rewrite B in *. cbn [app firstn skipn]. rewrite U. unfold u16. rewrite (@be_cast 2) by reflexivity. reflexivity. }
  unfold right_out. rewrite (W (flen g (m_h m) (body_ies m)) (encs g (body_ies m))); [reflexivity|]. unfold flen. destruct (has_seid (m_h m)); unfold u16; now rewrite N.mod_mod.
Qed.
(** a message without SEID and IEs, and with no payload left from before: nothing can go wrong *)
Theorem C93_no_ies s n sched r : has_seid (m_h m) = false -> body_ies m = [] -> contents s (s_ref s) = [] ->
  In (Fin r) (snd (calls s (repeat Len1 n) sched)) -> exists b m', msg_marshal g k m = Ok (b, m') /\ r = Ok b.
Proof.
  intros H0 H1 Hs I. destruct right_marshal as [m' R]. eexists _, m'. split; [exact R|]. destruct (calls s (repeat Len1 n) sched) as [s' ps'] eqn:E. cbn [snd] in I.
  destruct (@run_ok g (m_h m) (body_ies m) H1 H0 sched s (repeat Len1 n) s' ps') as [_ F].
  - exact Hs.
  - apply Forall_forall. intros p Hp. apply repeat_spec in Hp. now subst p.
  - exact E.
  - apply (proj1 (Forall_forall _ _) F) in I. cbn in I. rewrite I. unfold right_out, flen. rewrite H0, H1. cbn. now rewrite app_nil_r.
Qed.
End C93.
Print Assumptions C93_finishes.
Print Assumptions C93_alone.
Print Assumptions C93_any_schedule.
Print Assumptions C93_error_refuted.
Print Assumptions C93_panic_refuted.
Print Assumptions C93_zeros_refuted.
Print Assumptions C93_length_refuted.
Print Assumptions C93_no_ies.
(** a heartbeat request with a recovery time stamp meets the hypotheses; four schedules of two calls *)
Definition C93_m : msg := mkM (mkH 0x20 1 12 0 7 0 []) [FOne (Some (mkIE 96 4 0 [1; 2; 3; 4]%N [])); FOne None] [].
Definition C93_s : shared := mkS None 12 [].
Example C93_ex : In K_HeartbeatRequest kinds /\ shaped K_HeartbeatRequest C93_m /\ Forall no_nil (m_f C93_m) /\ body_ies C93_m <> [] /\
  (forall t, default_grouped t = true -> vendor t = false) /\
  (let calls sched := snd (run default_grouped (m_h C93_m) (body_ies C93_m) C93_s [Len1; Len1] sched) in
   let good := [0x20; 1; 0; 12; 0; 0; 7; 0; 0; 96; 0; 4; 1; 2; 3; 4]%N in
   calls (repeat 0 20 ++ repeat 1 20) = [Fin (Ok good); Fin (Ok good)] /\
   calls (repeat 0 7 ++ repeat 1 4 ++ repeat 0 20 ++ repeat 1 20) = [Fin (Err EInvalidLength); Fin (Ok good)] /\
   calls (repeat 0 11 ++ repeat 1 8 ++ repeat 0 20 ++ repeat 1 20) = [Fin (Ok [0x20; 1; 0; 12; 0; 0; 7; 0; 0; 0; 0; 0; 0; 0; 0; 0]%N); Fin (Ok good)] /\
   calls (repeat 0 15) = [Fin (Ok good); Len1]).
Proof.
  split; [cbn; tauto|]. split; [reflexivity|]. split; [repeat constructor|]. split; [discriminate|]. split; [exact default_not_vendor|]. repeat split.
Qed.
