(** C98: what UnmarshalBinary leaves in its receiver when it returns an error, and what the receiver can still be used for. *)
From Coq Require Import String.
From Verif Require Import Codec.
From Verif Require Import Base Bits IETypes IE Spec IEProofs IEProofs2 IEProps Header HeaderSpec HeaderProofs Message MsgTables MsgSpec MsgProofs MsgProofs2 MsgProps MsgProps2 Failed FailedProofs FailedProofs2.
Set Implicit Arguments.
Local Open Scope list_scope.

(** * Information elements *)
(** No datagram makes the call panic. *)
Theorem C98_ie_total : forall g i0 b, bytes b -> exists o i, ie_unmarshal g i0 b = Ok (o, i).
Proof. exact ie_returns. Qed.
Print Assumptions C98_ie_total.
(** The error is the one of the decoder of the other properties; so is the receiver when there is none. *)
Theorem C98_ie_same : forall g i0 b, bytes b ->
  unmarshalBinary g i0 b = match ie_unmarshal g i0 b with Ok (None, i) => Ok i | Ok (Some e, _) => Err e | Err e => Err e | Fault => Fault | Fuel => Fuel end.
Proof.
  intros g i0 b Hb. rewrite <- (@ie_agrees g i0 b Hb). unfold settle. destruct (ie_unmarshal g i0 b) as [[[e|] i]| | |]; reflexivity.
Qed.
Print Assumptions C98_ie_same.
(** Exactly what is left, for every way to fail: [left_ie]. *)
Theorem C98_ie_left : forall g i0 b er i, bytes b -> (ie_unmarshal g i0 b = Ok (Some er, i) <-> left_ie g i0 b er i).
Proof. exact ie_left_iff. Qed.
Print Assumptions C98_ie_left.
(** The value is the old one unless the datagram held all the octets announced; the child IEs are the old ones or none. *)
Theorem C98_ie_value : forall g i0 b er i, bytes b -> ie_unmarshal g i0 b = Ok (Some er, i) ->
  (payload i = payload i0 /\ children i = children i0) \/
  (g (ty i) = true /\ children i = [] /\ parseMultiIEs g (payload i) = Err er /\ exists h r, b = h ++ payload i ++ r).
Proof.
  intros g i0 b er i Hb E. apply ie_left_iff in E; trivial. destruct E; cbn; auto. right. repeat split; trivial. eauto.
Qed.
Print Assumptions C98_ie_value.
(** Whatever it was given, the IE can be marshalled, and used again. *)
Theorem C98_ie_safe : forall g ds i0, Forall bytes ds -> bytes (payload i0) ->
  exists i, ie_feed g i0 ds = Ok i /\ bytes (payload i) /\ exists out, marshal g i = Ok out.
Proof.
  intros g ds i0 Hd Hp. destruct (@ie_feed_ok g ds i0 Hd Hp) as (i & E & B). exists i. split; [exact E|]. split; [exact B|]. eexists. apply marshal_ok.
Qed.
Print Assumptions C98_ie_safe.
(** "An IE that UnmarshalBinary refused marshals to octets that can be parsed" is false: type and length are those of the datagram, the value is the old
    one; and for a grouped type the length is that of the datagram and the value is empty. *)
Theorem C98_ie_refuted : exists i0 b er i out, bytes b /\ ie_unmarshal default_grouped i0 b = Ok (Some er, i) /\
  marshal default_grouped i = Ok out /\ parse default_grouped out = Err EUnexpectedEOF.
Proof.
  exists (mkIE 56 2 0 [0; 1] [])%N, [0; 20; 0; 9; 0]%N. do 3 eexists. split; [repeat constructor|]. split; [vm_compute; reflexivity|]. split; vm_compute; reflexivity.
Qed.
Print Assumptions C98_ie_refuted.
Theorem C98_ie_grouped_refuted : exists i0 b er i out, bytes b /\ ie_unmarshal default_grouped i0 b = Ok (Some er, i) /\
  marshal default_grouped i = Ok out /\ payload i <> [] /\ out = [0; 1; 0; 5]%N.
Proof.
  exists (mkIE 56 2 0 [0; 1] [])%N, [0; 1; 0; 5; 0; 56; 0; 2; 7]%N. do 3 eexists. split; [repeat constructor|]. split; [vm_compute; reflexivity|]. split; [vm_compute; reflexivity|]. split; [discriminate|reflexivity].
Qed.
Print Assumptions C98_ie_grouped_refuted.

(** * Headers *)
Theorem C98_header_same : forall h0 b,
  h_unmarshal h0 b = match header_unmarshal h0 b with Ok (None, h) => Ok h | Ok (Some e, _) => Err e | Err e => Err e | Fault => Fault | Fuel => Fuel end.
Proof.
  intros h0 b. rewrite <- (@header_agrees h0 b). unfold settle. destruct (header_unmarshal h0 b) as [[[e|] h]| | |]; reflexivity.
Qed.
Print Assumptions C98_header_same.
Theorem C98_header_left : forall h0 b er h, bytes b -> (header_unmarshal h0 b = Ok (Some er, h) <-> er = EUnexpectedEOF /\ left_header h0 b h).
Proof. exact (@header_left_iff default_grouped). Qed.
Print Assumptions C98_header_left.
(** Sequence number, priority and payload are the old ones after an error. *)
Theorem C98_header_kept : forall h0 b er h, bytes b -> header_unmarshal h0 b = Ok (Some er, h) ->
  h_seq h = h_seq h0 /\ h_prio h = h_prio h0 /\ h_payload h = h_payload h0.
Proof. intros h0 b er h Hb E. apply (@header_left_iff default_grouped) in E as [_ []]; trivial; cbn; auto. Qed.
Print Assumptions C98_header_kept.

(** * Messages *)
Theorem C98_total : forall g k p b, In k kinds -> bytes b -> p_shaped k p -> exists e q, p_unmarshal g k p b = Ok (e, q) /\ p_shaped k q.
Proof.
  intros g k p b I Hb Sh. destruct (@p_returns g k (@kind_consistent k I) p b Hb Sh) as (e & q & E). exists e, q. split; [exact E|]. exact (@p_unmarshal_shaped g k (@kind_consistent k I) p b e q Sh E).
Qed.
Print Assumptions C98_total.
Theorem C98_same : forall g k p b, In k kinds -> p_shaped k p ->
  msg_unmarshal g k (with_header p zero_header) b =
  match p_unmarshal g k p b with
  | Ok (None, q) => match p_h q with Some h => Ok (with_header q h) | None => Fault end
  | Ok (Some e, _) => Err e
  | Err e => Err e | Fault => Fault | Fuel => Fuel
  end.
Proof. intros g k p b I Sh. exact (@p_agrees g k (@kind_consistent k I) p b Sh). Qed.
Print Assumptions C98_same.
(** Exactly what is left: no header if the datagram is too short for one; else the header of the datagram.  The IE fields keep what they had, and so does
    the list of further IEs, except that Generic loses all its IEs. *)
Theorem C98_left : forall g k p b er q, In k kinds -> bytes b -> p_shaped k p ->
  (p_unmarshal g k p b = Ok (Some er, q) <->
   (too_short b /\ er = EUnexpectedEOF /\ q = mkP None (p_f p) (p_ies p)) \/
   (exists h, hwire h b /\ 2 <= length (h_payload h) /\ parseMultiIEs g (h_payload h) = Err er /\
      q = mkP (Some h) (p_f p) (if String.eqb (k_name k) "Generic" then [] else p_ies p))).
Proof.
  intros g k p b er q I Hb Sh. rewrite (@p_left_iff g k (@kind_consistent k I) p b er q Hb Sh). rewrite (@generic_mode k I). destruct (String.eqb (k_name k) "Generic"); reflexivity.
Qed.
Print Assumptions C98_left.
(** A receiver without a header panics in every method that looks at the header, and does so exactly after a datagram that was too short. *)
Theorem C98_nil_header : forall g k p, p_h p = None ->
  p_len g k p = Fault /\ p_marshal g k p = Fault /\ p_set_length g k p = Fault /\ p_type p = Fault /\ p_seid p = Fault /\ p_seq p = Fault.
Proof. exact nil_methods. Qed.
Print Assumptions C98_nil_header.
Theorem C98_nil_iff : forall g k p b e q, In k kinds -> bytes b -> p_shaped k p -> p_unmarshal g k p b = Ok (e, q) ->
  (p_seq q = Fault <-> too_short b) /\ (p_type q = Fault <-> too_short b) /\ (p_seid q = Fault <-> too_short b).
Proof.
  intros g k p b e q I Hb Sh E. destruct (@p_header_iff g k (@kind_consistent k I) p b e q Hb Sh E) as [(S & X)|(h & HW & X)]; unfold p_seq, p_type, p_seid, deref; rewrite X.
  - tauto.
  - assert (S : ~ too_short b) by (intros S; apply hwire_long in HW; contradiction). repeat split; (discriminate || contradiction).
Qed.
Print Assumptions C98_nil_iff.
(** With a header the methods are those of the other properties. *)
Theorem C98_with_header : forall g k p h, p_h p = Some h ->
  p_len g k p = msg_len g k (with_header p h) /\
  p_marshal g k p = (' r <- msg_marshal g k (with_header p h) ;; Ok (fst r, held (snd r))) /\
  p_set_length g k p = (m <- msg_set_length g k (with_header p h) ;; Ok (held m)) /\
  p_type p = Ok (h_type h) /\ p_seid p = Ok (msg_seid (with_header p h)) /\ p_seq p = Ok (h_seq h).
Proof. exact header_methods. Qed.
Print Assumptions C98_with_header.
(** The next datagram is decoded as if the failing one had not been seen, except by Generic, whose IEs are gone (and replaced by the next). *)
Theorem C98_recover : forall g k p b er q b2, In k kinds -> k_name k <> "Generic"%string -> bytes b -> p_shaped k p ->
  p_unmarshal g k p b = Ok (Some er, q) -> p_unmarshal g k q b2 = p_unmarshal g k p b2.
Proof.
  intros g k p b er q b2 I G Hb Sh E. apply C98_left in E; trivial. apply String.eqb_neq in G. rewrite G in E.
  destruct E as [(_ & _ & ->)|(h & _ & _ & _ & ->)]; reflexivity.
Qed.
Print Assumptions C98_recover.
(** One receiver, from &X{} on, given any datagrams, errors ignored: it holds the header of the last one (none if that was too short), and the message
    built from the IEs of all the bodies that decoded, in order. *)
Theorem C98_feed : forall g k ds, In k kinds -> k_name k <> "Generic"%string -> Forall bytes ds ->
  exists q iss, p_feed g k (empty k) ds = Ok q /\ Forall2 (gives g) ds iss /\
    (forall d, last_opt ds = Some d -> leaves d (p_h q)) /\
    (forall h, with_header q h = message_of k h (concat iss)).
Proof.
  intros g k ds I G Hd. apply p_feed_fresh; trivial; [now apply kind_consistent|]. apply String.eqb_neq in G. now rewrite (@generic_mode k I), G.
Qed.
Print Assumptions C98_feed.
(** [gives] and [leaves] are functions of the datagram *)
Theorem C98_gives : forall g d is1 is2, bytes d -> gives g d is1 -> gives g d is2 -> is1 = is2.
Proof. exact gives_det. Qed.
Print Assumptions C98_gives.
Theorem C98_leaves : forall d h1 h2, bytes d -> leaves d h1 -> leaves d h2 -> h1 = h2.
Proof. exact leaves_det. Qed.
Print Assumptions C98_leaves.
(** Sent on after its body was refused, a message tells the peer the old contents under the new sequence number, type and SEID. *)
Theorem C98_stale : forall g k p b er q, In k kinds -> k_name k <> "Generic"%string -> bytes b -> typed k (with_header p zero_header) ->
  Forall (fun i => exists e, wire g i e) (body_ies (with_header p zero_header)) ->
  ~ too_short b -> p_unmarshal g k p b = Ok (Some er, q) ->
  exists h out q' m, hwire h b /\ p_marshal g k q = Ok (out, q') /\ msg_parse g k out = Ok m /\
    msg_seq m = h_seq h /\ msg_type m = h_type h /\ h_flags (m_h m) = h_flags h /\ h_seid (m_h m) = h_seid h /\
    m_f m = p_f p /\ m_ies m = map Some (present (p_ies p)).
Proof.
  intros g k p b er q I G Hb T W S E. apply (@p_stale g k (@kind_consistent k I) p b er q); trivial. apply String.eqb_neq in G. now rewrite (@generic_mode k I), G.
Qed.
Print Assumptions C98_stale.

(** * Samples *)
(** A heartbeat request with its recovery time stamp, one whose body is cut, and three octets: *)
Definition d1 : list N := [0x20; 1; 0; 12; 0; 0; 1; 0; 0; 96; 0; 4; 1; 2; 3; 4]%N.
Definition d2 : list N := [0x20; 1; 0; 9; 0; 0; 2; 0; 0; 96; 0; 4; 1]%N.
Definition d3 : list N := [0x20; 1; 0]%N.
Definition p1 : pmsg := match p_feed default_grouped K_HeartbeatRequest (empty K_HeartbeatRequest) [d1] with Ok p => p | _ => empty K_HeartbeatRequest end.
Definition p2 : pmsg := match p_feed default_grouped K_HeartbeatRequest (empty K_HeartbeatRequest) [d1; d2] with Ok p => p | _ => empty K_HeartbeatRequest end.
Example C98_sample_good : exists p, p_unmarshal default_grouped K_HeartbeatRequest (empty K_HeartbeatRequest) d1 = Ok (None, p) /\ p_seq p = Ok 1%N /\ p = p1.
Proof. eexists. split; [vm_compute; reflexivity|]. split; vm_compute; reflexivity. Qed.
(** the second leaves sequence number 2 and the time stamp of the first, and this is what is sent on *)
Example C98_sample_cut : p_unmarshal default_grouped K_HeartbeatRequest p1 d2 = Ok (Some EUnexpectedEOF, p2) /\ p_seq p2 = Ok 2%N /\ p_f p2 = p_f p1 /\
  exists q, p_marshal default_grouped K_HeartbeatRequest p2 = Ok ([0x20; 1; 0; 12; 0; 0; 2; 0; 0; 96; 0; 4; 1; 2; 3; 4]%N, q).
Proof. split; [vm_compute; reflexivity|]. split; [vm_compute; reflexivity|]. split; [vm_compute; reflexivity|]. eexists. vm_compute. reflexivity. Qed.
(** the hypotheses of C98_stale *)
Example C98_sample_stale : In K_HeartbeatRequest kinds /\ k_name K_HeartbeatRequest <> "Generic"%string /\ bytes d2 /\ typed K_HeartbeatRequest (with_header p1 zero_header) /\
  Forall (fun i => exists e, wire default_grouped i e) (body_ies (with_header p1 zero_header)) /\ ~ too_short d2.
Proof.
  split; [unfold kinds, dispatch; cbn; tauto|]. split; [discriminate|]. split; [repeat constructor|]. split; [|split].
  - assert (E : with_header p1 zero_header = message_of K_HeartbeatRequest zero_header [mkIE 96 4 0 [1; 2; 3; 4] []]%N) by (vm_compute; reflexivity). rewrite E.
    apply message_of_typed.
  - assert (E : body_ies (with_header p1 zero_header) = [mkIE 96 4 0 [1; 2; 3; 4] []]%N) by (vm_compute; reflexivity). rewrite E. constructor; [|constructor].
    apply wellformed_iff. vm_compute. reflexivity.
  - intros [H|[_ (fl & r & H & O)]]; [cbn in H; lia|]. injection H as <- _. discriminate O.
Qed.
(** three octets leave no header *)
Example C98_sample_nil : exists p, p_unmarshal default_grouped K_HeartbeatRequest p1 d3 = Ok (Some EUnexpectedEOF, p) /\ p_seq p = Fault /\ p_marshal default_grouped K_HeartbeatRequest p = Fault /\ p_f p = p_f p1.
Proof. eexists. split; [vm_compute; reflexivity|]. repeat split; vm_compute; reflexivity. Qed.
