From Coq Require Import String.
From Verif Require Import Base IETypes IE Spec Codec Header HeaderSpec Message MsgSpec MsgProofs MsgProofs2 MsgTables MsgNames MsgProps MsgProps2 Access AccTable AccRun New NewTable Fields1 Time TimeProofs Heartbeat.
Local Open Scope list_scope.

Lemma rts_access i : ty i = T_RecoveryTimeStamp -> access default_grouped A_RecoveryTimeStamp i = as_t (timestamp_value (payload i)).
Proof.
  destruct i as [t l e p c]. cbn [ty payload]. intros ->. unfold access. cbn [payload]. change (4 * S (length p)) with (S (length p + (3 * S (length p)))). reflexivity.
Qed.
Lemma list4 (p : list N) : length p = 4 -> exists a b c d, p = [a; b; c; d].
Proof. intros L. do 4 (destruct p as [|? p]; [discriminate|]). destruct p; [|discriminate]. repeat eexists. Qed.
Lemma be4 x : exists a b c d, be 4 x = [a; b; c; d].
Proof. apply list4. reflexivity. Qed.

Lemma response_ok now : hb_response now = Ok ([0x20; 2; 0; 12; 0; 0; 1; 0; 0; 96; 0; 4]%N ++ new_timestamp now).
Proof.
  unfold hb_response. destruct (list4 (new_timestamp now) eq_refl) as (a & b & c & d & ->). vm_compute. reflexivity.
Qed.
Lemma request_ok now : hb_request now = Ok ([0x20; 1; 0; 37; 0; 0; 1; 0; 0; 96; 0; 4]%N ++ new_timestamp now ++
  [0; 192; 0; 21; 3; 127; 0; 0; 1; 0x20; 0x01; 0; 0; 0; 0; 0; 0; 0; 0; 0; 0; 0; 0; 0; 1]%N).
Proof.
  unfold hb_request. destruct (list4 (new_timestamp now) eq_refl) as (a & b & c & d & ->). vm_compute. reflexivity.
Qed.

(** the octets b are a PFCP message of type c with the IEs is *)
Definition carries (c : N) (b : list N) (is : list ie) : Prop := exists h, hwire h b /\ h_type h = c /\
  (length (h_payload h) < 2 /\ is = [] \/ 2 <= length (h_payload h) /\ accepteds default_grouped is (h_payload h)).
(** the Recovery Time Stamp that counts: the last one *)
Definition stamp (is : list ie) : option ie := last_opt (filter (fun i => (ty i =? 96)%N) is).

Lemma name_code c : k_name (kind_of c) = "HeartbeatRequest"%string -> c = 1%N.
Proof. unfold kind_of, dispatch. cbn [Message.lookup]. repeat (match goal with |- context [(c =? ?x)%N] => destruct (N.eqb_spec c x); [intros E; solve [assumption|vm_compute in E; discriminate]|] end). intros E. vm_compute in E. discriminate. Qed.
Lemma name_code2 c : k_name (kind_of c) = "HeartbeatResponse"%string -> c = 2%N.
Proof. unfold kind_of, dispatch. cbn [Message.lookup]. repeat (match goal with |- context [(c =? ?x)%N] => destruct (N.eqb_spec c x); [intros E; solve [assumption|vm_compute in E; discriminate]|] end). intros E. vm_compute in E. discriminate. Qed.

Lemma filter_same {A} (p q : A -> bool) l : (forall x, p x = q x) -> filter p l = filter q l.
Proof. intros H. induction l as [|x l IH]; [reflexivity|]. cbn. now rewrite H, IH. Qed.
Lemma first1 h is : first_field (message_of (kind_of 1) h is) = stamp is.
Proof.
  unfold stamp. change (kind_of 1) with K_HeartbeatRequest. cbn [message_of first_field m_f fields_of K_HeartbeatRequest k_fields field_of]. f_equal. apply filter_same. intros x.
  unfold belongs, route, K_HeartbeatRequest, k_switch, Message.lookup. change T_RecoveryTimeStamp with 96%N. destruct (ty x =? 96)%N; [reflexivity|]. now destruct (ty x =? T_SourceIPAddress)%N.
Qed.
Lemma first2 h is : first_field (message_of (kind_of 2) h is) = stamp is.
Proof.
  unfold stamp. change (kind_of 2) with K_HeartbeatResponse. cbn [message_of first_field m_f fields_of K_HeartbeatResponse k_fields field_of]. f_equal. apply filter_same. intros x.
  unfold belongs, route, K_HeartbeatResponse, k_switch, Message.lookup. change T_RecoveryTimeStamp with 96%N. now destruct (ty x =? 96)%N.
Qed.
Lemma carries_parse c b is : bytes b -> carries c b is -> exists h, parse_msg default_grouped b = Ok (kind_of c, message_of (kind_of c) h is).
Proof.
  intros B (h & W & <- & P). exists h. apply (proj2 (parse_msg_iff _ _ _ B)). exists h. split; [exact W|]. split; [reflexivity|].
  destruct P as [[L ->]|[L A]]; [left|right]; [now split|split; [exact L|now exists is]].
Qed.
Lemma parse_carries b k m : bytes b -> parse_msg default_grouped b = Ok (k, m) -> exists h is, k = kind_of (h_type h) /\ carries (h_type h) b is /\ m = message_of k h is.
Proof.
  intros B P. apply (proj1 (parse_msg_iff _ _ _ B)) in P. destruct P as (h & W & -> & [[L E]|[L (is & A & E)]]); exists h; eexists; (split; [reflexivity|]; split; [|exact E]); exists h; split; auto.
Qed.
Lemma stamp_ty is i : stamp is = Some i -> ty i = 96%N.
Proof.
  unfold stamp. intros H. assert (K : forall l : list ie, last_opt l = Some i -> In i l).
  { induction l as [|x [|y l] IH]; [discriminate|intros [= ->]; now left|]. intros E. right. now apply IH. }
  apply K in H. apply filter_In in H. now apply N.eqb_eq.
Qed.

Lemma bytes_received d : bytes d -> bytes (received d).
Proof. unfold received, bytes. generalize 1500. intros n H. revert n. induction H; intros [|n]; cbn; constructor; auto. Qed.

Definition reads_stamp (i : ie) : res val := as_t (timestamp_value (payload i)).
Lemma reads_short i : length (payload i) < 4 -> reads_stamp i = Err EUnexpectedEOF.
Proof. intros L. unfold reads_stamp, timestamp_value. destruct (Nat.ltb_spec (length (payload i)) 4); [reflexivity|lia]. Qed.
Lemma reads_long i : 4 <= length (payload i) -> exists t, reads_stamp i = Ok (VT t).
Proof. unfold reads_stamp. generalize (payload i). intros p L. do 4 (destruct p as [|? p]; [cbn in L; lia|]). eexists. reflexivity. Qed.

Lemma turn_carries {addr} now (from : addr) d is : bytes d -> carries 1 (received d) is ->
  hb_server_turn now from d = match stamp is with
    | None => Fault
    | Some i => if length (payload i) <? 4 then Ok None else Ok (Some (from, [0x20; 2; 0; 12; 0; 0; 1; 0; 0; 96; 0; 4]%N ++ new_timestamp now))
    end.
Proof.
  intros B C. apply carries_parse in C; [|now apply bytes_received]. destruct C as (h & P). unfold hb_server_turn. unfold parse_msg in P. rewrite P.
  change (String.eqb (k_name (kind_of 1)) "HeartbeatRequest") with true. cbv iota. unfold recovery_ts. rewrite first1. destruct (stamp is) as [i|] eqn:S; [|reflexivity].
  rewrite rts_access by now apply stamp_ty in S. fold (reads_stamp i). destruct (Nat.ltb_spec (length (payload i)) 4) as [L|L]; [now rewrite reads_short|].
  destruct (reads_long i L) as [t ->]. rewrite response_ok. reflexivity.
Qed.
Lemma turn_other {addr} now (from : addr) d : bytes d -> (forall is, ~ carries 1 (received d) is) -> hb_server_turn now from d = Ok None.
Proof.
  intros B C. unfold hb_server_turn. pose proof (bytes_received d B) as B'. destruct (@parse_msg_returns default_grouped (received d) B') as [[[k m] P]|[e P]]; unfold parse_msg in P; rewrite P; [|reflexivity].
  destruct (String.eqb_spec (k_name k) "HeartbeatRequest") as [E|]; [|reflexivity]. exfalso. apply (parse_carries _ _ _ B') in P. destruct P as (h & is & -> & K & _).
  apply name_code in E. rewrite E in K. now apply (C is).
Qed.
Lemma carries_dec c b : bytes b -> (exists is, carries c b is) \/ (forall is, ~ carries c b is).
Proof.
  intros B. destruct (@parse_msg_returns default_grouped b B) as [[[k m] P]|[e P]].
  - apply (parse_carries _ _ _ B) in P. destruct P as (h & is & _ & K & _). destruct (N.eq_dec (h_type h) c) as [<-|D]; [left; eauto|]. right. intros is' (h' & W & E & _). destruct K as (h0 & W0 & E0 & _). apply D. rewrite <- E, <- E0.
    inversion W; inversion W0; subst; cbn in *; congruence.
  - right. intros is C. apply (carries_parse _ _ _ B) in C. destruct C as (h & Q). congruence.
Qed.
Lemma stamp_unique c b is is' : bytes b -> c = 1%N \/ c = 2%N -> carries c b is -> carries c b is' -> stamp is = stamp is'.
Proof.
  intros B D C C'. apply (carries_parse _ _ _ B) in C, C'. destruct C as (h & P), C' as (h' & P'). assert (E : message_of (kind_of c) h is = message_of (kind_of c) h' is') by congruence.
  apply (f_equal first_field) in E. destruct D as [-> | ->]; [now rewrite !first1 in E|now rewrite !first2 in E].
Qed.
Lemma client_here d r is : bytes d -> carries 2 (received d) is ->
  hb_client (d :: r) = match stamp is with None => Crashed | Some i => match reads_stamp i with Ok v => Got v | _ => GotInvalid end end.
Proof.
  intros B C. apply carries_parse in C; [|now apply bytes_received]. destruct C as (h & P). cbn [hb_client]. unfold parse_msg in P. rewrite P.
  change (String.eqb (k_name (kind_of 2)) "HeartbeatResponse") with true. cbv iota. unfold recovery_ts. rewrite first2. destruct (stamp is) as [i|] eqn:S; [|reflexivity].
  rewrite rts_access by now apply stamp_ty in S. fold (reads_stamp i). destruct (Nat.lt_ge_cases (length (payload i)) 4) as [L|L]; [now rewrite reads_short|]. now destruct (reads_long i L) as [t ->].
Qed.
Lemma client_skip d r : bytes d -> (forall is, ~ carries 2 (received d) is) -> hb_client (d :: r) = hb_client r.
Proof.
  intros B C. cbn [hb_client]. pose proof (bytes_received d B) as B'. destruct (@parse_msg_returns default_grouped (received d) B') as [[[k m] P]|[e P]]; unfold parse_msg in P; rewrite P; [|reflexivity].
  destruct (String.eqb_spec (k_name k) "HeartbeatResponse") as [E|]; [|reflexivity]. exfalso. apply (parse_carries _ _ _ B') in P. destruct P as (h & is & -> & K & _).
  apply name_code2 in E. rewrite E in K. now apply (C is).
Qed.
