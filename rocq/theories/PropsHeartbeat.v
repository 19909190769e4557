(** C89, C90: the example heartbeat server and client (examples/heartbeat).
    [carries c b is]: the octets b are a PFCP message of type c whose IEs are is (wire formats of HeaderSpec.v and Spec.v);
    [stamp is]: the last Recovery Time Stamp (type 96) among them; [received d]: the first 1500 octets of a datagram. *)
From Coq Require Import String.
From Verif Require Import Base IETypes IE Spec Codec Header HeaderSpec HeaderProofs IEProofs Message MsgSpec MsgProofs MsgTables MsgNames MsgProps MsgProps2 Access AccTable AccRun Time TimeProofs Heartbeat HeartbeatProofs.
Local Open Scope list_scope.

(** a Heartbeat Response with sequence number sq and the given four octets of Recovery Time Stamp *)
Definition response (sq : N) (ts : list N) : list N := [0x20; 2]%N ++ be 2 12 ++ be 3 sq ++ [0]%N ++ be 2 96 ++ be 2 4 ++ ts.
(** a datagram that is answered, and one that makes the server panic *)
Definition answers (d : list N) : Prop := exists is i, carries 1 (received d) is /\ stamp is = Some i /\ 4 <= length (payload i).
Definition crashes (d : list N) : Prop := exists is, carries 1 (received d) is /\ stamp is = None.

(** ** C89: the server *)
Theorem C89_turn (addr : Type) now (from : addr) d : bytes d ->
  (answers d -> hb_server_turn now from d = Ok (Some (from, response 1 (new_timestamp now)))) /\
  (crashes d -> hb_server_turn now from d = Fault) /\
  (~ answers d -> ~ crashes d -> hb_server_turn now from d = Ok None).
Proof.
  intros B. split; [|split].
  - intros (is & i & C & S & L). rewrite (@turn_carries _ now from d is B C), S. destruct (Nat.ltb_spec (length (payload i)) 4); [lia|reflexivity].
  - intros (is & C & S). now rewrite (@turn_carries _ now from d is B C), S.
  - intros A C. destruct (carries_dec 1 _ (bytes_received d B)) as [[is K]|K]; [|now apply turn_other]. rewrite (@turn_carries _ now from d is B K).
    destruct (stamp is) as [i|] eqn:S; [|now destruct C; exists is]. destruct (Nat.ltb_spec (length (payload i)) 4); [reflexivity|]. destruct A. now exists is, i.
Qed.
Print Assumptions C89_turn.
(** each datagram is of exactly one of the three sorts *)
Theorem C89_sorts d : bytes d -> (answers d /\ ~ crashes d) \/ (~ answers d /\ crashes d) \/ (~ answers d /\ ~ crashes d).
Proof.
  intros B. pose proof (bytes_received d B) as B'.
  assert (X : ~ (answers d /\ crashes d)).
  { intros [(is & i & C & S & _) (is' & C' & S')]. assert (stamp is = stamp is') by (apply (stamp_unique 1 (received d)); auto). congruence. }
  assert (D : answers d \/ ~ answers d).
  { destruct (carries_dec 1 _ B') as [[is K]|K]; [|right; intros (is & i & C & _); exact (K is C)]. destruct (stamp is) as [i|] eqn:S.
    - destruct (Nat.le_gt_cases 4 (length (payload i))) as [L|L]; [left; now exists is, i|]. right. intros (is' & i' & C & S' & L').
      assert (stamp is = stamp is') by (apply (stamp_unique 1 (received d)); auto). assert (i = i') by congruence. subst. lia.
    - right. intros (is' & i' & C & S' & _). assert (stamp is = stamp is') by (apply (stamp_unique 1 (received d)); auto). congruence. }
  assert (E : crashes d \/ ~ crashes d).
  { destruct (carries_dec 1 _ B') as [[is K]|K]; [|right; intros (is & C & _); exact (K is C)]. destruct (stamp is) as [i|] eqn:S; [|left; now exists is].
    right. intros (is' & C & S'). assert (stamp is = stamp is') by (apply (stamp_unique 1 (received d)); auto). congruence. }
  tauto.
Qed.
Print Assumptions C89_sorts.

(** the answers to a run of datagrams, each to its sender and in order *)
Inductive replies {addr : Type} : list (Z * addr * list N) -> list (addr * list N) -> Prop :=
| r_nil : replies [] []
| r_answer now from d evs out : answers d -> replies evs out -> replies ((now, from, d) :: evs) ((from, response 1 (new_timestamp now)) :: out)
| r_skip now from d evs out : ~ answers d -> replies evs out -> replies ((now, from, d) :: evs) out.
Theorem C89_run (addr : Type) (evs : list (Z * addr * list N)) : Forall (fun e => bytes (snd e)) evs ->
  exists handled rest out, evs = handled ++ rest /\ Forall (fun e => ~ crashes (snd e)) handled /\ replies handled out /\
    ((rest = [] /\ hb_server evs = (out, true)) \/ (exists e r, rest = e :: r /\ crashes (snd e) /\ hb_server evs = (out, false))).
Proof.
  induction evs as [|[[now from] d] evs IH]; intros F.
  - exists [], [], []. repeat split; [constructor|constructor|]. now left.
  - apply Forall_cons_iff in F. destruct F as [B F]. cbn [snd] in B. destruct (C89_turn addr now from d B) as (TA & TC & TN). cbn [hb_server].
    destruct (C89_sorts d B) as [[A C]|[[A C]|[A C]]].
    + destruct (IH F) as (hd & rest & out & -> & N & R & Q). rewrite (TA A). exists ((now, from, d) :: hd), rest, ((from, response 1 (new_timestamp now)) :: out).
      split; [reflexivity|]. split; [now constructor|]. split; [now constructor|]. destruct Q as [[-> Q]|(e & r & -> & K & Q)]; [left|right].
      * rewrite Q. now split.
      * exists e, r. rewrite Q. now repeat split.
    + rewrite (TC C). exists [], ((now, from, d) :: evs), []. repeat split; [constructor|constructor|]. right. exists (now, from, d), evs. now repeat split.
    + destruct (IH F) as (hd & rest & out & -> & N & R & Q). rewrite (TN A C). exists ((now, from, d) :: hd), rest, out.
      split; [reflexivity|]. split; [now constructor|]. split; [now constructor|]. destruct Q as [[-> Q]|(e & r & -> & K & Q)]; [left|right].
      * rewrite Q. now split.
      * exists e, r. rewrite Q. now repeat split.
Qed.
Print Assumptions C89_run.
(** every answer is a Heartbeat Response with sequence number 1, whatever the request's *)
Theorem C89_answer now : exists m, parse_msg default_grouped (response 1 (new_timestamp now)) = Ok (K_HeartbeatResponse, m) /\ msg_seq m = 1%N /\
  m_f m = [FOne (Some (new T_RecoveryTimeStamp (new_timestamp now)))].
Proof. destruct (list4 (new_timestamp now) eq_refl) as (a & b & c & d & ->). eexists. split; [vm_compute; reflexivity|]. split; reflexivity. Qed.
Print Assumptions C89_answer.
(** intended: the server survives every datagram *)
Theorem C89_survives_refuted : exists d, bytes d /\ length d = 8 /\ forall (addr : Type) now (from : addr), hb_server_turn now from d = Fault.
Proof. exists [0x20; 1; 0; 4; 0; 0; 1; 0]%N. split; [repeat constructor|]. split; [reflexivity|]. intros. vm_compute. reflexivity. Qed.
Print Assumptions C89_survives_refuted.
(** intended: the answer carries the request's sequence number *)
Theorem C89_sequence_refuted : exists d m, bytes d /\ parse_msg default_grouped d = Ok (K_HeartbeatRequest, m) /\ msg_seq m = 7%N /\
  forall (addr : Type) now (from : addr), hb_server_turn now from d = Ok (Some (from, response 1 (new_timestamp now))).
Proof.
  exists [0x20; 1; 0; 12; 0; 0; 7; 0; 0; 96; 0; 4; 1; 2; 3; 4]%N. eexists. split; [repeat constructor|]. split; [vm_compute; reflexivity|]. split; [reflexivity|].
  intros. destruct (list4 (new_timestamp now) eq_refl) as (a & b & c & d & E). unfold hb_server_turn. rewrite response_ok, E. vm_compute. reflexivity.
Qed.
Print Assumptions C89_sequence_refuted.
Example C89_ex : answers ([0x20; 1; 0; 12; 0; 0; 7; 0; 0; 96; 0; 4; 1; 2; 3; 4]%N) /\ ~ answers [1; 2; 3]%N /\ ~ crashes [1; 2; 3]%N /\
  fst (hb_server [(0%Z, true, [1; 2; 3]%N); (1000000000%Z, false, [0x20; 1; 0; 12; 0; 0; 7; 0; 0; 96; 0; 4; 1; 2; 3; 4]%N)]) = [(false, response 1 [0x83; 0xaa; 0x7e; 0x81]%N)].
Proof.
  assert (B : bytes [1; 2; 3]%N) by (repeat constructor). destruct (C89_turn unit 0 tt _ B) as (TA & TC & _). split; [|split; [|split]].
  - exists [new 96 [1; 2; 3; 4]%N], (new 96 [1; 2; 3; 4]%N). split; [|split; [reflexivity|cbn; lia]].
    exists (mkH 0x20 1 12 0 7 0 [0; 96; 0; 4; 1; 2; 3; 4]%N). split; [|split; [reflexivity|right; split; [cbn; lia|]]].
    + apply (proj1 (parse_header_iff (b := received [0x20; 1; 0; 12; 0; 0; 7; 0; 0; 96; 0; 4; 1; 2; 3; 4]%N) _ ltac:(repeat constructor))). vm_compute. reflexivity.
    + apply (proj1 (parseMulti_iff default_grouped (b := [0; 96; 0; 4; 1; 2; 3; 4]%N) _ ltac:(repeat constructor))). vm_compute. reflexivity.
  - intros A. apply TA in A. vm_compute in A. discriminate.
  - intros A. apply TC in A. vm_compute in A. discriminate.
  - vm_compute. reflexivity.
Qed.

(** ** C90: the client *)
(** the time in a Recovery Time Stamp: seconds since 1900 modulo 2^32 *)
Definition time_of (p : list N) (t : Z) : Prop := exists x r, (x < 2 ^ 32)%N /\ p = be 4 x ++ r /\ t = ((Z.of_N x - 2208988800) mod 2 ^ 32 * 1000000000)%Z.
Definition silent (d : list N) : Prop := forall is, ~ carries 2 (received d) is.
(** the client goes by the first Heartbeat Response it receives, and by nothing else *)
Theorem C90_first pre d post is : Forall bytes pre -> Forall silent pre -> bytes d -> carries 2 (received d) is ->
  (stamp is = None -> hb_client (pre ++ d :: post) = Crashed) /\
  (forall i, stamp is = Some i -> length (payload i) < 4 -> hb_client (pre ++ d :: post) = GotInvalid) /\
  (forall i t, stamp is = Some i -> time_of (payload i) t -> hb_client (pre ++ d :: post) = Got (VT t)).
Proof.
  intros BP SP B C. assert (E : hb_client (pre ++ d :: post) = hb_client (d :: post)).
  { induction pre as [|x pre IH]; [reflexivity|]. inversion BP; inversion SP; subst. cbn [app]. rewrite client_skip by assumption. now apply IH. }
  rewrite E, (@client_here d post is B C). split; [|split].
  - now intros ->.
  - intros i -> L. now rewrite reads_short.
  - intros i t -> (x & r & X & P & ->). unfold reads_stamp. rewrite P. assert (Q : timestamp_value (be 4 x ++ r) = timestamp_value (be 4 x)) by reflexivity. 
    rewrite Q, timestamp_value_be by exact X. cbn [as_t]. reflexivity.
Qed.
Print Assumptions C90_first.
Theorem C90_waits ds : Forall bytes ds -> Forall silent ds -> hb_client ds = Waiting.
Proof. induction ds as [|d ds IH]; intros B S; [reflexivity|]. inversion B; inversion S; subst. rewrite client_skip by assumption. now apply IH. Qed.
Print Assumptions C90_waits.
(** intended: only the response to its own request ends the wait.  Any sequence number does *)
Theorem C90_sequence_refuted sq : (sq < 2 ^ 24)%N -> hb_client [response sq [0x83; 0xaa; 0x7e; 0x81]%N] = Got (VT 1000000000).
Proof. intros H. unfold response. vm_compute. reflexivity. Qed.
Print Assumptions C90_sequence_refuted.
(** intended: the client survives every datagram *)
Theorem C90_survives_refuted : exists d, bytes d /\ length d = 8 /\ hb_client [d] = Crashed.
Proof. exists [0x20; 2; 0; 4; 0; 0; 1; 0]%N. split; [repeat constructor|]. split; [reflexivity|]. vm_compute. reflexivity. Qed.
Print Assumptions C90_survives_refuted.
(** the request of the client is answered by the server, and the answer ends the client with the server's time in whole seconds *)
Theorem C90_exchange (addr : Type) tc ts (from : addr) pre post : Forall bytes pre -> Forall silent pre -> (0 <= ts < 2 ^ 32 * 1000000000)%Z ->
  exists req ans, hb_request tc = Ok req /\ hb_server_turn ts from req = Ok (Some (from, ans)) /\ hb_client (pre ++ ans :: post) = Got (VT (ts / 1000000000 * 1000000000)).
Proof.
  intros BP SP H. eexists. exists (response 1 (new_timestamp ts)). split; [apply request_ok|]. split.
  - unfold hb_server_turn. rewrite response_ok. destruct (list4 (new_timestamp tc) eq_refl) as (a & b & c & d & ->), (list4 (new_timestamp ts) eq_refl) as (a' & b' & c' & d' & ->). vm_compute. reflexivity.
  - assert (E : hb_client (pre ++ response 1 (new_timestamp ts) :: post) = hb_client (response 1 (new_timestamp ts) :: post)).
    { induction pre as [|x pre IH]; [reflexivity|]. inversion BP; inversion SP; subst. cbn [app]. rewrite client_skip by assumption. now apply IH. }
    rewrite E. apply (proj2 (timestamp_exact ts)) in H. destruct (list4 (new_timestamp ts) eq_refl) as (a & b & c & d & E'). rewrite E' in *. cbn [hb_client].
    assert (P : parse_message default_grouped dispatch K_Generic (received (response 1 [a; b; c; d])) = Ok (K_HeartbeatResponse, mkM (mkH 0x20 2 12 0 1 0 [0; 96; 0; 4; a; b; c; d]%N) [FOne (Some (new 96 [a; b; c; d]))] [])) by (vm_compute; reflexivity).
    rewrite P. change (String.eqb (k_name K_HeartbeatResponse) "HeartbeatResponse") with true. cbv iota. unfold recovery_ts. cbn [first_field m_f]. rewrite rts_access by reflexivity. change (payload (new 96 [a; b; c; d])) with [a; b; c; d]. rewrite H. reflexivity.
Qed.
Print Assumptions C90_exchange.
Example C90_ex : silent [1; 2; 3]%N /\ time_of [0x83; 0xaa; 0x7e; 0x81; 9]%N 1000000000 /\ hb_client [[1; 2; 3]; response 5 [0x83; 0xaa; 0x7e; 0x81]; [7]]%N = Got (VT 1000000000) /\
  hb_client [response 5 [1; 2; 3]]%N = Waiting.
Proof.
  split; [|split; [|split]].
  - intros is (h & W & _). apply (proj2 (parse_header_iff (b := received [1; 2; 3]%N) _ ltac:(repeat constructor))) in W. vm_compute in W. discriminate.
  - exists 2208988801%N, [9%N]. repeat split.
  - vm_compute. reflexivity.
  - vm_compute. reflexivity.
Qed.
