(** Properties C40, C46 and C56: timestamps, timers and other durations.
    Times are nanoseconds since 1970-01-01 UTC, durations nanoseconds. *)
From Verif Require Import Base Codec Time TimeProofs.
Local Open Scope Z_scope.

(** ** C40 *)
Theorem C40_total b : returns (timestamp_value b).
Proof. exact (timestamp_total b). Qed.
Print Assumptions C40_total.
(** a time comes back (to the second) exactly when it lies in the 2^32 seconds from 1970 *)
Theorem C40_roundtrip_exact t : timestamp_value (new_timestamp t) = Ok (t / 1000000000 * 1000000000) <-> 0 <= t < 2 ^ 32 * 1000000000.
Proof. exact (timestamp_exact t). Qed.
Print Assumptions C40_roundtrip_exact.
(** what comes back otherwise: for the 292 years from 1900, the same second modulo 2^32 seconds *)
Theorem C40_wraps t : - 2208988800 * 1000000000 <= t <= 2 ^ 63 - 1 - 2208988800 * 1000000000 ->
  timestamp_value (new_timestamp t) = Ok ((t / 1000000000) mod 2 ^ 32 * 1000000000).
Proof. intros [H1 H2]. apply timestamp_roundtrip; unfold epoch1900, maxint64, second; lia. Qed.
Print Assumptions C40_wraps.
(** any four octets decode to a time that encodes to them *)
Theorem C40_reencode x : (x < 2 ^ 32)%N -> exists t, timestamp_value (be 4 x) = Ok t /\ new_timestamp t = be 4 x.
Proof. exact (@timestamp_reencode x). Qed.
Print Assumptions C40_reencode.
(** 1969-12-31T23:59:59Z, representable in the era that starts in 1900, comes back as 2106-02-07 *)
Theorem C40_refuted : timestamp_value (new_timestamp (-1000000000)) = Ok ((2 ^ 32 - 1) * 1000000000).
Proof. now vm_compute. Qed.
Print Assumptions C40_refuted.
(* 2019-01-01T00:00:00Z is the value used in the test suite: 0xdfd5 2c00 *)
Example C40_ex : new_timestamp (1546300800 * 1000000000 + 5) = [0xdf; 0xd5; 0x2c; 0x00]%N /\ timestamp_value [0xdf; 0xd5; 0x2c; 0x00; 9]%N = Ok (1546300800 * 1000000000).
Proof. now vm_compute. Qed.

(** ** C46 *)
Theorem C46_total b : returns (timer_value b).
Proof. exact (timer_total b). Qed.
Print Assumptions C46_total.
(** a duration that is at most 31 times 2 s, 1 min, 10 min, 1 h or 10 h comes back *)
Theorem C46_representable k u : 0 <= k <= 31 -> In u [2; 60; 600; 3600; 36000] ->
  timer_value (new_timer (k * (u * 1000000000))) = Ok (k * (u * 1000000000)).
Proof.
  intros K U. apply timer_roundtrip_iff. left. exists k, (u * 1000000000). split; [exact K|]. split; [|reflexivity].
  unfold timer_unit, hour, minute, second. cbn in U. lia.
Qed.
Print Assumptions C46_representable.
(** and no other, except the largest int64, which stands for "infinite" *)
Theorem C46_exact d : timer_value (new_timer d) = Ok d <->
  (exists k u, 0 <= k <= 31 /\ In u [2; 60; 600; 3600; 36000] /\ d = k * (u * 1000000000)) \/ d = 2 ^ 63 - 1.
Proof.
  rewrite timer_roundtrip_iff. split; (intros [(k & u & K & U & ->)|E]; [left|now right]).
  - exists k. unfold timer_unit, hour, minute, second in U. destruct U as [->|[->|[->|[->| ->]]]].
    + exists 2. cbn; auto 10. + exists 60. cbn; auto 10. + exists 600. cbn; auto 10. + exists 3600. cbn; auto 10. + exists 36000. cbn; auto 10.
  - exists k, (u * 1000000000). split; [exact K|]. split; [|reflexivity]. unfold timer_unit, hour, minute, second. cbn in U. lia.
Qed.
Print Assumptions C46_exact.
(** what comes back for an arbitrary duration: the count of the largest unit that divides it, modulo 32; "infinite" if none does *)
Theorem C46_truncates d u : In u [2; 60; 600; 3600; 36000] -> d mod (u * 1000000000) = 0 ->
  (forall w, In w [2; 60; 600; 3600; 36000] -> d mod (w * 1000000000) = 0 -> w <= u) ->
  timer_value (new_timer d) = Ok ((d / (u * 1000000000)) mod 32 * (u * 1000000000)).
Proof.
  intros U E M. rewrite timer_exact.
  assert (TU : timer_unit (u * 1000000000)) by (unfold timer_unit, hour, minute, second; cbn in U; lia).
  destruct (@pick_max d _ TU E) as (w & P & L). rewrite P. destruct (pick_div _ P) as [W D].
  assert (X : w = u * 1000000000).
  { assert (exists v, In v [2; 60; 600; 3600; 36000] /\ w = v * 1000000000) as (v & V & ->).
    { unfold timer_unit, hour, minute, second in W. destruct W as [->|[->|[->|[->| ->]]]].
      - exists 2. cbn; auto 10. - exists 60. cbn; auto 10. - exists 600. cbn; auto 10. - exists 3600. cbn; auto 10. - exists 36000. cbn; auto 10. }
    assert (v <= u); [|lia]. apply M; [exact V|]. rewrite D. apply Z.mod_mul. cbn in V. lia. }
  now rewrite X.
Qed.
Print Assumptions C46_truncates.
Theorem C46_infinite d : d mod 2000000000 <> 0 -> timer_value (new_timer d) = Ok (2 ^ 63 - 1).
Proof.
  intros H1. rewrite timer_exact.
  assert (forall u, In u [2; 60; 600; 3600; 36000] -> d mod (u * second) = 0 -> False) as X.
  { intros u U E. apply Z.mod_divide in E; [|unfold second; cbn in U; lia]. destruct E as (q & ->). apply H1. apply Z.mod_divide; [lia|].
    cbn in U. destruct U as [<-|[<-|[<-|[<-|[<-|[]]]]]]; unfold second; [exists q|exists (30 * q)|exists (300 * q)|exists (1800 * q)|exists (18000 * q)]; lia. }
  destruct (timer_pick d) as [u|] eqn:P; [|reflexivity]. destruct (pick_div _ P) as [W D]. exfalso.
  destruct W as [->|[->|[->|[->| ->]]]]; [apply (X 2)|apply (X 60)|apply (X 600)|apply (X 3600)|apply (X 36000)]; try (cbn; tauto); rewrite D; apply Z.mod_mul; discriminate.
Qed.
Print Assumptions C46_infinite.
(** "never longer" fails: 3 s becomes infinite, -2 s becomes 62 s; 64 s becomes 0 and 62 min becomes 30 min *)
Theorem C46_refuted : timer_value (new_timer (3 * 1000000000)) = Ok (2 ^ 63 - 1) /\ timer_value (new_timer (-2 * 1000000000)) = Ok (62 * 1000000000) /\
  timer_value (new_timer (64 * 1000000000)) = Ok 0 /\ timer_value (new_timer (62 * 60 * 1000000000)) = Ok (30 * 60 * 1000000000).
Proof. now vm_compute. Qed.
Print Assumptions C46_refuted.
Example C46_ex : new_timer (20 * 3600 * 1000000000) = [0x82]%N /\ timer_value [0x82]%N = Ok (20 * 3600 * 1000000000).
Proof. now vm_compute. Qed.

(** ** C56: durations in seconds, milliseconds, 50 ms units and nanoseconds *)
Theorem C56_seconds32 s : 0 <= s < 2 ^ 32 -> exists p, new_seconds32 (s * 1000000000) = Some p /\ seconds32_value p = Ok (s * 1000000000).
Proof. intros H. destruct (seconds32_roundtrip H) as (p & H1 & H2 & _). eauto. Qed.
Print Assumptions C56_seconds32.
Theorem C56_seconds16 s : 0 <= s < 2 ^ 16 -> exists p, new_seconds16 (s * 1000000000) = Some p /\ seconds16_value p = Ok (s * 1000000000).
Proof. exact (@seconds16_roundtrip s). Qed.
Print Assumptions C56_seconds16.
Theorem C56_seconds_total b : returns (seconds32_value b) /\ returns (seconds16_value b).
Proof. split; [exact (seconds32_total b)|exact (seconds16_total b)]. Qed.
Print Assumptions C56_seconds_total.
(** SubsequentTimeQuota() panics exactly on payloads shorter than 4 octets *)
Theorem C56_subsequent_time_quota_panics b : subsequent_time_quota_value b = Fault <-> (length b < 4)%nat.
Proof. exact (stq_fault b). Qed.
Print Assumptions C56_subsequent_time_quota_panics.
Theorem C56_subsequent_time_quota s : 0 <= s < 2 ^ 32 -> exists p, new_seconds32 (s * 1000000000) = Some p /\ subsequent_time_quota_value p = Ok (s * 1000000000).
Proof. intros H. destruct (seconds32_roundtrip H) as (p & H1 & _ & H2). eauto. Qed.
Print Assumptions C56_subsequent_time_quota.
(** floating point: 2^24 s + 999999999 ns comes back one nanosecond longer *)
Theorem C56_longer_refuted : exists p, new_seconds32 (2 ^ 24 * 1000000000 + 999999999) = Some p /\ seconds32_value p = Ok ((2 ^ 24 + 1) * 1000000000).
Proof. exists [1; 0; 0; 1]%N. now vm_compute. Qed.
Print Assumptions C56_longer_refuted.
Theorem C56_milliseconds d : 0 <= d -> millis_value (new_millis d) = Ok ((d / 1000000) mod 2 ^ 32 * 1000000).
Proof. exact (@millis_roundtrip d). Qed.
Print Assumptions C56_milliseconds.
Theorem C56_ddn_delay d : 0 <= d -> ddn_delay_value (new_ddn_delay d) = Ok ((d / 50000000) mod 256 * 50000000).
Proof. exact (@ddn_delay_roundtrip d). Qed.
Print Assumptions C56_ddn_delay.
Theorem C56_time_offset d : - 2 ^ 63 <= d < 2 ^ 63 -> time_offset_value (new_time_offset d) = Ok d.
Proof. intros H. apply time_offset_roundtrip. unfold minint64, maxint64. lia. Qed.
Print Assumptions C56_time_offset.
Example C56_ex : new_seconds32 (10 * 1000000000) = Some [0; 0; 0; 10]%N /\ new_millis 1500000000 = [0; 0; 5; 220]%N /\ new_ddn_delay 100000000 = [2]%N /\ new_time_offset (-1) = [255; 255; 255; 255; 255; 255; 255; 255]%N.
Proof. now vm_compute. Qed.
