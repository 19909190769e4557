(** Times and durations: the timestamp IEs, the timers and the other duration IEs.
    A time.Time is the number of nanoseconds since 1970-01-01 UTC, a time.Duration a number of nanoseconds (both Z);
    monotonic clock readings and the int64 wrap-around of time.Unix beyond year 292e9 are not modelled. *)
From Coq Require Import SpecFloat.
From Verif Require Import Base Codec.
Set Implicit Arguments.
Local Open Scope Z_scope.

Definition second : Z := 1000000000.
Definition minute : Z := 60 * second.
Definition hour : Z := 60 * minute.
Definition maxint64 : Z := 2 ^ 63 - 1.
Definition minint64 : Z := - 2 ^ 63.
(** time.Date(1900, time.January, 1, 0, 0, 0, 0, time.UTC) *)
Definition epoch1900 : Z := - 2208988800 * second.
(** time.Time.Sub (standard library): the difference, saturated to int64 *)
Definition time_sub (t u : Z) : Z := Z.max minint64 (Z.min maxint64 (t - u)).
(** conversions: uint64(d) and uint8(d) of an int64, int64(n) of a uint64 *)
Definition to_u64 (d : Z) : N := Z.to_N (d mod 2 ^ 64).
Definition to_u8 (d : Z) : N := Z.to_N (d mod 2 ^ 8).
Definition to_i64 (n : N) : Z := if (n <? 9223372036854775808)%N then Z.of_N n else Z.of_N n - 2 ^ 64.

(** uint64(ts.Sub(1900-01-01)) / 1000000000 *)
Definition secs1900 (t : Z) : N := (to_u64 (time_sub t epoch1900) / 1000000000)%N.

(** * Timestamp IEs *)
(** The payload built by NewActivationTime, NewDeactivationTime, NewEndTime, NewEventTimeStamp, NewMonitoringTime, NewRecoveryTimeStamp,
    NewStartTime, NewTimeOfFirstPacket and NewTimeOfLastPacket, which differ in the IE type only:
    ie/activation-time.go:12-15; ie/deactivation-time.go:12-15; ie/end-time.go:12-15;
    ie/event-time-stamp.go:12-15; ie/monitoring-time.go:12-15; ie/recovery-time-stamp.go:12-15;
    ie/start-time.go:12-15; ie/time-of-first-packet.go:12-15; ie/time-of-last-packet.go:12-15;
    ie/ie.go:644-648 *)
Definition new_timestamp (t : Z) : list N := be 4 (u32 (secs1900 t)).
(** ie/ie.go:464-473 without the IsGrouped test: uint32 subtraction wraps *)
Definition timestamp_value (b : list N) : res Z :=
  need 4 in b ;; x <- getr 4 b 0 4 ;; Ok (Z.of_N (u32 (x + (4294967296 - 2208988800))) * second).

(** * Timers *)
(** ie/timer.go:14-52; ie/dl-buffering-duration.go:14-52; ie/graceful-release-period.go:14-52 (the same body);
    Go's % and / on durations truncate towards zero *)
Definition new_timer (d : Z) : list N :=
  let '(unit, value) :=
    if Z.rem d (10 * hour) =? 0 then (0x80, to_u8 (Z.quot d (10 * hour)))%N
    else if Z.rem d (1 * hour) =? 0 then (0x60, to_u8 (Z.quot d hour))%N
    else if Z.rem d (10 * minute) =? 0 then (0x40, to_u8 (Z.quot d (10 * minute)))%N
    else if Z.rem d (1 * minute) =? 0 then (0x20, to_u8 (Z.quot d minute))%N
    else if Z.rem d (2 * second) =? 0 then (0x00, to_u8 (Z.quot d (2 * second)))%N
    else (0xe0, 0)%N in
  [u8 (unit + N.land value 0x1f)].
(** ie/timer.go:55-105; ie/dl-buffering-duration.go:55-94; ie/graceful-release-period.go:55-82, the case of the IE itself *)
Definition timer_value (b : list N) : res Z :=
  need 1 in b ;; x <- index b 0 ;;
  let v := Z.of_N (N.land x 0x1f) in
  Ok (match N.shiftr (N.land x 0xe0) 5 with
      | 7%N => maxint64
      | 4%N => v * 10 * hour
      | 3%N => v * hour
      | 2%N => v * 10 * minute
      | 1%N => v * minute
      | 0%N => v * 2 * second
      | _ => 0
      end).

(** * Durations in seconds *)
(** time.Duration.Seconds (standard library): float64(sec) + float64(nsec)/1e9 in IEEE binary64 *)
Definition f64_of_Z (z : Z) : spec_float := binary_normalize 53 1024 z 0 false.
Definition dur_seconds (d : Z) : spec_float :=
  SFadd 53 1024 (f64_of_Z (Z.quot d second)) (SFdiv 53 1024 (f64_of_Z (Z.rem d second)) (f64_of_Z 1000000000)).
(** conversion of a float64 to an unsigned integer type: the value truncated towards zero, if that fits;
    otherwise the result is implementation-specific (Go specification), here None *)
Definition f64_trunc (x : spec_float) : option Z :=
  match x with
  | S754_zero _ => Some 0
  | S754_finite s m e =>
      let a := if 0 <=? e then Z.pos m * 2 ^ e else Z.pos m / 2 ^ (- e) in Some (if s then - a else a)
  | _ => None
  end.
Definition f64_to_uint (bits : Z) (x : spec_float) : option N :=
  match f64_trunc x with Some z => if (0 <=? z) && (z <? 2 ^ bits) then Some (Z.to_N z) else None | None => None end.
(** The payload built by the constructors that do newUint32ValIE(t, uint32(d.Seconds())):
    ie/duration-measurement.go:16-18; ie/ethernet-inactivity-timer.go:16-18;
    ie/measurement-period.go:16-18; ie/minimum-wait-time.go:16-18; ie/quota-holding-time.go:16-18;
    ie/quota-validity-time.go:14-16; ie/subsequent-time-quota.go:15-17;
    ie/subsequent-time-threshold.go:14-16; ie/time-quota.go:16-18; ie/time-threshold.go:14-16;
    ie/user-plane-inactivity-timer.go:16-18 *)
Definition new_seconds32 (d : Z) : option (list N) := option_map (be 4) (f64_to_uint 32 (dur_seconds d)).
(** ie/validity-timer.go:16-18 *)
Definition new_seconds16 (d : Z) : option (list N) := option_map (be 2) (f64_to_uint 16 (dur_seconds d)).
(** the accessors of those IEs on a payload, e.g. ie/time-quota.go:21-54 *)
Definition seconds32_value (b : list N) : res Z := need 4 in b ;; x <- getr 4 b 0 4 ;; Ok (Z.of_N x * second).
Definition seconds16_value (b : list N) : res Z := need 2 in b ;; x <- getr 2 b 0 2 ;; Ok (Z.of_N x * second).
(** ie/subsequent-time-quota.go:20-60: no length check *)
Definition subsequent_time_quota_value (b : list N) : res Z := x <- getr 4 b 0 4 ;; Ok (Z.of_N x * second).

(** * Durations in milliseconds *)
(** ie/average-packet-delay.go:16-18; ie/minimum-packet-delay.go:16-18; ie/maximum-packet-delay.go:16-18;
    Milliseconds() is an integer division, uint32() of an int64 truncates *)
Definition new_millis (d : Z) : list N := be 4 (Z.to_N (Z.quot d 1000000 mod 2 ^ 32)).
(** ie/average-packet-delay.go:21-65; ie/minimum-packet-delay.go:21-65; ie/maximum-packet-delay.go:21-65 on a payload *)
Definition millis_value (b : list N) : res Z := need 4 in b ;; x <- getr 4 b 0 4 ;; Ok (Z.of_N x * 1000000).

(** * Downlink Data Notification Delay: units of 50 ms *)
(** ie/downlink-data-notification-delay.go:13-17 *)
Definition new_ddn_delay (d : Z) : list N := [to_u8 (Z.quot d 50000000)].
(** ie/downlink-data-notification-delay.go:20-54 on a payload *)
Definition ddn_delay_value (b : list N) : res Z := need 1 in b ;; x <- index b 0 ;; Ok (Z.of_N x * 50000000).

(** * Time offsets in nanoseconds *)
(** ie/time-offset-measurement.go:14-16; ie/time-offset-threshold.go:14-16 *)
Definition new_time_offset (d : Z) : list N := be 8 (to_u64 d).
(** ie/time-offset-measurement.go:19-30; ie/time-offset-threshold.go:19-54 on a payload *)
Definition time_offset_value (b : list N) : res Z := need 8 in b ;; x <- getr 8 b 0 8 ;; Ok (to_i64 x).

(** ie/time-quota-mechanism.go:19-25 *)
Definition new_time_quota_mechanism (btit : N) (bti : Z) : option (list N) :=
  option_map (fun s => N.land btit 0x03 :: be 4 s) (f64_to_uint 32 (dur_seconds bti)).
