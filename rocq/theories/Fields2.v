(** Structured payloads made of flags and numbers. *)
From Verif Require Import Base Codec Time.
Set Implicit Arguments.
Definition keep (c : bool) (v : N) : N := if c then v else 0%N.

(** * Volume Measurement *)
(** ie/volume-measurement.go:53-61 *)
Record volm := { vm_flags : N; vm_tvol : N; vm_uvol : N; vm_dvol : N; vm_tpkt : N; vm_upkt : N; vm_dpkt : N }.
(** ie/volume-measurement.go:64-92 *)
Definition new_volm fl tvol uvol dvol tpkt upkt dpkt :=
  {| vm_flags := fl; vm_tvol := keep (has1 fl) tvol; vm_uvol := keep (has2 fl) uvol; vm_dvol := keep (has3 fl) dvol;
     vm_tpkt := keep (has4 fl) tpkt; vm_upkt := keep (has5 fl) upkt; vm_dpkt := keep (has6 fl) dpkt |}.
(** ie/volume-measurement.go:155-161,164-221 *)
Definition volm_parse (b : list N) : res volm :=
  need 2 in b ;; fl <- index b 0 ;;
  let o := 1 in
  '(tvol, o) <- rdn (has1 fl) 8 b o 0 ;;
  '(uvol, o) <- rdn (has2 fl) 8 b o 0 ;;
  '(dvol, o) <- rdn (has3 fl) 8 b o 0 ;;
  '(tpkt, o) <- rdn (has4 fl) 8 b o 0 ;;
  '(upkt, o) <- rdn (has5 fl) 8 b o 0 ;;
  '(dpkt, o) <- rdn (has6 fl) 8 b o 0 ;;
  Ok {| vm_flags := fl; vm_tvol := tvol; vm_uvol := uvol; vm_dvol := dvol; vm_tpkt := tpkt; vm_upkt := upkt; vm_dpkt := dpkt |}.
(** ie/volume-measurement.go:293-315 *)
Definition volm_marshal_len (f : volm) : nat :=
  let fl := vm_flags f in
  1 + (len_if (has1 fl) 8 + (len_if (has2 fl) 8 + (len_if (has3 fl) 8 + (len_if (has4 fl) 8 + (len_if (has5 fl) 8 + len_if (has6 fl) 8))))).
(** ie/volume-measurement.go:233-290 *)
Definition volm_marshal_to (f : volm) (b : list N) : res (list N) :=
  let fl := vm_flags f in
  need 1 in b ;; b <- put b 0 [fl] ;;
  let o := 1 in
  '(b, o) <- wrn (has1 fl) 8 (vm_tvol f) b o ;;
  '(b, o) <- wrn (has2 fl) 8 (vm_uvol f) b o ;;
  '(b, o) <- wrn (has3 fl) 8 (vm_dvol f) b o ;;
  '(b, o) <- wrn (has4 fl) 8 (vm_tpkt f) b o ;;
  '(b, o) <- wrn (has5 fl) 8 (vm_upkt f) b o ;;
  '(b, o) <- wrn (has6 fl) 8 (vm_dpkt f) b o ;;
  Ok b.
(** ie/volume-measurement.go:224-230 *)
Definition volm_marshal f := volm_marshal_to f (make (volm_marshal_len f)).

(** * Volume Quota, Volume Threshold, Subsequent Volume Quota, Subsequent Volume Threshold
    Four files with the same text up to the type name. *)
(** ie/volume-quota.go:62-67; ie/volume-threshold.go:62-67;
    ie/subsequent-volume-quota.go:73-78; ie/subsequent-volume-threshold.go:73-78 *)
Record vol3 := { v3_flags : N; v3_tvol : N; v3_uvol : N; v3_dvol : N }.
(** ie/volume-quota.go:70-86; ie/volume-threshold.go:70-86;
    ie/subsequent-volume-quota.go:81-97; ie/subsequent-volume-threshold.go:81-97 *)
Definition new_vol3 fl tvol uvol dvol :=
  {| v3_flags := fl; v3_tvol := keep (has1 fl) tvol; v3_uvol := keep (has2 fl) uvol; v3_dvol := keep (has3 fl) dvol |}.
(** ie/volume-quota.go:128-161; ie/volume-threshold.go:128-161; ie/subsequent-volume-quota.go:139-172; ie/subsequent-volume-threshold.go:139-172 *)
Definition vol3_parse (b : list N) : res vol3 :=
  need 2 in b ;; fl <- index b 0 ;;
  let o := 1 in
  '(tvol, o) <- rdn (has1 fl) 8 b o 0 ;;
  '(uvol, o) <- rdn (has2 fl) 8 b o 0 ;;
  '(dvol, o) <- rdn (has3 fl) 8 b o 0 ;;
  Ok {| v3_flags := fl; v3_tvol := tvol; v3_uvol := uvol; v3_dvol := dvol |}.
(** ie/volume-quota.go:209-222; ie/volume-threshold.go:209-222; ie/subsequent-volume-quota.go:220-233; ie/subsequent-volume-threshold.go:220-233 *)
Definition vol3_marshal_len (f : vol3) : nat :=
  let fl := v3_flags f in 1 + (len_if (has1 fl) 8 + (len_if (has2 fl) 8 + len_if (has3 fl) 8)).
(** ie/volume-quota.go:173-206; ie/volume-threshold.go:173-206; ie/subsequent-volume-quota.go:184-217; ie/subsequent-volume-threshold.go:184-217 *)
Definition vol3_marshal_to (f : vol3) (b : list N) : res (list N) :=
  let fl := v3_flags f in
  need 1 in b ;; b <- put b 0 [fl] ;;
  let o := 1 in
  '(b, o) <- wrn (has1 fl) 8 (v3_tvol f) b o ;;
  '(b, o) <- wrn (has2 fl) 8 (v3_uvol f) b o ;;
  '(b, o) <- wrn (has3 fl) 8 (v3_dvol f) b o ;;
  Ok b.
Definition vol3_marshal f := vol3_marshal_to f (make (vol3_marshal_len f)).

(** * Number of UE IP Addresses *)
(** ie/number-of-ue-ip-addresses.go:51-55 *)
Record nue := { nu_flags : N; nu_v4 : N; nu_v6 : N }.
(** ie/number-of-ue-ip-addresses.go:58-64 *)
Definition new_nue fl v4 v6 := {| nu_flags := fl; nu_v4 := v4; nu_v6 := v6 |}.
(** ie/number-of-ue-ip-addresses.go:96-121 *)
Definition nue_parse (b : list N) : res nue :=
  need 1 in b ;; fl <- index b 0 ;;
  let o := 1 in
  '(v4, o) <- rdn (has1 fl) 4 b o 0 ;;
  '(v6, o) <- rdn (has2 fl) 4 b o 0 ;;
  Ok {| nu_flags := fl; nu_v4 := v4; nu_v6 := v6 |}.
(** ie/number-of-ue-ip-addresses.go:161-173 *)
Definition nue_marshal_len (f : nue) : nat := let fl := nu_flags f in 1 + (len_if (has1 fl) 4 + len_if (has2 fl) 4).
(** ie/number-of-ue-ip-addresses.go:133-158 *)
Definition nue_marshal_to (f : nue) (b : list N) : res (list N) :=
  let fl := nu_flags f in
  need 1 in b ;; b <- put b 0 [fl] ;;
  let o := 1 in
  '(b, o) <- wrn (has1 fl) 4 (nu_v4 f) b o ;;
  '(b, o) <- wrn (has2 fl) 4 (nu_v6 f) b o ;;
  Ok b.
Definition nue_marshal f := nue_marshal_to f (make (nue_marshal_len f)).

(** * Packet Delay Thresholds and QoS Monitoring Measurement (the same text up to names) *)
(** ie/packet-delay-thresholds.go:51-56; ie/qos-monitoring-measurement.go:51-56 *)
Record delays := { dy_flags : N; dy_dl : N; dy_ul : N; dy_rp : N }.
(** ie/packet-delay-thresholds.go:59-66; ie/qos-monitoring-measurement.go:59-66 *)
Definition new_delays fl dl ul rp := {| dy_flags := fl; dy_dl := dl; dy_ul := ul; dy_rp := rp |}.
(** ie/packet-delay-thresholds.go:108-141; ie/qos-monitoring-measurement.go:118-151 *)
Definition delays_parse (b : list N) : res delays :=
  need 1 in b ;; fl <- index b 0 ;;
  let o := 1 in
  '(dl, o) <- rdn (has1 fl) 4 b o 0 ;;
  '(ul, o) <- rdn (has2 fl) 4 b o 0 ;;
  '(rp, o) <- rdn (has3 fl) 4 b o 0 ;;
  Ok {| dy_flags := fl; dy_dl := dl; dy_ul := ul; dy_rp := rp |}.
(** ie/packet-delay-thresholds.go:189-201; ie/qos-monitoring-measurement.go:199-211 *)
Definition delays_marshal_len (f : delays) : nat := let fl := dy_flags f in 1 + (len_if (has1 fl) 4 + (len_if (has2 fl) 4 + len_if (has3 fl) 4)).
(** ie/packet-delay-thresholds.go:153-186; ie/qos-monitoring-measurement.go:163-196 *)
Definition delays_marshal_to (f : delays) (b : list N) : res (list N) :=
  let fl := dy_flags f in
  need 1 in b ;; b <- put b 0 [fl] ;;
  let o := 1 in
  '(b, o) <- wrn (has1 fl) 4 (dy_dl f) b o ;;
  '(b, o) <- wrn (has2 fl) 4 (dy_ul f) b o ;;
  '(b, o) <- wrn (has3 fl) 4 (dy_rp f) b o ;;
  Ok b.
Definition delays_marshal f := delays_marshal_to f (make (delays_marshal_len f)).

(** * Packet Rate *)
(** ie/packet-rate.go:94-100 *)
Record prate := { pr_flags : N; pr_uunit : N; pr_dunit : N; pr_urate : N; pr_drate : N }.
(** ie/packet-rate.go:103-117 *)
Definition new_prate fl uunit upkt dunit dpkt :=
  {| pr_flags := fl; pr_uunit := keep (has1 fl) uunit; pr_dunit := keep (has2 fl) dunit; pr_urate := keep (has1 fl) upkt; pr_drate := keep (has2 fl) dpkt |}.
(** [if l < offset+3 {EOF}; unit = b[offset]; rate = Uint16(b[offset+1:offset+3]); offset += 3] under a condition *)
Definition rd_rate (c : bool) (b : list N) (o : nat) : res (N * N * nat) :=
  if c then need (o + 3) in b ;; u <- index b o ;; p <- getr 2 b (o + 1) (o + 3) ;; Ok (u, p, o + 3) else Ok (0%N, 0%N, o).
(** ie/packet-rate.go:129-156 *)
Definition prate_parse (b : list N) : res prate :=
  need 2 in b ;; fl <- index b 0 ;;
  let o := 1 in
  '(uu, ur, o) <- rd_rate (has1 fl) b o ;;
  '(du, dr, o) <- rd_rate (has2 fl) b o ;;
  Ok {| pr_flags := fl; pr_uunit := uu; pr_dunit := du; pr_urate := ur; pr_drate := dr |}.
(** ie/packet-rate.go:192-202 *)
Definition prate_marshal_len (f : prate) : nat := let fl := pr_flags f in 1 + (len_if (has1 fl) 3 + len_if (has2 fl) 3).
(** ie/packet-rate.go:168-189: the writes are not checked *)
Definition prate_marshal_to (f : prate) (b : list N) : res (list N) :=
  let fl := pr_flags f in
  need 2 in b ;; b <- put b 0 [fl] ;;
  let o := 1 in
  '(b, o) <- cpn (has1 fl) 1 (pr_uunit f) b o ;;
  '(b, o) <- cpn (has1 fl) 2 (pr_urate f) b o ;;
  '(b, o) <- cpn (has2 fl) 1 (pr_dunit f) b o ;;
  '(b, o) <- cpn (has2 fl) 2 (pr_drate f) b o ;;
  Ok b.
Definition prate_marshal f := prate_marshal_to f (make (prate_marshal_len f)).

(** * DL Flow Level Marking *)
(** ie/dl-flow-level-marking.go:85-89 *)
Record dlfl := { dm_flags : N; dm_ttc : N; dm_sci : N }.
(** ie/dl-flow-level-marking.go:92-104 *)
Definition new_dlfl fl ttc sci := {| dm_flags := fl; dm_ttc := keep (has1 fl) ttc; dm_sci := keep (has2 fl) sci |}.
(** ie/dl-flow-level-marking.go:116-141 *)
Definition dlfl_parse (b : list N) : res dlfl :=
  need 1 in b ;; fl <- index b 0 ;;
  let o := 1 in
  '(ttc, o) <- rdn (has1 fl) 2 b o 0 ;;
  '(sci, o) <- rdn (has2 fl) 2 b o 0 ;;
  Ok {| dm_flags := fl; dm_ttc := ttc; dm_sci := sci |}.
(** ie/dl-flow-level-marking.go:175-185 *)
Definition dlfl_marshal_len (f : dlfl) : nat := let fl := dm_flags f in 1 + (len_if (has1 fl) 2 + len_if (has2 fl) 2).
(** ie/dl-flow-level-marking.go:153-172: needs 2 octets even for an empty value *)
Definition dlfl_marshal_to (f : dlfl) (b : list N) : res (list N) :=
  let fl := dm_flags f in
  need 2 in b ;; b <- put b 0 [fl] ;;
  let o := 1 in
  '(b, o) <- cpn (has1 fl) 2 (dm_ttc f) b o ;;
  '(b, o) <- cpn (has2 fl) 2 (dm_sci f) b o ;;
  Ok b.
Definition dlfl_marshal f := dlfl_marshal_to f (make (dlfl_marshal_len f)).
(** ie/dl-flow-level-marking.go:61-70 and ie/dl-flow-level-marking.go:73-82 on the payload of a DL Flow Level Marking IE *)
Definition dlfl_ie_has_ttc (p : list N) : res bool := if length p <? 1 then Ok false else x <- index p 0 ;; Ok (has2 x).
Definition dlfl_ie_has_sci (p : list N) : res bool := if length p <? 1 then Ok false else x <- index p 0 ;; Ok (has1 x).

(** * Packet Rate Status *)
(** ie/packet-rate-status.go:74-81; the time is in nanoseconds since 1970 *)
Record prstat := { ps_flags : N; ps_ul : N; ps_aul : N; ps_dl : N; ps_adl : N; ps_time : Z }.
(** ie/packet-rate-status.go:84-105 *)
Definition new_prstat fl ul aul dl adl t :=
  {| ps_flags := fl; ps_ul := keep (has1 fl) ul; ps_aul := keep (has1 fl && has3 fl) aul; ps_dl := keep (has2 fl) dl; ps_adl := keep (has2 fl && has3 fl) adl; ps_time := t |}.
(** time.Unix(int64(x - 2208988800), 0) with x a uint64 *)
Definition time_of_ntp64 (x : N) : Z := (to_i64 (u64 (x + (18446744073709551616 - 2208988800))) * second)%Z.
(** ie/packet-rate-status.go:147-194 *)
Definition prstat_parse (b : list N) : res prstat :=
  need 2 in b ;; fl <- index b 0 ;;
  let o := 1 in
  '(ul, o) <- rdn (has1 fl) 2 b o 0 ;;
  '(aul, o) <- rdn (has1 fl && has3 fl) 2 b o 0 ;;
  '(dl, o) <- rdn (has2 fl) 2 b o 0 ;;
  '(adl, o) <- rdn (has2 fl && has3 fl) 2 b o 0 ;;
  '(x, o) <- rdn true 8 b o 0 ;;
  Ok {| ps_flags := fl; ps_ul := ul; ps_aul := aul; ps_dl := dl; ps_adl := adl; ps_time := time_of_ntp64 x |}.
(** ie/packet-rate-status.go:256-272 *)
Definition prstat_marshal_len (f : prstat) : nat :=
  let fl := ps_flags f in 1 + (8 + (len_if (has1 fl) 2 + (len_if (has1 fl && has3 fl) 2 + (len_if (has2 fl) 2 + len_if (has2 fl && has3 fl) 2)))).
(** ie/packet-rate-status.go:206-253 *)
Definition prstat_marshal_to (f : prstat) (b : list N) : res (list N) :=
  let fl := ps_flags f in
  need 1 in b ;; b <- put b 0 [fl] ;;
  let o := 1 in
  '(b, o) <- wrn (has1 fl) 2 (ps_ul f) b o ;;
  '(b, o) <- wrn (has1 fl && has3 fl) 2 (ps_aul f) b o ;;
  '(b, o) <- wrn (has2 fl) 2 (ps_dl f) b o ;;
  '(b, o) <- wrn (has2 fl && has3 fl) 2 (ps_adl f) b o ;;
  '(b, o) <- wrn true 8 (secs1900 (ps_time f)) b o ;;
  Ok b.
Definition prstat_marshal f := prstat_marshal_to f (make (prstat_marshal_len f)).

(** * C-TAG and S-TAG (the same text up to names) *)
(** ie/c-tag.go:85-90; ie/s-tag.go:85-90 *)
Record tag := { tg_flags : N; tg_pcp : N; tg_dei : N; tg_vid : N }.
(** ie/c-tag.go:93-100; ie/s-tag.go:93-100 *)
Definition new_tag fl pcp dei vid := {| tg_flags := fl; tg_pcp := pcp; tg_dei := dei; tg_vid := vid |}.
(** ie/c-tag.go:142-164; ie/s-tag.go:142-164 *)
Definition tag_parse (b : list N) : res tag :=
  need 3 in b ;; fl <- index b 0 ;;
  let o := 1 in
  pcp <- (if has1 fl then x <- index b o ;; Ok (N.land x 0x07) else Ok 0%N) ;;
  dei <- (if has2 fl then x <- index b o ;; Ok (N.land (N.shiftr x 3) 0x01) else Ok 0%N) ;;
  vid <- (if has3 fl then x <- getr 2 b o (o + 2) ;; Ok (N.land x 0xf0ff) else Ok 0%N) ;;
  Ok {| tg_flags := fl; tg_pcp := pcp; tg_dei := dei; tg_vid := vid |}.
(** ie/c-tag.go:190-192; ie/s-tag.go:190-192 *)
Definition tag_marshal_len (f : tag) : nat := 3.
(** the 16-bit value of MarshalTo: ((vid<<4)&0xf000 | vid&0xff) | (uint16(dei<<3 | pcp) << 8) *)
Definition tag_word (f : tag) : N :=
  N.lor (N.lor (N.land (u16 (N.shiftl (tg_vid f) 4)) 0xf000) (N.land (tg_vid f) 0xff))
        (u16 (N.shiftl (N.lor (u8 (N.shiftl (tg_dei f) 3)) (tg_pcp f)) 8)).
(** ie/c-tag.go:176-187; ie/s-tag.go:176-187 *)
Definition tag_marshal_to (f : tag) (b : list N) : res (list N) :=
  need 1 in b ;; b <- put b 0 [tg_flags f] ;;
  let o := 1 in
  put b o (be 2 (tag_word f)).
Definition tag_marshal f := tag_marshal_to f (make (tag_marshal_len f)).
