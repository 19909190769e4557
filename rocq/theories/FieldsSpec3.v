(** What the payloads of Fields3.v should look like, from 3GPP TS 29.244 section 8.2 (bit 0 is the least significant one). *)
From Verif Require Import Base Codec Codec2 Fields3 Utils.
Set Implicit Arguments.
Local Notation bit := N.testbit.

(** SDF Filter (8.2.5): FD bit 0, TTC bit 1, SPI bit 2, FL bit 3, BID bit 4; octet 6 is spare *)
Definition sdf_wire (f : sdf) (spare : N) : list N :=
  let fl := sd_flags f in
  [fl; spare] ++ seg16 (bit fl 0) (sd_fd f) ++ opts (bit fl 1) (sd_ttc f) ++ opts (bit fl 2) (sd_spi f) ++ opts (bit fl 3) (sd_fl f) ++ optn (bit fl 4) 4 (sd_fid f).
Definition sdf_wf (f : sdf) : Prop :=
  let fl := sd_flags f in
  octet fl /\ short (bit fl 0) 65536 (sd_fd f) /\ sd_fdlen f = lenN (sd_fd f) /\ sized (bit fl 1) 2 (sd_ttc f) /\ sized (bit fl 2) 4 (sd_spi f)
  /\ sized (bit fl 3) 3 (sd_fl f) /\ ranged (bit fl 4) 4 (sd_fid f).

(** Outer Header Creation (8.2.56), without the tags: octet 5 is the most significant octet of the description *)
Definition ohc_wire (f : ohc) : list N :=
  let h := (oh_desc f / 256)%N in
  be 2 (oh_desc f) ++ optn (bit h 0 || bit h 1) 4 (oh_teid f) ++ optb (bit h 0 || bit h 2 || bit h 4) (oh_v4 f)
    ++ optb (bit h 1 || bit h 3 || bit h 5) (oh_v6 f) ++ optn (bit h 2 || bit h 3) 2 (oh_port f).
Definition ohc_wf (f : ohc) : Prop :=
  let h := (oh_desc f / 256)%N in
  (oh_desc f < 65536)%N /\ ranged (bit h 0 || bit h 1) 4 (oh_teid f) /\ present (bit h 0 || bit h 2 || bit h 4) 4 (oh_v4 f)
  /\ present (bit h 1 || bit h 3 || bit h 5) 16 (oh_v6 f) /\ ranged (bit h 2 || bit h 3) 2 (oh_port f).

(** User ID (8.2.101): IMSI, IMEI, MSISDN, NAI are bits 0 to 3; each after its length *)
Definition userid_wire (fl : N) (imsi imei msisdn nai : list N) : list N :=
  [fl] ++ seg8 (bit fl 0) imsi ++ seg8 (bit fl 1) imei ++ seg8 (bit fl 2) msisdn ++ seg8 (bit fl 3) nai.
Definition userid_octets_ok (fl : N) (imsi imei msisdn nai : list N) : Prop :=
  octet fl /\ short (bit fl 0) 256 imsi /\ short (bit fl 1) 256 imei /\ short (bit fl 2) 256 msisdn /\ short (bit fl 3) 256 nai.
Definition userid_decoded (fl : N) (imsi imei msisdn nai : list N) : userid :=
  {| ui_flags := fl; ui_imsilen := lenN imsi; ui_imsi := swapped_to_str imsi true; ui_imeilen := lenN imei; ui_imei := swapped_to_str imei true;
     ui_msisdnlen := lenN msisdn; ui_msisdn := swapped_to_str msisdn true; ui_nailen := lenN nai; ui_nai := nai |}.

(** Header Enrichment (8.2.67) *)
Definition henr_wire (f : henr) : list N := [he_type f] ++ seg8 true (he_name f) ++ seg8 true (he_val f).
Definition henr_wf (f : henr) : Prop :=
  octet (he_type f) /\ short true 256 (he_name f) /\ short true 256 (he_val f) /\ he_namelen f = lenN (he_name f) /\ he_vallen f = lenN (he_val f).

(** Redirect Information (8.2.20): type, length and address, length and other address *)
Definition redir_wire (t : N) (a c : list N) : list N := [t] ++ seg16 true a ++ seg16 true c.

(** MAC Address (8.2.93): SOUR, DEST, USOU, UDES are bits 0 to 3; six octets each *)
Definition macaddr_wire (f : macaddr) : list N :=
  let fl := ma_flags f in [fl] ++ optb (bit fl 0) (ma_src f) ++ optb (bit fl 1) (ma_dst f) ++ optb (bit fl 2) (ma_usrc f) ++ optb (bit fl 3) (ma_udst f).
Definition macaddr_wf (f : macaddr) : Prop :=
  let fl := ma_flags f in octet fl /\ present (bit fl 0) 6 (ma_src f) /\ present (bit fl 1) 6 (ma_dst f) /\ present (bit fl 2) 6 (ma_usrc f) /\ present (bit fl 3) 6 (ma_udst f).

(** User Plane IP Resource Information (8.2.82): V4 bit 0, V6 bit 1, TEIDRI bits 2-4, ASSONI bit 5, ASSOSI bit 6; si is the octet of the source interface *)
Definition upri_wire (f : upri) (si : N) : list N :=
  let fl := up_flags f in
  [fl] ++ optn (bit fl 2 || bit fl 3 || bit fl 4) 1 (up_range f) ++ optb (bit fl 0) (up_v4 f) ++ optb (bit fl 1) (up_v6 f) ++ opts (bit fl 5) (up_ni f) ++ optn (bit fl 6) 1 si.
Definition upri_wf (f : upri) : Prop :=
  let fl := up_flags f in
  octet fl /\ ranged (bit fl 2 || bit fl 3 || bit fl 4) 1 (up_range f) /\ present (bit fl 0) 4 (up_v4 f) /\ present (bit fl 1) 16 (up_v6 f)
  /\ (bit fl 5 = false -> up_ni f = []) /\ bytes (up_ni f) /\ ranged (bit fl 6) 1 (up_si f).

(** Trace Information (8.2.102) after the PLMN and the trace identity *)
Definition trace_rest (ev : list N) (depth : N) (ifs ip : list N) : list N := seg8 true ev ++ [depth] ++ seg8 true ifs ++ seg8 true ip.
