(** Properties C33, C34, C37, C38 and C63-C67: structured payloads with strings, addresses and lists. *)
From Verif Require Import Base Codec Codec2 Utils UtilsProofs Fields3 FieldsSpec3 FieldsProofs1 FieldsProofs3 FieldsProofs3b FieldsProofs3c FieldsProofs3d.

(** ** C33: SDF Filter *)
(** intended: the decoder never panics.  It does, exactly when the announced flow description is longer than the (non-empty) rest *)
Theorem C33_panic_exact b : bytes b -> (sdf_parse b = Fault <->
  exists fl sp n r, b = [fl; sp] ++ be 2 n ++ r /\ N.testbit fl 0 = true /\ (n < 65536)%N /\ 1 <= length r /\ (lenN r < n)%N).
Proof. exact (@sdf_fault b). Qed.
Print Assumptions C33_panic_exact.
Theorem C33_total_refuted : exists b, bytes b /\ ~ returns (sdf_parse b).
Proof. exists [1; 0; 0; 5; 1]%N. split; [now repeat constructor|]. intros [[a H]|[e H]]; discriminate. Qed.
Print Assumptions C33_total_refuted.
Theorem C33_otherwise_returns b : bytes b -> sdf_parse b <> Fault -> returns (sdf_parse b).
Proof. exact (@sdf_returns b). Qed.
Print Assumptions C33_otherwise_returns.
Theorem C33_exact b f : bytes b -> (sdf_parse b = Ok f <->
  sdf_wf f /\ 3 <= length b /\ (N.testbit (sd_flags f) 0 = true -> 5 <= length b) /\ exists sp r, octet sp /\ bytes r /\ b = sdf_wire f sp ++ r).
Proof. intros B. split; [now apply sdf_parse_inv|]. intros (W & L3 & L5 & sp & r & _ & _ & ->). now apply sdf_parse_wire. Qed.
Print Assumptions C33_exact.
Theorem C33_marshal f : sdf_wf f -> sdf_marshal f = Ok (sdf_wire f 0) /\ sdf_marshal_len f = length (sdf_wire f 0).
Proof. exact (@sdf_marshal_wire f). Qed.
Print Assumptions C33_marshal.
Theorem C33_marshal_total f : exists w, sdf_marshal f = Ok w /\ length w = sdf_marshal_len f.
Proof. exact (sdf_marshal_total f). Qed.
Print Assumptions C33_marshal_total.
Theorem C33_roundtrip_exact fd ttc spi fl fid : sdf_args_ok fd ttc spi fl fid ->
  exists w, sdf_marshal (new_sdf fd ttc spi fl fid) = Ok w /\
  (sdf_parse w = Ok (new_sdf fd ttc spi fl fid) <-> ~ (fd = [] /\ ttc = [] /\ spi = [] /\ fl = [] /\ fid = 0%N)).
Proof. exact (@new_sdf_roundtrip fd ttc spi fl fid). Qed.
Print Assumptions C33_roundtrip_exact.
Example C33_ex : sdf_args_ok [112; 101]%N [1; 2]%N [] [1; 2; 3]%N 9 /\
  sdf_marshal (new_sdf [112; 101]%N [1; 2]%N [] [1; 2; 3]%N 9) = Ok [27; 0; 0; 2; 112; 101; 1; 2; 1; 2; 3; 0; 0; 0; 9]%N.
Proof. split; [|reflexivity]. unfold sdf_args_ok. repeat split; try (right; split; [reflexivity|]); auto; repeat constructor. Qed.

(** ** C34: Outer Header Creation *)
Theorem C34_panic_exact b : bytes b -> (ohc_parse b = Fault <->
  exists f r, ohc_wf f /\ b = ohc_wire f ++ r /\ N.testbit (oh_desc f) 6 || N.testbit (oh_desc f) 7 = true /\ 3 <= length r).
Proof. exact (@ohc_fault b). Qed.
Print Assumptions C34_panic_exact.
Theorem C34_total_refuted : exists b, bytes b /\ ~ returns (ohc_parse b).
Proof. exists [0; 64; 1; 2; 3]%N. split; [now repeat constructor|]. intros [[a H]|[e H]]; discriminate. Qed.
Print Assumptions C34_total_refuted.
Theorem C34_otherwise_returns b : bytes b -> ohc_parse b <> Fault -> returns (ohc_parse b).
Proof. exact (@ohc_returns b). Qed.
Print Assumptions C34_otherwise_returns.
Theorem C34_exact b f : bytes b -> (ohc_parse b = Ok f <->
  ohc_wf f /\ oh_ctag f = 0%N /\ oh_stag f = 0%N /\ N.testbit (oh_desc f) 6 = false /\ N.testbit (oh_desc f) 7 = false /\ exists r, bytes r /\ b = ohc_wire f ++ r).
Proof. exact (@ohc_ok b f). Qed.
Print Assumptions C34_exact.
Theorem C34_marshal f : ohc_wf f -> N.testbit (oh_desc f / 256) 6 = false -> N.testbit (oh_desc f / 256) 7 = false ->
  ohc_marshal f = Ok (ohc_wire f) /\ ohc_marshal_len f = length (ohc_wire f).
Proof.
  intros W B6 B7. destruct (@ohc_marshal_wire f W) as [M L]; [left; now rewrite B6, B7|].
  assert (E : ohc_tags f = []) by (unfold ohc_tags; now rewrite B6, B7). rewrite E, app_nil_r in M, L. auto.
Qed.
Print Assumptions C34_marshal.
Theorem C34_marshal_total f : exists w, ohc_marshal f = Ok w /\ length w = ohc_marshal_len f.
Proof. exact (ohc_marshal_total f). Qed.
Print Assumptions C34_marshal_total.
(** what the constructor is given comes back except the tags, which never do *)
Theorem C34_roundtrip_exact d teid v4 v6 port ct st : let h := (d / 256)%N in let f := new_ohc d teid v4 v6 port ct st in
  (d < 65536)%N -> (teid < 2 ^ 32)%N -> (port < 65536)%N ->
  ok4 (N.testbit h 0 || N.testbit h 2 || N.testbit h 4) v4 -> ok16 (N.testbit h 1 || N.testbit h 3 || N.testbit h 5) v6 ->
  N.testbit h 6 || N.testbit h 7 = false \/ N.testbit h 2 || N.testbit h 3 = false ->
  exists w, ohc_marshal f = Ok w /\ ohc_parse w =
    if N.testbit d 6 || N.testbit d 7 then (if N.testbit h 6 || N.testbit h 7 then Fault else Err EUnexpectedEOF)
    else Ok {| oh_desc := d; oh_teid := if N.testbit h 0 || N.testbit h 1 then teid else 0%N;
               oh_v4 := if N.testbit h 0 || N.testbit h 2 || N.testbit h 4 then to4 v4 else None;
               oh_v6 := if N.testbit h 1 || N.testbit h 3 || N.testbit h 5 then to16 v6 else None;
               oh_port := if N.testbit h 2 || N.testbit h 3 then port else 0%N; oh_ctag := 0; oh_stag := 0 |}.
Proof.
  intros h f Hd Ht Hp H4 H6 T. destruct (@new_ohc_roundtrip d teid v4 v6 port ct st Hd Ht Hp H4 H6 T) as (w & M & P). exists w. split; [exact M|]. rewrite P.
  unfold h, new_ohc. cbn [oh_teid oh_v4 oh_v6 oh_port]. rewrite (oct5_ok Hd). ohbits. reflexivity.
Qed.
Print Assumptions C34_roundtrip_exact.
(** a C-TAG is lost; with a UDP port as well, the port number is overwritten *)
Theorem C34_roundtrip_refuted :
  (exists w, ohc_marshal (new_ohc 0x4000 0 None None 0 0x112233 0) = Ok w /\ exists f, ohc_parse w = Ok f /\ oh_ctag f <> 0x112233%N) /\
  (exists w, ohc_marshal (new_ohc 0x4400 0 (Some [127; 0; 0; 1]%N) None 2152 0x112233 0) = Ok w /\ exists f, ohc_parse w = Ok f /\ oh_port f <> 2152%N).
Proof.
  split.
  - exists [64; 0; 17; 34; 51]%N. split; [reflexivity|]. eexists. split; [reflexivity|discriminate].
  - exists [68; 0; 127; 0; 0; 1; 17; 34; 51; 0; 0]%N. split; [vm_compute; reflexivity|]. eexists. split; [vm_compute; reflexivity|discriminate].
Qed.
Print Assumptions C34_roundtrip_refuted.
(** a text that is no IP address is encoded as zeros *)
Theorem C34_bad_address : ohc_marshal (new_ohc 0x0100 1 None None 0 0 0) = Ok [1; 0; 0; 0; 0; 1; 0; 0; 0; 0]%N.
Proof. reflexivity. Qed.
Print Assumptions C34_bad_address.
Example C34_ex : ok4 (N.testbit (0x0100 / 256) 0) (Some [127; 0; 0; 1]%N) /\ ohc_marshal (new_ohc 0x0100 0x11223344 (Some [127; 0; 0; 1]%N) None 0 0 0) = Ok [1; 0; 17; 34; 51; 68; 127; 0; 0; 1]%N.
Proof. split; [|reflexivity]. intros _. eexists. split; [reflexivity|repeat constructor]. Qed.

(** ** C37: User ID *)
Theorem C37_total b : returns (userid_parse b).
Proof. exact (userid_total b). Qed.
Print Assumptions C37_total.
Theorem C37_exact b f : bytes b -> (userid_parse b = Ok f <->
  exists fl i e m n r, userid_octets_ok fl i e m n /\ f = userid_decoded fl i e m n /\ b = userid_wire fl i e m n ++ r).
Proof. intros B. split; [now apply userid_parse_inv|]. intros (fl & i & e & m & n & r & W & -> & ->). now apply userid_parse_wire. Qed.
Print Assumptions C37_exact.
(** the constructor panics exactly when a flagged BCD string is not hexadecimal *)
Theorem C37_new_panic_exact fl i e m n :
  (new_userid_ie fl i e m n = Fault <->
     (N.testbit fl 0 = true /\ ~ hexstr i) \/ (N.testbit fl 1 = true /\ ~ hexstr e) \/ (N.testbit fl 2 = true /\ ~ hexstr m)) /\
  (new_userid_ie fl i e m n <> Fault -> exists w, new_userid_ie fl i e m n = Ok w).
Proof. pose proof (new_userid_fault fl i e m n) as H. bits. exact H. Qed.
Print Assumptions C37_new_panic_exact.
Theorem C37_new_panic_refuted : exists fl i, new_userid_ie fl i [] [] [] = Fault.
Proof. exists 1%N, [120]%N. reflexivity. Qed.
Print Assumptions C37_new_panic_refuted.
Theorem C37_roundtrip_exact fl i e m n : octet fl -> bcd_arg (N.testbit fl 0) i -> bcd_arg (N.testbit fl 1) e -> bcd_arg (N.testbit fl 2) m ->
  (N.testbit fl 3 = true -> bytes n /\ (lenN n < 256)%N) ->
  exists w f, new_userid_ie fl i e m n = Ok w /\ userid_parse w = Ok f /\ ui_flags f = fl /\
    ui_imsi f = (if N.testbit fl 0 then bcd_back i else []) /\ ui_imei f = (if N.testbit fl 1 then bcd_back e else []) /\
    ui_msisdn f = (if N.testbit fl 2 then bcd_back m else []) /\ ui_nai f = if N.testbit fl 3 then n else [].
Proof. exact (@new_userid_roundtrip fl i e m n). Qed.
Print Assumptions C37_roundtrip_exact.
(** so a BCD string comes back iff it is empty or has an odd number of digits; otherwise its last digit is lost *)
Theorem C37_even_digits s : bcd_back s = s <-> (s = [] \/ Nat.odd (length s) = true).
Proof. exact (bcd_back_same s). Qed.
Print Assumptions C37_even_digits.
Theorem C37_roundtrip_refuted : exists imei w f, length imei = 16 /\ Forall lhex imei /\ new_userid_ie 2 [] imei [] [] = Ok w /\ userid_parse w = Ok f /\ ui_imei f <> imei.
Proof.
  exists (repeat 49%N 16). eexists. eexists. split; [reflexivity|]. split; [apply Forall_forall; intros x I; apply repeat_spec in I; subst x; left; lia|].
  split; [vm_compute; reflexivity|]. split; [vm_compute; reflexivity|]. vm_compute. discriminate.
Qed.
Print Assumptions C37_roundtrip_refuted.
Example C37_ex : bcd_arg true [49; 50; 51]%N /\ new_userid_ie 9 [49; 50; 51]%N [] [] [97]%N = Ok [9; 2; 0x21; 0xf3; 1; 97]%N.
Proof. split; [|reflexivity]. intros _. split; [do 3 (apply Forall_cons; [left; lia|]); apply Forall_nil|unfold lenN; cbn [length]; lia]. Qed.

(** ** C38: Node ID *)
Theorem C38_total b : bytes b -> returns (node_id_value b).
Proof. exact (@node_id_total b). Qed.
Print Assumptions C38_total.
Theorem C38_exact b v : bytes b -> (node_id_value b = Ok v <->
  exists t q, b = t :: q /\ q <> [] /\
    ((t = 0%N /\ v = NodeIP (to4 (Some q))) \/ (t = 1%N /\ v = NodeIP (to16 (Some q))) \/ (t = 2%N /\ exists s, decode_fqdn q = Ok s /\ v = NodeName s))).
Proof. exact (@node_id_ok b v). Qed.
Print Assumptions C38_exact.
Theorem C38_roundtrip_v4 ip x v6 fqdn : to4 ip = Some x -> new_node_id (Some ip) v6 fqdn = Ok (Some (0%N :: x)) /\ node_id_value (0%N :: x) = Ok (NodeIP (Some x)).
Proof. intros E. split; [rewrite new_node_id_v4; now rewrite E|]. apply node_v4_value. exact (to4_len _ E). Qed.
Print Assumptions C38_roundtrip_v4.
Theorem C38_roundtrip_v6 ip x fqdn : to16 ip = Some x -> new_node_id None (Some ip) fqdn = Ok (Some (1%N :: x)) /\ node_id_value (1%N :: x) = Ok (NodeIP (Some x)).
Proof. intros E. split; [rewrite new_node_id_v6; now rewrite E|]. apply node_v6_value. exact (to16_len _ E). Qed.
Print Assumptions C38_roundtrip_v6.
Theorem C38_roundtrip_fqdn_exact s : s <> [] -> bytes s -> exists w t, new_node_id None None s = Ok (Some w) /\ node_id_value w = Ok (NodeName t) /\
  (t = s <-> Forall (fun l => (lenN l < 256)%N) (split_dot s)).
Proof. intros NE B. destruct (node_fqdn_value NE B) as (t & V & I). eexists. exists t. split; [now apply new_node_id_fqdn|]. auto. Qed.
Print Assumptions C38_roundtrip_fqdn_exact.
(** the constructor that guesses the kind builds the same payloads *)
Theorem C38_heuristic s ip : s <> [] -> new_node_id_heuristic s ip =
  match ip with None => new_node_id None None s | Some _ => match to4 ip with Some _ => new_node_id (Some ip) None [] | None => new_node_id None (Some ip) [] end end.
Proof. intros NE. destruct ip as [x|]; [now apply heuristic_ip|now apply heuristic_name]. Qed.
Print Assumptions C38_heuristic.
(** a text that is no address is encoded as the unspecified address, and a payload of the wrong size decodes without an error *)
Theorem C38_roundtrip_refuted : new_node_id (Some None) None [] = Ok (Some [0; 0; 0; 0; 0]%N) /\ node_id_value [0; 0; 0; 0; 0]%N = Ok (NodeIP (Some [0; 0; 0; 0]%N)) /\
  node_id_value [0; 1; 2]%N = Ok (NodeIP None).
Proof. split; [reflexivity|]. split; reflexivity. Qed.
Print Assumptions C38_roundtrip_refuted.
Example C38_ex : new_node_id None None [97; 46; 98]%N = Ok (Some [2; 1; 97; 1; 98]%N) /\ to4 (Some [1; 2; 3; 4]%N) = Some [1; 2; 3; 4]%N.
Proof. split; reflexivity. Qed.

(** ** C63: Header Enrichment *)
Theorem C63_total b : returns (henr_parse b).
Proof. exact (henr_total b). Qed.
Print Assumptions C63_total.
Theorem C63_exact b f : bytes b -> (henr_parse b = Ok f <-> henr_wf f /\ exists r, bytes r /\ b = henr_wire f ++ r).
Proof. intros B. split; [now apply henr_parse_inv|]. intros (W & r & _ & ->). now apply henr_parse_wire. Qed.
Print Assumptions C63_exact.
(** the constructor's lengths are modulo 256: longer names and values are cut to that many octets *)
Theorem C63_roundtrip_exact t n v : octet t -> bytes n -> bytes v ->
  exists w, henr_marshal (new_henr t n v) = Ok w /\ henr_parse w = Ok (new_henr t (cut256 n) (cut256 v)).
Proof. exact (@new_henr_roundtrip t n v). Qed.
Print Assumptions C63_roundtrip_exact.
Theorem C63_roundtrip t n v : octet t -> bytes n -> bytes v -> (lenN n < 256)%N -> (lenN v < 256)%N ->
  exists w, henr_marshal (new_henr t n v) = Ok w /\ w = [t; lenN n] ++ n ++ [lenN v] ++ v /\ henr_parse w = Ok (new_henr t n v).
Proof.
  intros Ot Bn Bv Ln Lv. destruct (new_henr_marshal t Bn Bv) as [M _]. destruct (new_henr_roundtrip Ot Bn Bv) as (w & M' & P). rewrite !cut256_short in M, P by assumption.
  rewrite !Nat.sub_diag in M. cbn [Nat.add make repeat] in M. rewrite app_nil_r in M. exists w. split; [exact M'|]. split; [|exact P].
  rewrite M in M'. injection M' as <-. unfold henr_wire, new_henr. cbn [he_type he_name he_val seg8 app]. reflexivity.
Qed.
Print Assumptions C63_roundtrip.
Theorem C63_refuted : exists n w f, henr_marshal (new_henr 0 n []) = Ok w /\ henr_parse w = Ok f /\ he_name f <> n.
Proof.
  exists (repeat 1%N (N.to_nat 256)). eexists. eexists. split; [vm_compute; reflexivity|]. split; [vm_compute; reflexivity|]. vm_compute. discriminate.
Qed.
Print Assumptions C63_refuted.
Example C63_ex : henr_marshal (new_henr 0 [65]%N [66; 67]%N) = Ok [0; 1; 65; 2; 66; 67]%N.
Proof. reflexivity. Qed.

(** ** C64: Redirect Information *)
Theorem C64_total b : returns (redir_parse b).
Proof. exact (redir_total b). Qed.
Print Assumptions C64_total.
Theorem C64_exact b f : bytes b -> (redir_parse b = Ok f <-> exists t n q, octet t /\ (n < 65536)%N /\ bytes q /\ b = [t] ++ be 2 n ++ q /\
  ((n = 0%N /\ f = {| ri_type := t; ri_len := 0; ri_addr := []; ri_olen := 0; ri_other := [] |}) \/
   (n <> 0%N /\ 2 + N.to_nat n <= length q /\
    f = {| ri_type := t; ri_len := n; ri_addr := firstn (N.to_nat n) q; ri_olen := n; ri_other := firstn (N.to_nat n) (skipn 2 q) |}))).
Proof. exact (@redir_ok b f). Qed.
Print Assumptions C64_exact.
Theorem C64_marshal t a c r : (lenN a < 65536)%N -> (lenN c < 65536)%N -> new_redir_ie t (a :: c :: r) = Ok (redir_wire t a c) /\ new_redir_ie t [a] = Ok (redir_wire t a []).
Proof. intros La Lc. split; [now apply new_redir_marshal|now apply new_redir_marshal1]. Qed.
Print Assumptions C64_marshal.
Theorem C64_new_panic_exact t addrs : (new_redir_ie t addrs = Fault <-> addrs = []) /\ (addrs <> [] -> exists w, new_redir_ie t addrs = Ok w).
Proof. exact (new_redir_fault t addrs). Qed.
Print Assumptions C64_new_panic_exact.
(** the type and the address come back from what the constructor built *)
Theorem C64_roundtrip t a c : octet t -> bytes a -> bytes c -> (lenN a < 65536)%N -> (lenN c < 65536)%N ->
  exists w f, new_redir_ie t [a; c] = Ok w /\ redir_parse w = Ok f /\ ri_type f = t /\ ri_addr f = a /\
    ri_other f = firstn (length a) (skipn 2 (a ++ be 2 (lenN c) ++ c)).
Proof.
  intros Ot Ba Bc La Lc. exists (redir_wire t a c). eexists. split; [now apply new_redir_marshal|].
  assert (B : bytes (redir_wire t a c ++ [])).
  { rewrite app_nil_r. unfold redir_wire. cbn [seg16]. repeat (apply bytes_app; split); try apply be_bytes; auto. now repeat constructor. }
  rewrite <- (app_nil_r (redir_wire t a c)). split; [exact (@redir_wire_parse t a c [] Ot B La)|]. rewrite app_nil_r. destruct a; auto.
Qed.
Print Assumptions C64_roundtrip.
Theorem C64_other_refuted : exists w f, new_redir_ie 4 [[49; 50; 51; 52]; [53; 54]]%N = Ok w /\ redir_parse w = Ok f /\ ri_other f = [51; 52; 0; 2]%N.
Proof. do 2 eexists. split; [reflexivity|]. split; reflexivity. Qed.
Print Assumptions C64_other_refuted.
Example C64_ex : new_redir_ie 0 [[49; 50]]%N = Ok [0; 0; 2; 49; 50; 0; 0]%N.
Proof. reflexivity. Qed.

(** ** C65: MAC Address *)
Theorem C65_total b : returns (macaddr_parse b).
Proof. exact (macaddr_total b). Qed.
Print Assumptions C65_total.
Theorem C65_exact b f : bytes b -> (macaddr_parse b = Ok f <-> macaddr_wf f /\ 2 <= length b /\ exists r, bytes r /\ b = macaddr_wire f ++ r).
Proof. intros B. split; [now apply macaddr_parse_inv|]. intros (W & L & r & _ & ->). now apply macaddr_parse_wire. Qed.
Print Assumptions C65_exact.
Theorem C65_marshal f : macaddr_wf f -> macaddr_marshal f = Ok (macaddr_wire f) /\ macaddr_marshal_len f = length (macaddr_wire f).
Proof. exact (@macaddr_marshal_wire f). Qed.
Print Assumptions C65_marshal.
Theorem C65_roundtrip_exact s d us ud : mac_arg s -> mac_arg d -> mac_arg us -> mac_arg ud ->
  exists w, macaddr_marshal (new_macaddr s d us ud) = Ok w /\
    (macaddr_parse w = Ok (new_macaddr s d us ud) <-> ~ (s = None /\ d = None /\ us = None /\ ud = None)).
Proof. exact (@new_macaddr_roundtrip s d us ud). Qed.
Print Assumptions C65_roundtrip_exact.
Theorem C65_new_panic_exact s d us ud : (macaddr_marshal (new_macaddr s d us ud) = Fault <-> exists x, In (Some x) [s; d; us; ud] /\ length x < 6) /\
  (macaddr_marshal (new_macaddr s d us ud) <> Fault -> exists w, macaddr_marshal (new_macaddr s d us ud) = Ok w).
Proof. exact (new_macaddr_fault s d us ud). Qed.
Print Assumptions C65_new_panic_exact.
Example C65_ex : mac_arg (Some [1; 2; 3; 4; 5; 6]%N) /\ macaddr_marshal (new_macaddr None (Some [1; 2; 3; 4; 5; 6]%N) None None) = Ok [2; 1; 2; 3; 4; 5; 6]%N /\
  macaddr_parse [0]%N = Err EUnexpectedEOF /\ macaddr_marshal (new_macaddr None None None None) = Ok [0]%N.
Proof. split; [|auto]. intros x [= <-]. split; [reflexivity|repeat constructor]. Qed.

(** ** C66: User Plane IP Resource Information *)
Theorem C66_panic_exact b : bytes b -> (upri_parse b = Fault <->
  2 <= length b /\ exists f r, upri_head_wf f /\ b = upri_head f ++ r /\ N.testbit (up_flags f) 6 = true /\ (N.testbit (up_flags f) 5 = true \/ r = [])).
Proof. exact (@upri_fault b). Qed.
Print Assumptions C66_panic_exact.
Theorem C66_total_refuted : exists b, bytes b /\ ~ returns (upri_parse b).
Proof. exists [0x60; 0]%N. split; [now repeat constructor|]. intros [[a H]|[e H]]; discriminate. Qed.
Print Assumptions C66_total_refuted.
Theorem C66_otherwise_returns b : bytes b -> upri_parse b <> Fault -> returns (upri_parse b).
Proof. exact (@upri_returns b). Qed.
Print Assumptions C66_otherwise_returns.
Theorem C66_exact b f : bytes b -> (upri_parse b = Ok f <->
  upri_wf f /\ N.testbit (up_flags f) 5 = false /\ 2 <= length b /\ exists x r, octet x /\ bytes r /\ up_si f = (if N.testbit (up_flags f) 6 then x mod 16 else 0)%N /\ b = upri_wire f x ++ r).
Proof. exact (@upri_ok b f). Qed.
Print Assumptions C66_exact.
Theorem C66_marshal f : upri_wf f -> upri_marshal f = (if length (upri_wire f (up_si f)) <? 2 then Err EUnexpectedEOF else Ok (upri_wire f (up_si f))) /\
  upri_marshal_len f = length (upri_wire f (up_si f)).
Proof. exact (@upri_marshal_wire f). Qed.
Print Assumptions C66_marshal.
(** what the constructor is given comes back iff no network instance is flagged *)
Theorem C66_roundtrip_exact fl rg v4 v6 ni si : octet fl -> octet rg -> ok4 (N.testbit fl 0) v4 -> ok16 (N.testbit fl 1) v6 -> bytes ni -> (si < 16)%N ->
  let f := new_upri fl rg v4 v6 ni si in
  (upri_marshal f = Err EUnexpectedEOF /\ length (upri_wire f (up_si f)) < 2) \/ exists w, upri_marshal f = Ok w /\
    upri_parse w = if N.testbit fl 5 then (if N.testbit fl 6 then Fault else Err EUnexpectedEOF) else Ok f.
Proof.
  intros Hfl Hr H4 H6 Hn Hs f. apply (@upri_marshal_parse f); [apply new_upri_wf; auto; unfold octet; lia|]. unfold f, new_upri. cbn [up_si]. destruct (has7 fl); [exact Hs|reflexivity].
Qed.
Print Assumptions C66_roundtrip_exact.
Theorem C66_teidri_panic : upri_ie_teidri [] = Fault /\ forall x p, upri_ie_teidri (x :: p) = Ok ((x / 4) mod 8)%N.
Proof.
  split; [reflexivity|]. intros x p. unfold upri_ie_teidri, index. cbn [nth_error bind]. change 0x07%N with (N.ones 3). now rewrite N.land_ones, N.shiftr_div_pow2.
Qed.
Print Assumptions C66_teidri_panic.
Example C66_ex : upri_marshal (new_upri 0x45 7 (Some [10; 0; 0; 1]%N) None [] 3) = Ok [0x45; 7; 10; 0; 0; 1; 3]%N.
Proof. reflexivity. Qed.
Example C66_teidri_ex : upri_ie_teidri [0x4d; 7]%N = Ok 3%N.
Proof. reflexivity. Qed.

(** ** C67: Trace Information *)
Theorem C67_panic_exact b : bytes b -> (trace_parse b = Fault <-> exists h t, b = h ++ t /\ length h = 6 /\ trace_cut t).
Proof. exact (@trace_fault b). Qed.
Print Assumptions C67_panic_exact.
Theorem C67_total_refuted : exists b, bytes b /\ ~ returns (trace_parse b).
Proof. exists [0; 0; 0; 0; 0; 0]%N. split; [now repeat constructor|]. intros [[a H]|[e H]]; discriminate. Qed.
Print Assumptions C67_total_refuted.
Theorem C67_otherwise_returns b : bytes b -> trace_parse b <> Fault -> returns (trace_parse b).
Proof. exact (@trace_returns b). Qed.
Print Assumptions C67_otherwise_returns.
Theorem C67_exact b f : bytes b -> (trace_parse b = Ok f <-> exists h mcc mnc ev depth ifs ip r, length h = 6 /\ octet depth /\ bytes ev /\ bytes ifs /\ bytes ip /\
  (lenN ev < 256)%N /\ (lenN ifs < 256)%N /\ (lenN ip < 256)%N /\ b = h ++ trace_rest ev depth ifs ip ++ r /\ decode_plmn (firstn 3 h) = Ok (mcc, mnc) /\
  f = {| ti_mcc := mcc; ti_mnc := mnc; ti_id := skipn 3 h; ti_evlen := lenN ev; ti_ev := None; ti_depth := depth; ti_iflen := lenN ifs; ti_ifs := None; ti_iplen := lenN ip; ti_ip := None |}).
Proof. exact (@trace_ok b f). Qed.
Print Assumptions C67_exact.
Theorem C67_marshal f p : encode_plmn (ti_mcc f) (ti_mnc f) = Ok p -> length p = 3 -> length (ti_id f) = 3 ->
  ti_evlen f = lenN (octs (ti_ev f)) -> ti_iflen f = lenN (octs (ti_ifs f)) -> ti_iplen f = lenN (octs (ti_ip f)) ->
  trace_marshal f = Ok (p ++ ti_id f ++ trace_rest (octs (ti_ev f)) (ti_depth f) (octs (ti_ifs f)) (octs (ti_ip f))) /\
  trace_marshal_len f = length (p ++ ti_id f ++ trace_rest (octs (ti_ev f)) (ti_depth f) (octs (ti_ifs f)) (octs (ti_ip f))).
Proof. exact (@trace_marshal_wire f p). Qed.
Print Assumptions C67_marshal.
(** the PLMN, the trace identity, the depth and the lengths come back; the events, interfaces and address are lost *)
Theorem C67_roundtrip_exact mcc mnc id ev depth ifs ip x : Forall lhex mcc -> Forall lhex mnc -> length mcc = 3 -> (length mnc = 2 \/ length mnc = 3 /\ last mnc 0%N <> 102%N) ->
  length id = 3 -> (lenN (octs ev) < 256)%N -> (lenN (octs ifs) < 256)%N -> (to4 ip = Some x \/ to4 ip = None /\ ip = Some x /\ length x = 16) ->
  exists w, trace_marshal (new_trace mcc mnc id ev depth ifs ip) = Ok w /\
    trace_parse w = Ok {| ti_mcc := mcc; ti_mnc := mnc; ti_id := id; ti_evlen := lenN (octs ev); ti_ev := None; ti_depth := depth; ti_iflen := lenN (octs ifs); ti_ifs := None; ti_iplen := lenN x; ti_ip := None |}.
Proof. exact (@new_trace_roundtrip mcc mnc id ev depth ifs ip x). Qed.
Print Assumptions C67_roundtrip_exact.
Theorem C67_roundtrip_refuted : exists w f, trace_marshal (new_trace [48; 48; 49]%N [48; 49]%N [1; 2; 3]%N (Some [9]%N) 2 (Some [8]%N) (Some [127; 0; 0; 1]%N)) = Ok w /\ trace_parse w = Ok f /\
  ti_ev f <> Some [9]%N /\ ti_ifs f <> Some [8]%N /\ ti_ip f <> Some [127; 0; 0; 1]%N.
Proof. do 2 eexists. split; [vm_compute; reflexivity|]. split; [vm_compute; reflexivity|]. repeat split; discriminate. Qed.
Print Assumptions C67_roundtrip_refuted.
Example C67_ex : trace_marshal (new_trace [48; 48; 49]%N [48; 49]%N [1; 2; 3]%N (Some [9]%N) 2 (Some [8]%N) (Some [127; 0; 0; 1]%N)) = Ok [0x00; 0xf1; 0x10; 1; 2; 3; 1; 9; 2; 1; 8; 4; 127; 0; 0; 1]%N.
Proof. vm_compute. reflexivity. Qed.
