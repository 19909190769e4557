(** C99: the text of a header. *)
From Coq Require Import String Ascii HexadecimalString.
From Verif Require Import Base Header HeaderSpec HeaderProofs HeaderText HeaderTextProofs.
Local Open Scope string_scope.
Local Open Scope N_scope.

(** The text, with each number as a string of digits that reads back to it ([number base 0 s] is the value of the digits s); decimal numbers and the
    sequence number have no superfluous zeros, the SEID has 16 digits, the payload two for each octet, and nothing at all if it is empty. *)
Theorem C99_layout : forall h, h_seid h < 2 ^ 64 -> bytes (h_payload h) ->
  exists tp ln sd sq pr pl,
    h_string h = "{Version: 1, Flags: {FO: " ++ (if N.testbit (h_flags h) 2 then "true" else "false") ++ ", MP: " ++ (if N.testbit (h_flags h) 1 then "true" else "false") ++
      ", S: " ++ (if N.odd (h_flags h) then "true" else "false") ++ "}, Type: " ++ tp ++ ", Length: " ++ ln ++ ", SEID: 0x" ++ sd ++ ", SequenceNumber: 0x" ++ sq ++
      ", MessagePriority: " ++ pr ++ ", Payload: " ++ pl ++ "}" /\
    number 10 0 tp = Some (h_type h) /\ (tp = "0" \/ forall r, tp <> String "0" r) /\
    number 10 0 ln = Some (h_length h) /\ (ln = "0" \/ forall r, ln <> String "0" r) /\
    number 16 0 sd = Some (h_seid h) /\ String.length sd = 16%nat /\
    number 16 0 sq = Some (h_seq h) /\ (sq = "0" \/ forall r, sq <> String "0" r) /\
    number 10 0 pr = Some (h_prio h) /\ (pr = "0" \/ forall r, pr <> String "0" r) /\
    ((h_payload h = nil /\ pl = "") \/ (h_payload h <> nil /\ exists s, pl = "0x" ++ s /\ pairs s (h_payload h))).
Proof.
  intros h S B. exists (fmt_d (h_type h)), (fmt_d (h_length h)), (fixed_hex 16 (h_seid h)), (NilEmpty.string_of_uint (N.to_hex_uint (h_seq h))), (fmt_d (h_prio h)), (fmt_xs (h_payload h)).
  split. { unfold h_string, fmt_016x, fmt_x. destruct (flag_bits h) as (-> & -> & ->). rewrite N.bit0_odd. reflexivity. }
  split; [apply number_dec|]. split; [apply dec_first|]. split; [apply number_dec|]. split; [apply dec_first|].
  split. { rewrite number_fixed by exact S. reflexivity. } split; [apply fixed_length|]. split; [apply number_hex|]. split; [apply hex_first|]. split; [apply number_dec|]. split; [apply dec_first|].
  destruct (h_payload h) as [|x r] eqn:E; [left; auto|]. right. split; [discriminate|]. exists (octets_hex (x :: r)). split; [reflexivity|]. now apply octets_pairs.
Qed.
Print Assumptions C99_layout.
(** Two headers have the same text exactly if they agree in all members, the flag octet in its three lowest bits. *)
Theorem C99_iff : forall h k, h_seid h < 2 ^ 64 -> h_seid k < 2 ^ 64 -> bytes (h_payload h) -> bytes (h_payload k) ->
  (h_string h = h_string k <->
   h_flags h mod 8 = h_flags k mod 8 /\ h_type h = h_type k /\ h_length h = h_length k /\ h_seid h = h_seid k /\ h_seq h = h_seq k /\ h_prio h = h_prio k /\ h_payload h = h_payload k).
Proof.
  intros h k S1 S2 B1 B2. rewrite h_string_iff by assumption. unfold shows_same. destruct (flag_bits h) as (-> & -> & ->), (flag_bits k) as (-> & -> & ->). rewrite <- low_three. tauto.
Qed.
Print Assumptions C99_iff.
(** Two datagrams whose headers print alike differ at most in the version and the spare bits of their first octets. *)
Theorem C99_datagrams : forall h k b c, hwire h b -> hwire k c ->
  (h_string h = h_string k <-> exists f f' r, b = f :: r /\ c = f' :: r /\ f mod 8 = f' mod 8).
Proof. exact text_datagrams. Qed.
Print Assumptions C99_datagrams.
(** "The text shows the version received" is false: it says 1 whatever the octet says; so is "different headers print differently". *)
Theorem C99_version : forall h, exists r, h_string h = "{Version: 1, " ++ r.
Proof. intros h. unfold h_string. eexists. reflexivity. Qed.
Print Assumptions C99_version.
Theorem C99_version_refuted : exists b c h k, bytes b /\ bytes c /\ parse_header b = Ok h /\ parse_header c = Ok k /\ nth_error b 0 = Some 0xF8 /\ nth_error c 0 = Some 0x20 /\ h_string h = h_string k.
Proof.
  exists [0xF8; 1; 0; 4; 0; 0; 1; 0]%N, [0x20; 1; 0; 4; 0; 0; 1; 0]%N. do 2 eexists. split; [repeat constructor|]. split; [repeat constructor|]. split; [vm_compute; reflexivity|]. split; [vm_compute; reflexivity|]. repeat split.
Qed.
Print Assumptions C99_version_refuted.
(** A header without the S flag still prints the SEID that is set in it, though Marshal does not send it and SEID() of a message says 0. *)
Theorem C99_seid_refuted : exists h k, h_marshal h = h_marshal k /\ h_get_seid h = h_get_seid k /\ h_string h <> h_string k.
Proof.
  exists (mkH 0x20 1 4 7 1 0 [])%N, (mkH 0x20 1 4 8 1 0 [])%N. split; [vm_compute; reflexivity|]. split; [vm_compute; reflexivity|]. intros E; vm_compute in E; discriminate E.
Qed.
Print Assumptions C99_seid_refuted.
Example C99_ex : h_string (mkH 0x21 50 15 0x123 0xab 0 [0; 255; 16])%N =
  "{Version: 1, Flags: {FO: false, MP: false, S: true}, Type: 50, Length: 15, SEID: 0x0000000000000123, SequenceNumber: 0xab, MessagePriority: 0, Payload: 0x00ff10}" /\
  h_string zero_header = "{Version: 1, Flags: {FO: false, MP: false, S: false}, Type: 0, Length: 0, SEID: 0x0000000000000000, SequenceNumber: 0x0, MessagePriority: 0, Payload: }".
Proof. split; vm_compute; reflexivity. Qed.
