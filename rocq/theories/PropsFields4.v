(** Properties C35 and C68: PFD Contents, MAC Addresses Detected and Removed. *)
From Verif Require Import Base Codec Codec2 Fields3 FieldsProofs3c Fields4 FieldsSpec4 FieldsProofs4 FieldsProofs4b FieldsProofs4c FieldsProofs4d.

(** ** C35: PFD Contents *)
Theorem C35_panic_exact b : bytes b -> (pfdc_parse b = Fault <-> pfdc_overrun b).
Proof. exact (@pfdc_parse_fault b). Qed.
Print Assumptions C35_panic_exact.
Theorem C35_total_refuted : exists b, bytes b /\ pfdc_parse b = Fault.
Proof. exists [1; 0; 0; 9; 65; 65]%N. split; [now repeat constructor|reflexivity]. Qed.
Print Assumptions C35_total_refuted.
Theorem C35_exact b f : bytes b -> (pfdc_parse b = Ok f <-> pfdc_wire b f).
Proof. exact (@pfdc_parse_exact b f). Qed.
Print Assumptions C35_exact.
Theorem C35_refused_exact b : bytes b -> (pfdc_parse b = Err EUnexpectedEOF <-> ~ pfdc_overrun b /\ ~ exists f, pfdc_wire b f).
Proof. exact (@pfdc_parse_refused b). Qed.
Print Assumptions C35_refused_exact.
(** the decoded lists are determined by the octets *)
Theorem C35_list_unique p l1 l2 : bytes p -> pfd_list p l1 -> pfd_list p l2 -> l1 = l2.
Proof. exact (@pfd_list_fun p l1 l2). Qed.
Print Assumptions C35_list_unique.
Theorem C35_marshal fl fd url dn cp dnp afd aurl adnp :
  pfdc_marshal (pfdc_of fl fd url dn cp dnp (items afd) (items aurl) (items adnp) afd aurl adnp)
  = Ok ([fl; 0%N] ++ wires (pfd_fields fl) [fd; url; dn; cp; dnp; items afd; items aurl; items adnp]).
Proof. exact (pfdc_marshal_of fl fd url dn cp dnp afd aurl adnp). Qed.
Print Assumptions C35_marshal.
Theorem C35_remarshal b f : bytes b -> pfdc_parse b = Ok f -> exists w, pfdc_marshal f = Ok w /\ length w = pfdc_marshal_len f.
Proof. exact (@pfdc_remarshal b f). Qed.
Print Assumptions C35_remarshal.
(** the constructor's encoding: strings of 2^16 octets and more are cut, lists of 2^16 octets and more panic *)
Theorem C35_new fd url dn cp dnp afd aurl adnp : lists_fit afd aurl adnp ->
  exists w, pfdc_marshal (new_pfdc fd url dn cp dnp afd aurl adnp) = Ok w /\
    let fl := pfd_flags [present_strs fd; present_strs url; present_strs dn; present_strs cp; present_strs dnp; present_list afd; present_list aurl; present_list adnp] in
    w = [fl; 0%N] ++ wires (pfd_fields fl) [cut16 fd; cut16 url; cut16 dn; cut16 cp; cut16 dnp; items afd; items aurl; items adnp].
Proof. exact (@pfdc_marshal_new fd url dn cp dnp afd aurl adnp). Qed.
Print Assumptions C35_new.
Theorem C35_new_panics fd url dn cp dnp afd aurl adnp : ~ lists_fit afd aurl adnp -> pfdc_marshal (new_pfdc fd url dn cp dnp afd aurl adnp) = Fault.
Proof. exact (@pfdc_marshal_new_fault fd url dn cp dnp afd aurl adnp). Qed.
Print Assumptions C35_new_panics.
(** round trip: exactly when every plain string has as many octets behind it as its offset asks for, and up to one empty string at the end of a list *)
Theorem C35_roundtrip_exact fd url dn cp dnp afd aurl adnp : str16 fd -> str16 url -> str16 dn -> str16 cp -> str16 dnp ->
  Forall bytes afd -> Forall bytes aurl -> Forall bytes adnp -> lists_fit afd aurl adnp ->
  let w := pfdc_octets fd url dn cp dnp afd aurl adnp in
  let fl := pc_flags (new_pfdc fd url dn cp dnp afd aurl adnp) in
  let ss := [fd; url; dn; cp; dnp; items afd; items aurl; items adnp] in
  pfdc_marshal (new_pfdc fd url dn cp dnp afd aurl adnp) = Ok w
  /\ new_pfdc fd url dn cp dnp afd aurl adnp = pfdc_of fl fd url dn cp dnp (items afd) (items aurl) (items adnp) afd aurl adnp
  /\ (roomy (pfd_fields fl) ss 2 (length w) ->
      pfdc_parse w = Ok (pfdc_of fl fd url dn cp dnp (items afd) (items aurl) (items adnp) (trim afd) (trim aurl) (trim adnp)))
  /\ (~ roomy (pfd_fields fl) ss 2 (length w) -> pfdc_parse w = Err EUnexpectedEOF).
Proof.
  intros H1 H2 H3 H4 H5 B6 B7 B8 F. cbv zeta. rewrite new_pfdc_flags.
  refine (conj _ (conj _ (conj _ _))).
  - exact (pfdc_marshal_new_ok H1 H2 H3 H4 H5 F).
  - exact (pfdc_new_value H1 H2 H3 H4 H5 F).
  - exact (pfdc_round_ok H1 H2 H3 H4 H5 B6 B7 B8 F).
  - exact (pfdc_round_err H1 H2 H3 H4 H5 B6 B7 B8 F).
Qed.
Print Assumptions C35_roundtrip_exact.
Theorem C35_roundtrip_refuted : exists fd url w, str16 fd /\ str16 url /\
  pfdc_marshal (new_pfdc fd url [] [] [] [] [] []) = Ok w /\ pfdc_parse w = Err EUnexpectedEOF.
Proof.
  exists [97; 98; 99]%N, [100]%N, [3; 0; 0; 3; 97; 98; 99; 0; 1; 100]%N.
  split; [split; [now repeat constructor|reflexivity]|]. split; [split; [now repeat constructor|reflexivity]|]. split; reflexivity.
Qed.
Print Assumptions C35_roundtrip_refuted.
(** a flow description alone comes back iff it has two octets or more *)
Example C35_ex : let w := pfdc_octets [97; 98]%N [] [] [] [] [[97]; [98; 99]]%N [] [[100]]%N in
  w = [161; 0; 0; 2; 97; 98; 0; 7; 0; 1; 97; 0; 2; 98; 99; 0; 3; 0; 1; 100]%N /\ pfdc_wire w (new_pfdc [97; 98]%N [] [] [] [] [[97]; [98; 99]]%N [] [[100]]%N).
Proof.
  cbv zeta. split; [reflexivity|]. apply pfdc_parse_exact; [|reflexivity].
  apply pfdc_new_bytes; try (split; [now repeat constructor|reflexivity]); repeat constructor.
Qed.
Example C35_overrun_ex : pfdc_overrun [32; 0; 0; 9; 1]%N.
Proof. apply pfdc_parse_fault; [now repeat constructor|reflexivity]. Qed.

(** ** C68: MAC Addresses Detected and MAC Addresses Removed *)
Theorem C68_exact b f : bytes b -> (macl_parse b = Ok f <-> macl_read b f).
Proof. exact (@macl_parse_exact b f). Qed.
Print Assumptions C68_exact.
Theorem C68_panic_exact b : bytes b -> (macl_parse b = Fault <-> exists n q, b = n :: q /\ length q = 6 * S (N.to_nat n)).
Proof. exact (@macl_parse_fault b). Qed.
Print Assumptions C68_panic_exact.
Theorem C68_otherwise_refused b : bytes b -> (exists f, macl_parse b = Ok f) \/ macl_parse b = Fault \/ macl_parse b = Err EUnexpectedEOF.
Proof. exact (@macl_parse_else b). Qed.
Print Assumptions C68_otherwise_refused.
Theorem C68_new ct st macs : (lenN macs < 256)%N ->
  exists f, new_macl (Some ct) (Some st) macs = Ok f /\ macl_marshal f = Ok (macl_wire (map fit6 macs) (cut256 ct) (cut256 st)).
Proof. exact (@macl_marshal_new ct st macs). Qed.
Print Assumptions C68_new.
Theorem C68_fit6 m : length m = 6 -> fit6 m = m.
Proof. exact (@fit6_id m). Qed.
Print Assumptions C68_fit6.
Theorem C68_new_panics ct st macs : (256 <= lenN macs)%N -> exists f, new_macl (Some ct) (Some st) macs = Ok f /\ macl_marshal f = Fault.
Proof. exact (@macl_marshal_new_fault ct st macs). Qed.
Print Assumptions C68_new_panics.
Theorem C68_nil_tag_panics ct st macs : ct = None \/ st = None -> new_macl ct st macs = Fault.
Proof. intros [->| ->]; [reflexivity|]. destruct ct; reflexivity. Qed.
Print Assumptions C68_nil_tag_panics.
(** no encoded value ever comes back: the decoder refuses it, panics, or returns one address too many and no tags *)
Theorem C68_never_roundtrips macs ct st : Forall mac6 macs -> bytes ct -> bytes st -> (lenN macs < 256)%N -> (lenN ct < 256)%N -> (lenN st < 256)%N ->
  let w := macl_wire macs ct st in
  (length ct + length st < 4 -> macl_parse w = Err EUnexpectedEOF) /\
  (length ct + length st = 4 -> macl_parse w = Fault) /\
  (forall f, macl_parse w = Ok f -> length (ml_macs f) = S (length macs) /\ ml_ctag f = [] /\ ml_stag f = [] /\ 4 < length ct + length st).
Proof.
  intros F Bc Bs L1 L2 L3. cbv zeta. destruct (macl_round_small F Bc Bs L1 L2 L3) as [A B]. refine (conj A (conj B _)).
  intros f. exact (macl_round F Bc Bs L1 L2 L3).
Qed.
Print Assumptions C68_never_roundtrips.
Example C68_ex : macl_read [0; 1; 2; 3; 4; 5; 6; 1; 9]%N
  {| ml_n := 0; ml_macs := [[1; 2; 3; 4; 5; 6]%N]; ml_ctlen := 1; ml_ctag := []; ml_stlen := 1; ml_stag := [] |}.
Proof. apply macl_parse_exact; [now repeat constructor|reflexivity]. Qed.
Example C68_new_ex : new_macl (Some [1]%N) (Some [])%N [[1; 2; 3; 4; 5; 6]%N] <> Fault /\
  (f <- new_macl (Some [1]%N) (Some [])%N [[1; 2; 3; 4; 5; 6]%N] ;; macl_marshal f) = Ok [1; 1; 2; 3; 4; 5; 6; 1; 1; 0]%N.
Proof. split; [discriminate|reflexivity]. Qed.
