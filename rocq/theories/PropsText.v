(** C94: textual addresses in constructors and Node IDs. *)
From Verif Require Import Base Codec IETypes Utils UtilsProofs Fields1 Fields3 FieldsProofs3b New NewProofs4 NewProofs6 NetText NetTextProofs NetTextProofs2.
Local Open Scope list_scope.
Set Implicit Arguments. Unset Strict Implicit.

(** the texts of addresses, and what they stand for *)
Theorem C94_parse s ip : parse_ip s = Some ip <-> address_text s ip.
Proof. apply parse_ip_iff. Qed.
Print Assumptions C94_parse.
Theorem C94_octets s ip : parse_ip s = Some ip -> length ip = 16 /\ bytes ip.
Proof. intros H. apply C94_parse in H. exact (address_octets H). Qed.
Print Assumptions C94_octets.
(** what String prints is read back as the same address *)
Theorem C94_read_back ip : (length ip = 4 \/ length ip = 16) -> bytes ip -> parse_ip (ip_string (Some ip)) = to16 (Some ip).
Proof. intros L B. destruct (ip_string_text L B) as (x & E & T). rewrite E. now apply C94_parse. Qed.
Print Assumptions C94_read_back.
Lemma read_back4 ip : length ip = 4 -> bytes ip -> to4 (parse_ip (ip_string (Some ip))) = Some ip.
Proof.
  intros L B. rewrite C94_read_back by auto. cbn [to16]. rewrite L. cbn [Nat.eqb]. unfold to4. rewrite app_length, L. change (length v4prefix) with 12. cbn [Nat.add Nat.eqb].
  rewrite firstn_app_exact, skipn_app_exact by reflexivity. destruct (list_eq_dec N.eq_dec v4prefix v4prefix); [reflexivity|contradiction].
Qed.
Lemma read_back16 ip : length ip = 16 -> bytes ip -> parse_ip (ip_string (Some ip)) = Some ip.
Proof. intros L B. rewrite C94_read_back by auto. now apply to16_16. Qed.
(** a dotted text is printed unchanged *)
Lemma to4_prefix x : length x = 4 -> to4 (Some (v4prefix ++ x)) = Some x.
Proof.
  intros L. unfold to4. rewrite app_length, L. change (length v4prefix) with 12. cbn [Nat.add Nat.eqb]. rewrite firstn_app_exact, skipn_app_exact by reflexivity. destruct (list_eq_dec N.eq_dec v4prefix v4prefix); [reflexivity|contradiction].
Qed.
Lemma string_prefix x : length x = 4 -> ip_string (Some (v4prefix ++ x)) = string4 x.
Proof.
  intros L. unfold ip_string. cbn [octs]. rewrite (to4_prefix L).
  assert (H : length (v4prefix ++ x) = 16) by (rewrite app_length, L; reflexivity). destruct (v4prefix ++ x) eqn:E; [discriminate E|]. now rewrite H.
Qed.
Lemma string_4 x : length x = 4 -> ip_string (Some x) = string4 x.
Proof. intros L. unfold ip_string. cbn [octs]. rewrite to4_4 by exact L. destruct x; [discriminate L|]. now rewrite L. Qed.
Theorem C94_dotted s x : dotted s x -> ip_string (parse_ip s) = s.
Proof.
  intros D. rewrite (proj2 (@C94_parse s _) (address_v4 D)). destruct (dotted_octets D) as [L _]. rewrite (string_prefix L). symmetry. exact (dotted_canonical D).
Qed.
Print Assumptions C94_dotted.
(** the text of a 16-octet address that is not an IPv4 one: eight groups, the first of the longest runs of at least two zero groups as :: *)
Theorem C94_canonical ip : length ip = 16 -> bytes ip -> to4 (Some ip) = None ->
  let group_at k := append_hex (256 * nth (2 * k) ip 0%N + nth (2 * k + 1) ip 0%N) in
  let zero_at k := nth (2 * k) ip 0%N = 0%N /\ nth (2 * k + 1) ip 0%N = 0%N in
  (forall a b, a + 2 <= b <= 8 -> ~ forall k, a <= k < b -> zero_at k) /\ ip_string (Some ip) = join colon (map group_at (seq 0 8)) \/
  exists zs ze, zs + 2 <= ze <= 8 /\ (forall k, zs <= k < ze -> zero_at k) /\
    (forall a b, a + 2 <= b <= 8 -> (forall k, a <= k < b -> zero_at k) -> b - a <= ze - zs /\ (b - a = ze - zs -> zs <= a)) /\
    ip_string (Some ip) = join colon (map group_at (seq 0 zs)) ++ colon :: colon :: join colon (map group_at (seq ze (8 - ze))).
Proof.
  intros L B H4 group_at zero_at.
  assert (S : ip_string (Some ip) = string6 ip). { unfold ip_string. cbn [octs]. rewrite H4. destruct ip; [discriminate L|]. now rewrite L. }
  assert (Z : forall k, group ip k = 0%N <-> zero_at k) by (intros k; unfold group, zero_at; lia). rewrite S.
  destruct (string6_form _ L) as [[H E]|(zs & ze & Hz & H & M & E)].
  - left. split; [|exact E]. intros a b Hb X. apply (H a b Hb). intros k Hk. apply Z. auto.
  - right. exists zs, ze. split; [exact Hz|]. split; [intros k Hk; apply Z; auto|]. split; [|exact E]. intros a b Hb X. apply M; [exact Hb|]. intros k Hk. apply Z. auto.
Qed.
Print Assumptions C94_canonical.

(** a group is printed with lower-case digits and no leading zero *)
Theorem C94_group v : (v < 65536)%N -> let s := append_hex v in
  hex_number s 0 = Some v /\ Forall (fun c => 48 <= c <= 57 \/ 97 <= c <= 102)%N s /\ (hd 0%N s = 48%N -> v = 0%N) /\ (v = 0%N -> s = [48]%N) /\ 1 <= length s <= 4.
Proof.
  intros V s. subst s. destruct (@append_hex_text v) as [L H]; [lia|]. split; [exact H|]. split; [|split; [|split; [intros ->; reflexivity|exact L]]].
  - assert (D : forall d, (d < 16)%N -> (48 <= hex_digit d <= 57 \/ 97 <= hex_digit d <= 102)%N) by (intros d Hd; unfold hex_digit; destruct (N.ltb_spec d 10); lia).
    assert (X : (v / 4096 < 16)%N) by (apply N.div_lt_upper_bound; lia).
    unfold append_hex. repeat (apply Forall_app; split); repeat match goal with |- Forall _ (if ?c then _ else _) => destruct c end; (apply Forall_nil || (apply Forall_cons; [|apply Forall_nil])); apply D; (exact X || (apply N.mod_lt; discriminate)).
  - clear L H. assert (D : forall d, hex_digit d = 48%N -> d = 0%N) by (intros d; unfold hex_digit; destruct (N.ltb_spec d 10); lia).
    assert (Q : forall m, (0 < m <= v)%N -> (v / m)%N <> 0%N) by (intros m Hm E; apply N.div_small_iff in E; lia).
    assert (R : forall m, (0 < m)%N -> (v < m * 16)%N -> (v / m mod 16 = v / m)%N) by (intros m Hm Hv; apply N.mod_small, N.div_lt_upper_bound; lia).
    unfold append_hex. destruct (N.leb_spec 4096 v) as [H|H]; [|destruct (N.leb_spec 256 v) as [H1|H1]; [|destruct (N.leb_spec 16 v) as [H2|H2]]]; cbn [app hd]; intros E; apply D in E.
    + exfalso. apply (Q 4096%N); [lia|exact E].
    + exfalso. rewrite R in E by lia. apply (Q 256%N); [lia|exact E].
    + exfalso. rewrite R in E by lia. apply (Q 16%N); [lia|exact E].
    + now rewrite N.mod_small in E by lia.
Qed.
Print Assumptions C94_group.

(** ** Node IDs *)
Definition text_0000 : list N := string4 [0; 0; 0; 0]%N.
(** NewNodeID with an IPv4 text: any text that is not an IPv4 address gives the Node ID 0.0.0.0 *)
Theorem C94_node_v4 s v6 f : s <> [] ->
  exists p, NewNodeID s v6 f = Ok (Some p) /\ p = 0%N :: match to4 (parse_ip s) with Some x => x | None => [0; 0; 0; 0]%N end /\
  NodeID p = Ok (match to4 (parse_ip s) with Some _ => ip_string (parse_ip s) | None => text_0000 end).
Proof.
  intros NE. unfold NewNodeID, text_arg. destruct s as [|c s]; [contradiction|]. set (t := c :: s) in *. rewrite new_node_id_v4. eexists. split; [reflexivity|]. split; [reflexivity|]. unfold NodeID.
  destruct (parse_ip t) as [ip|] eqn:P; [|cbn; reflexivity]. destruct (C94_octets P) as [L _]. destruct (to4 (Some ip)) as [x|] eqn:E; [|reflexivity].
  rewrite (node_v4_value _ (to4_len _ E)). cbn [bind node_text]. f_equal. rewrite (string_4 (to4_len _ E)).
  unfold ip_string. cbn [octs]. rewrite E. destruct ip; [discriminate L|]. now rewrite L.
Qed.
Print Assumptions C94_node_v4.
Theorem C94_node_v6 s f : s <> [] ->
  exists p, NewNodeID [] s f = Ok (Some p) /\ p = 1%N :: match parse_ip s with Some x => x | None => make 16 end /\
  NodeID p = Ok (match parse_ip s with Some _ => ip_string (parse_ip s) | None => [colon; colon] end).
Proof.
  intros NE. unfold NewNodeID, text_arg. destruct s as [|c s]; [contradiction|]. set (t := c :: s) in *. rewrite new_node_id_v6. eexists. split; [reflexivity|]. unfold NodeID.
  destruct (parse_ip t) as [ip|] eqn:P; [|split; reflexivity]. destruct (C94_octets P) as [L _]. rewrite (to16_16 _ L). split; [reflexivity|]. rewrite (node_v6_value _ L). reflexivity.
Qed.
Print Assumptions C94_node_v6.
(** NewNodeIDHeuristic: an address is printed in its canonical form, and that form makes the same Node ID again *)
Theorem C94_heuristic_address s ip : parse_ip s = Some ip ->
  exists p, NewNodeIDHeuristic s = Ok (Some p) /\ NodeID p = Ok (ip_string (Some ip)) /\ NewNodeIDHeuristic (ip_string (Some ip)) = Ok (Some p).
Proof.
  intros P. destruct (C94_octets P) as [L B]. assert (NE : s <> []) by (intros ->; discriminate P).
  assert (R : parse_ip (ip_string (Some ip)) = Some ip) by now apply read_back16.
  assert (NE2 : ip_string (Some ip) <> []) by (intros E; rewrite E in R; discriminate R).
  unfold NewNodeIDHeuristic. rewrite R, P. rewrite !heuristic_ip by auto. destruct (to4 (Some ip)) as [x|] eqn:E.
  - rewrite new_node_id_v4. rewrite E. eexists. split; [reflexivity|]. split; [|reflexivity]. unfold NodeID. rewrite (node_v4_value _ (to4_len _ E)). cbn [bind node_text]. f_equal. rewrite (string_4 (to4_len _ E)).
    unfold ip_string. cbn [octs]. rewrite E. destruct ip; [discriminate L|]. now rewrite L.
  - rewrite new_node_id_v6. rewrite (to16_16 _ L). eexists. split; [reflexivity|]. split; [|reflexivity]. unfold NodeID. rewrite (node_v6_value _ L). reflexivity.
Qed.
Print Assumptions C94_heuristic_address.
(** and any other text is taken as a domain name *)
Theorem C94_heuristic_name s : s <> [] -> parse_ip s = None -> NewNodeIDHeuristic s = NewNodeID [] [] s.
Proof. intros NE P. unfold NewNodeIDHeuristic. rewrite P. now apply heuristic_name. Qed.
Print Assumptions C94_heuristic_name.
(** intended: the text of a Node ID identifies it.  Refuted: a dotted text given as domain name and as IPv4 address, and an IPv4
    address given as IPv6 text, have one text *)
Lemma label_small s l : length s < 255 -> In l (split_dot s) -> (lenN l < 256)%N.
Proof.
  intros L I. pose proof (split_total s) as T. apply in_split in I. destruct I as (a & b & E). rewrite E in T. rewrite map_app, concat_app, app_length in T. cbn [map concat] in T. rewrite app_length in T. cbn [label_wire length] in T.
  unfold lenN. lia.
Qed.
Lemma dotted_bytes s x : dotted s x -> bytes s /\ s <> [] /\ length s < 255.
Proof.
  assert (D : forall a, octet a -> bytes (dec a)). { intros a A. apply Forall_forall. intros c I. pose proof (proj1 (Forall_forall _ _) (dec_digits A) c I) as H. cbn in H. apply is_digit_ok in H. unfold octet. lia. }
  intros [a b c d A B C E]. split; [|split].
  - assert (K : forall u v, bytes u -> bytes v -> bytes (u ++ dot :: v)) by (intros u v Hu Hv; apply bytes_app; split; [exact Hu|]; constructor; [reflexivity|exact Hv]). repeat apply K; auto.
  - destruct (dec_cons a) as (u & v & ->). discriminate.
  - pose proof (dec_length a). pose proof (dec_length b). pose proof (dec_length c). pose proof (dec_length d). repeat (rewrite app_length; cbn [length]). lia.
Qed.
Theorem C94_text_identifies_refuted s x : dotted s x ->
  exists p1 p2 p3, NewNodeID s [] [] = Ok (Some p1) /\ NewNodeID [] s [] = Ok (Some p2) /\ NewNodeID [] [] s = Ok (Some p3) /\
  p1 <> p2 /\ p1 <> p3 /\ p2 <> p3 /\ NodeID p1 = Ok s /\ NodeID p2 = Ok s /\ NodeID p3 = Ok s.
Proof.
  intros D. destruct (dotted_bytes D) as (Bs & NE & Ls). destruct (dotted_octets D) as [L _]. pose proof (proj2 (@C94_parse s _) (address_v4 D)) as P.
  destruct (@C94_node_v4 s [] [] NE) as (p1 & E1 & F1 & T1). destruct (@C94_node_v6 s [] NE) as (p2 & E2 & F2 & T2). rewrite (C94_dotted D) in T1, T2. rewrite P in *. rewrite (to4_prefix L) in T1.
  destruct (@node_fqdn_value s NE Bs) as (t & V & T). assert (t = s) as -> by (apply T, Forall_forall; intros l I; exact (@label_small s l Ls I)).
  exists p1, p2, (2%N :: concat (map label_wire (split_dot s))). split; [exact E1|]. split; [exact E2|]. split; [exact (new_node_id_fqdn NE)|]. split; [subst; discriminate|]. split; [subst; discriminate|]. split; [subst; discriminate|]. split; [exact T1|]. split; [exact T2|].
  unfold NodeID. now rewrite V.
Qed.
Print Assumptions C94_text_identifies_refuted.

(** ** FQ-CSID: an address or hexadecimal digits; no text is both *)
Lemma address_special s ip : address_text s ip -> In dot s \/ In colon s.
Proof.
  intros [s' x [a b c d _ _ _ _]|s' x V]; [left; rewrite in_app_iff; right; now left|right]. destruct (v6_first V) as (l & r & -> & _). rewrite in_app_iff. right. now left.
Qed.
Theorem C94_fqcsid s ids :
  (forall ip, parse_ip s = Some ip -> (forall nid, hex_decode s <> Ok nid) /\
     NewFQCSID s ids = Ok (Some (match to4 (Some ip) with
                                 | Some v4 => (lenN ids mod 16)%N :: v4 ++ concat (map (be 2) ids)
                                 | None => (16 + lenN ids mod 16)%N :: ip ++ concat (map (be 2) ids)
                                 end))) /\
  (parse_ip s = None -> NewFQCSID s ids = Ok (match hex_decode s with Ok nid => Some ((32 + lenN ids mod 16)%N :: nid ++ concat (map (be 2) ids)) | _ => None end)).
Proof.
  unfold NewFQCSID. rewrite fqcsid_octets. split.
  - intros ip P. assert (H : forall nid, hex_decode s <> Ok nid).
    { intros nid E. pose proof (hex_verdict s) as V. rewrite E in V. apply andb_true_iff in V. destruct V as [V _]. unfold ishexs in V. rewrite forallb_forall in V. apply C94_parse, address_special in P. destruct P as [I|I]; apply V in I; discriminate I. }
    split; [exact H|]. rewrite P. destruct (to4 (Some ip)); reflexivity.
  - intros P. rewrite P. destruct (hex_decode s); reflexivity.
Qed.
Print Assumptions C94_fqcsid.

(** ** Addresses in the other constructors: a printed address is taken over, a text that is no address is dropped *)
Definition v4_arg (s : list N) (ip : bslice) : Prop := (exists x, length x = 4 /\ bytes x /\ s = ip_string (Some x) /\ ip = Some x) \/ (to4 (parse_ip s) = None /\ ip = None).
Definition v6_arg (s : list N) (ip : bslice) : Prop := (exists x, length x = 16 /\ bytes x /\ s = ip_string (Some x) /\ ip = Some x) \/ (parse_ip s = None /\ ip = None).
Lemma v4_arg_ok s ip : v4_arg s ip -> to4 (parse_ip s) = to4 ip.
Proof. intros [(x & L & B & -> & ->)|(H & ->)]; [|exact H]. rewrite (read_back4 L B). symmetry. now apply to4_4. Qed.
Lemma v6_arg_ok s ip : v6_arg s ip -> to16 (parse_ip s) = to16 ip.
Proof. intros [(x & L & B & -> & ->)|(H & ->)]; [|now rewrite H]. now rewrite (read_back16 L B). Qed.
Theorem C94_fields s4 s6 v4 v6 : v4_arg s4 v4 -> v6_arg s6 v6 ->
  (forall fl d l, NewUEIPAddressFields fl s4 s6 d l = new_ueip fl v4 v6 d l) /\
  (forall de te po ct st, NewOuterHeaderCreationFields de te s4 s6 po ct st = new_ohc de te v4 v6 po ct st) /\
  (forall fl di ni, NewRemoteGTPUPeerFields fl s4 s6 di ni = new_rpeer fl v4 v6 di ni) /\
  (forall fl r ni si, NewUserPlaneIPResourceInformationFields fl r s4 s6 ni si = new_upri fl r v4 v6 ni si).
Proof.
  intros H4 H6. apply v4_arg_ok in H4. apply v6_arg_ok in H6.
  repeat split; intros; unfold NewUEIPAddressFields, NewOuterHeaderCreationFields, NewRemoteGTPUPeerFields, NewUserPlaneIPResourceInformationFields, new_ueip, new_ohc, new_rpeer, new_upri; now rewrite H4, H6.
Qed.
Print Assumptions C94_fields.

(** "10.0.0.255"; "2001:db8::1:0:0:1" prints the first of two runs; "::ffff:1.2.3.4" prints as "1.2.3.4"; a leading zero, a missing group and a zone are refused *)
Example C94_ex :
  dotted [49; 48; 46; 48; 46; 48; 46; 50; 53; 53]%N [10; 0; 0; 255]%N /\
  ip_string (Some [0x20; 0x01; 0x0d; 0xb8; 0; 0; 0; 0; 0; 1; 0; 0; 0; 0; 0; 1]%N) = [50; 48; 48; 49; 58; 100; 98; 56; 58; 58; 49; 58; 48; 58; 48; 58; 49]%N /\
  parse_ip [58; 58; 102; 102; 70; 102; 58; 49; 46; 50; 46; 51; 46; 52]%N = Some (v4prefix ++ [1; 2; 3; 4]%N) /\
  ip_string (parse_ip [58; 58; 102; 102; 70; 102; 58; 49; 46; 50; 46; 51; 46; 52]%N) = [49; 46; 50; 46; 51; 46; 52]%N /\
  parse_ip [49; 46; 50; 46; 51; 46; 48; 52]%N = None /\ parse_ip [49; 58; 50]%N = None /\ parse_ip [58; 58; 49; 37; 49]%N = None /\
  v4_arg [120]%N None.
Proof.
  split; [apply (@dotted_intro 10 0 0 255); reflexivity|]. repeat split. right. split; reflexivity.
Qed.
