(** C103: the errors. *)
From Coq Require Import String.
From Verif Require Import Base IETypes IE IEProofs Codec Access AccTable AccRun AccProofs AccProofs2 Utils UtilsProofs Header Message MsgTables Errors ErrorsProofs ErrorsProofs2 ErrorsProofs3.

(** Decoding elements (Parse, UnmarshalBinary on any receiver, ParseMultiIEs) and messages (Parse, and UnmarshalBinary of each message on any receiver) returns
    io.ErrUnexpectedEOF, or ErrInvalidLength, and the latter only if the octets hold the header of a vendor-specific element with a Length below 2.
    The header of a message and the structured payloads: io.ErrUnexpectedEOF only. *)
Theorem C103_decode : forall g b e, bytes b ->
  (exists i, unmarshalBinary g i b = Err e) \/ parse g b = Err e \/ parseMultiIEs g b = Err e \/
  (exists k m, msg_unmarshal g k m b = Err e) \/ (exists ds d, parse_message g ds d b = Err e) ->
  e = EUnexpectedEOF \/ (e = EInvalidLength /\
    exists pre t1 t0 l e1 e0 post, b = pre ++ t1 :: t0 :: 0%N :: l :: e1 :: e0 :: post /\ (128 <= t1)%N /\ (l < 2)%N).
Proof.
  intros g b e B [(i & H)|[H|[H|[(k & m & H)|(ds & d & H)]]]].
  - revert H. now apply unmarshal_only.
  - revert H. now apply parse_only.
  - revert H. now apply parseMulti_only.
  - revert H. now apply msg_unmarshal_only.
  - revert H. now apply parse_message_only.
Qed.
Print Assumptions C103_decode.
Theorem C103_header : forall h b e, h_unmarshal h b = Err e -> e = EUnexpectedEOF.
Proof. intros h b. apply header_only. Qed.
Print Assumptions C103_header.
Theorem C103_fields : forall k b e, fparse k b = Err e -> e = EUnexpectedEOF.
Proof. intros k b. apply fparse_eof. Qed.
Print Assumptions C103_fields.
(** A vendor-specific element with such a Length in front is always refused so, whatever follows. *)
Theorem C103_length : forall g t1 t0 l e1 e0 post, (128 <= t1 < 256)%N -> octet t0 -> (l < 2)%N ->
  parse g (t1 :: t0 :: 0%N :: l :: e1 :: e0 :: post) = Err EInvalidLength.
Proof.
  intros g t1 t0 l e1 e0 post H1 H0 Hl. unfold parse. rewrite unmarshal_S. cbv zeta. cbn [length Nat.ltb Nat.leb].
  change (getr 2 (t1 :: t0 :: 0%N :: l :: e1 :: e0 :: post) 0 2) with (Ok (unbe [t1; t0])).
  change (getr 2 (t1 :: t0 :: 0%N :: l :: e1 :: e0 :: post) 2 4) with (Ok (unbe [0%N; l])).
  cbn [bind]. assert (V : vendor (unbe [t1; t0]) = true) by (apply vendor_true; unfold unbe, octet in *; cbn [fold_left]; lia). rewrite V.
  assert (Z : (N.to_nat (unbe [0%N; l]) <=? 1) = true) by (apply Nat.leb_le; unfold unbe; cbn [fold_left]; lia). now rewrite Z.
Qed.
Print Assumptions C103_length.
(** MarshalTo of an element, a message: no error but ErrInvalidLength; of a header: none. *)
Theorem C103_marshal : forall g e, (exists i b, marshal_to g i b = Err e) \/ (exists k m b, msg_marshal_to g k m b = Err e) \/ (exists k m, msg_marshal g k m = Err e) -> e = EInvalidLength.
Proof.
  intros g e [(i & b & H)|[(k & m & b & H)|(k & m & H)]].
  - revert H. apply marshal_to_only.
  - revert H. apply msg_marshal_to_only.
  - assert (K : only length_err (msg_marshal g k m)); [|now apply K]. unfold msg_marshal. apply only_bind; [unfold msg_len; apply only_bind; [apply fields_len_only|intros; apply only_ok]|]. intros l _. apply msg_marshal_to_only.
Qed.
Print Assumptions C103_marshal.
Theorem C103_marshal_header : forall h b e, h_marshal_to h b <> Err e.
Proof. intros h b e H. exact (h_marshal_to_only (fun _ => False) h b H). Qed.
Print Assumptions C103_marshal_header.

(** Every accessor, on every element: io.ErrUnexpectedEOF, ErrIENotFound, or
    - ErrInvalidLength, only if the payload holds a vendor-specific header with a Length below 2;
    - InvalidTypeError with the type of the element itself or of an element inside it;
    - ErrMalformed, only if it is or has inside an FQ-CSID whose first octet is 48 or more;
    - InvalidNodeIDError with the first octet, 3 or more, of a Node ID that it is or has inside;
    - the text about LocalFTEID, only if it is or has inside a Created Traffic Endpoint. *)
Theorem C103_access : forall g a i e, bytes (payload i) -> access g a i = Err e -> acc_err g i e.
Proof. intros g a i e B. now apply access_only. Qed.
Print Assumptions C103_access.
(** In particular ErrInvalidType, ErrElementNotFound and the errors of encoding/hex never. *)
Theorem C103_never : forall g a i, bytes (payload i) ->
  access g a i <> Err EInvalidType /\ access g a i <> Err EElementNotFound /\ access g a i <> Err EHex.
Proof. intros g a i B. repeat split; intros H; apply C103_access in H; trivial; inversion H. Qed.
Print Assumptions C103_never.
(** An element with an empty payload: its own type is the only one an InvalidTypeError can carry. *)
Theorem C103_own_type : forall g a i t, bytes (payload i) -> parseMultiIEs g (payload i) = Ok [] \/ (forall is, parseMultiIEs g (payload i) <> Ok is) ->
  access g a i = Err (EInvalidTypeT t) -> t = ty i.
Proof.
  intros g a i t B E H. apply C103_access in H; trivial. inversion H as [| | |j J| | |]; subst. inversion J as [|i' is x j' P I Q]; subst; [reflexivity|].
  destruct E as [E|E]; [rewrite E in P; injection P as <-; contradiction|now apply E in P].
Qed.
Print Assumptions C103_own_type.
(** FindByType: ErrInvalidType exactly on a type that is not grouped, ErrIENotFound exactly if no child has the type. *)
Theorem C103_find : forall g i t e, find_by_type g i t = Err e <->
  (g (ty i) = false /\ e = EInvalidType) \/ (g (ty i) = true /\ (forall c, In c (children i) -> ty c <> t) /\ e = EIENotFound).
Proof.
  intros g i t e. unfold find_by_type. destruct (g (ty i)); cbn [negb].
  - assert (K : forall cs, find_loop t cs = Err e <-> (forall c, In c cs -> ty c <> t) /\ e = EIENotFound).
    { induction cs as [|c r IH]; cbn [find_loop].
      - split; [intros [= <-]; split; [intros c []|reflexivity]|now intros [_ ->]].
      - destruct (N.eqb_spec (ty c) t) as [E|E]; [split; [discriminate|intros [H _]; now contradiction (H c (or_introl eq_refl))]|].
        rewrite IH. split; intros [H ->]; split; trivial; [intros d [<-|I]; auto|intros d I; apply H; now right]. }
    rewrite K. split; [intros H; right; tauto|intros [[H _]|H]; [discriminate|tauto]].
  - split; [intros [= <-]; now left|intros [[_ ->]|[H _]]; [reflexivity|discriminate]].
Qed.
Print Assumptions C103_find.

(** Two errors with the same text are the same error, so the text tells which error it is, which type, which Node ID type (the errors of encoding/hex aside). *)
Theorem C103_text : forall e e', e <> EHex -> err_text e = err_text e' -> e = e'.
Proof. exact text_inj. Qed.
Print Assumptions C103_text.

(** MustAPNDNN: the name if APNDNN returns one, the empty string if it returns an error; it does not panic.  So a failure and an APN/DNN element with an
    empty payload cannot be told apart. *)
Theorem C103_must : forall g i, bytes (payload i) -> exists s, must_apndnn g i = Ok s /\
  (access g A_APNDNN i = Ok (VS s) \/ (s = [] /\ exists e, access g A_APNDNN i = Err e)).
Proof.
  intros g i B. unfold must_apndnn, access. cbn [Nat.mul Nat.add]. rewrite run_S. unfold look. cbn [acc_def guards check].
  destruct (negb (ty i =? T_APNDNN)%N); cbn [bind]; [exists []; split; [reflexivity|right; eauto]|].
  cbn [Access.lookup cases dflt leaf_run]. destruct (g (ty i)); [exists []; split; [reflexivity|right; eauto]|].
  destruct (@decode_fqdn_exact (payload i) B) as (ls & r & _ & _ & _ & E). rewrite E. exists (join_dot ls). split; [reflexivity|now left].
Qed.
Print Assumptions C103_must.

(** Each of the errors does appear. *)
Local Open Scope N_scope.
Example C103_ex_eof : parse default_grouped [0; 19; 0; 1] = Ok (mkIE 19 1 0 [] []) /\ parse default_grouped [0; 19; 0] = Err EUnexpectedEOF /\ parse default_grouped [0; 19; 0; 2; 1] = Err EUnexpectedEOF.
Proof. repeat split; vm_compute; reflexivity. Qed.
Example C103_ex_length : parseMultiIEs default_grouped [0; 19; 0; 1; 1; 128; 1; 0; 1; 0; 9] = Err EInvalidLength.
Proof. vm_compute. reflexivity. Qed.
(** a Session Establishment Request that holds such an element inside a Create PDR *)
Example C103_ex_message : parse_message default_grouped dispatch K_Generic
  [0x21; 50; 0; 22; 0;0;0;0;0;0;0;1; 0;0;1; 0; 0; 1; 0; 6; 128; 1; 0; 1; 0; 9] = Err EInvalidLength.
Proof. vm_compute. reflexivity. Qed.
Example C103_ex_nested : access default_grouped A_PDRID (new T_CreatePDR [128; 1; 0; 0; 0; 9]) = Err EInvalidLength.
Proof. vm_compute. reflexivity. Qed.
Example C103_ex_absent : access default_grouped A_PDRID (new T_CreatePDR [0; 19; 0; 1; 1]) = Err EIENotFound.
Proof. vm_compute. reflexivity. Qed.
Example C103_ex_type : access default_grouped A_PDRID (new 19 [1]) = Err (EInvalidTypeT 19) /\ err_text (EInvalidTypeT 19) = Some "got invalid type: 19"%string.
Proof. split; vm_compute; reflexivity. Qed.
Example C103_ex_malformed : access default_grouped A_NodeAddress (new T_FQCSID [48; 1; 2; 3; 4; 0; 1]) = Err EMalformed.
Proof. vm_compute. reflexivity. Qed.
Example C103_ex_node : access default_grouped A_NodeID (new T_NodeID [7; 1; 2]) = Err (EInvalidNodeID 7) /\ err_text (EInvalidNodeID 7) = Some "got invalid NodeID: 7"%string.
Proof. split; vm_compute; reflexivity. Qed.
Example C103_ex_other : access default_grouped A_FTEID (new T_CreatedTrafficEndpoint []) = Err EOther.
Proof. vm_compute. reflexivity. Qed.
(** the type of an InvalidTypeError need not be that of the element the accessor is called on *)
Example C103_ex_inner : exists g, access g A_PDRID (new T_CreatePDR [0; 56; 0; 0]) = Err (EInvalidTypeT 56).
Proof. exists (fun t => (t =? 56) || (t =? 1)). vm_compute. reflexivity. Qed.
Example C103_ex_must : must_apndnn default_grouped (new T_APNDNN [2; 104; 105; 1; 120]) = Ok [104; 105; 46; 120] /\
  must_apndnn default_grouped (new T_NetworkInstance [2; 104; 105]) = Ok [] /\ must_apndnn default_grouped (new T_APNDNN []) = Ok [].
Proof. repeat split; vm_compute; reflexivity. Qed.
Example C103_ex_find : find_by_type default_grouped (new 19 [1]) 19 = Err EInvalidType /\ find_by_type default_grouped (new T_CreatePDR []) 19 = Err EIENotFound.
Proof. split; vm_compute; reflexivity. Qed.
