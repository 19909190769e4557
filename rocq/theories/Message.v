(** Model of package message: the 23 PFCP messages, Generic and Parse.

    All message files follow one template; a [kind] records what differs between them (struct fields,
    switch cases, field orders; MsgTables.v) and the functions below are the template, with each Go
    method a function of the kind.  The line numbers cited are those of
    message/pfd-management-request.go, the same statements occur in every file.

    Simplifications: Header is never nil (a zero message value whose Header is nil panics in every
    method and is excluded here; see Failed.v for it); a nil IE is [None]. *)
From Coq Require Import String.
From Verif Require Import Base IETypes IE Header.
Set Implicit Arguments.
Local Open Scope N_scope.
Local Open Scope list_scope.

(** What a switch case does with i: [m.F = i] or [m.F = append(m.F, i)]. *)
Inductive act := ASet (f : nat) | AApp (f : nat).
(** Constructors either store positional parameters in fields, or run a switch over ies. *)
Inductive ctor := CFields (fs : list nat) | CSwitch (cases : list (N * act)).
(** Arguments given to NewHeader: (1,0,0,0,code,0,seq,0), (1,fo,mp,1,code,seid,seq,pri) or
    (1,0,0,1,msgType,seid,seq,0). *)
Inductive hstyle := HNode | HSession | HGeneric.
(** What UnmarshalBinary does with IEs not in the switch: append to m.IEs or (Generic) overwrite it. *)
Inductive iemode := IAppend | IReplace.

(** IsRequest of each message (tools/wrappers.py): message/association-release-request.go:144-146, message/association-release-response.go:157-159,
    message/association-setup-request.go:319-321, message/association-setup-response.go:305-307, message/association-update-request.go:291-293,
    message/association-update-response.go:193-195, message/generic.go:148-150, message/heartbeat-request.go:169-171,
    message/heartbeat-response.go:153-155, message/node-report-request.go:221-223, message/node-report-response.go:170-172,
    message/pfd-management-request.go:151-153, message/pfd-management-response.go:171-173, message/session-deletion-request.go:124-126,
    message/session-deletion-response.go:224-226, message/session-establishment-request.go:447-449, message/session-establishment-response.go:307-309,
    message/session-modification-request.go:669-671, message/session-modification-response.go:323-325, message/session-report-request.go:307-309,
    message/session-report-response.go:235-237, message/session-set-deletion-request.go:157-159, message/session-set-deletion-response.go:170-172,
    message/version-not-supported-response.go:124-126 *)
(** MessageTypeName of each message (tools/wrappers.py): message/association-release-request.go:134-136,
    message/association-release-response.go:147-149, message/association-setup-request.go:309-311, message/association-setup-response.go:295-297,
    message/association-update-request.go:281-283, message/association-update-response.go:183-185, message/generic.go:132-134,
    message/heartbeat-request.go:159-161, message/heartbeat-response.go:143-145, message/node-report-request.go:211-213,
    message/node-report-response.go:160-162, message/pfd-management-request.go:141-143, message/pfd-management-response.go:161-163,
    message/session-deletion-request.go:114-116, message/session-deletion-response.go:214-216, message/session-establishment-request.go:437-439,
    message/session-establishment-response.go:297-299, message/session-modification-request.go:659-661,
    message/session-modification-response.go:313-315, message/session-report-request.go:297-299, message/session-report-response.go:225-227,
    message/session-set-deletion-request.go:147-149, message/session-set-deletion-response.go:160-162,
    message/version-not-supported-response.go:114-116 *)
Record kind := mkKind {
  k_name : string;
  k_code : N;
  k_fields : list (string * bool);    (* struct fields; true = []*ie.IE, false = *ie.IE *)
  k_hstyle : hstyle;
  k_ctor : ctor;
  k_mode : iemode;
  k_switch : list (N * act);          (* UnmarshalBinary *)
  k_write : list nat;                 (* MarshalTo *)
  k_count : list nat;                 (* MarshalLen *)
  k_setlen : option (list nat);       (* None: MarshalLen()-4; Some: its own sum, no nil check *)
  k_typename : option string;         (* MessageTypeName *)
  k_isreq : bool                      (* IsRequest *)
}.

(** A struct field: *ie.IE or []*ie.IE *)
Inductive fval := FOne (i : option ie) | FMany (l : list (option ie)).
(** A message value. *)
Record msg := mkM { m_h : header; m_f : list fval; m_ies : list (option ie) }.

Definition zero_field (multi : bool) : fval := if multi then FMany [] else FOne None.
(** the zero value [&X{}], with the header h *)
Definition zero_msg (k : kind) (h : header) : msg :=
  mkM h (map (fun f => zero_field (snd f)) (k_fields k)) [].

Section Msg.
Variable g : N -> bool.   (* isGroupedFun *)

Fixpoint lookup {A} (t : N) (l : list (N * A)) : option A :=
  match l with [] => None | (t', a) :: r => if t =? t' then Some a else lookup t r end.
Fixpoint upd {A} (l : list A) (n : nat) (x : A) : list A :=
  match l, n with [] , _ => [] | _ :: r, O => x :: r | y :: r, S n => y :: upd r n x end.

(** one iteration of [for _, i := range ies { switch i.Type {...} }],
    pfd-management-request.go:105-112 (and :28-35 in the constructor).  A case that stores into
    a field of the other shape does not type-check in Go and is [Fault] here. *)
Definition store (cases : list (N * act)) (m : msg) (i : ie) : res msg :=
  match lookup (ty i) cases with
  | Some (ASet n) =>
      match nth_error (m_f m) n with
      | Some (FOne _) => Ok (mkM (m_h m) (upd (m_f m) n (FOne (Some i))) (m_ies m))
      | _ => Fault
      end
  | Some (AApp n) =>
      match nth_error (m_f m) n with
      | Some (FMany l) => Ok (mkM (m_h m) (upd (m_f m) n (FMany (l ++ [Some i]))) (m_ies m))
      | _ => Fault
      end
  | None => Ok (mkM (m_h m) (m_f m) (m_ies m ++ [Some i]))
  end.
Fixpoint store_all (cases : list (N * act)) (m : msg) (is : list ie) : res msg :=
  match is with [] => Ok m | i :: r => m' <- store cases m i ;; store_all cases m' r end.

(** UnmarshalBinary on receiver m0, pfd-management-request.go:90-115; generic.go:91-106.
    The receiver is returned only on success. *)
Definition msg_unmarshal (k : kind) (m0 : msg) (b : list N) : res msg :=
  h <- parse_header b ;;
  if (length (h_payload h) <? 2)%nat then Ok (mkM h (m_f m0) (m_ies m0)) else
  ies <- parseMultiIEs g (h_payload h) ;;
  match k_mode k with
  | IReplace => Ok (mkM h (m_f m0) (map Some ies))
  | IAppend => store_all (k_switch k) (mkM h (m_f m0) (m_ies m0)) ies
  end.
(** The wrappers ParseX (tools/wrappers.py): message/association-release-request.go:74-80, message/association-release-response.go:82-88,
    message/association-setup-request.go:189-195, message/association-setup-response.go:180-186, message/association-update-request.go:171-177,
    message/association-update-response.go:108-114, message/generic.go:82-88, message/heartbeat-request.go:82-88, message/heartbeat-response.go:74-80,
    message/node-report-request.go:126-132, message/node-report-response.go:90-96, message/pfd-management-request.go:81-87,
    message/pfd-management-response.go:84-90, message/session-deletion-request.go:65-71, message/session-deletion-response.go:129-135,
    message/session-establishment-request.go:272-278, message/session-establishment-response.go:182-188,
    message/session-modification-request.go:414-420, message/session-modification-response.go:193-199, message/session-report-request.go:182-188,
    message/session-report-response.go:135-141, message/session-set-deletion-request.go:82-88, message/session-set-deletion-response.go:90-96,
    message/version-not-supported-response.go:65-71 *)
(** ParseX, pfd-management-request.go:81-87 *)
Definition msg_parse (k : kind) (b : list N) : res msg := msg_unmarshal k (zero_msg k zero_header) b.

(** MarshalLen on a possibly nil *IE in a loop without nil check *)
Definition ie_len (i : option ie) : res nat := match i with Some i => Ok (mlen g i) | None => Fault end.
Fixpoint sum_len (l : list (option ie)) : res nat :=
  match l with [] => Ok O | i :: r => a <- ie_len i ;; s <- sum_len r ;; Ok (a + s)%nat end.
(** [if ie == nil { continue }] loops *)
Fixpoint sum_len_nil (l : list (option ie)) : nat :=
  match l with [] => O | None :: r => sum_len_nil r | Some i :: r => (mlen g i + sum_len_nil r)%nat end.
(** [if i := m.F; i != nil { l += i.MarshalLen() }] / [for _, i := range m.F { l += i.MarshalLen() }] *)
Definition field_len (v : fval) : res nat :=
  match v with FOne None => Ok O | FOne (Some i) => Ok (mlen g i) | FMany l => sum_len l end.
Fixpoint fields_len (fs : list fval) (order : list nat) : res nat :=
  match order with
  | [] => Ok O
  | n :: r => match nth_error fs n with
              | Some v => a <- field_len v ;; s <- fields_len fs r ;; Ok (a + s)%nat
              | None => Fault
              end
  end.

(** MarshalLen, pfd-management-request.go:118-133 *)
Definition msg_len (k : kind) (m : msg) : res nat :=
  let l := (h_mlen (m_h m) - length (h_payload (m_h m)))%nat in
  s <- fields_len (m_f m) (k_count k) ;;
  Ok (l + s + sum_len_nil (m_ies m))%nat.

(** SetLength, pfd-management-request.go:136-138; generic.go:123-129, heartbeat-request.go:142-156,
    heartbeat-response.go:129-140, pfd-management-response.go:144-158 without a nil check on IEs. *)
Definition with_h (m : msg) (h : header) : msg := mkM h (m_f m) (m_ies m).
Definition with_length (h : header) (l : N) : header :=
  mkH (h_flags h) (h_type h) l (h_seid h) (h_seq h) (h_prio h) (h_payload h).
Definition with_payload (h : header) (p : list N) : header :=
  mkH (h_flags h) (h_type h) (h_length h) (h_seid h) (h_seq h) (h_prio h) p.
Definition msg_set_length (k : kind) (m : msg) : res msg :=
  match k_setlen k with
  | None => l <- msg_len k m ;; Ok (with_h m (with_length (m_h m) (u16 (N.of_nat (l - 4)))))
  | Some order =>
      let l := (h_mlen (m_h m) - length (h_payload (m_h m)) - 4)%nat in
      s <- fields_len (m_f m) order ;;
      t <- sum_len (m_ies m) ;;
      Ok (with_h m (with_length (m_h m) (u16 (N.of_nat (l + s + t)))))
  end.

(** [i.MarshalTo(m.Payload[offset:]); offset += i.MarshalLen()] *)
Definition write_ie (st : list N * nat) (i : ie) : res (list N * nat) :=
  let '(p, offset) := st in
  t <- from p offset ;;
  t' <- marshal_to g i t ;;
  Ok (firstn offset p ++ t', (offset + mlen g i)%nat).
Fixpoint write_all (st : list N * nat) (l : list (option ie)) : res (list N * nat) :=
  match l with
  | [] => Ok st
  | None :: _ => Fault
  | Some i :: r => st' <- write_ie st i ;; write_all st' r
  end.
Fixpoint write_nil (st : list N * nat) (l : list (option ie)) : res (list N * nat) :=
  match l with
  | [] => Ok st
  | None :: r => write_nil st r
  | Some i :: r => st' <- write_ie st i ;; write_nil st' r
  end.
Definition write_field (st : list N * nat) (v : fval) : res (list N * nat) :=
  match v with FOne None => Ok st | FOne (Some i) => write_ie st i | FMany l => write_all st l end.
Fixpoint write_fields (st : list N * nat) (fs : list fval) (order : list nat) : res (list N * nat) :=
  match order with
  | [] => Ok st
  | n :: r => match nth_error fs n with
              | Some v => st' <- write_field st v ;; write_fields st' fs r
              | None => Fault
              end
  end.

(** MarshalTo, pfd-management-request.go:52-78.  It rewrites the message's own Header (Payload and
    Length), so the new message is returned next to the buffer. *)
Definition msg_marshal_to (k : kind) (m : msg) (b : list N) : res (list N * msg) :=
  let m := with_h m (with_payload (m_h m) []) in
  l <- msg_len k m ;;
  let p := make (l - h_mlen (m_h m)) in
  st <- write_fields (p, O) (m_f m) (k_write k) ;;
  '(p, offset) <- write_nil st (m_ies m) ;;
  let h := h_set_length (with_payload (m_h m) p) in
  b' <- h_marshal_to h b ;;
  Ok (b', with_h m h).
(** Marshal, pfd-management-request.go:42-49 *)
Definition msg_marshal (k : kind) (m : msg) : res (list N * msg) :=
  l <- msg_len k m ;; msg_marshal_to k m (make l).

(** Constructor arguments.  [a_type] is used by NewGeneric only. *)
Record args := mkA { a_type : N; a_mp : N; a_fo : N; a_seid : N; a_seq : N; a_pri : N }.
Definition ctor_header (k : kind) (a : args) : header :=
  match k_hstyle k with
  | HNode => new_header 1 0 0 0 (k_code k) 0 (a_seq a) 0 []
  | HSession => new_header 1 (a_fo a) (a_mp a) 1 (k_code k) (a_seid a) (a_seq a) (a_pri a) []
  | HGeneric => new_header 1 0 0 1 (a_type a) (a_seid a) (a_seq a) 0 []
  end.
Fixpoint set_fields (fs : list fval) (order : list nat) (params : list (option ie)) : list fval :=
  match order, params with
  | n :: r, p :: ps => set_fields (upd fs n (FOne p)) r ps
  | _, _ => fs
  end.
(** the switch over ies in a constructor; [i.Type] on a nil i panics *)
Fixpoint store_opts (cases : list (N * act)) (m : msg) (l : list (option ie)) : res msg :=
  match l with
  | [] => Ok m
  | None :: _ => Fault
  | Some i :: r => m' <- store cases m i ;; store_opts cases m' r
  end.
(** NewX(…, params…, ies…), e.g. pfd-management-request.go:19-39, heartbeat-request.go:20-34 *)
Definition msg_new (k : kind) (a : args) (params ies : list (option ie)) : res msg :=
  let m := zero_msg k (ctor_header k a) in
  match k_ctor k with
  | CFields fs => msg_set_length k (mkM (m_h m) (set_fields (m_f m) fs params) ies)
  | CSwitch cases => m' <- store_opts cases m ies ;; msg_set_length k m'
  end.
(** NewGenericWithoutSEID, generic.go:35-47 (k is K_Generic) *)
Definition msg_new_generic_noseid (k : kind) (mtype seq : N) (ies : list (option ie)) : res msg :=
  msg_set_length k (mkM (new_header 1 0 0 0 mtype 0 seq 0 []) (m_f (zero_msg k zero_header)) ies).
(** AddIE, generic.go:142-145 *)
Definition generic_add_ie (k : kind) (m : msg) (ies : list (option ie)) : res msg :=
  msg_set_length k (mkM (m_h m) (m_f m) (m_ies m ++ ies)).

(** Parse, message/message.go:60-122, given the switch as a table and the default kind.
    The logger call in the default case is modelled separately (Logger.v). *)
Definition parse_message (dispatch : list (N * kind)) (dflt : kind) (b : list N) : res (kind * msg) :=
  if (length b <? 2)%nat then Err EUnexpectedEOF else
  c <- index b 1 ;;
  let k := match lookup c dispatch with Some k => k | None => dflt end in
  m <- msg_parse k b ;; Ok (k, m).

(** promoted Header methods *)
Definition msg_type (m : msg) : N := h_message_type (m_h m).       (* MessageType() *)
(** SEID of each message (tools/wrappers.py): message/association-release-request.go:139-141, message/association-release-response.go:152-154,
    message/association-setup-request.go:314-316, message/association-setup-response.go:300-302, message/association-update-request.go:286-288,
    message/association-update-response.go:188-190, message/generic.go:137-139, message/heartbeat-request.go:164-166,
    message/heartbeat-response.go:148-150, message/node-report-request.go:216-218, message/node-report-response.go:165-167,
    message/pfd-management-request.go:146-148, message/pfd-management-response.go:166-168, message/session-deletion-request.go:119-121,
    message/session-deletion-response.go:219-221, message/session-establishment-request.go:442-444, message/session-establishment-response.go:302-304,
    message/session-modification-request.go:664-666, message/session-modification-response.go:318-320, message/session-report-request.go:302-304,
    message/session-report-response.go:230-232, message/session-set-deletion-request.go:152-154, message/session-set-deletion-response.go:165-167,
    message/version-not-supported-response.go:119-121 *)
Definition msg_seid (m : msg) : N := h_get_seid (m_h m).           (* SEID(), pfd-management-request.go:146-148 *)
Definition msg_seq (m : msg) : N := h_sequence (m_h m).            (* Sequence() *)
End Msg.
