(** The example programs examples/heartbeat/hb-server and hb-client.  A datagram is a list of octets; the socket, the flags and the log output
    are left out: [conn.ReadFrom(buf)] delivers the first 1500 octets of the next datagram and its sender, and log.Fatal on a socket error
    (among them the client's read deadline) ends the run.  Both programs keep the default IsGrouped function. *)
From Coq Require Import String.
From Verif Require Import Base IETypes IE Codec Header Message MsgTables Access AccTable AccRun New NewTable Fields1 Time.
Set Implicit Arguments.
Local Open Scope list_scope.

(** buf := make([]byte, 1500); n, addr, err := conn.ReadFrom(buf); buf[:n]: hb-server/main.go:38-45, hb-client/main.go:58-66 *)
Definition received (d : list N) : list N := firstn 1500 d.
(** the IE in the first field of the message, RecoveryTimeStamp in both structs *)
Definition first_field (m : msg) : option ie := match m_f m with FOne i :: _ => i | _ => None end.
(** x.RecoveryTimeStamp.RecoveryTimeStamp(): the method reads i.Type, which panics when the field is nil (ie/recovery-time-stamp.go:18-24) *)
Definition recovery_ts (m : msg) : res val :=
  match first_field m with None => Fault | Some i => access default_grouped A_RecoveryTimeStamp i end.

(** message.NewHeartbeatResponse(1, ie.NewRecoveryTimeStamp(time.Now())).Marshal(): hb-server/main.go:66-68 *)
Definition hb_response (now : Z) : res (list N) :=
  m <- msg_new default_grouped K_HeartbeatResponse (mkA 0 0 0 0 1 0) [Some (new T_RecoveryTimeStamp (new_timestamp now))] [] ;;
  ' (b, _) <- msg_marshal default_grouped K_HeartbeatResponse m ;; Ok b.

Section Server.
Variable addr : Type.
(** one turn of the server's loop, hb-server/main.go:39-76: what it sends, if anything; Err is log.Fatal, Fault a panic *)
Definition hb_server_turn (now : Z) (from : addr) (d : list N) : res (option (addr * list N)) :=
  match parse_message default_grouped dispatch K_Generic (received d) with
  | Err _ => Ok None
  | Ok (k, m) =>
      if String.eqb (k_name k) "HeartbeatRequest" then
        match recovery_ts m with
        | Err _ => Ok None
        | Ok _ => b <- hb_response now ;; Ok (Some (from, b))
        | Fault => Fault
        | Fuel => Fuel
        end
      else Ok None
  | Fault => Fault
  | Fuel => Fuel
  end.
(** the loop over the datagrams that arrive, each with the time it is handled at: what is sent, and whether the server still runs *)
Fixpoint hb_server (evs : list (Z * addr * list N)) : list (addr * list N) * bool :=
  match evs with
  | [] => ([], true)
  | (now, from, d) :: r =>
      match hb_server_turn now from d with
      | Ok o => let '(out, alive) := hb_server r in (match o with Some x => x :: out | None => out end, alive)
      | _ => ([], false)
      end
  end.
End Server.

(** net.ParseIP("127.0.0.1") and net.ParseIP("2001::1"): 16 octets each *)
Definition local4 : list N := [0; 0; 0; 0; 0; 0; 0; 0; 0; 0; 255; 255; 127; 0; 0; 1]%N.
Definition local6 : list N := [0x20; 0x01; 0; 0; 0; 0; 0; 0; 0; 0; 0; 0; 0; 0; 0; 1]%N.
(** message.NewHeartbeatRequest(1, ie.NewRecoveryTimeStamp(time.Now()), ie.NewSourceIPAddress(…, …, 0)).Marshal(): hb-client/main.go:39-47;
    NewSourceIPAddress: ie/source-ip-address.go:13-22 *)
Definition hb_request (now : Z) : res (list N) :=
  let src := match srcip_marshal (new_srcip (Some local4) (Some local6) 0) with Ok p => Ok (Some (new T_SourceIPAddress p)) | Err _ => Ok None | Fault => Fault | Fuel => Fuel end in
  s <- src ;;
  m <- msg_new default_grouped K_HeartbeatRequest (mkA 0 0 0 0 1 0) [Some (new T_RecoveryTimeStamp (new_timestamp now)); s] [] ;;
  ' (b, _) <- msg_marshal default_grouped K_HeartbeatRequest m ;; Ok b.

(** how the client ends: still reading (the deadline then ends it), with a time stamp, with a response whose time stamp does not decode, or with a panic *)
Inductive outcome := Waiting | Got (v : val) | GotInvalid | Crashed.
(** hb-client/main.go:58-84 *)
Fixpoint hb_client (ds : list (list N)) : outcome :=
  match ds with
  | [] => Waiting
  | d :: r =>
      match parse_message default_grouped dispatch K_Generic (received d) with
      | Err _ => hb_client r
      | Ok (k, m) =>
          if String.eqb (k_name k) "HeartbeatResponse" then
            match recovery_ts m with Ok v => Got v | Err _ => GotInvalid | _ => Crashed end
          else hb_client r
      | _ => Crashed
      end
  end.
