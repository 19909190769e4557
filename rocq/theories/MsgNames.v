(** Independent tables from 3GPP TS 29.244 Table 7.3-1: message type values and names, and which IE
    type each named field of a message struct is for. *)
From Coq Require Import String.
From Verif Require Import Base IETypes IENames.
Local Open Scope string_scope.
Local Open Scope N_scope.
Local Open Scope list_scope.

(** code, Go type name, human-readable name, is it a request *)
Definition ts_messages : list (N * (string * string * bool)) :=
  [(1, ("HeartbeatRequest", "Heartbeat Request", true));
   (2, ("HeartbeatResponse", "Heartbeat Response", false));
   (3, ("PFDManagementRequest", "PFD Management Request", true));
   (4, ("PFDManagementResponse", "PFD Management Response", false));
   (5, ("AssociationSetupRequest", "Association Setup Request", true));
   (6, ("AssociationSetupResponse", "Association Setup Response", false));
   (7, ("AssociationUpdateRequest", "Association Update Request", true));
   (8, ("AssociationUpdateResponse", "Association Update Response", false));
   (9, ("AssociationReleaseRequest", "Association Release Request", true));
   (10, ("AssociationReleaseResponse", "Association Release Response", false));
   (11, ("VersionNotSupportedResponse", "Version Not Supported Response", false));
   (12, ("NodeReportRequest", "Node Report Request", true));
   (13, ("NodeReportResponse", "Node Report Response", false));
   (14, ("SessionSetDeletionRequest", "Session Set Deletion Request", true));
   (15, ("SessionSetDeletionResponse", "Session Set Deletion Response", false));
   (50, ("SessionEstablishmentRequest", "Session Establishment Request", true));
   (51, ("SessionEstablishmentResponse", "Session Establishment Response", false));
   (52, ("SessionModificationRequest", "Session Modification Request", true));
   (53, ("SessionModificationResponse", "Session Modification Response", false));
   (54, ("SessionDeletionRequest", "Session Deletion Request", true));
   (55, ("SessionDeletionResponse", "Session Deletion Response", false));
   (56, ("SessionReportRequest", "Session Report Request", true));
   (57, ("SessionReportResponse", "Session Report Response", false))].

Fixpoint assocN {A} (t : N) (l : list (N * A)) : option A :=
  match l with [] => None | (t', a) :: r => if t =? t' then Some a else assocN t r end.
Definition ts_name (c : N) : string :=
  match assocN c ts_messages with Some (n, _, _) => n | None => "Generic" end.

(** Go struct fields whose name differs from the IE type they hold. *)
Definition renamed_fields : list (string * string) :=
  [("NFInstanceID", "UPFInstanceID"); ("FSEID", "CPFSEID"); ("FSEID", "UPFSEID"); ("FSEID", "OldCPFSEID");
   ("FTEID", "N4UFTEID"); ("CreatedTrafficEndpoint", "CreatedUpdatedTrafficEndpoint")].
(** In message msg, the field named f is for IE type t: a constant with value t is called f, or
    fWithin<msg>, or is one of the renamings above.  (Some values have two constants.) *)
Definition field_for (msg : string) (t : N) (f : string) : bool :=
  existsb (fun p => if fst p =? t then
     String.eqb (snd p) f || String.eqb (snd p) (f ++ "Within" ++ msg)%string ||
     existsb (fun q => String.eqb (fst q) (snd p) && String.eqb (snd q) f) renamed_fields
   else false) ie_type_names.
