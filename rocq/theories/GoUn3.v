(** UnmarshalBinary: the Go bodies against the models of Reuse.v, the remaining structs. *)
From Coq Require Import String.
From Verif Require Import Base Bits Codec Codec2 Utils Fields1 Time Fields2 Fields3 Fields4 Access Reuse Go GoFields GoRep GoProofs.
Set Implicit Arguments.
Open Scope string_scope.
Open Scope list_scope.
Open Scope nat_scope.

Lemma un_SDFFilter n b f : un_agrees rep_sdf b (call n go_un_SDFFilter (rep_sdf f) b) (sdf_unmarshal f b).
Proof.
  unfold go_un_SDFFilter, rep_sdf, sdf_unmarshal. start.
  blk (sNS "FDLength" "FlowDescription"). blk (sS "ToSTrafficClass"). blk (sS "SecurityParameterIndex"). blk (sS "FlowLabel"). blk (uN "SDFFilterID").
Qed.
Lemma un_RemoteGTPUPeer n b f : un_agrees rep_rpeer b (call n go_un_RemoteGTPUPeer (rep_rpeer f) b) (rpeer_unmarshal f b).
Proof.
  unfold go_un_RemoteGTPUPeer, rep_rpeer, rpeer_unmarshal. start.
  blk (sB "IPv4Address"). blk (sB "IPv6Address"). blk (sNN "DILength" "DestinationInterface").
  do 2 stepL. destruct (has4 a); repeat stepL; leaf.
Qed.
Lemma un_OuterHeaderCreation n b f : un_agrees rep_ohc b (call n go_un_OuterHeaderCreation (rep_ohc f) b) (ohc_unmarshal f b).
Proof.
  unfold go_un_OuterHeaderCreation, rep_ohc, ohc_unmarshal, oh_has_teid, oh_has_v4, oh_has_v6, oh_has_port. start.
  blk (sN "TEID"). blk (sB "IPv4Address"). blk (sB "IPv6Address"). blk (sN "PortNumber"). blk (sN "CTag"). blk (vN "STag").
Qed.
Lemma un_UserPlaneIPResourceInformation n b f : un_agrees rep_upri b (call n go_un_UserPlaneIPResourceInformation (rep_upri f) b) (upri_unmarshal f b).
Proof.
  unfold go_un_UserPlaneIPResourceInformation, rep_upri, upri_unmarshal, teidri. start.
  blk (sN "TEIDRange"). blk (sB "IPv4Address"). blk (sB "IPv6Address").
  do 2 stepL. destruct (has6 a); repeat stepL; leaf.
Qed.
