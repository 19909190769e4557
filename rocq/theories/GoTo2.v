(** MarshalTo of the XxxFields structs: the Go bodies and the hand-written models agree. Strings, times and the rest. *)
From Coq Require Import String.
From Verif Require Import Base Bits Codec Codec2 Utils Fields1 Time Fields2 Fields3 Fields4 Access Reuse Go GoFields GoRep GoProofs GoTo.
Set Implicit Arguments.
Open Scope string_scope.
Open Scope list_scope.
Open Scope nat_scope.

Lemma to_TraceInformation n b f : to_agrees (call n go_to_TraceInformation (rep_trace f) b) (trace_marshal_to f b).
Proof. unfold go_to_TraceInformation, rep_trace, trace_marshal_to. startT. Qed.
Lemma to_UserID n b f : to_agrees (call n go_to_UserID (rep_userid f) b) (userid_marshal_to f b).
Proof. unfold go_to_UserID, rep_userid, userid_marshal_to. startT. blkT wO. blkT wO. blkT wO. endT. Qed.
Lemma to_SDFFilter n b f : to_agrees (call n go_to_SDFFilter (rep_sdf f) b) (sdf_marshal_to f b).
Proof. unfold go_to_SDFFilter, rep_sdf, sdf_marshal_to. startT. blkT wO. blkT wO. blkT wO. blkT wO. blkT wU. Qed.
Lemma to_OuterHeaderCreation n b f : to_agrees (call n go_to_OuterHeaderCreation (rep_ohc f) b) (ohc_marshal_to f b).
Proof. unfold go_to_OuterHeaderCreation, rep_ohc, ohc_marshal_to. unfold oh_has_teid, oh_has_v4, oh_has_v6, oh_has_port, oct5. startT. blkO wO. blkO wO. blkO wO. blkO wU. blkO wO. blkO wU. Qed.
Lemma to_RedirectInformation n b f : to_agrees (call n go_to_RedirectInformation (rep_redir f) b) (redir_marshal_to f b).
Proof. unfold go_to_RedirectInformation, rep_redir, redir_marshal_to. startT. destruct (ri_other f); endT. Qed.
Lemma to_HeaderEnrichment n b f : to_agrees (call n go_to_HeaderEnrichment (rep_henr f) b) (henr_marshal_to f b).
Proof. unfold go_to_HeaderEnrichment, rep_henr, henr_marshal_to. startT. Qed.
Lemma to_RemoteGTPUPeer n b f : to_agrees (call n go_to_RemoteGTPUPeer (rep_rpeer f) b) (rpeer_marshal_to f b).
Proof. unfold go_to_RemoteGTPUPeer, rep_rpeer, rpeer_marshal_to. startT. blkT wO. blkT wO. blkT wO. endT. Qed.
Lemma to_UserPlaneIPResourceInformation n b f : (up_range f < 256)%N -> (up_si f < 256)%N -> to_agrees (call n go_to_UserPlaneIPResourceInformation (rep_upri f) b) (upri_marshal_to f b).
Proof. intros H1 H2. unfold go_to_UserPlaneIPResourceInformation, rep_upri, upri_marshal_to. unfold teidri. startT. blkT wO. blkT wO. blkT wO. blkT wO. blkT wU. Qed.
Lemma to_PacketRateStatus n b f : to_agrees (call n go_to_PacketRateStatus (rep_prstat f) b) (prstat_marshal_to f b).
Proof. unfold go_to_PacketRateStatus, rep_prstat, prstat_marshal_to. startT. endT. Qed.
Lemma to_MACAddress n b f : to_agrees (call n go_to_MACAddress (rep_macaddr f) b) (macaddr_marshal_to f b).
Proof. unfold go_to_MACAddress, rep_macaddr, macaddr_marshal_to. startT. blkT wO. blkT wO. blkT wO. blkT wU. Qed.
Lemma to_PacketRate n b f : (pr_uunit f < 256)%N -> (pr_dunit f < 256)%N -> to_agrees (call n go_to_PacketRate (rep_prate f) b) (prate_marshal_to f b).
Proof. intros H1 H2. unfold go_to_PacketRate, rep_prate, prate_marshal_to. startT. rewrite rate_pair by exact H1. blkT wO. rewrite rate_pair by exact H2. endT. Qed.
