(** UnmarshalBinary: the Go bodies against the models of Reuse.v, structs with strings. *)
From Coq Require Import String.
From Verif Require Import Base Bits Codec Codec2 Utils Fields1 Time Fields2 Fields3 Fields4 Access Reuse Go GoFields GoRep GoProofs.
Set Implicit Arguments.
Open Scope string_scope.
Open Scope list_scope.
Open Scope nat_scope.

Lemma un_HeaderEnrichment n b f : un_agrees rep_henr b (call n go_un_HeaderEnrichment (rep_henr f) b) (henr_unmarshal f b).
Proof. unfold go_un_HeaderEnrichment, rep_henr, henr_unmarshal, henr_parse. start. Qed.
Lemma un_RedirectInformation n b f : un_agrees rep_redir b (call n go_un_RedirectInformation (rep_redir f) b) (redir_unmarshal f b).
Proof.
  unfold go_un_RedirectInformation, rep_redir, redir_unmarshal. start. change (1 + 2) with 3 in *.
  rewrite Heqr0 in Heqr2. injection Heqr2 as <-. cbn [bind]. repeat rightL. cbn [bind]. do 2 stepL. destruct (unbe a0); cbn [N.eqb negb]; pre.
Qed.
Lemma un_PacketRate n b f : un_agrees rep_prate b (call n go_un_PacketRate (rep_prate f) b) (prate_unmarshal f b).
Proof.
  unfold go_un_PacketRate, rep_prate, prate_unmarshal, rd_rate. start.
  blk (sNN "UplinkTimeUnit" "UplinkPacketRate").
  blk (fun s (p : N * N * nat) => setf "DownlinkPacketRate" (GN (snd (fst p))) (setf "DownlinkTimeUnit" (GN (fst (fst p))) s)).
Qed.
(** the two reads under one flag *)
Definition rd_pair (c d : bool) b o (x y : N) : res (N * N * nat) :=
  if c then '(u, o) <- rdn true 2 b o 0 ;; '(a, o) <- rdn d 2 b o y ;; Ok (u, a, o) else Ok (x, y, o).
Lemma rd_pair_split {A} c d b o x y (k : N -> N -> nat -> res A) :
  ('(u, o) <- rdn c 2 b o x ;; '(a, o) <- rdn (c && d) 2 b o y ;; k u a o) = ('(u, a, o) <- rd_pair c d b o x y ;; k u a o).
Proof.
  unfold rd_pair. destruct c; cbn [andb]; [|reflexivity].
  change (rdn true 2 b o x) with (rdn true 2 b o 0). destruct (rdn true 2 b o 0) as [[u o1]| | |]; cbn [bind]; [|easy..].
  now destruct (rdn d 2 b o1 y) as [[a o2]| | |].
Qed.
Lemma un_PacketRateStatus n b f : un_agrees rep_prstat b (call n go_un_PacketRateStatus (rep_prstat f) b) (prstat_unmarshal f b).
Proof.
  unfold go_un_PacketRateStatus, rep_prstat, prstat_unmarshal. start.
  rewrite (rd_pair_split _ _ _ _ _ _ (fun u v o => _)).
  unfold rd_pair at 1. blk (sNN "NumberOfRemainingUplinkPacketsAllowed" "NumberOfRemainingAdditionalUplinkPacketsAllowed").
  rewrite (rd_pair_split _ _ _ _ _ _ (fun u v o => _)).
  unfold rd_pair at 1. blk (sNN "NumberOfRemainingDownlinkPacketsAllowed" "NumberOfRemainingAdditionalDownlinkPacketsAllowed").
Qed.
Lemma un_UserID n b f : un_agrees rep_userid b (call n go_un_UserID (rep_userid f) b) (userid_unmarshal f b).
Proof.
  unfold go_un_UserID, rep_userid, userid_unmarshal. start.
  blk (sNS "IMSILength" "IMSI"). blk (sNS "IMEILength" "IMEI"). blk (sNS "MSISDNLength" "MSISDN").
  do 2 stepL. destruct (has4 a); unfold orold at 1; [unfold rd8s|]; repeat step; leaf.
Qed.
Lemma un_TraceInformation n b f : un_agrees rep_trace b (call n go_un_TraceInformation (rep_trace f) b) (trace_unmarshal f b).
Proof. unfold go_un_TraceInformation, rep_trace, trace_unmarshal. start. Qed.
