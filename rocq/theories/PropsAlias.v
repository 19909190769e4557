(** Property C44: which memory decoded and encoded values share. *)
From Coq Require Import String.
From Verif Require Import Base IETypes IE IEProofs IEProofs2 Header HeaderSpec HeaderProofs Message MsgSpec MsgProofs MsgProofs2 MsgTables MsgProps Alias AliasProofs AliasProofs2.
Local Open Scope nat_scope.
Local Open Scope list_scope.

(** Parse(b) keeps windows of b.  The IE it returns reads, in any later memory, exactly the octets
    then found at those fixed positions of b; type, length, enterprise ID and tree shape are copies. *)
Theorem C44_parse : forall g h b x, valid h b -> parse g (rd h b) = Ok x ->
  exists i w, sparse g h b = Ok i /\ view h i = x /\ inside w (slen b) /\
    forall h', view h' i = fill (rd h' b) w.
Proof. exact parse_windows. Qed.
Print Assumptions C44_parse.
Theorem C44_parse_multi : forall g h b xs, valid h b -> parseMultiIEs g (rd h b) = Ok xs ->
  exists is ws, sparseMultiIEs g h b = Ok is /\ map (view h) is = xs /\ Forall (fun w => inside w (slen b)) ws /\
    forall h', map (view h') is = map (fill (rd h' b)) ws.
Proof. exact parseMulti_windows. Qed.
Print Assumptions C44_parse_multi.
Theorem C44_parse_message : forall g h b k m, valid h b -> bytes (rd h b) -> parse_msg g (rd h b) = Ok (k, m) ->
  exists hd is ws, sparse_body g h b = Ok (hd, is) /\ m = message_of k hd (map (view h) is) /\
    Forall (fun w => inside w (slen b)) ws /\ forall h', map (view h') is = map (fill (rd h' b)) ws.
Proof. exact message_windows. Qed.
Print Assumptions C44_parse_message.
(** in memory, Parse fails exactly when the value-level Parse fails *)
Theorem C44_parse_fails : forall g h b e, valid h b -> (sparse g h b = Err e <-> parse g (rd h b) = Err e).
Proof.
  intros g h b e V. rewrite <- (sparse_sim g h b V). destruct (sparse g h b); cbn; split; intros H; try discriminate; congruence.
Qed.
Print Assumptions C44_parse_fails.
(** writes that do not touch the buffer leave the decoded IE alone *)
Theorem C44_unrelated_writes : forall g h b i ws, valid h b -> sparse g h b = Ok i ->
  Forall (fun w => valid h (through w) /\ disjoint b (through w)) ws -> view (do_writes h ws) i = view h i.
Proof.
  intros g h b i ws V E H. destruct (sparse_within g h b i V E) as [_ Wn]. destruct (win_of i b Wn) as (w & _ & W).
  rewrite !W. now rewrite do_writes_other.
Qed.
Print Assumptions C44_unrelated_writes.
(** Marshal returns a new array: nothing that existed changes, no later write through a slice that
    existed before reaches the result, and no write to the result reaches anything else. *)
Theorem C44_marshal : forall g h i, all_valid h i ->
  exists s h1, smarshal g i h = Ok (s, h1) /\ marshal g (view h i) = Ok (rd h1 s) /\
    (forall a, a < length h -> array h1 a = array h a) /\
    (forall ws, Forall (fun w => valid h (through w)) ws -> rd (do_writes h1 ws) s = rd h1 s) /\
    (forall ws, Forall (fun w => within (through w) s) ws -> forall t, valid h t -> rd (do_writes h1 ws) t = rd h t).
Proof. exact marshal_fresh. Qed.
Print Assumptions C44_marshal.
(** MarshalTo writes into the given slice only, and with the octets of Marshal, provided no payload
    of the IE overlaps that slice *)
Theorem C44_marshal_to : forall g h i b, valid h b -> (forall s, In s (slices i) -> valid h s /\ disjoint s b) ->
  mlen g (view h i) <= slen b ->
  exists h' bs, smarshal_to g i b h = Ok h' /\ marshal g (view h i) = Ok bs /\
    rd h' b = bs ++ skipn (length bs) (rd h b) /\ (forall s, disjoint s b -> rd h' s = rd h s).
Proof.
  intros g h i b V C L. pose proof (smarshal_to_agree g i b h V C) as A.
  rewrite marshal_to_fits in A by (rewrite (rd_length _ _ V); exact L). cbn [agree] in A.
  destruct A as (h' & E & R & _ & _ & F). exists h', (enc g (view h i)). rewrite marshal_ok, enc_length. auto.
Qed.
Print Assumptions C44_marshal_to.
(** a message's Marshal: the returned octets and the payload left in the message are two new arrays *)
Theorem C44_marshal_message : forall g k h is m, In k kinds -> shaped k m -> Forall no_nil (m_f m) ->
  body_ies m = map (view h) is -> (forall i, In i is -> all_valid h i) ->
  exists b p h1 m1, smsg_marshal g (m_h m) is h = Ok (b, p, h1) /\
    msg_marshal g k m = Ok (rd h1 b, m1) /\ h_payload (m_h m1) = rd h1 p /\
    (forall a, a < length h -> array h1 a = array h a) /\
    (forall ws, Forall (fun w => valid h (through w) \/ within (through w) p) ws -> rd (do_writes h1 ws) b = rd h1 b).
Proof.
  intros g k h is m Ik Sh Nn B V. pose proof (smsg_marshal_ok g (m_h m) is h V) as E. cbv zeta in E.
  eexists _, _, _, _. split; [exact E|]. rewrite (@msg_marshal_ok g k (kind_consistent Ik) m Sh Nn).
  unfold final_header. rewrite B. set (body := encs g (map (view h) is)). set (bs := henc _).
  assert (N1 : forall (x y : list N), nth (length h) (h ++ [x; y]) [] = x) by (intros; rewrite app_nth2, Nat.sub_diag by lia; reflexivity).
  assert (N2 : forall (x y : list N), nth (S (length h)) (h ++ [x; y]) [] = y) by (intros; rewrite app_nth2 by lia; now replace (S (length h) - length h) with 1 by lia).
  assert (Rb : rd (h ++ [bs; body]) (mkSl (length h) 0 (length bs)) = bs) by (unfold rd, array; cbn [arr off slen skipn]; rewrite N1; apply firstn_all).
  split; [now rewrite Rb|]. split. { unfold rd, array. cbn [arr off slen skipn]. rewrite N2, firstn_all. reflexivity. }
  split. { intros a La. unfold array. now apply app_nth1. }
  intros ws H. apply do_writes_other. eapply Forall_impl; [|exact H]. cbn beta. intros w [Vw|Ww].
  - split.
    + change [bs; body] with ([bs] ++ [body]). rewrite app_assoc. now repeat apply valid_app.
    + unfold disjoint. destruct Vw as [Z|[A _]]; [now (right; left)|]. right. right. left. cbn. lia.
  - split.
    + eapply within_valid; [exact Ww|]. right. cbn [arr off slen]. rewrite app_length. cbn [length]. split; [lia|]. unfold array. rewrite N2. lia.
    + eapply disjoint_within; [|exact Ww]. right. right. left. cbn. lia.
Qed.
Print Assumptions C44_marshal_message.
(** New(t, data) keeps data itself *)
Theorem C44_new : forall t data h', view h' (snew t data) =
  mkIE t (u16 ((if vendor t then 2 else 0) + N.of_nat (slen data))) 0 (rd h' data) [].
Proof. reflexivity. Qed.
Print Assumptions C44_new.
(** NewGroupedIE(t, e, ies...): the payload is a copy made at that moment, the children are the
    given IEs, so later writes to their data show in ChildIEs but never in Payload *)
Theorem C44_new_grouped : forall g t e is h, (forall i, In i is -> all_valid h i) ->
  exists i h', snew_grouped g t e is h = Ok (i, h') /\
    view h' i = mkIE t (u16 ((if vendor t then 2 else 0) + lenN (encs g (map (view h) is)))%N) e (encs g (map (view h) is)) (map (view h) is) /\
    (forall s, valid h s -> rd h' s = rd h s) /\
    (forall ws, Forall (fun w => valid h (through w)) ws ->
       view (do_writes h' ws) i = mkIE t (len (view h' i)) e (payload (view h' i)) (map (view (do_writes h' ws)) is)).
Proof. exact snew_grouped_ok. Qed.
Print Assumptions C44_new_grouped.

(** "the decoded value is independent of the buffer" is false *)
Theorem C44_refuted : exists h b i w, valid h b /\ sparse default_grouped h b = Ok i /\
  valid h (through w) /\ payload (view h i) <> payload (view (do_write h w) i).
Proof.
  exists [[0; 19; 0; 1; 1]%N], (mkSl 0 0 5). eexists (mkSIE 19 1 0 (mkSl 0 4 1) []), (W (mkSl 0 0 5) 4 2).
  split; [right; cbn; lia|]. split; [vm_compute; reflexivity|]. split; [right; cbn; lia|]. vm_compute. discriminate.
Qed.
Print Assumptions C44_refuted.
(** "MarshalTo writes what Marshal returns" is false for a buffer that overlaps a payload of the IE:
    here the IE decoded from the first five octets is written one octet further on *)
Theorem C44_overlap_refuted : exists h b0 b i h', valid h b0 /\ sparse default_grouped h b0 = Ok i /\ valid h b /\
  mlen default_grouped (view h i) <= slen b /\ smarshal_to default_grouped i b h = Ok h' /\
  marshal default_grouped (view h i) <> Ok (firstn (mlen default_grouped (view h i)) (rd h' b)).
Proof.
  exists [[0; 19; 0; 1; 7; 0]%N], (mkSl 0 0 5), (mkSl 0 1 5), (mkSIE 19 1 0 (mkSl 0 4 1) []).
  eexists. split; [right; cbn; lia|]. split; [vm_compute; reflexivity|]. split; [right; cbn; lia|]. split; [vm_compute; lia|].
  split; [vm_compute; reflexivity|]. vm_compute. discriminate.
Qed.
Print Assumptions C44_overlap_refuted.
(** after NewGroupedIE the payload goes stale: Marshal then writes octets that differ from Payload *)
Theorem C44_stale_refuted : exists h i h' w, snew_grouped default_grouped 1 0 [snew 56 (mkSl 0 0 2)] h = Ok (i, h') /\
  valid h (through w) /\
  marshal default_grouped (view h' i) = Ok ([0; 1; 0; 6] ++ payload (view h' i))%N /\
  marshal default_grouped (view (do_write h' w) i) <> Ok ([0; 1; 0; 6] ++ payload (view (do_write h' w) i))%N.
Proof.
  exists [[1; 2]%N]. eexists _, _, (W (mkSl 0 0 2) 0 7). split; [vm_compute; reflexivity|]. split; [right; cbn; lia|].
  split; [vm_compute; reflexivity|]. vm_compute. discriminate.
Qed.
Print Assumptions C44_stale_refuted.

(** The hypotheses are satisfiable: a grouped IE with one child in the middle of an array *)
Example C44_ex_heap : heap := [[9; 9; 0; 1; 0; 6; 0; 56; 0; 2; 1; 2; 9]%N].
Example C44_ex : exists x i, valid C44_ex_heap (mkSl 0 2 10) /\ bytes (rd C44_ex_heap (mkSl 0 2 10)) /\
  parse default_grouped (rd C44_ex_heap (mkSl 0 2 10)) = Ok x /\ sparse default_grouped C44_ex_heap (mkSl 0 2 10) = Ok i /\
  i = mkSIE 1 6 0 (mkSl 0 6 6) [mkSIE 56 2 0 (mkSl 0 10 2) []] /\ all_valid C44_ex_heap i /\
  (forall s, In s (slices i) -> valid C44_ex_heap s /\ disjoint s (mkSl 0 12 1)).
Proof.
  eexists _, _. split; [right; cbn; lia|]. split; [repeat constructor|]. split; [vm_compute; reflexivity|]. split; [vm_compute; reflexivity|].
  split; [reflexivity|]. split.
  - intros s [<-|[<-|[]]]; right; cbn; lia.
  - intros s [<-|[<-|[]]]; (split; [right; cbn; lia|right; right; right; left; cbn; lia]).
Qed.
Example C44_ex_message : exists k m, parse_msg default_grouped [32; 1; 0; 12; 0; 0; 1; 0; 0; 96; 0; 4; 1; 2; 3; 4]%N = Ok (k, m) /\
  k_name k = "HeartbeatRequest"%string.
Proof. eexists _, _. split; vm_compute; reflexivity. Qed.
