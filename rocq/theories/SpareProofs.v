(** Spare capacity: the decoders with enough checks do not look past the length. *)
From Verif Require Import Base IETypes IE Bits IEProofs IEProofs2 Codec Codec2 Utils UtilsProofs Fields1 Time Fields2 Fields3 Fields4 Access AccTable AccRun Spare.
Set Implicit Arguments.

Lemma bind_ext A B (x y : res A) (f k : A -> res B) : x = y -> (forall a, y = Ok a -> f a = k a) -> bind x f = bind y k.
Proof. intros -> H. destruct y; cbn; [now apply H|reflexivity..]. Qed.

(** * The primitive operations *)
Section Prim.
Variables b r : list N.
Notation L := (length b).
Notation M := (b ++ r).
Lemma index_app k : k < L -> index M k = index b k.
Proof. intros H. unfold index. now rewrite nth_error_app1 by assumption. Qed.
Lemma cindex_eq k : cindex L M k = index b k.
Proof.
  unfold cindex. destruct (Nat.ltb_spec k L); [now apply index_app|]. unfold index.
  destruct (nth_error b k) eqn:E; [|reflexivity]. assert (k < L) by (apply nth_error_Some; congruence). lia.
Qed.
Lemma slice_app lo hi : hi <= L -> slice M lo hi = slice b lo hi.
Proof.
  intros H. unfold slice. rewrite app_length. destruct (Nat.leb_spec lo hi); [|reflexivity]. destruct (Nat.leb_spec hi L); [|lia].
  destruct (Nat.leb_spec hi (L + length r)); [|lia]. cbn [andb]. f_equal. rewrite skipn_app, firstn_app, skipn_length.
  replace (hi - lo - (L - lo)) with 0 by lia. now rewrite firstn_O, app_nil_r.
Qed.
Lemma getr_app k lo hi : hi <= L -> getr k M lo hi = getr k b lo hi.
Proof. intros H. unfold getr. now rewrite slice_app. Qed.
Lemma cfrom_eq A lo (f : unit -> res A) k : f tt = k -> (_ <- cfrom L lo ;; f tt) = (_ <- from b lo ;; k).
Proof. intros <-. unfold cfrom, from. destruct (lo <=? L); reflexivity. Qed.
Lemma crd_eq n o : crd L M n o = rd n b o.
Proof. unfold crd, rd. destruct (Nat.ltb_spec L (o + n)); [reflexivity|]. now rewrite slice_app by lia. Qed.
Lemma crdb_eq c n o d : crdb L M c n o d = rdb c n b o d.
Proof. unfold crdb, rdb. now rewrite crd_eq. Qed.
Lemma crdn_eq c n o d : crdn L M c n o d = rdn c n b o d.
Proof. unfold crdn, rdn. now rewrite crd_eq. Qed.
Lemma crds_eq c n o d : crds L M c n o d = rds c n b o d.
Proof. unfold crds, rds. now rewrite crd_eq. Qed.
Lemma crdf_eq n o : crdf L M n o = rdf n b o.
Proof.
  unfold crdf, rdf, cfrom, from. destruct (Nat.leb_spec o L); [|reflexivity]. cbn [bind]. rewrite skipn_length.
  destruct (Nat.ltb_spec L (o + n)); destruct (Nat.ltb_spec (L - o) n); try lia; [reflexivity|]. now rewrite slice_app by lia.
Qed.
Lemma crdsf_eq c n o d : crdsf L M c n o d = rdsf c n b o d.
Proof. unfold crdsf, rdsf. now rewrite crdf_eq. Qed.
Lemma crdnf_eq c n o d : crdnf L M c n o d = rdnf c n b o d.
Proof. unfold crdnf, rdnf. now rewrite crdf_eq. Qed.

Ltac prim := repeat first
  [ rewrite cindex_eq | rewrite crd_eq | rewrite crdb_eq | rewrite crdn_eq | rewrite crds_eq | rewrite crdsf_eq | rewrite crdnf_eq
  | rewrite getr_app by lia | rewrite slice_app by lia ].
Ltac same := repeat (cbv zeta; prim; first
  [ reflexivity
  | match goal with
    | |- (if ?a <? ?c then _ else _) = (if ?a <? ?c then _ else _) => destruct (Nat.ltb_spec a c)
    | |- (if ?a <=? ?c then _ else _) = (if ?a <=? ?c then _ else _) => destruct (Nat.leb_spec a c)
    | |- (if ?c then _ else _) = (if ?c then _ else _) => destruct c
    | |- bind (cfrom _ _) _ = bind (from _ _) _ => unfold cfrom, from
    | |- bind (if ?a <=? ?c then _ else _) _ = bind (if ?a <=? ?c then _ else _) _ => destruct (Nat.leb_spec a c); cbn [bind]
    | |- bind _ _ = bind _ _ => apply bind_ext; [|intros ? _]
    | |- (let '(_, _) := ?p in _) = (let '(_, _) := ?p in _) => destruct p
    end ]).
Lemma crd8s_eq c o : crd8s L M c o = rd8s c b o.
Proof. unfold crd8s, rd8s. same. Qed.
Lemma crd_rate_eq c o : crd_rate L M c o = rd_rate c b o.
Proof. unfold crd_rate, rd_rate. same. Qed.
Lemma crd1_eq o : crd1 L M o = rd1 b o.
Proof. unfold crd1, rd1. same. Qed.
Lemma cskip_nil_eq n o : cskip_nil L M n o = skip_nil n b o.
Proof. unfold cskip_nil, skip_nil. same. Qed.
Lemma crd_macs_eq k : forall o, crd_macs L M k o = rd_macs k b o.
Proof. induction k as [|k IH]; intros o; cbn [crd_macs rd_macs]; [reflexivity|]. prim. apply bind_ext; [reflexivity|]. intros [x o'] _. now rewrite IH. Qed.
Ltac prim ::= repeat first
  [ rewrite cindex_eq | rewrite crd_eq | rewrite crdb_eq | rewrite crdn_eq | rewrite crds_eq | rewrite crdsf_eq | rewrite crdnf_eq
  | rewrite crd8s_eq | rewrite crd_rate_eq | rewrite crd1_eq | rewrite cskip_nil_eq | rewrite crd_macs_eq
  | rewrite getr_app by lia | rewrite slice_app by lia ].
Lemma fteid_cap_eq : fteid_cap L M = fteid_parse b.
Proof. unfold fteid_cap, fteid_parse. same. Qed.
Lemma fseid_cap_eq : fseid_cap L M = fseid_parse b.
Proof. unfold fseid_cap, fseid_parse. same. Qed.
Lemma ueip_cap_eq : ueip_cap L M = ueip_parse b.
Proof. unfold ueip_cap, ueip_parse. same. Qed.
Lemma altip_cap_eq : altip_cap L M = altip_parse b.
Proof. unfold altip_cap, altip_parse. same. Qed.
Lemma srcip_cap_eq : srcip_cap L M = srcip_parse b.
Proof. unfold srcip_cap, srcip_parse. same. Qed.
Lemma ulip_cap_eq : ulip_cap L M = ulip_parse b.
Proof. unfold ulip_cap, ulip_parse. same. Qed.
Lemma mptcp_cap_eq : mptcp_cap L M = mptcp_parse b.
Proof. unfold mptcp_cap, mptcp_parse. same. Qed.
Lemma pmf_cap_eq : pmf_cap L M = pmf_parse b.
Proof. unfold pmf_cap, pmf_parse. same. Qed.
Lemma rpeer_cap_eq : rpeer_cap L M = rpeer_parse b.
Proof. unfold rpeer_cap, rpeer_parse. same. Qed.
Lemma mcast_cap_eq : mcast_cap L M = mcast_parse b.
Proof. unfold mcast_cap, mcast_parse. same. Qed.
Lemma volm_cap_eq : volm_cap L M = volm_parse b.
Proof. unfold volm_cap, volm_parse. same. Qed.
Lemma vol3_cap_eq : vol3_cap L M = vol3_parse b.
Proof. unfold vol3_cap, vol3_parse. same. Qed.
Lemma nue_cap_eq : nue_cap L M = nue_parse b.
Proof. unfold nue_cap, nue_parse. same. Qed.
Lemma delays_cap_eq : delays_cap L M = delays_parse b.
Proof. unfold delays_cap, delays_parse. same. Qed.
Lemma prate_cap_eq : prate_cap L M = prate_parse b.
Proof. unfold prate_cap, prate_parse. same. Qed.
Lemma dlfl_cap_eq : dlfl_cap L M = dlfl_parse b.
Proof. unfold dlfl_cap, dlfl_parse. same. Qed.
Lemma prstat_cap_eq : prstat_cap L M = prstat_parse b.
Proof. unfold prstat_cap, prstat_parse. same. Qed.
Lemma tag_cap_eq : tag_cap L M = tag_parse b.
Proof. unfold tag_cap, tag_parse. same. Qed.
Lemma ohc_cap_eq : ohc_cap L M = ohc_parse b.
Proof. unfold ohc_cap, ohc_parse. same. Qed.
Lemma userid_cap_eq : userid_cap L M = userid_parse b.
Proof. unfold userid_cap, userid_parse. same. Qed.
Lemma henr_cap_eq : henr_cap L M = henr_parse b.
Proof. unfold henr_cap, henr_parse. same. Qed.
Lemma redir_cap_eq : redir_cap L M = redir_parse b.
Proof. unfold redir_cap, redir_parse. same. Qed.
Lemma macaddr_cap_eq : macaddr_cap L M = macaddr_parse b.
Proof. unfold macaddr_cap, macaddr_parse. same. Qed.
Lemma upri_cap_eq : upri_cap L M = upri_parse b.
Proof. unfold upri_cap, upri_parse. same. Qed.
Lemma trace_cap_eq : trace_cap L M = trace_parse b.
Proof. unfold trace_cap, trace_parse. same. Qed.
Lemma macl_cap_eq : macl_cap L M = macl_parse b.
Proof. unfold macl_cap, macl_parse. same. Qed.
End Prim.
