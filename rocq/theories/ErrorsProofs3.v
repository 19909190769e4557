(** Which errors headers, messages and MarshalTo return; the texts of errors. *)
From Coq Require Import String.
From Verif Require Import Base IETypes IE Bits Spec IEProofs IEProofs2 Codec Access AccTable AccRun AccProofs AccProofs2 Header Message HeaderText HeaderTextProofs UtilsProofs Errors ErrorsProofs ErrorsProofs2.
Set Implicit Arguments.

Lemma header_only h b : only eof (h_unmarshal h b).
Proof. unfold h_unmarshal. on. Qed.
Lemma header_infix b h : parse_header b = Ok h -> infix (h_payload h) b.
Proof.
  unfold parse_header, h_unmarshal. cbv zeta. destruct (length b <? 8); [discriminate|].
  destruct (index b 0) as [fl| | |]; cbn [bind]; try discriminate. destruct (index b 1) as [tp| | |]; cbn [bind]; try discriminate.
  destruct (getr 2 b 2 4) as [ln| | |]; cbn [bind]; try discriminate.
  match goal with |- bind ?x _ = _ -> _ => destruct x as [[sd o]| | |] end; cbn [bind]; try discriminate.
  destruct (length b <? o + 4); [discriminate|]. destruct (slice b o (o + 3)) as [sq| | |]; cbn [bind]; try discriminate.
  destruct (index b (o + 3)) as [pr| | |]; cbn [bind]; try discriminate.
  destruct (negb _).
  - destruct (from b (o + 4)) as [p| | |] eqn:E; cbn [bind]; try discriminate. intros [= <-]. now apply infix_from in E.
  - destruct (length b <? _); [discriminate|]. destruct (slice b (o + 4) _) as [p| | |] eqn:E; cbn [bind]; try discriminate. intros [= <-]. now apply infix_slice in E.
Qed.

Section G.
Variable g : N -> bool.
Lemma store_only (P : err -> Prop) cs is : forall m, only P (store_all cs m is).
Proof.
  induction is as [|i r IH]; intros m; cbn [store_all]; [apply only_ok|]. apply only_bind; [|intros; apply IH]. unfold store. on.
Qed.
Lemma msg_unmarshal_only k m b : bytes b -> only (dec_err b) (msg_unmarshal g k m b).
Proof.
  intros B. unfold msg_unmarshal. apply only_bind.
  - apply (@only_mono _ eof _ _ (@header_only zero_header b)). intros e ->. now left.
  - intros h E. apply header_infix in E. destruct (length (h_payload h) <? 2); [apply only_ok|]. apply only_bind.
    + apply (@only_mono _ (dec_err (h_payload h))); [apply parseMulti_only; now apply (@infix_bytes _ b)|intros e; now apply infix_err].
    + intros is _. destruct (k_mode k); [|apply only_ok]. apply store_only.
Qed.
Lemma parse_message_only ds d b : bytes b -> only (dec_err b) (parse_message g ds d b).
Proof.
  intros B. unfold parse_message. destruct (length b <? 2); [apply only_err; now left|]. apply only_bind; [apply only_index|]. intros c _.
  apply only_bind; [now apply msg_unmarshal_only|intros; apply only_ok].
Qed.

Definition length_err (e : err) : Prop := e = EInvalidLength.
Lemma put_only P b o s : only P (put b o s).
Proof. unfold put. on. Qed.
Lemma copy_range_only P b lo hi s : only P (copy_range b lo hi s).
Proof. unfold copy_range. on. Qed.
Ltac wm l := repeat (cbv zeta; first [apply put_only | apply copy_range_only | l | on1]).
Lemma marshal_to_only : forall i b, only length_err (marshal_to g i b).
Proof.
  fix IH 1. intros [t l e p cs] b. cbn [marshal_to ty len eid payload children]. cbv zeta. destruct (length b <? 4); [now apply only_err|].
  apply only_bind; [apply put_only|]. intros b1 _. apply only_bind; [apply put_only|]. intros b2 _. apply only_bind; [wm fail|]. intros [b3 o] _.
  destruct (g t); [|apply copy_range_only]. revert o b3. induction cs as [|c cs IC]; intros o b3; [apply only_ok|].
  apply only_bind; [apply only_from|]. intros s _. apply only_bind; [apply IH|]. intros s' _. apply IC.
Qed.
Lemma write_ie_only st i : only length_err (write_ie g st i).
Proof. destruct st. unfold write_ie. wm ltac:(apply marshal_to_only). Qed.
Lemma write_all_only l : forall st, only length_err (write_all g st l).
Proof. induction l as [|[i|] r IH]; intros st; cbn [write_all]; wm ltac:(first [apply write_ie_only | apply IH]). Qed.
Lemma write_nil_only l : forall st, only length_err (write_nil g st l).
Proof. induction l as [|[i|] r IH]; intros st; cbn [write_nil]; wm ltac:(first [apply write_ie_only | apply IH]). Qed.
Lemma write_fields_only fs os : forall st, only length_err (write_fields g st fs os).
Proof.
  induction os as [|n r IH]; intros st; cbn [write_fields]; [apply only_ok|]. destruct (nth_error fs n) as [v|]; [|apply only_fault].
  apply only_bind; [|intros; apply IH]. unfold write_field. destruct v as [[i|]|l]; [apply write_ie_only|apply only_ok|apply write_all_only].
Qed.
Lemma sum_len_only (P : err -> Prop) l : only P (sum_len g l).
Proof. induction l as [|[i|] r IH]; cbn [sum_len ie_len bind]; wm ltac:(apply IH). Qed.
Lemma fields_len_only (P : err -> Prop) fs os : only P (fields_len g fs os).
Proof. induction os as [|n r IH]; cbn [fields_len]; unfold field_len; wm ltac:(first [apply IH | apply sum_len_only]). Qed.
Lemma h_marshal_to_only (P : err -> Prop) h b : only P (h_marshal_to h b).
Proof. unfold h_marshal_to. wm fail. Qed.
Lemma msg_marshal_to_only k m b : only length_err (msg_marshal_to g k m b).
Proof.
  unfold msg_marshal_to, msg_len. wm ltac:(first [apply fields_len_only | apply write_fields_only | apply write_nil_only | apply h_marshal_to_only]).
Qed.
End G.

(** ** texts *)
Lemma text_inj e e' : e <> EHex -> err_text e = err_text e' -> e = e'.
Proof.
  intros NH H. destruct e, e'; cbn [err_text] in H; try discriminate H; try reflexivity; try (now contradiction NH); injection H as H; f_equal; now apply fmt_d_inj.
Qed.
