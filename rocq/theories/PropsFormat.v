(** C86: the octets of the IEs that hold a single value.  [formats] and [encodes] (Formats.v) tabulate the coding of TS 29.244. *)
From Coq Require Import Floats.SpecFloat String.
From Verif Require Import Base IETypes IE Codec Utils Access AccTable AccNames AccRun New NewTable NewRun IENames AccProofs MemberProofs Formats FormatProofs.
Local Open Scope list_scope.

(** the constructor of a type in the table writes the octets of the table, whenever the value has any *)
Theorem C86_encode g beyond c s a i t f v : calls g beyond c s a (Ok (Some i)) -> c <> N_NetworkInstanceFQDN -> c <> N_UPFunctionFeatures ->
  con_type c = Some t -> In (t, f) formats -> val_of s a = Some v -> (exists p, encodes f v p) -> encodes f v (payload i).
Proof. intros C X Y. apply (@format_encode g beyond c s a i t f v C). now destruct c. Qed.
Print Assumptions C86_encode.
(** and takes a value of that kind *)
Theorem C86_one_value c t f : con_type c = Some t -> In (t, f) formats -> c <> N_NetworkInstanceFQDN -> c <> N_UPFunctionFeatures ->
  forall s (a : sarg s), con_shape c = s -> exists v, val_of s a = Some v.
Proof. intros T I X Y. apply (@format_shape c t f T I). now destruct c. Qed.
Print Assumptions C86_one_value.
(** the accessor named after a type in the table reads the octets of the table, and ignores what follows *)
Theorem C86_decode g a i f v p rest : In (ty i, f) formats -> named a (ty i) -> g (ty i) = false -> encodes f v p -> (trails f = true \/ rest = []) ->
  payload i = p ++ rest -> access g a i = Ok v.
Proof. exact (@format_decode g a i f v p rest). Qed.
Print Assumptions C86_decode.
(** an integer cut short is refused *)
Theorem C86_short g a i k : In (ty i, FUint k) formats -> named a (ty i) -> g (ty i) = false -> (length (payload i) < k)%nat -> access g a i = Err EUnexpectedEOF.
Proof. exact (@format_short g a i k). Qed.
Print Assumptions C86_short.
(** intended: spare bits are ignored.  They are by two accessors; the other 16 return them with the value *)
Theorem C86_spare_exact g a i k x r : In (ty i, FBits k) formats -> named a (ty i) -> g (ty i) = false -> payload i = x :: r ->
  access g a i = Ok (VN (if (ty i =? T_PagingPolicyIndicator)%N || (ty i =? T_TGPPInterfaceType)%N then x mod 2 ^ k else x))%N.
Proof. exact (@format_spare g a i k x r). Qed.
Print Assumptions C86_spare_exact.
Theorem C86_spare_refuted : exists i, ty i = T_SourceInterface /\ In (ty i, FBits 4) formats /\ payload i = [0x11%N] /\ access default_grouped A_SourceInterface i = Ok (VN 0x11).
Proof. exists (new T_SourceInterface [0x11%N]). split; [reflexivity|]. split; [cbn; right; now left|]. split; [reflexivity|vm_compute; reflexivity]. Qed.
Print Assumptions C86_spare_refuted.
(** the hypotheses are met *)
Example C86_ex beyond : exists i, calls default_grouped beyond N_TimeThreshold SSecs32 (3600 * 1000000000)%Z (Ok (Some i)) /\ con_type N_TimeThreshold = Some T_TimeThreshold /\
  In (T_TimeThreshold, FSecs 4) formats /\ encodes (FSecs 4) (VD (3600 * 1000000000)) [0; 0; 14; 16]%N /\ payload i = [0; 0; 14; 16]%N /\
  named A_TimeThreshold T_TimeThreshold /\ access default_grouped A_TimeThreshold i = Ok (VD (3600 * 1000000000)).
Proof.
  eexists. split; [split; reflexivity|]. split; [reflexivity|]. split; [cbn; tauto|]. split; [exact (enc_secs 4 3600 ltac:(vm_compute; split; congruence))|].
  split; [vm_compute; reflexivity|]. split; [|vm_compute; reflexivity]. refine (proj1 (codes_ok _ _) _). refine (proj1 (memb_spec _ _) _). vm_compute. reflexivity.
Qed.
Example C86_ex_timer : encodes FTimer (VD (2 * (3600 * 1000000000))) [98%N] /\ encodes FTime (VT (1546300800 * 1000000000)) [223; 213; 44; 0]%N.
Proof.
  split.
  - exact (enc_timer 3 3600 2 ltac:(cbn; tauto) ltac:(lia)).
  - exact (enc_time 1546300800 ltac:(lia)).
Qed.
Example C86_size : length formats = 117.
Proof. reflexivity. Qed.
