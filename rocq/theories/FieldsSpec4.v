(** Specification of the list-carrying payloads: the octets a value stands for, without reference to the decoders. *)
From Verif Require Import Base Codec Codec2 Fields4.
Set Implicit Arguments.

(** * PFD Contents *)
(** the eight fields in wire order: present?, and is it one of the five plain strings? *)
Definition pfd_fields (fl : N) : list (bool * bool) :=
  [(N.testbit fl 0, true); (N.testbit fl 1, true); (N.testbit fl 2, true); (N.testbit fl 3, true); (N.testbit fl 4, true);
   (N.testbit fl 5, false); (N.testbit fl 6, false); (N.testbit fl 7, false)].
(** every present field is its contents after their length in two octets *)
Fixpoint wires (l : list (bool * bool)) (ss : list (list N)) : list N :=
  match l, ss with (c, _) :: l, s :: ss => seg16 c s ++ wires l ss | _, _ => [] end.
Fixpoint shorts (l : list (bool * bool)) (ss : list (list N)) : Prop :=
  match l, ss with
  | (c, _) :: l, s :: ss => short c 65536 s /\ shorts l ss
  | [], [] => True
  | _, _ => False
  end.
(** a present plain string that starts o octets into the payload needs at least o+2 octets from there to the end of the payload *)
Fixpoint roomy (l : list (bool * bool)) (ss : list (list N)) (o total : nat) : Prop :=
  match l, ss with
  | (c, st) :: l, s :: ss => (c = true -> st = true -> o + (o + 2) <= total) /\ roomy l ss (o + length (seg16 c s)) total
  | _, _ => True
  end.
(** a list of strings, each after its own length *)
Definition items (ls : list (list N)) : list N := concat (map (seg16 true) ls).
(** what the decoder makes of the octets p of a list: the strings ls, then octets r that are ignored because at most two are left or
    because the announced length is more than what is left; an empty string at the very end belongs to r *)
Definition pfd_list (p : list N) (ls : list (list N)) : Prop :=
  exists r, p = items ls ++ r /\ Forall (fun s => (lenN s < 65536)%N) ls
    /\ ~ (r = [] /\ exists ls', ls = ls' ++ [[]])
    /\ (length r <= 2 \/ exists n r', r = be 2 n ++ r' /\ (n < 65536)%N /\ (lenN r' < n)%N).
(** the list without one empty string at its end *)
Fixpoint trim (ls : list (list N)) : list (list N) :=
  match ls with [] => [] | [[]] => [] | a :: l => a :: trim l end.
(** the value for given contents *)
Definition pfdc_of fl fd url dn cp dnp (pa pu pd : list N) afd aurl adnp : pfdc :=
  {| pc_flags := fl; pc_fdlen := lenN fd; pc_fd := fd; pc_urllen := lenN url; pc_url := url; pc_dnlen := lenN dn; pc_dn := dn;
     pc_cplen := lenN cp; pc_cp := cp; pc_dnplen := lenN dnp; pc_dnp := dnp;
     pc_afdlen := lenN pa; pc_afd := afd; pc_aurllen := lenN pu; pc_aurl := aurl; pc_adnplen := lenN pd; pc_adnp := adnp |}.
(** b holds the value f *)
Definition pfdc_wire (b : list N) (f : pfdc) : Prop :=
  exists fl sp fd url dn cp dnp pa pu pd afd aurl adnp r,
    let ss := [fd; url; dn; cp; dnp; pa; pu; pd] in
    b = [fl; sp] ++ wires (pfd_fields fl) ss ++ r
    /\ shorts (pfd_fields fl) ss
    /\ roomy (pfd_fields fl) ss 2 (length b)
    /\ pfd_list pa afd /\ pfd_list pu aurl /\ pfd_list pd adnp
    /\ f = pfdc_of fl fd url dn cp dnp pa pu pd afd aurl adnp.
(** b announces, in one of its present fields, more octets than it has *)
Definition pfdc_overrun (b : list N) : Prop :=
  exists fl sp l1 st l2 ss n r,
    pfd_fields fl = l1 ++ (true, st) :: l2
    /\ b = [fl; sp] ++ wires l1 ss ++ be 2 n ++ r
    /\ shorts l1 ss
    /\ roomy l1 ss 2 (length b)
    /\ (st = true -> 2 + length (wires l1 ss) <= length r)
    /\ (n < 65536)%N /\ (lenN r < n)%N.

(** * MAC Addresses Detected and Removed *)
Definition mac6 (m : list N) : Prop := bytes m /\ length m = 6.
(** the layout of 3GPP TS 29.244 that the encoder writes *)
Definition macl_wire (macs : list (list N)) (ct st : list N) : list N :=
  lenN macs :: concat macs ++ (lenN ct :: ct) ++ (lenN st :: st).
(** what the decoder takes b to be: one address more than the first octet announces, then one octet used as both tag lengths *)
Definition macl_read (b : list N) (f : macl) : Prop :=
  exists n macs t r, b = n :: concat macs ++ t :: r /\ length macs = S (N.to_nat n) /\ Forall mac6 macs
    /\ N.to_nat t <= S (length r)
    /\ f = {| ml_n := n; ml_macs := macs; ml_ctlen := t; ml_ctag := []; ml_stlen := t; ml_stag := [] |}.
(** a string of 2^16 octets or more is cut to its length modulo 2^16 *)
Definition cut16 (s : list N) : list N := firstn (N.to_nat (lenN s mod 65536)) s.
(** flag octet for eight presence booleans *)
Definition pfd_flags (c : list bool) : N := fold_right (fun (x : bool) n => (if x then 1 else 0) + 2 * n)%N 0%N c.
Definition present_strs (s : list N) : bool := match s with [] => false | _ => true end.
Definition present_list (l : list (list N)) : bool := match l with [] => false | _ => true end.
(** the octets NewPFDContents is to produce *)
Definition pfdc_octets fd url dn cp dnp afd aurl adnp : list N :=
  let fl := pfd_flags [present_strs fd; present_strs url; present_strs dn; present_strs cp; present_strs dnp; present_list afd; present_list aurl; present_list adnp] in
  [fl; 0%N] ++ wires (pfd_fields fl) [fd; url; dn; cp; dnp; items afd; items aurl; items adnp].
