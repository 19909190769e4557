(** Model of the payload codecs holding lists: PFD Contents, MAC Addresses Detected and MAC Addresses Removed.
    Strings are lists of octets. *)
From Verif Require Import Base Codec Codec2 Fields3.
Set Implicit Arguments.

(** * PFD Contents *)
(** ie/pfd-contents.go:62-80 *)
Record pfdc := { pc_flags : N;
  pc_fdlen : N; pc_fd : list N; pc_urllen : N; pc_url : list N; pc_dnlen : N; pc_dn : list N;
  pc_cplen : N; pc_cp : list N; pc_dnplen : N; pc_dnp : list N;
  pc_afdlen : N; pc_afd : list (list N); pc_aurllen : N; pc_aurl : list (list N); pc_adnplen : N; pc_adnp : list (list N) }.
(** the sum of 2+len([]byte(a)) over a list of strings *)
Definition strs_len (l : list (list N)) : N := fold_left (fun n a => n + (2 + lenN a))%N l 0%N.
Definition nonnil (l : list (list N)) : bool := negb (length l =? 0).
(** ie/pfd-contents.go:83-149,157-159,167-169,177-179,187-189,197-199,207-209,217-219,227-229;
    the Set methods OR a bit into Flags *)
Definition new_pfdc (fd url dn cp dnp : list N) (afd aurl adnp : list (list N)) : pfdc :=
  let len s := if nonempty s then u16 (lenN s) else 0%N in
  let lens l := if nonnil l then u16 (strs_len l) else 0%N in
  let lst l := if nonnil l then l else [] in
  {| pc_flags := fold_left (fun (f : N) (x : bool * N) => if fst x then N.lor f (snd x) else f)
       [(nonempty fd, 1%N); (nonempty url, 2%N); (nonempty dn, 4%N); (nonempty cp, 8%N); (nonempty dnp, 16%N);
        (nonnil afd, 32%N); (nonnil aurl, 64%N); (nonnil adnp, 128%N)] 0%N;
     pc_fdlen := len fd; pc_fd := fd; pc_urllen := len url; pc_url := url; pc_dnlen := len dn; pc_dn := dn;
     pc_cplen := len cp; pc_cp := cp; pc_dnplen := len dnp; pc_dnp := dnp;
     pc_afdlen := lens afd; pc_afd := lst afd; pc_aurllen := lens aurl; pc_aurl := lst aurl; pc_adnplen := lens adnp; pc_adnp := lst adnp |}.

(** one field of UnmarshalBinary: [if len(b[offset:]) < extra+2 { EOF }; n = Uint16(b[offset:offset+2]); s = b[offset+2:offset+2+n]; offset += 2+n];
    the plain strings have extra = offset (the test compares the length of b[offset:] with offset+2), the lists extra = 0.
    f.XLength is zero when the test runs. *)
Definition rd16s (strict c : bool) (b : list N) (o : nat) : res (N * list N * nat) :=
  if c then
    r <- from b o ;; need ((if strict then o else 0) + 2) in r ;;
    n <- getr 2 b o (o + 2) ;; s <- slice b (o + 2) (o + 2 + N.to_nat n) ;; Ok (n, s, o + (2 + N.to_nat n))
  else Ok (0%N, [], o).
(** the loop over p in ie/pfd-contents.go:302-315,327-341,353-367; one unit of fuel per iteration, s is the start of the next item *)
Fixpoint pfd_items_from (fuel : nat) (p : list N) (s : nat) : res (list (list N)) :=
  match fuel with
  | O => Fuel
  | S fuel =>
      let e := s + 2 in
      if length p <=? e then Ok [] else
      l <- getr 2 p s e ;;
      if length p <? e + N.to_nat l then Ok [] else
      a <- slice p e (e + N.to_nat l) ;;
      r <- pfd_items_from fuel p (s + (2 + N.to_nat l)) ;; Ok (a :: r)
  end.
Definition pfd_items (p : list N) : res (list (list N)) := pfd_items_from (S (length p)) p 0.
(** ie/pfd-contents.go:232-238,241-371 *)
Definition pfdc_parse (b : list N) : res pfdc :=
  need 2 in b ;; fl <- index b 0 ;;
  let o := 2 in
  '(fdlen, fd, o) <- rd16s true (has1 fl) b o ;;
  '(urllen, url, o) <- rd16s true (has2 fl) b o ;;
  '(dnlen, dn, o) <- rd16s true (has3 fl) b o ;;
  '(cplen, cp, o) <- rd16s true (has4 fl) b o ;;
  '(dnplen, dnp, o) <- rd16s true (has5 fl) b o ;;
  '(afdlen, p, o) <- rd16s false (has6 fl) b o ;; afd <- pfd_items p ;;
  '(aurllen, p, o) <- rd16s false (has7 fl) b o ;; aurl <- pfd_items p ;;
  '(adnplen, p, o) <- rd16s false (has8 fl) b o ;; adnp <- pfd_items p ;;
  Ok {| pc_flags := fl; pc_fdlen := fdlen; pc_fd := fd; pc_urllen := urllen; pc_url := url; pc_dnlen := dnlen; pc_dn := dn;
        pc_cplen := cplen; pc_cp := cp; pc_dnplen := dnplen; pc_dnp := dnp;
        pc_afdlen := afdlen; pc_afd := afd; pc_aurllen := aurllen; pc_aurl := aurl; pc_adnplen := adnplen; pc_adnp := adnp |}.
(** ie/pfd-contents.go:459-495 *)
Definition pfdc_marshal_len (f : pfdc) : nat :=
  let fl := pc_flags f in
  2 + len_if (has1 fl) (2 + N.to_nat (pc_fdlen f)) + len_if (has2 fl) (2 + N.to_nat (pc_urllen f)) + len_if (has3 fl) (2 + N.to_nat (pc_dnlen f))
    + len_if (has4 fl) (2 + N.to_nat (pc_cplen f)) + len_if (has5 fl) (2 + N.to_nat (pc_dnplen f))
    + len_if (has6 fl) (2 + N.to_nat (pc_afdlen f)) + len_if (has7 fl) (2 + N.to_nat (pc_aurllen f)) + len_if (has8 fl) (2 + N.to_nat (pc_adnplen f)).
(** one list of MarshalTo: its length, then each string after its own length; the buffer is indexed by the real lengths *)
Fixpoint cp_items (l : list (list N)) (b : list N) (o : nat) : res (list N * nat) :=
  match l with
  | [] => Ok (b, o)
  | a :: l =>
      b <- put b o (be 2 (lenN a)) ;; b <- copy_range b (o + 2) (o + 2 + length a) a ;; cp_items l b (o + (2 + length a))
  end.
Definition cp16l (c : bool) (n : N) (l : list (list N)) (b : list N) (o : nat) : res (list N * nat) :=
  if c then b <- put b o (be 2 n) ;; cp_items l b (o + 2) else Ok (b, o).
(** ie/pfd-contents.go:383-456 *)
Definition pfdc_marshal_to (f : pfdc) (b : list N) : res (list N) :=
  let fl := pc_flags f in
  need 1 in b ;; b <- put b 0 [fl] ;;
  let o := 2 in
  '(b, o) <- cp16s (has1 fl) (pc_fdlen f) (pc_fd f) b o ;;
  '(b, o) <- cp16s (has2 fl) (pc_urllen f) (pc_url f) b o ;;
  '(b, o) <- cp16s (has3 fl) (pc_dnlen f) (pc_dn f) b o ;;
  '(b, o) <- cp16s (has4 fl) (pc_cplen f) (pc_cp f) b o ;;
  '(b, o) <- cp16s (has5 fl) (pc_dnplen f) (pc_dnp f) b o ;;
  '(b, o) <- cp16l (has6 fl) (pc_afdlen f) (pc_afd f) b o ;;
  '(b, o) <- cp16l (has7 fl) (pc_aurllen f) (pc_aurl f) b o ;;
  '(b, o) <- cp16l (has8 fl) (pc_adnplen f) (pc_adnp f) b o ;;
  Ok b.
(** ie/pfd-contents.go:374-380 *)
Definition pfdc_marshal f := pfdc_marshal_to f (make (pfdc_marshal_len f)).

(** * MAC Addresses Detected, MAC Addresses Removed
    The two files have the same code for the Fields types. *)
(** ie/mac-address-detected.go:75-82, ie/mac-address-removed.go:64-71 *)
Record macl := { ml_n : N; ml_macs : list (list N); ml_ctlen : N; ml_ctag : list N; ml_stlen : N; ml_stag : list N }.
(** ie/mac-address-detected.go:85-95, ie/mac-address-removed.go:74-84;
    ctag and stag are the payloads of the two IEs, None for a nil IE *)
Definition new_macl (ctag stag : option (list N)) (macs : list (list N)) : res macl :=
  match ctag, stag with
  | Some ct, Some st =>
      Ok {| ml_n := u8 (lenN macs); ml_macs := macs; ml_ctlen := u8 (lenN ct); ml_ctag := ct; ml_stlen := u8 (lenN st); ml_stag := st |}
  | _, _ => Fault
  end.
(** k more addresses from o *)
Fixpoint rd_macs (k : nat) (b : list N) (o : nat) : res (list (list N) * nat) :=
  match k with
  | O => Ok ([], o)
  | S k => '(x, o) <- rd 6 b o ;; '(r, o) <- rd_macs k b o ;; Ok (x :: r, o)
  end.
(** ie/mac-address-detected.go:107-145, ie/mac-address-removed.go:96-134;
    the loop runs for i = 0 to n inclusive; copy(f.CTAG, ...) copies into a nil slice, so nothing; the offset is not advanced *)
Definition macl_parse (b : list N) : res macl :=
  need 1 in b ;; n <- index b 0 ;;
  '(macs, o) <- rd_macs (S (N.to_nat n)) b 1 ;;
  need o in b ;; ct <- index b o ;;
  need (o + N.to_nat ct) in b ;; _ <- slice b o (o + N.to_nat ct) ;;
  need o in b ;; st <- index b o ;;
  need (o + N.to_nat st) in b ;; _ <- slice b o (o + N.to_nat st) ;;
  Ok {| ml_n := n; ml_macs := macs; ml_ctlen := ct; ml_ctag := []; ml_stlen := st; ml_stag := [] |}.
(** ie/mac-address-detected.go:184-191, ie/mac-address-removed.go:173-180 *)
Definition macl_marshal_len (f : macl) : nat := 3 + N.to_nat (ml_n f) * 6 + N.to_nat (ml_ctlen f) + N.to_nat (ml_stlen f).
Fixpoint cp_macs (l : list (list N)) (b : list N) (o : nat) : res (list N * nat) :=
  match l with
  | [] => Ok (b, o)
  | m :: l => b <- copy_range b o (o + 6) m ;; cp_macs l b (o + 6)
  end.
(** ie/mac-address-detected.go:157-181, ie/mac-address-removed.go:146-170 *)
Definition macl_marshal_to (f : macl) (b : list N) : res (list N) :=
  need 1 in b ;; b <- put b 0 [ml_n f] ;;
  '(b, o) <- cp_macs (ml_macs f) b 1 ;;
  '(b, o) <- cp8s true (ml_ctlen f) (ml_ctag f) b o ;;
  '(b, o) <- cp8s true (ml_stlen f) (ml_stag f) b o ;;
  Ok b.
(** ie/mac-address-detected.go:148-154, ie/mac-address-removed.go:137-143 *)
Definition macl_marshal f := macl_marshal_to f (make (macl_marshal_len f)).
