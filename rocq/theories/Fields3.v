(** Model of payload codecs with strings: SDF Filter, Outer Header Creation, Node ID, User ID, Header Enrichment,
    Redirect Information, MAC Address, User Plane IP Resource Information, Trace Information.
    Strings are lists of octets.  Textual addresses (net.ParseIP) are replaced by the address they parse to. *)
From Verif Require Import Base Codec Codec2 Utils.
Set Implicit Arguments.

(** * SDF Filter *)
(** ie/sdf-filter.go:74-82 *)
Record sdf := { sd_flags : N; sd_fdlen : N; sd_fd : list N; sd_ttc : list N; sd_spi : list N; sd_fl : list N; sd_fid : N }.
Definition nonempty (s : list N) : bool := negb (length s =? 0).
(** ie/sdf-filter.go:85-114,122-124,132-134,142-144,152-154,162-164; the length is uint16(len([]byte(fd))) *)
Definition new_sdf (fd ttc spi fl : list N) (fid : N) : sdf :=
  {| sd_flags := fold_left (fun (f : N) (x : bool * N) => if fst x then N.lor f (snd x) else f)
       [(nonempty fd, 1%N); (nonempty ttc, 2%N); (nonempty spi, 4%N); (nonempty fl, 8%N); (negb (fid =? 0)%N, 16%N)] 0%N;
     sd_fdlen := if nonempty fd then u16 (lenN fd) else 0%N; sd_fd := fd; sd_ttc := ttc; sd_spi := spi; sd_fl := fl; sd_fid := fid |}.
(** ie/sdf-filter.go:117-119,127-129,137-139,147-149,157-159,176-226 *)
Definition sdf_parse (b : list N) : res sdf :=
  need 3 in b ;; fl <- index b 0 ;;
  let o := 2 in
  '(fdlen, fd, o) <- (if has1 fl then
      r <- from b o ;; need 3 in r ;;
      n <- getr 2 b o (o + 2) ;; s <- slice b (o + 2) (o + 2 + N.to_nat n) ;; Ok (n, s, o + (2 + N.to_nat n))
    else Ok (0%N, [], o)) ;;
  '(ttc, o) <- rdsf (has2 fl) 2 b o [] ;;
  '(spi, o) <- rdsf (has3 fl) 4 b o [] ;;
  '(flab, o) <- rdsf (has4 fl) 3 b o [] ;;
  '(fid, o) <- rdnf (has5 fl) 4 b o 0%N ;;
  Ok {| sd_flags := fl; sd_fdlen := fdlen; sd_fd := fd; sd_ttc := ttc; sd_spi := spi; sd_fl := flab; sd_fid := fid |}.
(** ie/sdf-filter.go:276-300 *)
Definition sdf_marshal_len (f : sdf) : nat :=
  let fl := sd_flags f in
  2 + len_if (has1 fl) (2 + N.to_nat (sd_fdlen f)) + len_if (has2 fl) 2 + len_if (has3 fl) 4 + len_if (has4 fl) 3 + len_if (has5 fl) 4.
(** ie/sdf-filter.go:238-273 *)
Definition sdf_marshal_to (f : sdf) (b : list N) : res (list N) :=
  let fl := sd_flags f in
  need 1 in b ;; b <- put b 0 [fl] ;;
  let o := 2 in
  '(b, o) <- cp16s (has1 fl) (sd_fdlen f) (sd_fd f) b o ;;
  '(b, o) <- cpb (has2 fl) 2 (sd_ttc f) b o ;;
  '(b, o) <- cpb (has3 fl) 4 (sd_spi f) b o ;;
  '(b, o) <- cpb (has4 fl) 3 (sd_fl f) b o ;;
  '(b, o) <- cpn (has5 fl) 4 (sd_fid f) b o ;;
  Ok b.
Definition sdf_marshal f := sdf_marshal_to f (make (sdf_marshal_len f)).

(** * Outer Header Creation *)
(** ie/outer-header-creation.go:302-310 *)
Record ohc := { oh_desc : N; oh_teid : N; oh_v4 : bslice; oh_v6 : bslice; oh_port : N; oh_ctag : N; oh_stag : N }.
(** uint8((desc & 0xff00) >> 8) *)
Definition oct5 (desc : N) : N := u8 (N.shiftr (N.land desc 0xff00) 8).
(** ie/outer-header-creation.go:498-504,507-513,516-522,525-531,534-540,543-549 *)
Definition oh_has_teid (o : N) := has1 o || has2 o.
Definition oh_has_v4 (o : N) := has1 o || has3 o || has5 o.
Definition oh_has_v6 (o : N) := has2 o || has4 o || has6 o.
Definition oh_has_port (o : N) := has3 o || has4 o.
(** ie/outer-header-creation.go:313-343; v4 and v6 are what net.ParseIP returns for the texts *)
Definition new_ohc desc teid v4 v6 port ctag stag : ohc :=
  let o := oct5 desc in
  {| oh_desc := desc; oh_teid := if oh_has_teid o then teid else 0%N; oh_v4 := if oh_has_v4 o then to4 v4 else None;
     oh_v6 := if oh_has_v6 o then to16 v6 else None; oh_port := if oh_has_port o then port else 0%N;
     oh_ctag := if has7 o then ctag else 0%N; oh_stag := if has8 o then stag else 0%N |}.
(** ie/outer-header-creation.go:355-413; binary.BigEndian.Uint32 is given three octets *)
Definition ohc_parse (b : list N) : res ohc :=
  need 2 in b ;;
  desc <- getr 2 b 0 2 ;;
  let o := 2 in
  o5 <- index b 0 ;;
  '(teid, o) <- rdn (oh_has_teid o5) 4 b o 0%N ;;
  '(v4, o) <- rdb (oh_has_v4 o5) 4 b o None ;;
  '(v6, o) <- rdb (oh_has_v6 o5) 16 b o None ;;
  '(port, o) <- rdn (oh_has_port o5) 2 b o 0%N ;;
  '(ctag, o) <- (if has7 (u8 (N.land desc 0xff)) then need (o + 3) in b ;; x <- getr 4 b o (o + 3) ;; Ok (x, o + 3) else Ok (0%N, o)) ;;
  stag <- (if has8 (u8 (N.land desc 0xff)) then need (o + 3) in b ;; getr 4 b o (o + 3) else Ok 0%N) ;;
  Ok {| oh_desc := desc; oh_teid := teid; oh_v4 := to4 v4; oh_v6 := to16 v6; oh_port := port; oh_ctag := ctag; oh_stag := stag |}.
(** ie/outer-header-creation.go:472-495 *)
Definition ohc_marshal_len (f : ohc) : nat :=
  let o := oct5 (oh_desc f) in
  2 + len_if (oh_has_teid o) 4 + len_if (oh_has_v4 o) 4 + len_if (oh_has_v6 o) 16 + len_if (oh_has_port o) 2 + len_if (has7 o) 3 + len_if (has8 o) 3.
(** ie/outer-header-creation.go:425-469; the offset is not advanced after the port number; p[1:4] of the 4 octets of the tag *)
Definition ohc_marshal_to (f : ohc) (b : list N) : res (list N) :=
  need 2 in b ;;
  b <- put b 0 (be 2 (oh_desc f)) ;;
  let o := 2 in
  let o5 := oct5 (oh_desc f) in
  '(b, o) <- cpn (oh_has_teid o5) 4 (oh_teid f) b o ;;
  '(b, o) <- cpb (oh_has_v4 o5) 4 (octs (oh_v4 f)) b o ;;
  '(b, o) <- cpb (oh_has_v6 o5) 16 (octs (oh_v6 f)) b o ;;
  '(b, _) <- cpn (oh_has_port o5) 2 (oh_port f) b o ;;
  '(b, o) <- cpb (has7 o5) 3 (skipn 1 (be 4 (oh_ctag f))) b o ;;
  '(b, o) <- cpb (has8 o5) 3 (skipn 1 (be 4 (oh_stag f))) b o ;;
  Ok b.
Definition ohc_marshal f := ohc_marshal_to f (make (ohc_marshal_len f)).

(** * Node ID *)
(** what NodeID() returns: the text of an IP address (net.IP.String, "<nil>" for a nil address) or a domain name *)
Inductive node_id := NodeIP (ip : bslice) | NodeName (s : list N).
(** ie/node-id.go:26-47; None is the empty string, Some ip a text that net.ParseIP maps to ip; nil IE is Ok None *)
Definition new_node_id (v4 v6 : option bslice) (fqdn : list N) : res (option (list N)) :=
  match v4, v6, fqdn with
  | Some ip, _, _ => p <- put (make 5) 0 [0%N] ;; p <- copy_from p 1 (octs (to4 ip)) ;; Ok (Some p)
  | None, Some ip, _ => p <- put (make 17) 0 [1%N] ;; p <- copy_from p 1 (octs (to16 ip)) ;; Ok (Some p)
  | None, None, _ :: _ => p <- put (make (2 + length fqdn)) 0 [2%N] ;; e <- encode_fqdn fqdn ;; p <- copy_from p 1 e ;; Ok (Some p)
  | None, None, [] => Ok None
  end.
(** ie/node-id.go:50-74; ip is net.ParseIP(s) *)
Definition new_node_id_heuristic (s : list N) (ip : bslice) : res (option (list N)) :=
  match s, ip with
  | [], _ => Ok None
  | _, Some x =>
      match to4 (Some x) with
      | Some v4 => p <- put (make 5) 0 [0%N] ;; p <- copy_from p 1 v4 ;; Ok (Some p)
      | None => p <- put (make 17) 0 [1%N] ;; p <- copy_from p 1 (octs (to16 ip)) ;; Ok (Some p)
      end
  | _, None => p <- put (make (2 + length s)) 0 [2%N] ;; e <- encode_fqdn s ;; p <- copy_from p 1 e ;; Ok (Some p)
  end.
(** ie/node-id.go:77-113 on the payload of a Node ID IE; the label loop is the one of utils.DecodeFQDN *)
Definition node_id_value (b : list N) : res node_id :=
  need 2 in b ;;
  t <- index b 0 ;;
  p <- from b 1 ;;
  if (t =? 0)%N then Ok (NodeIP (to4 (Some p)))
  else if (t =? 1)%N then Ok (NodeIP (to16 (Some p)))
  else if (t =? 2)%N then s <- decode_fqdn p ;; Ok (NodeName s)
  else Err (EInvalidNodeID t).

(** * User ID *)
(** ie/user-id.go:39-49 *)
Record userid := { ui_flags : N; ui_imsilen : N; ui_imsi : list N; ui_imeilen : N; ui_imei : list N; ui_msisdnlen : N; ui_msisdn : list N; ui_nailen : N; ui_nai : list N }.
(** one BCD field of the constructor; None when the string is not hexadecimal *)
Definition bcd_field (c : bool) (s : list N) : res (option (N * list N)) :=
  if c then match str_to_swapped s ascii_f with Ok v => Ok (Some (u8 (lenN v), s)) | Err _ => Ok None | Fault => Fault | Fuel => Fuel end else Ok (Some (0%N, [])).
(** ie/user-id.go:52-90; Ok None is the nil pointer *)
Definition new_userid (flags : N) (imsi imei msisdn nai : list N) : res (option userid) :=
  a <- bcd_field (has1 flags) imsi ;;
  match a with None => Ok None | Some (il, i) =>
  a <- bcd_field (has2 flags) imei ;;
  match a with None => Ok None | Some (el, e) =>
  a <- bcd_field (has3 flags) msisdn ;;
  match a with None => Ok None | Some (ml, m) =>
  Ok (Some {| ui_flags := flags; ui_imsilen := il; ui_imsi := i; ui_imeilen := el; ui_imei := e; ui_msisdnlen := ml; ui_msisdn := m;
              ui_nailen := if has4 flags then u8 (lenN nai) else 0%N; ui_nai := if has4 flags then nai else [] |})
  end end end.
(** ie/user-id.go:102-167 *)
Definition userid_parse (b : list N) : res userid :=
  need 1 in b ;; fl <- index b 0 ;;
  let o := 1 in
  '(il, i, o) <- rd8s (has1 fl) b o ;;
  '(el, e, o) <- rd8s (has2 fl) b o ;;
  '(ml, m, o) <- rd8s (has3 fl) b o ;;
  '(nl, n, o) <- rd8s (has4 fl) b o ;;
  let str c v := if c : bool then swapped_to_str v true else [] in
  Ok {| ui_flags := fl; ui_imsilen := il; ui_imsi := str (has1 fl) i; ui_imeilen := el; ui_imei := str (has2 fl) e;
        ui_msisdnlen := ml; ui_msisdn := str (has3 fl) m; ui_nailen := nl; ui_nai := n |}.
(** ie/user-id.go:235-251 *)
Definition userid_marshal_len (f : userid) : nat :=
  let fl := ui_flags f in
  1 + len_if (has1 fl) (1 + N.to_nat (ui_imsilen f)) + len_if (has2 fl) (1 + N.to_nat (ui_imeilen f))
    + len_if (has3 fl) (1 + N.to_nat (ui_msisdnlen f)) + len_if (has4 fl) (1 + N.to_nat (ui_nailen f)).
(** one BCD field of MarshalTo: b[offset] = n; offset++; v, err := StrToSwappedBytes(s, "f"); copy(b[offset:offset+int(n)], v); offset += int(n) *)
Definition cpbcd (c : bool) (n : N) (s b : list N) (o : nat) : res (list N * nat) :=
  if c then
    b <- put b o [n] ;;
    v <- str_to_swapped s ascii_f ;;
    b <- copy_range b (o + 1) (o + 1 + N.to_nat n) v ;; Ok (b, o + 1 + N.to_nat n)
  else Ok (b, o).
(** ie/user-id.go:179-232 *)
Definition userid_marshal_to (f : userid) (b : list N) : res (list N) :=
  let fl := ui_flags f in
  need 1 in b ;; b <- put b 0 [fl] ;;
  let o := 1 in
  '(b, o) <- cpbcd (has1 fl) (ui_imsilen f) (ui_imsi f) b o ;;
  '(b, o) <- cpbcd (has2 fl) (ui_imeilen f) (ui_imei f) b o ;;
  '(b, o) <- cpbcd (has3 fl) (ui_msisdnlen f) (ui_msisdn f) b o ;;
  '(b, o) <- cp8s (has4 fl) (ui_nailen f) (ui_nai f) b o ;;
  Ok b.
Definition userid_marshal f := userid_marshal_to f (make (userid_marshal_len f)).
(** for the proofs: the octets of a BCD field, and MarshalTo with each computed before the octet in front of it is set.  On buffers of MarshalLen octets
    there is no difference (userid_pre_ok in FieldsProofs3b.v); on shorter ones a panic may become the error. *)
Definition bcd_octets (c : bool) (s : list N) : res (list N) := if c then str_to_swapped s ascii_f else Ok [].
Definition userid_pre (f : userid) (b : list N) : res (list N) :=
  let fl := ui_flags f in
  need 1 in b ;; b <- put b 0 [fl] ;;
  let o := 1 in
  v <- bcd_octets (has1 fl) (ui_imsi f) ;; '(b, o) <- cp8s (has1 fl) (ui_imsilen f) v b o ;;
  v <- bcd_octets (has2 fl) (ui_imei f) ;; '(b, o) <- cp8s (has2 fl) (ui_imeilen f) v b o ;;
  v <- bcd_octets (has3 fl) (ui_msisdn f) ;; '(b, o) <- cp8s (has3 fl) (ui_msisdnlen f) v b o ;;
  '(b, o) <- cp8s (has4 fl) (ui_nailen f) (ui_nai f) b o ;;
  Ok b.
(** ie/user-id.go:14-23: the payload; Marshal is called on the nil pointer too, which panics *)
Definition new_userid_ie flags imsi imei msisdn nai : res (list N) :=
  f <- new_userid flags imsi imei msisdn nai ;; match f with Some f => userid_marshal f | None => Fault end.

(** * Header Enrichment *)
(** ie/header-enrichment.go:64-71; the Flags field is never set or read and is left out *)
Record henr := { he_type : N; he_namelen : N; he_name : list N; he_vallen : N; he_val : list N }.
(** ie/header-enrichment.go:74-82 *)
Definition new_henr typ name value := {| he_type := typ; he_namelen := u8 (lenN name); he_name := name; he_vallen := u8 (lenN value); he_val := value |}.
(** ie/header-enrichment.go:94-122 *)
Definition henr_parse (b : list N) : res henr :=
  need 2 in b ;;
  t <- index b 0 ;;
  nl <- index b 1 ;;
  let o := 2 in
  '(name, o) <- rd (N.to_nat nl) b o ;;
  '(vl, v, o) <- rd8s true b o ;;
  Ok {| he_type := t; he_namelen := nl; he_name := name; he_vallen := vl; he_val := v |}.
(** ie/header-enrichment.go:156-162 *)
Definition henr_marshal_len (f : henr) : nat := 3 + length (he_name f) + length (he_val f).
(** ie/header-enrichment.go:134-153 *)
Definition henr_marshal_to (f : henr) (b : list N) : res (list N) :=
  need 2 in b ;;
  b <- put b 0 [he_type f] ;;
  '(b, o) <- cp8s true (he_namelen f) (he_name f) b 1 ;;
  '(b, o) <- cp8s true (he_vallen f) (he_val f) b o ;;
  Ok b.
Definition henr_marshal f := henr_marshal_to f (make (henr_marshal_len f)).

(** * Redirect Information *)
(** ie/redirect-information.go:70-76 *)
Record redir := { ri_type : N; ri_len : N; ri_addr : list N; ri_olen : N; ri_other : list N }.
(** ie/redirect-information.go:82-99; None is the nil pointer *)
Definition new_redir (typ : N) (addrs : list (list N)) : option redir :=
  match addrs with
  | [] => None
  | [a] => Some {| ri_type := typ; ri_len := u16 (lenN a); ri_addr := a; ri_olen := 0%N; ri_other := [] |}
  | a :: c :: _ => Some {| ri_type := typ; ri_len := u16 (lenN a); ri_addr := a; ri_olen := u16 (lenN c); ri_other := c |}
  end.
(** ie/redirect-information.go:111-139 *)
Definition redir_parse (b : list N) : res redir :=
  need 3 in b ;;
  t <- index b 0 ;;
  let o := 1 in
  n <- getr 2 b o (o + 2) ;;
  let o := o + 2 in
  need (o + N.to_nat n) in b ;;
  a <- slice b o (o + N.to_nat n) ;;
  m <- getr 2 b 1 3 ;;
  if (m =? 0)%N then Ok {| ri_type := t; ri_len := n; ri_addr := a; ri_olen := m; ri_other := [] |} else
  let o := o + 2 in
  need (o + N.to_nat m) in b ;;
  c <- slice b o (o + N.to_nat m) ;;
  Ok {| ri_type := t; ri_len := n; ri_addr := a; ri_olen := m; ri_other := c |}.
(** ie/redirect-information.go:187-189 *)
Definition redir_marshal_len (f : redir) : nat := 3 + N.to_nat (ri_len f) + 2 + N.to_nat (ri_olen f).
(** ie/redirect-information.go:151-184 *)
Definition redir_marshal_to (f : redir) (b : list N) : res (list N) :=
  let l := length b in
  need 1 in b ;;
  b <- put b 0 [ri_type f] ;;
  let o := 1 in
  if l <? o + N.to_nat (ri_len f) then Err EUnexpectedEOF else
  b <- put b 1 (be 2 (ri_len f)) ;;
  let o := o + 2 in
  b <- copy_range b o (o + N.to_nat (ri_len f)) (ri_addr f) ;;
  let o := o + N.to_nat (ri_len f) in
  match ri_other f with
  | [] => put b o (be 2 (ri_olen f))
  | _ => if l <? o + N.to_nat (ri_olen f) then Err EUnexpectedEOF else
         b <- put b o (be 2 (ri_olen f)) ;;
         let o := o + 2 in
         copy_range b o (o + N.to_nat (ri_olen f)) (ri_other f)
  end.
Definition redir_marshal f := redir_marshal_to f (make (redir_marshal_len f)).
(** ie/redirect-information.go:13-22: the payload *)
Definition new_redir_ie typ addrs : res (list N) := match new_redir typ addrs with Some f => redir_marshal f | None => Fault end.

(** * MAC Address *)
(** ie/mac-address.go:62-68 *)
Record macaddr := { ma_flags : N; ma_src : bslice; ma_dst : bslice; ma_usrc : bslice; ma_udst : bslice }.
(** ie/mac-address.go:71-95,103-105,113-115,123-125,133-135 *)
Definition new_macaddr src dst usrc udst : macaddr :=
  {| ma_flags := fold_left (fun (f : N) (x : bool * N) => if fst x then N.lor f (snd x) else f)
       [(notnil src, 1%N); (notnil dst, 2%N); (notnil usrc, 4%N); (notnil udst, 8%N)] 0%N;
     ma_src := src; ma_dst := dst; ma_usrc := usrc; ma_udst := udst |}.
(** ie/mac-address.go:98-100,108-110,118-120,128-130,147-192 *)
Definition macaddr_parse (b : list N) : res macaddr :=
  need 2 in b ;; fl <- index b 0 ;;
  let o := 1 in
  '(s, o) <- rdb (has1 fl) 6 b o None ;;
  '(d, o) <- rdb (has2 fl) 6 b o None ;;
  '(us, o) <- rdb (has3 fl) 6 b o None ;;
  '(ud, o) <- rdb (has4 fl) 6 b o None ;;
  Ok {| ma_flags := fl; ma_src := s; ma_dst := d; ma_usrc := us; ma_udst := ud |}.
(** ie/mac-address.go:248-263 *)
Definition macaddr_marshal_len (f : macaddr) : nat :=
  1 + len_if (notnil (ma_src f)) 6 + len_if (notnil (ma_dst f)) 6 + len_if (notnil (ma_usrc f)) 6 + len_if (notnil (ma_udst f)) 6.
(** one address of MarshalTo: copy(b[offset:offset+6], addr[:6]); addr[:6] panics if the address is shorter (taken as: than len) *)
Definition wrmac (c : bool) (a : bslice) (b : list N) (o : nat) : res (list N * nat) :=
  if c then need (o + 6) in b ;; s <- slice (octs a) 0 6 ;; b <- copy_range b o (o + 6) s ;; Ok (b, o + 6) else Ok (b, o).
(** ie/mac-address.go:204-245 *)
Definition macaddr_marshal_to (f : macaddr) (b : list N) : res (list N) :=
  let fl := ma_flags f in
  need 1 in b ;; b <- put b 0 [fl] ;;
  let o := 1 in
  '(b, o) <- wrmac (has1 fl) (ma_src f) b o ;;
  '(b, o) <- wrmac (has2 fl) (ma_dst f) b o ;;
  '(b, o) <- wrmac (has3 fl) (ma_usrc f) b o ;;
  '(b, o) <- wrmac (has4 fl) (ma_udst f) b o ;;
  Ok b.
Definition macaddr_marshal f := macaddr_marshal_to f (make (macaddr_marshal_len f)).

(** * User Plane IP Resource Information *)
(** ie/user-plane-ip-resource-information.go:71-78 *)
Record upri := { up_flags : N; up_range : N; up_v4 : bslice; up_v6 : bslice; up_ni : list N; up_si : N }.
(** (flags>>2)&0x07 != 0 *)
Definition teidri (fl : N) : bool := negb (N.land (N.shiftr fl 2) 0x07 =? 0)%N.
(** ie/user-plane-ip-resource-information.go:81-105 *)
Definition new_upri flags range v4 v6 ni si : upri :=
  {| up_flags := flags; up_range := if teidri flags then range else 0%N; up_v4 := if has1 flags then to4 v4 else None; up_v6 := if has2 flags then to16 v6 else None;
     up_ni := if has6 flags then ni else []; up_si := if has7 flags then si else 0%N |}.
(** ie/user-plane-ip-resource-information.go:117-169 *)
Definition upri_parse (b : list N) : res upri :=
  let l := length b in
  need 2 in b ;; fl <- index b 0 ;;
  let o := 1 in
  '(range, o) <- rdn (teidri fl) 1 b o 0%N ;;
  '(v4, o) <- rdb (has1 fl) 4 b o None ;;
  '(v6, o) <- rdb (has2 fl) 16 b o None ;;
  if has6 fl then
    '(si, n) <- (if has7 fl then x <- index b l ;; Ok (N.land x 0x0f, l - 1) else Ok (0%N, l)) ;;
    if l <? o + n then Err EUnexpectedEOF else
    ni <- slice b o n ;;
    Ok {| up_flags := fl; up_range := range; up_v4 := to4 v4; up_v6 := to16 v6; up_ni := ni; up_si := si |}
  else
    si <- (if has7 fl then x <- index b o ;; Ok (N.land x 0x0f) else Ok 0%N) ;;
    Ok {| up_flags := fl; up_range := range; up_v4 := to4 v4; up_v6 := to16 v6; up_ni := []; up_si := si |}.
(** ie/user-plane-ip-resource-information.go:218-237 *)
Definition upri_marshal_len (f : upri) : nat :=
  let fl := up_flags f in
  1 + len_if (teidri fl) 1 + len_if (has1 fl) 4 + len_if (has2 fl) 16 + len_if (has6 fl) (length (up_ni f)) + len_if (has7 fl) 1.
(** ie/user-plane-ip-resource-information.go:181-215 *)
Definition upri_marshal_to (f : upri) (b : list N) : res (list N) :=
  let fl := up_flags f in
  need 2 in b ;; b <- put b 0 [fl] ;;
  let o := 1 in
  '(b, o) <- cpn (teidri fl) 1 (up_range f) b o ;;
  '(b, o) <- cpb (has1 fl) 4 (octs (up_v4 f)) b o ;;
  '(b, o) <- cpb (has2 fl) 16 (octs (up_v6 f)) b o ;;
  '(b, o) <- cpb (has6 fl) (length (up_ni f)) (up_ni f) b o ;;
  '(b, o) <- cpn (has7 fl) 1 (up_si f) b o ;;
  Ok b.
Definition upri_marshal f := upri_marshal_to f (make (upri_marshal_len f)).
(** ie/user-plane-ip-resource-information.go:38-44 on the payload *)
Definition upri_ie_teidri (p : list N) : res N := x <- index p 0 ;; Ok (N.land (N.shiftr x 2) 0x07).

(** * Trace Information *)
(** ie/trace-information.go:42-51 *)
Record trace := { ti_mcc : list N; ti_mnc : list N; ti_id : list N; ti_evlen : N; ti_ev : bslice; ti_depth : N; ti_iflen : N; ti_ifs : bslice; ti_iplen : N; ti_ip : bslice }.
(** ie/trace-information.go:54-76 *)
Definition new_trace mcc mnc id ev depth ifs ip : trace :=
  match to4 ip with
  | Some v4 => {| ti_mcc := mcc; ti_mnc := mnc; ti_id := id; ti_evlen := u8 (lenN (octs ev)); ti_ev := ev; ti_depth := depth; ti_iflen := u8 (lenN (octs ifs)); ti_ifs := ifs;
                  ti_iplen := 4; ti_ip := Some v4 |}
  | None => {| ti_mcc := mcc; ti_mnc := mnc; ti_id := id; ti_evlen := u8 (lenN (octs ev)); ti_ev := ev; ti_depth := depth; ti_iflen := u8 (lenN (octs ifs)); ti_ifs := ifs;
               ti_iplen := 16; ti_ip := ip |}
  end.
(** [if l < offset { EOF }; x = b[offset]; offset++] *)
Definition rd1 (b : list N) (o : nat) : res (N * nat) := need o in b ;; x <- index b o ;; Ok (x, o + 1).
(** [if l < offset+int(n) { EOF }; copy(f.X, b[offset:offset+int(n)]); offset += int(n)]; f.X is nil, so nothing is copied *)
Definition skip_nil (n : N) (b : list N) (o : nat) : res nat := need (o + N.to_nat n) in b ;; _ <- slice b o (o + N.to_nat n) ;; Ok (o + N.to_nat n).
(** ie/trace-information.go:88-144 *)
Definition trace_parse (b : list N) : res trace :=
  need 6 in b ;;
  plmn <- slice b 0 3 ;;
  '(mcc, mnc) <- decode_plmn plmn ;;
  id <- slice b 3 6 ;;
  let o := 6 in
  '(evlen, o) <- rd1 b o ;;
  o <- skip_nil evlen b o ;;
  '(depth, o) <- rd1 b o ;;
  '(iflen, o) <- rd1 b o ;;
  o <- skip_nil iflen b o ;;
  '(iplen, o) <- rd1 b o ;;
  _ <- skip_nil iplen b o ;;
  Ok {| ti_mcc := mcc; ti_mnc := mnc; ti_id := id; ti_evlen := evlen; ti_ev := None; ti_depth := depth; ti_iflen := iflen; ti_ifs := None; ti_iplen := iplen; ti_ip := None |}.
(** ie/trace-information.go:215-222 *)
Definition trace_marshal_len (f : trace) : nat := 3 + 3 + 1 + 1 + 1 + 1 + N.to_nat (ti_evlen f) + N.to_nat (ti_iflen f) + N.to_nat (ti_iplen f).
(** [if l < offset { EOF }; b[offset] = x; offset++] and [if l < offset+n { EOF }; copy(b[offset:offset+n], s); offset += n] *)
Definition wr1x (x : N) (b : list N) (o : nat) : res (list N * nat) := need o in b ;; b <- put b o [x] ;; Ok (b, o + 1).
(** ie/trace-information.go:156-212 *)
Definition trace_marshal_to (f : trace) (b : list N) : res (list N) :=
  need 6 in b ;;
  plmn <- encode_plmn (ti_mcc f) (ti_mnc f) ;;
  b <- copy_range b 0 3 plmn ;;
  b <- copy_range b 3 6 (ti_id f) ;;
  let o := 6 in
  '(b, o) <- wr1x (ti_evlen f) b o ;;
  '(b, o) <- wrb true (N.to_nat (ti_evlen f)) (octs (ti_ev f)) b o ;;
  '(b, o) <- wr1x (ti_depth f) b o ;;
  '(b, o) <- wr1x (ti_iflen f) b o ;;
  '(b, o) <- wrb true (N.to_nat (ti_iflen f)) (octs (ti_ifs f)) b o ;;
  '(b, o) <- wr1x (ti_iplen f) b o ;;
  '(b, o) <- wrb true (N.to_nat (ti_iplen f)) (octs (ti_ip f)) b o ;;
  Ok b.
Definition trace_marshal f := trace_marshal_to f (make (trace_marshal_len f)).
