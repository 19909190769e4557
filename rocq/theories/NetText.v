(** Textual addresses: net.ParseIP and net.IP.String of the standard library (Go 1.24, the version in go.mod), and the constructors
    and the accessor of go-pfcp that take or return texts.  Strings are lists of octets.

    The standard library is not part of /repo; its functions are modelled after net/ip.go and net/netip/netip.go.  The text of an
    error of netip.ParseAddr is not modelled: net.ParseIP drops it. *)
From Verif Require Import Base Codec IETypes Fields1 Fields3 New.

Definition dot : N := 46. Definition colon : N := 58. Definition percent : N := 37.
Definition is_digit (c : N) : bool := (48 <=? c)%N && (c <=? 57)%N.

(** netip.parseIPv4Fields.  [start] says that the index is 0 or the octet before it is a dot; [fs] are the fields so far *)
Fixpoint v4_loop (start : bool) (s : list N) (val : N) (diglen : nat) (fs : list N) : option (list N) :=
  match s with
  | [] => if length fs <? 3 then None else Some (fs ++ [val])
  | c :: r =>
      if is_digit c then
        if (diglen =? 1) && (val =? 0)%N then None
        else let val := (val * 10 + (c - 48))%N in
             if (255 <? val)%N then None else v4_loop false r val (S diglen) fs
      else if (c =? dot)%N then
        if start || (match r with [] => true | _ => false end) then None
        else if length fs =? 3 then None
        else v4_loop true r 0 0 (fs ++ [val])
      else None
  end.
Definition parse_v4 (s : list N) : option (list N) := v4_loop true s 0 0 [].

(** netip.parseIPv6: the digits of one group; acc is a uint32 and does not overflow *)
Definition hex_value (c : N) : option N :=
  if (48 <=? c)%N && (c <=? 57)%N then Some (c - 48)%N
  else if (97 <=? c)%N && (c <=? 102)%N then Some (c - 97 + 10)%N
  else if (65 <=? c)%N && (c <=? 70)%N then Some (c - 65 + 10)%N
  else None.
Fixpoint scan (s : list N) (off : nat) (acc : N) : option (nat * N * list N) :=
  match s with
  | [] => Some (off, acc, [])
  | c :: r =>
      match hex_value c with
      | Some d => let acc := (acc * 16 + d)%N in
                  if 3 <? off then None else if (65535 <? acc)%N then None else scan r (S off) acc
      | None => Some (off, acc, s)
      end
  end.
(** the loop over the groups: n more may follow, the octets so far are ip, the position of the ellipsis is ell *)
Fixpoint v6_loop (n : nat) (s ip : list N) (ell : option nat) : option (list N * list N * option nat) :=
  match n with
  | O => Some (s, ip, ell)
  | S n =>
      match scan s 0 0 with
      | None => None
      | Some (off, acc, r) =>
          if off =? 0 then None else
          match r with
          | [] => Some ([], ip ++ [acc / 256; acc mod 256]%N, ell)
          | c :: r1 =>
              if (c =? dot)%N then
                if (match ell with None => true | _ => false end) && negb (length ip =? 12) then None
                else if 16 <? length ip + 4 then None
                else match parse_v4 s with Some v4 => Some ([], ip ++ v4, ell) | None => None end
              else
                let ip := ip ++ [acc / 256; acc mod 256]%N in
                if negb (c =? colon)%N then None else
                match r1 with
                | [] => None
                | c2 :: r2 =>
                    if (c2 =? colon)%N then
                      match ell, r2 with
                      | Some _, _ => None
                      | None, [] => Some ([], ip, Some (length ip))
                      | None, _ => v6_loop n r2 ip (Some (length ip))
                      end
                    else v6_loop n r1 ip ell
                end
          end
      end
  end.
Definition v6_body (s : list N) : option (list N) :=
  let '(s, ell) := match s with a :: b :: r => if (a =? colon)%N && (b =? colon)%N then (r, Some 0%nat) else (s, None) | _ => (s, None) end in
  match ell, s with
  | Some _, [] => Some (make 16)
  | _, _ =>
      match v6_loop 8 s [] ell with
      | Some ([], ip, ell) =>
          if length ip <? 16 then
            match ell with Some e => Some (firstn e ip ++ make (16 - length ip) ++ skipn e ip) | None => None end
          else match ell with Some _ => None | None => Some ip end
      | _ => None
      end
  end.
(** the zone *)
Fixpoint cut (c : N) (s : list N) : list N * option (list N) :=
  match s with
  | [] => ([], None)
  | x :: r => if (x =? c)%N then ([], Some r) else let '(a, z) := cut c r in (x :: a, z)
  end.
Definition parse_v6 (s : list N) : option (list N * list N) :=
  let '(s, z) := cut percent s in
  match z with
  | Some [] => None
  | _ => match v6_body s with Some ip => Some (ip, octs z) | None => None end
  end.

(** netip.ParseAddr: the first '.', ':' or '%' decides.  The address as 16 octets (As16) and the zone *)
Fixpoint parse_addr_at (r s : list N) : option (list N * list N) :=
  match r with
  | [] => None
  | c :: r =>
      if (c =? dot)%N then match parse_v4 s with Some ip => Some (v4prefix ++ ip, []) | None => None end
      else if (c =? colon)%N then parse_v6 s
      else if (c =? percent)%N then None
      else parse_addr_at r s
  end.
Definition parse_addr (s : list N) : option (list N * list N) := parse_addr_at s s.
(** net.ParseIP *)
Definition parse_ip (s : list N) : bslice :=
  match parse_addr s with Some (ip, []) => Some ip | _ => None end.

(** netip.Addr.String *)
Definition dec (n : N) : list N :=
  if (n <? 10)%N then [48 + n]%N else if (n <? 100)%N then [48 + n / 10; 48 + n mod 10]%N else [48 + n / 100; 48 + n / 10 mod 10; 48 + n mod 10]%N.
Fixpoint join (sep : N) (l : list (list N)) : list N :=
  match l with [] => [] | [x] => x | x :: r => x ++ sep :: join sep r end.
Definition string4 (ip : list N) : list N := join dot (map dec ip).
Definition hex_digit (d : N) : N := if (d <? 10)%N then (48 + d)%N else (87 + d)%N.
Definition append_hex (x : N) : list N :=
  ((if 0x1000 <=? x then [hex_digit (x / 4096)] else []) ++ (if 0x100 <=? x then [hex_digit (x / 256 mod 16)] else []) ++
   (if 0x10 <=? x then [hex_digit (x / 16 mod 16)] else []) ++ [hex_digit (x mod 16)])%N%list.
(** v6u16 *)
Definition group (ip : list N) (i : nat) : N := (256 * nth (2 * i) ip 0 + nth (2 * i + 1) ip 0)%N.
(** for j < 8 && ip.v6u16(j) == 0 { j++ } *)
Fixpoint zeros_from (n : nat) (ip : list N) (j : nat) : nat :=
  match n with O => j | S n => if (j <? 8) && (group ip j =? 0)%N then zeros_from n ip (S j) else j end.
Fixpoint zero_run (n : nat) (ip : list N) (i zs ze : nat) : nat * nat :=
  match n with
  | O => (zs, ze)
  | S n => let j := zeros_from 8 ip i in
           if (2 <=? j - i) && (ze - zs <? j - i) then zero_run n ip (S i) i j else zero_run n ip (S i) zs ze
  end.
Fixpoint print6 (n : nat) (ip : list N) (zs ze i : nat) : list N :=
  match n with
  | O => []
  | S n =>
      if 8 <=? i then []
      else if i =? zs then [colon; colon] ++ (if 8 <=? ze then [] else append_hex (group ip ze) ++ print6 n ip zs ze (S ze))
      else (if 0 <? i then [colon] else []) ++ append_hex (group ip i) ++ print6 n ip zs ze (S i)
  end.
Definition string6 (ip : list N) : list N :=
  let '(zs, ze) := zero_run 8 ip 0 255 255 in print6 8 ip zs ze 0.
(** net.IP.String; hexString of an address that is not 4 or 16 octets long *)
Definition nil_text : list N := [60; 110; 105; 108; 62]%N.        (* "<nil>" *)
Definition hex_string (x : list N) : list N := concat (map (fun o => [hex_digit (o / 16); hex_digit (o mod 16)]%N) x).
Definition ip_string (ip : bslice) : list N :=
  match octs ip with
  | [] => nil_text
  | x => if (length x =? 4) || (length x =? 16) then
           match to4 ip with Some v4 => string4 v4 | None => string6 x end
         else 63%N :: hex_string x
  end.

(** * go-pfcp *)
Definition text_arg (s : list N) : option bslice := match s with [] => None | _ => Some (parse_ip s) end.
(** ie/node-id.go:26-47,50-74,77-113 *)
Definition NewNodeID (v4 v6 fqdn : list N) : res (option (list N)) := new_node_id (text_arg v4) (text_arg v6) fqdn.
Definition NewNodeIDHeuristic (s : list N) : res (option (list N)) := new_node_id_heuristic s (parse_ip s).
Definition node_text (x : node_id) : list N := match x with NodeIP ip => ip_string ip | NodeName s => s end.
Definition NodeID (b : list N) : res (list N) := x <- node_id_value b ;; Ok (node_text x).
(** ie/fq-csid.go:22-53 *)
Definition NewFQCSID (addr : list N) (ids : list N) : res (option (list N)) := new_fqcsid addr (parse_ip addr) ids.
(** ie/ue-ip-address.go:189-209, ie/outer-header-creation.go:313-343, ie/remote-gtp-u-peer.go:119-141 *)
Definition NewUEIPAddressFields flags v4 v6 v6d v6pl := new_ueip flags (parse_ip v4) (parse_ip v6) v6d v6pl.
Definition NewOuterHeaderCreationFields desc teid v4 v6 port ctag stag := new_ohc desc teid (parse_ip v4) (parse_ip v6) port ctag stag.
Definition NewRemoteGTPUPeerFields flags v4 v6 di ni := new_rpeer flags (parse_ip v4) (parse_ip v6) di ni.
(** ie/user-plane-ip-resource-information.go:81-105 *)
Definition NewUserPlaneIPResourceInformationFields flags tr v4 v6 ni si := new_upri flags tr (parse_ip v4) (parse_ip v6) ni si.
