(** * Addresses and networks as text.

    The repository converts between texts and addresses everywhere: [ip_address(unicode(x))] in send_message.py:30-37,
    etr_node.py:559, 602, 628, auto_addresses.py:81, auto_socket.py:14, 72, 104, settings.py:63, 119,
    ddt_root_loader.py:71, [ip_network(unicode(...))] in ddt_root_loader.py:79 and address_tree/base.py:21, and
    [unicode(address)], [str(address)] wherever an address is given to the operating system.  The functions are those of
    the library py2-ipaddress, which is not in /repo: what follows models its methods [_string_from_ip_int],
    [_compress_hextets], [_ip_int_from_string], [_parse_octet], [_parse_hextet] and the constructors of networks, as the
    module [ipaddress] of Python 3.3 (whose backport it is) defines them.  What differs between releases is an argument:
    [octal], whether an octet with a leading zero (two or three digits) is accepted, and [dotted], the prefix length of a
    network mask in dotted notation. *)
From Verif Require Import Base Afi Tree RootFile.

(** ** Numbers *)
(** '%d' and '%x': the digits of n in base b; a digit as a character *)
Definition digit_char (d : Z) : Z := if d <? 10 then 48 + d else 87 + d.
Fixpoint digits (fuel : nat) (b n : Z) : text :=
  match fuel with
  | O => []
  | S f => if n <? b then [digit_char n] else digits f b (n / b) ++ [digit_char (n mod b)]
  end.
Definition print_int (b n : Z) : text := digits (S (Z.to_nat (Z.log2 n))) b n.

(** the value of a digit of base 16 *)
Definition hex_val (c : Z) : option Z :=
  if is_digit c then Some (c - 48)
  else if (97 <=? c) && (c <=? 102) then Some (c - 87)
  else if (65 <=? c) && (c <=? 70) then Some (c - 55)
  else None.
(** int(t, 16) of a text of such digits *)
Fixpoint hex_int (acc : Z) (t : text) : option Z :=
  match t with [] => Some acc | c :: t => match hex_val c with Some d => hex_int (16 * acc + d) t | None => None end end.

(** ** str.split(c) and c.join(l) *)
Fixpoint split (c : Z) (t : text) : list text :=
  match t with
  | [] => [[]]
  | x :: t => if x =? c then [] :: split c t
              else match split c t with [] => [[x]] | l :: ls => (x :: l) :: ls end
  end.
Fixpoint join (c : Z) (l : list text) : text :=
  match l with [] => [] | [t] => t | t :: l => t ++ c :: join c l end.
Definition empty (t : text) : bool := match t with [] => true | _ => false end.

(** ** IPv4 *)
(** _BaseV4._string_from_ip_int *)
Definition text4 (z : Z) : text :=
  join 46 (map (print_int 10) [z / 2 ^ 24 mod 256; z / 2 ^ 16 mod 256; z / 2 ^ 8 mod 256; z mod 256]).

Section Parse.
Variable octal : text -> bool.
Variable dotted : text -> option Z.

(** _BaseV4._parse_octet *)
Definition parse_octet (t : text) : option Z :=
  if empty t || negb (forallb is_digit t) || (3 <? Z.of_nat (length t)) then None
  else if (hd 0 t =? 48) && (1 <? Z.of_nat (length t)) && negb (octal t) then None
  else let n := int_of 0 t in if 255 <? n then None else Some n.
(** _BaseV4._ip_int_from_string *)
Definition parse4 (t : text) : option Z :=
  match split 46 t with
  | [a; b; c; d] =>
      match parse_octet a, parse_octet b, parse_octet c, parse_octet d with
      | Some a, Some b, Some c, Some d => Some (((a * 256 + b) * 256 + c) * 256 + d)
      | _, _, _, _ => None
      end
  | _ => None
  end.

(** ** IPv6 *)
(** _BaseV6._compress_hextets: the loop.  State: start and length of the best run of '0' so far, and of the present one *)
Record runs := Runs { best_start : nat; best_len : nat; cur_start : nat; cur_len : nat }.
Fixpoint scan (i : nat) (l : list text) (r : runs) : runs :=
  match l with
  | [] => r
  | h :: l =>
      if (match h with [48] => true | _ => false end) then
        let n := S (cur_len r) in
        let s := if Nat.eqb (cur_len r) 0 then i else cur_start r in
        scan (S i) l (if Nat.ltb (best_len r) n then Runs s n s n else Runs (best_start r) (best_len r) s n)
      else scan (S i) l (Runs (best_start r) (best_len r) 0 0)
  end.
Definition compress (l : list text) : list text :=
  let r := scan 0 l (Runs 0 0 0 0) in
  if Nat.ltb 1 (best_len r) then
    let e := (best_start r + best_len r)%nat in
    (if Nat.eqb (best_start r) 0 then [[]] else []) ++ firstn (best_start r) l ++ [[]] ++ skipn e l ++
    (if Nat.eqb e (length l) then [[]] else [])
  else l.
(** the eight groups of 16 bits *)
Definition hextets (z : Z) : list Z :=
  map (fun k => z / 2 ^ (16 * k) mod 65536) [7; 6; 5; 4; 3; 2; 1; 0].
(** _BaseV6._string_from_ip_int *)
Definition text6 (z : Z) : text := join 58 (compress (map (print_int 16) (hextets z))).

(** _BaseV6._parse_hextet *)
Definition parse_hextet (t : text) : option Z :=
  if empty t || (4 <? Z.of_nat (length t)) then None else hex_int 0 t.
Fixpoint parse_hextets (acc : Z) (l : list text) : option Z :=
  match l with
  | [] => Some acc
  | t :: l => match parse_hextet t with Some h => parse_hextets (65536 * acc + h) l | None => None end
  end.
(** an IPv4 address in the last part becomes two groups *)
Definition expand (parts : list text) : option (list text) :=
  if existsb (Z.eqb 46) (last parts []) then
    match parse4 (last parts []) with
    | Some z => Some (removelast parts ++ [print_int 16 (z / 65536); print_int 16 (z mod 65536)])
    | None => None
    end
  else Some parts.
(** the parts between two others that are empty *)
Definition gaps (parts : list text) : list nat :=
  filter (fun i => empty (nth i parts [])) (seq 1 (length parts - 2)).
(** _BaseV6._ip_int_from_string *)
Definition parse6 (t : text) : option Z :=
  let parts := split 58 t in
  if Nat.ltb (length parts) 3 then None
  else match expand parts with
       | None => None
       | Some parts =>
           if Nat.ltb 9 (length parts) then None
           else match gaps parts with
                | [] =>
                    if negb (Nat.eqb (length parts) 8) || empty (hd [] parts) || empty (last parts []) then None
                    else parse_hextets 0 parts
                | [s] =>
                    let hi := s in
                    let lo := (length parts - s - 1)%nat in
                    let hi' := if empty (hd [] parts) then (hi - 1)%nat else hi in
                    let lo' := if empty (last parts []) then (lo - 1)%nat else lo in
                    if (empty (hd [] parts) && negb (Nat.eqb hi' 0)) || (empty (last parts []) && negb (Nat.eqb lo' 0)) then None
                    else if Nat.ltb 7 (hi' + lo') then None
                    else match parse_hextets 0 (firstn hi' parts) with
                         | Some a => parse_hextets (a * 2 ^ (16 * Z.of_nat (8 - (hi' + lo')))) (skipn (length parts - lo') parts)
                         | None => None
                         end
                | _ => None
                end
       end.

(** ** ip_address and unicode(address) *)
Definition text_of (a : fam * Z) : text := match a with (V4, z) => text4 z | (V6, z) => text6 z end.
Definition address_of (t : text) : option (fam * Z) :=
  match parse4 t with
  | Some z => Some (V4, z)
  | None => match parse6 t with Some z => Some (V6, z) | None => None end
  end.

(** ** ip_network and unicode(network) *)
Definition net_text (p : pfx) : text := text_of (x_fam p, x_net p) ++ 47 :: print_int 10 (x_len p).
(** _prefix_from_prefix_string *)
Definition parse_len (v : fam) (t : text) : option Z :=
  if empty t || negb (forallb is_digit t) then None
  else let n := int_of 0 t in if wz v <? n then None else Some n.
Definition parse_mask (v : fam) (t : text) : option Z :=
  match v with
  | V4 => if Nat.eqb (length (split 46 t)) 4 then dotted t else parse_len V4 t
  | V6 => parse_len V6 t
  end.
(** IPv4Network(text), IPv6Network(text): host bits are refused *)
Definition parse_net (v : fam) (t : text) : option pfx :=
  let parse := match v with V4 => parse4 | V6 => parse6 end in
  match split 47 t with
  | [a] => match parse a with Some z => Some (Pfx v z (wz v)) | None => None end
  | [a; m] =>
      match parse a, parse_mask v m with
      | Some z, Some n => if mask_to v n z =? z then Some (Pfx v z n) else None
      | _, _ => None
      end
  | _ => None
  end.
Definition network_of (t : text) : option pfx :=
  match parse_net V4 t with Some p => Some p | None => parse_net V6 t end.
End Parse.

(** ** '{site_id:x}-{xtr_id:x}', map_server_node.py:154-157 *)
Definition xtr_text (site xtr : Z) : text := print_int 16 site ++ 45 :: print_int 16 xtr.
