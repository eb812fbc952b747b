(** * The texts of addresses: [unicode(address)] for the classes in /repo/pylisp/utils/lcaf, and what [ip_address] and
    [ip_network] make of them.  Texts are lists of character codes; those of plain addresses and networks are in IpText.v. *)
From Verif Require Import Base Afi Tree RootFile IpText.

Section T.
(** [u'{0},{1}'.format(longitude, latitude)]: the two floats of geo_address.py:50-72, from the degrees, minutes and
    seconds of both; neither [north], [east] nor [altitude] is looked at.  How Python prints a float is left open. *)
Variable coords : Z * Z * Z -> Z * Z * Z -> text.
(** [unicode(rtr_rlocs)]: the text of a list, made of the representations of its members (which never raise) *)
Variable listed : list addr -> text.

(** "None", "NULL", "[AS", "<MS:[", "]:", " Private:[", "] Public:[", " RTRs:" *)
Definition t_none : text := [78; 111; 110; 101].
Definition t_null : text := [78; 85; 76; 76].
Definition t_as : text := [91; 65; 83].
Definition t_ms : text := [60; 77; 83; 58; 91].
Definition t_port : text := [93; 58].
Definition t_private : text := [32; 80; 114; 105; 118; 97; 116; 101; 58; 91].
Definition t_public : text := [93; 32; 80; 117; 98; 108; 105; 99; 58; 91].
Definition t_rtrs : text := [32; 82; 84; 82; 115; 58].

(** [unicode(x)]: null_address.py:18-19, afi_list_address.py:21-22 (join of objects that are no strings: TypeError),
    instance_address.py:23-27, autonomous_system_address.py:22-23, geo_address.py:33-34, nat_traversal_address.py:25-29
    (the parts are formatted in the order of the pattern) *)
Fixpoint utext (a : addr) : res text :=
  match a with
  | ANone => Ok t_none
  | AIP v z => Ok (text_of (v, z))
  | ANet v z n => Ok (net_text (Pfx v z n))
  | LNull => Ok t_null
  | LList l => match l with [] => Ok [] | _ => Err EType end
  | LInst i a _ =>
      if i =? 0 then utext a
      else let* t := utext a in Ok (91 :: print_int 10 i ++ 93 :: t)
  | LAs n a => let* t := utext a in Ok (t_as ++ print_int 10 n ++ 93 :: t)
  | LGeo g a =>
      let* t := utext a in
      Ok (91 :: coords (g_lond g, g_lonm g, g_lons g) (g_latd g, g_latm g, g_lats g) ++ 93 :: t)
  | LNat mp ep g m p l =>
      let* tm := utext m in
      let* tp := utext p in
      let* tg := utext g in
      Ok (t_ms ++ tm ++ t_port ++ print_int 10 mp ++ t_private ++ tp ++ t_public ++ tg ++ t_port ++ print_int 10 ep ++
          t_rtrs ++ listed l ++ [62])
  end.

Variable octal : text -> bool.
Variable dotted : text -> option Z.
(** [ip_address(unicode(x))]: send_message.py:37, etr_node.py:559, 602, 628 *)
Definition address_text (a : addr) : res (fam * Z) :=
  let* t := utext a in match address_of octal t with Some x => Ok x | None => Err EValue end.
(** [ip_network(x)] for an object that is not a number or bytes: it reads the text of [x].  afi.py:71,
    instance_address.py:50, autonomous_system_address.py:46, geo_address.py:89, base.py:21 *)
Definition network_text (a : addr) : res addr :=
  let* t := utext a in
  match network_of octal dotted t with Some p => Ok (ANet (x_fam p) (x_net p) (x_len p)) | None => Err EValue end.
End T.
