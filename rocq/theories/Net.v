(** * Sending, sockets, addresses, message numbers, settings:
    application/lispd/send_message.py, utils/auto_socket.py, utils/auto_addresses.py,
    application/lispd/received_message.py, application/lispd/settings.py, utils/id_generators.py.
    The operating system is an argument of every function that asks it something. *)
From Verif Require Import Base Afi Records Tree.

(** ** ipaddress predicates used below (py2-ipaddress; IPv4: 127/8, 169.254/16, 224/4, 240/4, 0.0.0.0;
    IPv6: ::1, fe80::/10, ff00::/8, the reserved blocks, ::) *)
Definition top (v : fam) (n z : Z) : Z := z / 2 ^ (wz v - n).
Definition is_loopback (v : fam) (z : Z) : bool :=
  match v with V4 => top V4 8 z =? 127 | V6 => z =? 1 end.
Definition is_link_local (v : fam) (z : Z) : bool :=
  match v with V4 => top V4 16 z =? 43518 | V6 => top V6 10 z =? 1018 end.
Definition is_multicast (v : fam) (z : Z) : bool :=
  match v with V4 => top V4 4 z =? 14 | V6 => top V6 8 z =? 255 end.
Definition is_reserved (v : fam) (z : Z) : bool :=
  match v with
  | V4 => top V4 4 z =? 15
  | V6 => (top V6 8 z =? 0) || (top V6 8 z =? 1) || (top V6 7 z =? 1) || (top V6 6 z =? 1) ||
          (top V6 5 z =? 1) || (top V6 4 z =? 1) || (top V6 3 z =? 2) || (top V6 3 z =? 3) ||
          (top V6 3 z =? 4) || (top V6 3 z =? 5) || (top V6 3 z =? 6) || (top V6 4 z =? 14) ||
          (top V6 5 z =? 30) || (top V6 6 z =? 62) || (top V6 9 z =? 508)
  end.
Definition is_unspecified (v : fam) (z : Z) : bool := z =? 0.

(** ** send_message *)
(** what send_message uses of a socket object: [family] and [getsockname()] *)
Record sock := Sock { k_id : nat; k_fam : fam; k_name : fam * Z * Z }.
(** a call of [sendto(data, (destination, port))] *)
Record attempt := Att { at_sock : sock; at_to : fam * Z; at_port : Z; at_data : bytes }.
(** the return value [(sockname, addr)] *)
Definition sm_result := (option (fam * Z * Z * (fam * Z * Z)))%type.

(** send_message.py:15-25 *)
Definition matching (v : fam) (socks : list sock) : list sock :=
  filter (fun k => fam_eqb (k_fam k) v) socks.

Section Send.
Variable ser : res bytes.            (* bytes(message) *)
Variable net : nat -> res Z.         (* what the k-th sendto of the call gives: count, or socket.error *)
Variable port : Z.

(** send_message.py:38-48 for one destination; [n] counts the calls of sendto *)
Fixpoint try_socks (n : nat) (v : fam) (z : Z) (l : list sock) : list attempt * res sm_result :=
  match l with
  | [] => ([], Ok None)
  | k :: l =>
      match ser with
      | Err e => ([], Err e)
      | Ok data =>
          let a := Att k (v, z) port data in
          match net n with
          | Err e => ([a], Err e)
          | Ok c =>
              if c =? lenZ data then ([a], Ok (Some (k_name k, (v, z, port))))
              else let '(t, r) := try_socks (S n) v z l in (a :: t, r)
          end
      end
  end.

(** send_message.py:34-50.  Gives the calls of sendto and the outcome. *)
Fixpoint send_message (n : nat) (socks : list sock) (dests : list addr) : list attempt * res sm_result :=
  match dests with
  | [] => ([], Ok None)
  | d :: dests =>
      match as_address d with
      | Err e => ([], Err e)
      | Ok (v, z) =>
          let '(t, r) := try_socks n v z (matching v socks) in
          match r with
          | Ok None => let '(t', r') := send_message (n + length t)%nat socks dests in (t ++ t', r')
          | _ => (t, r)
          end
      end
  end.
End Send.

(** ** AutoUDPSocket *)
(** [_sock] (identity of the OS socket) and [int(_sock_address)]; the family is fixed *)
Record asock := ASock { as_sock : option nat; as_bound : Z }.
(** calls into the OS *)
Inductive osop := OsOpen (id : nat) | OsBind (id : nat) (z : Z) | OsClose (id : nat).
(** how socket.socket/setsockopt/bind end (auto_socket.py:63-73): all well; socket() raises socket.error;
    a later call raises socket.error.  Other exceptions (a Python without SO_REUSEPORT, a port
    outside 0..65535) are not modelled. *)
Inductive bind_out := BindOk (id : nat) | NoSocket | BindFails (id : nat).

Definition usable (v : fam) (z : Z) : bool :=
  negb (is_loopback v z || is_link_local v z || is_multicast v z || is_unspecified v z).

(** auto_socket.py:38-87; [z] is int(self.address) *)
Definition rebind (v : fam) (z : Z) (o : bind_out) (s : asock) : asock * list osop * bool :=
  if z =? as_bound s then (s, [], match as_sock s with Some _ => true | None => false end)
  else
    let close := match as_sock s with Some i => [OsClose i] | None => [] end in
    if usable v z then
      match o with
      | BindOk i => (ASock (Some i) z, close ++ [OsOpen i; OsBind i z], true)
      | NoSocket => (ASock None 0, close, false)
      | BindFails i => (ASock None 0, close ++ [OsOpen i; OsClose i], false)
      end
    else (ASock None 0, close, false).

(** auto_socket.py:23-25: before the first rebind *)
Definition asock0 : asock := ASock None 0.

(** auto_socket.py:113-124: 0 without a socket, otherwise what the OS gives *)
Definition auto_sendto (s : asock) (os : res Z) : res Z :=
  match as_sock s with None => Ok 0 | Some _ => os end.
(** what the OS gives for [self._sock.recvfrom]: an error, or data and the text of the sender's address with a port;
    [None] for a text [ip_address] refuses, such as a link-local IPv6 address with its zone *)
Inductive recv_out := RecvErr | RecvData (d : bytes) (src : option Z) (port : Z).
(** auto_socket.py:97-111: no data and the bound address without a socket or on socket.error; only socket.error is
    caught, so the ValueError of ip_address (line 104) is not *)
Definition auto_recvfrom (s : asock) (os : recv_out) : res (bytes * (Z * Z)) :=
  match as_sock s with
  | None => Ok ([], (as_bound s, 0))
  | Some _ => match os with
              | RecvErr => Ok ([], (as_bound s, 0))
              | RecvData d (Some z) p => Ok (d, (z, p))
              | RecvData _ None _ => Err EValue
              end
  end.
(** auto_socket.py:91-95 *)
Definition auto_fileno (s : asock) : option nat := as_sock s.

(** ** AutoAddress *)
(** netifaces.ifaddresses(if_name)[family]: [None] when it raises ValueError or KeyError, otherwise the
    addresses in order, [None] for a text [ip_address] refuses *)
Definition iface := option (list (option Z)).
(** auto_addresses.py:79-82 *)
Definition suitable (v : fam) (z : Z) : bool :=
  negb (is_link_local v z || is_loopback v z || is_multicast v z || is_reserved v z || is_unspecified v z).
(** auto_addresses.py:69-90 *)
Fixpoint pick (v : fam) (l : list (option Z)) : Z :=
  match l with
  | [] => 0
  | None :: _ => 0
  | Some z :: l => if suitable v z then z else pick v l
  end.
Definition new_ip (v : fam) (i : iface) : Z := match i with None => 0 | Some l => pick v l end.

(** [_ip] and [_notify_targets] (a set: listeners by identity, in its iteration order) *)
Record auto := Auto { au_ip : Z; au_targets : list nat }.
(** auto_addresses.py:50-51 *)
Definition add_target (t : nat) (a : auto) : auto :=
  Auto (au_ip a) (if existsb (Nat.eqb t) (au_targets a) then au_targets a else t :: au_targets a).
(** auto_addresses.py:60-108: the new state and the listeners whose on_address_change was called (an
    exception of a listener is swallowed, 53-58) *)
Definition update_address (v : fam) (i : iface) (a : auto) : auto * list nat :=
  let z := new_ip v i in
  if au_ip a =? z then (a, []) else (Auto z (au_targets a), au_targets a).

(** ** ReceivedMessage numbers, received_message.py:23-33 *)
Definition maxint : Z := 2 ^ 63 - 1.
(** the class attribute [counter] and the number given to one message *)
Definition take_nr (counter : Z) (explicit : option Z) : Z * Z :=
  let auto := let c := if counter =? maxint then 1 else counter + 1 in (c, c) in
  match explicit with
  | Some n => if n =? 0 then auto else (counter, n)
  | None => auto
  end.
(** numbers of a sequence of constructions (the lock makes each one atomic) *)
Fixpoint take_nrs (counter : Z) (h : list (option Z)) : list Z :=
  match h with
  | [] => []
  | e :: h => let '(c, n) := take_nr counter e in n :: take_nrs c h
  end.

(** ** Settings.fix_config, settings.py:117-159 *)
(** keys and values of configuration dictionaries as far as fix_config looks at them *)
Inductive ckey := KInt (z : Z) | KOther.
Inductive cval := CNode (n : node) | COther.
Inductive cinst := CDict (d : list (Z * cval)) | CNoDict.
Inductive clisten := LAddr (v : fam) (z : Z) | LText (a : option (fam * Z)).
Record settings := Settings {
  st_listen : option (list clisten);                       (* None: not iterable *)
  st_instances : option (list (ckey * cinst));             (* None: not a mapping *)
  st_petr_ok : bool; st_natt_ok : bool; st_nfq4_ok : bool; st_nfq6_ok : bool }.

(** settings.py:118-122: a true address object stays, everything else goes through ip_address; address
    objects are true in Python *)
Definition fix_listen1 (l : clisten) : res clisten :=
  match l with
  | LAddr v z => Ok (LAddr v z)
  | LText (Some (v, z)) => Ok (LAddr v z)
  | LText None => Err EConfig
  end.

Definition root4 : pfx := Pfx V4 0 0.
Definition root6 : pfx := Pfx V6 0 0.
(** settings.py:137-145: a ContainerNode (or subclass) with this prefix *)
Definition root_ok (p : pfx) (x : cval) : bool :=
  match x with CNode n => is_container n && pfx_eqb (n_pfx n) p | COther => false end.

(** settings.py:125-147 for one instance; [id4], [id6] are the identities of nodes created.  Every exception
    becomes ConfigurationError (TypeError, IndexError and KeyError are caught at 146). *)
Definition fix_instance (id4 id6 : nat) (k : ckey) (x : cinst) : res cinst :=
  match k, x with
  | KOther, _ => Err EConfig
  | KInt _, CNoDict => Err EConfig
  | KInt _, CDict d =>
      let d := match assoc 1 d with None => put 4 (CNode (Node id4 root4 NContainer [])) d | Some _ => d end in
      let d := match assoc 2 d with None => put 4 (CNode (Node id6 root6 NContainer [])) d | Some _ => d end in
      match assoc 1 d with
      | None => Err EConfig
      | Some x4 =>
          let* _ := guard (root_ok root4 x4) EConfig in
          match assoc 2 d with
          | None => Err EConfig
          | Some x6 =>
              let* _ := guard (root_ok root6 x6) EConfig in
              Ok (CDict d)
          end
      end
  end.

(** settings.py:117-159 *)
Definition fix_config (fresh : ckey -> nat * nat) (s : settings) : res settings :=
  let* listen := match st_listen s with None => Err EConfig | Some l => mapM fix_listen1 l end in
  let* insts := match st_instances s with
                | None => Err EConfig
                | Some d => mapM (fun e => let* x := fix_instance (fst (fresh (fst e))) (snd (fresh (fst e))) (fst e) (snd e) in
                                           Ok (fst e, x)) d
                end in
  let* _ := guard (st_petr_ok s) EConfig in
  let* _ := guard (st_natt_ok s) EConfig in
  let* _ := guard (st_nfq4_ok s) EConfig in
  let* _ := guard (st_nfq6_ok s) EConfig in
  Ok (Settings (Some listen) (Some insts) (st_petr_ok s) (st_natt_ok s) (st_nfq4_ok s) (st_nfq6_ok s)).

(** ** get_xtr_id, utils/id_generators.py:4-32 *)
Definition watermark : Z := 110930286722065861025335556600219303936.
(** the MAC addresses of all interfaces in order, as lists of octets *)
Fixpoint mac_int (acc : Z) (m : list Z) : Z :=
  match m with [] => acc | o :: m => mac_int (Z.shiftl acc 8 + o) m end.
Fixpoint get_xtr_id (macs : list (list Z)) : Z :=
  match macs with
  | [] => 0
  | m :: macs =>
      let first := match m with o :: _ => o | [] => 0 end in
      if Z.odd first then get_xtr_id macs
      else if mac_int 0 m =? 0 then get_xtr_id macs
      else Z.lor (mac_int 0 m) watermark
  end.
