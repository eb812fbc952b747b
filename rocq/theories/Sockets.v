(** * The UDP sockets of the daemon and the automatic addresses they are bound to: utils/auto_socket.py, utils/auto_addresses.py,
    what the import of application/lispd/address_tree/map_server_node.py leaves behind, and SIGHUP.
    One socket is modelled in Net.v ([rebind]), the addresses in AutoReg.v.  Listeners of addresses other than sockets are left out. *)
From Verif Require Import Base Afi Net AutoReg.

(** the address an AutoUDPSocket was made with, auto_socket.py:13-15: a plain address or the i-th automatic one *)
Inductive uaddr := UFixed (v : fam) (z : Z) | UAuto (i : nat).
(** an AutoUDPSocket: [address], [port], and [_sock] with [_sock_address] *)
Record usock := USock { us_addr : uaddr; us_port : Z; us_sock : asock }.
(** the automatic addresses and the sockets made so far (a socket is its position, also as a listener) *)
Record proc := Proc { p_reg : areg; p_socks : list usock }.
Definition proc0 : proc := Proc areg0 [].

(** class and int() of the address *)
Definition value (w : areg) (a : uaddr) : option (fam * Z) :=
  match a with
  | UFixed v z => Some (v, z)
  | UAuto i => option_map (fun b => (ao_fam b, ao_ip b)) (nth_error (objs w) i)
  end.
(** auto_socket.py:38-87 of one socket *)
Definition us_rebind (w : areg) (o : bind_out) (s : usock) : usock :=
  match value w (us_addr s) with
  | None => s
  | Some (v, z) => USock (us_addr s) (us_port s) (fst (fst (rebind v z o (us_sock s))))
  end.
Fixpoint at_nth {A} (k : nat) (f : A -> A) (l : list A) : list A :=
  match l, k with
  | [], _ => []
  | x :: l, O => f x :: l
  | x :: l, S k => x :: at_nth k f l
  end.
(** auto_socket.py:34-36: on_address_change of the k-th socket *)
Definition on_change (outs : nat -> bind_out) (p : proc) (k : nat) : proc :=
  Proc (p_reg p) (at_nth k (us_rebind (p_reg p) (outs k)) (p_socks p)).

Section Proc.
Variable hash : Z -> Z.

(** auto_socket.py:11-29; an address that was never made cannot be given *)
Definition new_socket (a : uaddr) (port : Z) (o : bind_out) (p : proc) : proc :=
  match value (p_reg p) a with
  | None => p
  | Some _ =>
      let s := us_rebind (p_reg p) o (USock a port asock0) in
      let w := match a with UFixed _ _ => p_reg p | UAuto i => listen i (length (p_socks p)) (p_reg p) end in
      Proc w (p_socks p ++ [s])
  end.
(** auto_addresses.py:53-108 of the i-th address: the listeners are called after the address has changed.  [outs]: how a bind of each
    socket would end *)
Definition hup_one (env : ifaces) (outs : nat -> bind_out) (p : proc) (i : nat) : proc :=
  let '(w, called) := update_one env i (p_reg p) in
  fold_left (on_change outs) (map snd called) (Proc w (p_socks p)).
(** scripts/lispd:324-326, auto_addresses.py:24-30 *)
Definition hup (env : ifaces) (outs : nat -> bind_out) (p : proc) : proc :=
  fold_left (hup_one env outs) (reg (p_reg p)) p.

(** what settings.py and main() can do before and while serving *)
Inductive pev :=
| PGet (v : fam) (n : Z) (env : ifaces)              (* get_ipv4_address(name), get_ipv6_address(name) *)
| PNew (v : fam) (n : Z) (env : ifaces)              (* AutoIPv4Address(name), AutoIPv6Address(name) *)
| PSocket (a : uaddr) (port : Z) (o : bind_out)      (* AutoUDPSocket(address, port), scripts/lispd:68-79 *)
| PHup (env : ifaces) (outs : nat -> bind_out).      (* SIGHUP *)
Definition p_step (p : proc) (e : pev) : proc :=
  match e with
  | PGet v n env => Proc (fst (get_address hash env v n (p_reg p))) (p_socks p)
  | PNew v n env => Proc (fst (construct hash env v n (p_reg p))) (p_socks p)
  | PSocket a port o => new_socket a port o p
  | PHup env outs => hup env outs p
  end.

(** the name 'vlan2' (its characters as one number) *)
Definition vlan2 : Z := 508624465458.
(** map_server_node.py:182-262, executed when message_handler is imported, and the objects stay referenced by the module variable x:
    a socket on port 4342 of interface vlan2, and one more address for vlan2 *)
Definition imported (env1 env2 : ifaces) (o : bind_out) : proc :=
  let '(w, i) := construct hash env1 V4 vlan2 areg0 in
  let p := new_socket (UAuto i) 4342 o (Proc w []) in
  Proc (fst (construct hash env2 V4 vlan2 (p_reg p))) (p_socks p).
(** everything after *)
Definition p_run (p : proc) (h : list pev) : proc := fold_left p_step h p.
End Proc.
