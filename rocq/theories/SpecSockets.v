(** * Specification: the UDP sockets of the daemon *)
From Verif Require Import Base Afi Net SpecNet AutoReg SpecAReg Sockets.

(** socket k of the process is open and bound to z, its port is [port] *)
Definition bound_to (p : proc) (k : nat) (z port : Z) : Prop :=
  exists s id, nth_error (p_socks p) k = Some s /\ us_port s = port /\ as_sock (us_sock s) = Some id /\ as_bound (us_sock s) = z.
Definition closed (p : proc) (k : nat) : Prop :=
  exists s, nth_error (p_socks p) k = Some s /\ as_sock (us_sock s) = None.
(** socket k was made for automatic address i *)
Definition made_for (p : proc) (k i : nat) (port : Z) : Prop :=
  exists s, nth_error (p_socks p) k = Some s /\ us_addr s = UAuto i /\ us_port s = port.
(** every bind of the event would succeed *)
Definition binds (e : pev) : Prop :=
  match e with
  | PSocket _ _ o => exists id, o = BindOk id
  | PHup _ outs => forall k, exists id, outs k = BindOk id
  | _ => True
  end.
(** what the interfaces say during the event *)
Definition sees (e : pev) (env : ifaces) : Prop :=
  match e with PGet _ _ env' | PNew _ _ env' | PHup env' _ => env' = env | PSocket _ _ _ => False end.
(** the interface has no address the program would take *)
Definition no_address (env : ifaces) (v : fam) (n : Z) : Prop := interface_address v (env v n) 0.
(** the sockets made in the history *)
Definition sockets_of (h : list pev) : list (uaddr * Z) :=
  flat_map (fun e => match e with PSocket a port _ => [(a, port)] | _ => [] end) h.
(** interface names asked for with get_ipv4_address and get_ipv6_address have different hashes *)
Definition names_apart (hash : Z -> Z) (h : list pev) : Prop :=
  forall v1 n1 e1 v2 n2 e2, In (PGet v1 n1 e1) h -> In (PGet v2 n2 e2) h -> hash n1 = hash n2 -> n1 = n2.
