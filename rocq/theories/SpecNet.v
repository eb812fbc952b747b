(** * Specification vocabulary for sending, sockets, addresses, message numbers and settings *)
From Verif Require Import Base Afi Spec Records Tree SpecTree Net.

(** ** send_message *)
(** socket/destination pairs in the order they have to be tried: destinations first, every socket of
    the same family *)
Definition offers (socks : list sock) (dests : list addr) : list (sock * (fam * Z)) :=
  flat_map (fun d => flat_map (fun k =>
    match shown d with
    | Some (V4, z) => match k_fam k with V4 => [(k, (V4, z))] | V6 => [] end
    | Some (V6, z) => match k_fam k with V6 => [(k, (V6, z))] | V4 => [] end
    | None => []
    end) socks) dests.
Definition is_address (d : addr) : Prop := exists v z, shown d = Some (v, z).

(** ** Special address blocks *)
Definition ip4 (a b c d : Z) : Z := ((a * 256 + b) * 256 + c) * 256 + d.
(** IPv6 block given by its first 16 bits *)
Definition block6 (h n : Z) : pfx := Pfx V6 (h * 2 ^ 112) n.
Definition loopback_blocks := [Pfx V4 (ip4 127 0 0 0) 8; Pfx V6 1 128].
Definition link_local_blocks := [Pfx V4 (ip4 169 254 0 0) 16; block6 65152 10 (* fe80::/10 *)].
Definition multicast_blocks := [Pfx V4 (ip4 224 0 0 0) 4; block6 65280 8 (* ff00::/8 *)].
Definition unspecified_blocks := [Pfx V4 0 32; Pfx V6 0 128].
Definition reserved_blocks :=
  [Pfx V4 (ip4 240 0 0 0) 4;
   block6 0 8; block6 256 8; block6 512 7; block6 1024 6; block6 2048 5; block6 4096 4;
   block6 16384 3; block6 24576 3; block6 32768 3; block6 40960 3; block6 49152 3;
   block6 57344 4; block6 61440 5; block6 63488 6; block6 65024 9].
Definition in_blocks (l : list pfx) (v : fam) (z : Z) : Prop := exists p, In p l /\ in_pfx p v z.
(** addresses a socket may be bound to *)
Definition bindable (v : fam) (z : Z) : Prop :=
  ~ in_blocks (loopback_blocks ++ link_local_blocks ++ multicast_blocks ++ unspecified_blocks) v z.
(** addresses an AutoAddress may take *)
Definition takeable (v : fam) (z : Z) : Prop :=
  ~ in_blocks (loopback_blocks ++ link_local_blocks ++ multicast_blocks ++ unspecified_blocks ++ reserved_blocks) v z.

(** ** AutoUDPSocket: a history of rebinds, each with the current address and the OS outcome *)
Fixpoint rb_run (v : fam) (s : asock) (h : list (Z * bind_out)) : asock * list osop :=
  match h with
  | [] => (s, [])
  | (z, o) :: h => let '(s1, ops, _) := rebind v z o s in
                   let '(s2, ops') := rb_run v s1 h in (s2, ops ++ ops')
  end.
(** identities the OS gives to new sockets are fresh *)
Definition os_id (o : bind_out) : list nat := match o with BindOk i | BindFails i => [i] | NoSocket => [] end.
Definition fresh_ids (h : list (Z * bind_out)) : Prop := NoDup (flat_map (fun e => os_id (snd e)) h).

(** ** AutoAddress *)
Inductive au_ev := AuAdd (t : nat) | AuUpdate (i : iface).
Definition au_step (v : fam) (a : auto) (e : au_ev) : auto :=
  match e with AuAdd t => add_target t a | AuUpdate i => fst (update_address v i a) end.
Definition au_run v (h : list au_ev) : auto := fold_left (au_step v) h (Auto 0 []).
(** the interface offers [z] as its first suitable address *)
Definition first_suitable (v : fam) (i : iface) (z : Z) : Prop :=
  exists l1 l2, i = Some (map Some l1 ++ Some z :: l2) /\ takeable v z /\ (forall y, In y l1 -> ~ takeable v y).
(** address the interface gives: the first suitable one, or 0 *)
Definition interface_address (v : fam) (i : iface) (z : Z) : Prop :=
  first_suitable v i z \/ (z = 0 /\ forall y, ~ first_suitable v i y).

(** ** An AutoUDPSocket listening to its AutoAddress: polls of the interface, each with the outcome the
    OS would give to a bind *)
Definition poll (v : fam) (w : auto * asock) (e : iface * bind_out) : auto * asock :=
  let '(a, s) := w in
  let '(a', called) := update_address v (fst e) a in
  match called with
  | [] => (a', s)
  | _ => (a', fst (fst (rebind v (au_ip a') (snd e) s)))
  end.
(** the AutoAddress is created on one interface state, then the socket (target 0) *)
Definition new_pair v (i : iface) (o : bind_out) : auto * asock :=
  let a := fst (update_address v i (Auto 0 [])) in
  (add_target 0 a, fst (fst (rebind v (au_ip a) o asock0))).
Definition polls v i o h := fold_left (poll v) h (new_pair v i o).

(** ** Settings *)
(** a ContainerNode (or AuthContainerNode) for the whole address space of the family *)
Definition whole_space (v : fam) (x : cval) : Prop :=
  exists n, x = CNode n /\ n_pfx n = Pfx v 0 0 /\ (n_cls n = NContainer \/ exists d, n_cls n = NAuth d).
Definition complete_instance (e : ckey * cinst) : Prop :=
  exists k d x4 x6, e = (KInt k, CDict d) /\
    assoc 1 d = Some x4 /\ whole_space V4 x4 /\ assoc 2 d = Some x6 /\ whole_space V6 x6.

(** ** Message numbers *)
(** sys.maxint where C longs have 64 bits *)
Definition largest_int : Z := 9223372036854775807.
(** constructions without a number of their own (0 counts as none) *)
Definition autos (h : list (option Z)) : nat := length (filter (fun e => match e with Some n => n =? 0 | None => true end) h).

(** ** xTR-ID *)
Definition octet (o : Z) : Prop := 0 <= o < 256.
(** a MAC address: six octets *)
Definition mac (m : list Z) : Prop := length m = 6%nat /\ Forall octet m.
(** unicast and not zero *)
Definition mac_usable (m : list Z) : Prop := exists o, In o m /\ o <> 0 /\ Z.odd (hd 0 m) = false.

