(** * Specification vocabulary for packets: numbers and shapes from the RFCs, independent of the
    codecs, of the registries and of the [sanitize] functions of the model. *)
From Verif Require Import Base Afi Spec Records Control SpecRec Packet.

(** IANA protocol numbers of the packet classes *)
Inductive proto_number : pkt -> Z -> Prop :=
| pn_hop nh o p : proto_number (PHop nh o p) 0
| pn_ipv4 h p : proto_number (PIPv4 h p) 4
| pn_udp s d c p : proto_number (PUDP s d c p) 17
| pn_ipv6 h p : proto_number (PIPv6 h p) 41
| pn_route nh t s o p : proto_number (PRoute nh t s o p) 43
| pn_frag nh o m i p : proto_number (PFrag nh o m i p) 44
| pn_nonext p : proto_number (PNoNext p) 59
| pn_dst nh o p : proto_number (PDst nh o p) 60.

(** a payload that is not a protocol object: bytes, LISP data or LISP control *)
Definition no_proto (p : pkt) : Prop := forall n, ~ proto_number p n.

(** which class parses the payload that follows a given next-header number *)
Inductive next_class : Z -> kind -> Prop :=
| nc_hop : next_class 0 KHop
| nc_ipv4 : next_class 4 (KIPv4 true)
| nc_udp : next_class 17 KUDP
| nc_ipv6 : next_class 41 (KIPv6 true)
| nc_route : next_class 43 KRoute
| nc_frag : next_class 44 KFrag
| nc_nonext : next_class 59 KNoNext
| nc_dst : next_class 60 KDst.
(** payload bytes [b] after next-header [nh] parse to [p] *)
Definition payload_is (nh : Z) (b : bytes) (p : pkt) : Prop :=
  (exists k, next_class nh k /\ pkt_from_bytes k b = Ok p) \/ ((forall k, ~ next_class nh k) /\ p = PRaw b).

(** [o'] is [o] followed by just enough zero bytes to make [k + length] a multiple of [m] *)
Definition zero_padded (m k : nat) (o o' : bytes) : Prop :=
  exists z, o' = o ++ repeat zero_byte z /\ (z < m)%nat /\ Nat.modulo (k + length o') m = 0%nat.

(** ** IPv6 extension header chains (RFC 2460 section 4) *)
(** [ext p nh q]: [p] is an extension header announcing [nh], followed by [q] *)
Inductive ext : pkt -> Z -> pkt -> Prop :=
| ext_hop nh o q : ext (PHop nh o q) nh q
| ext_dst nh o q : ext (PDst nh o q) nh q
| ext_route nh t s o q : ext (PRoute nh t s o q) nh q
| ext_frag nh o m i q : ext (PFrag nh o m i q) nh q.
(** [chain nh p hs n q]: starting from [p], announced by [nh], the headers [hs] follow and then
    [q], announced by [n], which is not an extension header with a successor *)
Inductive chain : Z -> pkt -> list pkt -> Z -> pkt -> Prop :=
| chain_end n q : (forall m r, ~ ext q m r) -> chain n q [] n q
| chain_step nh p m q hs n r : ext p m q -> chain m q hs n r -> chain nh p (p :: hs) n r.
Definition is_fragment_header (p : pkt) : Prop := exists nh o m i q, p = PFrag nh o m i q.

(** ** whole stacks *)
(** no IPv4 header in the stack carries options (C13), and Map-Requests in it ask for plain
    prefixes (C32) *)
Inductive ordinary : pkt -> Prop :=
| or_raw b : ordinary (PRaw b)
| or_ipv4 h p : h_opts h = [] -> ordinary p -> ordinary (PIPv4 h p)
| or_ipv6 h p : ordinary p -> ordinary (PIPv6 h p)
| or_hop nh o p : ordinary p -> ordinary (PHop nh o p)
| or_dst nh o p : ordinary p -> ordinary (PDst nh o p)
| or_route nh t s o p : ordinary p -> ordinary (PRoute nh t s o p)
| or_frag nh o m i p : ordinary p -> ordinary (PFrag nh o m i p)
| or_nonext p : ordinary p -> ordinary (PNoNext p)
| or_udp s d c p : ordinary p -> ordinary (PUDP s d c p)
| or_data d p : ordinary p -> ordinary (PData d p)
| or_ecm a b c d r p : ordinary p -> ordinary (PECM a b c d r p)
| or_req m : Forall (fun e => exists v z n, e = ANet v z n) (q_eids m) -> ordinary (PCtl (CReq m))
| or_ctl c : (forall m, c <> CReq m) -> ordinary (PCtl c).

(** ** Control message type numbers (RFC 6830, draft-ietf-lisp-ddt, draft-ermagan-lisp-nat-traversal) *)
Inductive msg_type : pkt -> Z -> Prop :=
| mt_req m : msg_type (PCtl (CReq m)) 1
| mt_rep m : msg_type (PCtl (CRep m)) 2
| mt_reg m : msg_type (PCtl (CReg m)) 3
| mt_not m : msg_type (PCtl (CNot m)) 4
| mt_ref m : msg_type (PCtl (CRef m)) 6
| mt_info m : msg_type (PCtl (CInfo m)) 7
| mt_ecm a b c d r p : msg_type (PECM a b c d r p) 8.

(** a big-endian bit list read as a number, least significant bit of the list first *)
Fixpoint lsb_number (l : list bool) : Z := match l with [] => 0 | b :: r => Z.b2z b + 2 * lsb_number r end.

(** ** UDP checksum input (RFC 768; RFC 2460 section 8.1) *)
(** [pseudo s d n ph]: [ph] is the pseudo-header for a UDP message of [n] bytes from [s] to [d] *)
Inductive pseudo : addr -> addr -> Z -> bytes -> Prop :=
| pseudo4 s d n ph : length ph = 12%nat ->
    layout ph [(0, 32, s); (32, 32, d); (64, 8, 0%Z); (72, 8, 17%Z); (80, 16, n)]%nat ->
    pseudo (AIP V4 s) (AIP V4 d) n ph
| pseudo6 s d n ph : length ph = 40%nat ->
    layout ph [(0, 128, s); (128, 128, d); (256, 32, n); (288, 24, 0%Z); (312, 8, 17%Z)]%nat ->
    pseudo (AIP V6 s) (AIP V6 d) n ph.

(** [d'] is [d] with exactly the bit at position [i] inverted *)
Definition bit_flipped (i : nat) (d d' : bytes) : Prop :=
  length d' = length d /\ (i < 8 * length d)%nat /\ field i 1 d' <> field i 1 d /\
  forall j, (j < 8 * length d)%nat -> j <> i -> field j 1 d' = field j 1 d.

(** how the payload [b] of a UDP message between ports [s] and [d] is decoded (RFC 6830: 4341 is LISP
    data, 4342 LISP control) *)
Inductive udp_payload_is (s d : Z) (b : bytes) : pkt -> Prop :=
| up_data q : s = 4341 \/ d = 4341 -> pkt_from_bytes (KData true) b = Ok q -> udp_payload_is s d b q
| up_control q : s <> 4341 -> d <> 4341 -> s = 4342 \/ d = 4342 -> pkt_from_bytes KCtl b = Ok q -> udp_payload_is s d b q
| up_bytes : s <> 4341 -> d <> 4341 -> s <> 4342 -> d <> 4342 -> udp_payload_is s d b (PRaw b).
(** RFC 768 header *)
Definition rfc768 (b : bytes) (s d len ck : Z) : Prop :=
  layout b [(0, 16, s); (16, 16, d); (32, 16, len); (48, 16, ck)]%nat.

(** RFC 2460 section 3 *)
Definition rfc2460 (b : bytes) (payload_length : Z) (h : v6h) : Prop :=
  layout b [(0, 4, 6%Z); (4, 8, x_tc h); (12, 20, x_flow h); (32, 16, payload_length); (48, 8, x_nh h); (56, 8, x_hop h)]%nat /\
  exists s d, x_src h = AIP V6 s /\ x_dst h = AIP V6 d /\ layout b [(64, 128, s); (192, 128, d)]%nat.

(** RFC 6830 section 5.3: the 8-byte LISP data header *)
Definition present {A} (o : option A) : Z := match o with Some _ => 1 | None => 0 end.
Definition nonce_or_versions (d : dh) (b : bytes) : Prop :=
  match d_nonce d, d_sver d, d_dver d with
  | Some n, _, _ => slice 1 3 b = n
  | None, Some s, Some t => layout b [(8, 12, s); (20, 12, t)]%nat
  | None, _, _ => field 8 24 b = 0
  end.
Definition rfc6830_data (b : bytes) (d : dh) : Prop :=
  layout b [(0, 1, present (d_nonce d)); (1, 1, present (d_lsb d)); (2, 1, Z.b2z (d_echo d));
            (3, 1, present (d_sver d)); (4, 1, present (d_iid d)); (5, 3, 0%Z)]%nat /\
  nonce_or_versions d b /\
  match d_iid d with
  | Some i => field 32 24 b = i /\ field 56 8 b = match d_lsb d with Some l => lsb_number l | None => 0 end
  | None => field 32 32 b = match d_lsb d with Some l => lsb_number l | None => 0 end
  end.
(** the echo-nonce flag means nothing without a nonce *)
Definition without_stray_echo (d : dh) : dh :=
  DH (match d_nonce d with Some _ => d_echo d | None => false end) (d_nonce d) (d_sver d) (d_dver d) (d_lsb d) (d_iid d).

(** what the IP version nibble says about the content of a data packet or ECM *)
Inductive ip_payload_is (dec : bool) (b : bytes) : pkt -> Prop :=
| ip_none : b = [] -> ip_payload_is dec b (PRaw [])
| ip_v4 q : (0 < length b)%nat -> field 0 4 b = 4 -> pkt_from_bytes (KIPv4 dec) b = Ok q -> ip_payload_is dec b q
| ip_v6 q : (0 < length b)%nat -> field 0 4 b = 6 -> pkt_from_bytes (KIPv6 dec) b = Ok q -> ip_payload_is dec b q
| ip_other : (0 < length b)%nat -> field 0 4 b <> 4 -> field 0 4 b <> 6 -> ip_payload_is dec b (PRaw b).
