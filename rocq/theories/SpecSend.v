(** * Specification: which packets can be sent, and how long they are *)
From Verif Require Import Base Afi Spec Records Control Packet SpecPkt SpecRec SpecAccept.

(** [n] rounded up to a multiple of [m] *)
Definition round_up (m n : Z) : Z := m * ((n + m - 1) / m).
Definition ipv4_address (a : addr) : Prop := exists z, a = AIP V4 z /\ in_bits 32 z.
Definition ipv6_address (a : addr) : Prop := exists z, a = AIP V6 z /\ in_bits 128 z.
(** next-header field [nh] of a header around [p]: it is taken from the payload if that is a protocol object, and given by the user
    otherwise *)
Definition good_next (nh : Z) (p : pkt) : Prop := no_proto p -> in_bits 8 nh.
(** RFC 6830 section 5.3: a nonce or versions, one instance id, locator status bits for the room that is left *)
Record good_data (d : dh) : Prop := {
  gd_nonce : forall n, d_nonce d = Some n -> length n = 3%nat /\ d_sver d = None /\ d_dver d = None;
  gd_versions : (d_sver d = None <-> d_dver d = None) /\ (forall v, d_sver d = Some v \/ d_dver d = Some v -> in_bits 12 v);
  gd_lsb : forall l, d_lsb d = Some l -> (d_iid d = None -> length l = 32%nat) /\ (d_iid d <> None -> length l = 8%nat);
  gd_iid : forall i, d_iid d = Some i -> in_bits 24 i }.

(** [sendable p n]: packet [p] can be sent and has [n] octets.  Control messages without a packet inside: see C91. *)
Inductive sendable : pkt -> Z -> Prop :=
| sn_raw b : sendable (PRaw b) (blen b)
| sn_v4 h p n : sendable p n -> in_bits 8 (h_tos h) -> in_bits 16 (h_id h) -> in_bits 13 (h_off h) ->
    (h_df h = true -> h_off h = 0) -> in_bits 8 (h_ttl h) -> good_next (h_proto h) p -> ipv4_address (h_src h) -> ipv4_address (h_dst h) ->
    blen (h_opts h) <= 40 -> 20 + n <= 65535 -> sendable (PIPv4 h p) (20 + round_up 4 (blen (h_opts h)) + n)
| sn_v6 h p n : sendable p n -> in_bits 8 (x_tc h) -> in_bits 20 (x_flow h) -> in_bits 8 (x_hop h) ->
    good_next (x_nh h) p -> ipv6_address (x_src h) -> ipv6_address (x_dst h) -> n <= 65535 -> sendable (PIPv6 h p) (40 + n)
| sn_hop nh o p n : sendable p n -> in_bits 8 nh -> blen o <= 2046 -> sendable (PHop nh o p) (round_up 8 (2 + blen o) + n)
| sn_dst nh o p n : sendable p n -> in_bits 8 nh -> blen o <= 2046 -> sendable (PDst nh o p) (round_up 8 (2 + blen o) + n)
| sn_route nh t s o p n : sendable p n -> in_bits 8 nh -> in_bits 8 t -> in_bits 8 s -> blen o <= 2044 ->
    sendable (PRoute nh t s o p) (round_up 8 (4 + blen o) + n)
| sn_frag nh off mf id p n : sendable p n -> in_bits 8 nh -> in_bits 13 off -> in_bits 32 id -> sendable (PFrag nh off mf id p) (8 + n)
| sn_nonext p n : sendable p n -> sendable (PNoNext p) n
| sn_udp s d ck p n : sendable p n -> in_bits 16 s -> in_bits 16 d -> in_bits 16 ck -> 8 + n <= 65535 -> sendable (PUDP s d ck p) (8 + n)
| sn_data d p n : sendable p n -> good_data d -> sendable (PData d p) (8 + n)
| sn_ecm ddt rtr rel rsv p n : sendable p n -> sendable (PECM false ddt rtr rel rsv p) (4 + n)
| sn_ctl c b : pkt_to_bytes (PCtl c) = Ok b -> sendable (PCtl c) (blen b).

(** the reserved bits of Encapsulated Control Messages are those of the class *)
Fixpoint obj_pkt (p : pkt) : Prop :=
  match p with
  | PRaw _ | PCtl _ => True
  | PECM _ _ _ _ rsv p => length rsv = 26%nat /\ obj_pkt p
  | PIPv4 _ p | PIPv6 _ p | PHop _ _ p | PDst _ _ p | PRoute _ _ _ _ p | PFrag _ _ _ _ p | PNoNext p | PUDP _ _ _ p | PData _ p => obj_pkt p
  end.
