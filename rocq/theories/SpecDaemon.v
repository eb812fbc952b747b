(** * Specification of what the daemon does with what it receives *)
From Verif Require Import Base Afi Spec SpecEid Records Control SpecRec Auth Tree SpecTree MapServer SpecMs Net Ddt Etr Packet SpecPkt Daemon.

(** the upper-layer message of an IP packet, with its protocol number *)
Inductive upper : pkt -> Z -> pkt -> Prop :=
| up_v4 h q : upper (PIPv4 h q) (h_proto h) q
| up_v6 h p hs n q : chain (x_nh h) p hs n q -> upper (PIPv6 h p) n q.
Definition unfragmented (p : pkt) : Prop :=
  match p with
  | PIPv4 h _ => h_mf h = false /\ h_off h = 0
  | PIPv6 h q => forall hs n r, chain (x_nh h) q hs n r -> ~ Exists is_fragment_header hs
  | _ => False
  end.
(** a LISP control message (RFC 6830 section 6.1) *)
Definition control_message (m : pkt) : Prop := exists t, msg_type m t.
(** an Encapsulated Control Message around [p] carries the control message [i] to port 4342 *)
Definition encapsulates (p i : pkt) : Prop :=
  unfragmented p /\ control_message i /\ exists sport ck, sport <> 4341 /\ upper p 17 (PUDP sport 4342 ck i).
(** the message is well-formed to its last layer *)
Definition deliverable (m : pkt) : Prop :=
  control_message m /\ forall a b c d r p, m = PECM a b c d r p -> exists i, encapsulates p i.

(** [answers ar m o]: [o] is a proper answer to [m], which arrived as [ar] says *)
Inductive answers (ar : arrival) : pkt -> output -> Prop :=
| an_request q r : p_nonce r = q_nonce q -> p_probe r = q_probe q -> length (p_records r) = 1%nat ->
    answers ar (PCtl (CReq q)) (OMsg (PCtl (CRep r)) VControl (q_rlocs q) (ar_port ar))
| an_register g n : n_nonce n = g_nonce g -> g_notify g = true -> n_records n <> [] ->
    answers ar (PCtl (CReg g)) (OMsg (PCtl (CNot n)) VThis [AIP (fst (ar_src ar)) (snd (ar_src ar))] 4342)
| an_ddt c d rsv p q f : encapsulates p (PCtl (CReq q)) -> f_nonce f = q_nonce q -> length (f_records f) = 1%nat ->
    answers ar (PECM false true c d rsv p) (OMsg (PCtl (CRef f)) VThis [AIP (fst (ar_src ar)) (snd (ar_src ar))] (ar_port ar)).

(** the control message a datagram brings: itself, or as the UDP payload for port 4342 of a data packet with instance id
    0xffffff *)
Inductive brings : event -> pkt -> arrival -> (nat -> Z) -> Prop :=
| br_control ar d clock m : pkt_from_bytes KCtl d = Ok m -> brings (AtControl ar d clock) m ar clock
| br_data ar d clock h p n s ck q : pkt_from_bytes (KData true) d = Ok (PData h p) -> d_iid h = Some (2 ^ 24 - 1) ->
    upper p n (PUDP s 4342 ck q) -> brings (AtData ar d clock) q ar clock.

(** no registrations yet *)
Definition fresh_ms (keys : nat -> bytes) (mores : nat -> bool) (st : dm) : Prop :=
  dm_ms st = fun j => new_ms (keys j) (mores j).

(** ** Registrations, end to end *)
(** record [j] of [m] makes the daemon give up on the whole message (an exception: finding, C74): its EID has no
    node to be looked up at, or it is for a Map-Server, the message is authentic, and the EID is not a prefix *)
Definition blocks hm (cfg : instances) (keys : nat -> bytes) (m : mreg) (j : nat) : Prop :=
  exists r iid afi a, nth_error (g_records m) j = Some r /\ eid_named (mr_eid r) iid afi a /\
    (pfx_of a = None \/
     (exists q e, pfx_of a = Some q /\ g_resolve cfg iid afi q = Err e) \/
     (exists nd, lands cfg m j nd /\ authentic hm (keys (n_id nd)) m /\ forall q, ~ eid_prefix r q)).
(** record [i] is acceptable to Map-Server node [id], as registration [rg] of prefix [q] by [so], and reached *)
Definition good_record hm cfg keys (mores : nat -> bool) (m : mreg) src (clock : nat -> Z) (i id : nat) (q : pfx) (so : source) (rg : reg) : Prop :=
  exists nd, lands cfg m i nd /\ n_id nd = id /\ (forall j, (j < i)%nat -> ~ blocks hm cfg keys m j) /\
    acceptable hm (keys id) (mores id) (n_pfx nd) m i src (clock i) q so rg.
(** event [e] registers [q] for [so] at node [id]: the last good record for them in the Map-Register it brings *)
Definition registers hm cfg keys mores (e : event) (id : nat) (q : pfx) (so : source) (rg : reg) : Prop :=
  exists m ar clock i, brings e (PCtl (CReg m)) ar clock /\
    good_record hm cfg keys mores m (ar_src ar) clock i id q so rg /\
    forall i' rg', (i < i')%nat -> ~ good_record hm cfg keys mores m (ar_src ar) clock i' id q so rg'.
(** the registration in force after history [h]: the last one, unless a cleanup pass came after its deadline *)
Definition d_in_force hm cfg keys mores (h : list event) (id : nat) (q : pfx) (so : source) (rg : reg) : Prop :=
  exists h1 e h2, h = h1 ++ e :: h2 /\ registers hm cfg keys mores e id q so rg /\
    (forall e' rg', In e' h2 -> ~ registers hm cfg keys mores e' id q so rg') /\
    (forall t, In (Cleanup id t) h2 -> t <= rg_deadline rg).

(** an IP packet without options or extension headers around [u] *)
Inductive plain_ip : pkt -> pkt -> Prop :=
| pl_v4 h u : h_opts h = [] -> plain_ip (PIPv4 h u) u
| pl_v6 h u : plain_ip (PIPv6 h u) u.

(** IP packets made of IPv4 headers without options, IPv6 headers, extension headers other than the fragment header, and
    an upper-layer message that is not LISP *)
Inductive plain_stack : pkt -> Prop :=
| ps_raw b : plain_stack (PRaw b)
| ps_udp s d ck b : plain_stack (PUDP s d ck (PRaw b))
| ps_v4 h p : h_opts h = [] -> plain_stack p -> plain_stack (PIPv4 h p)
| ps_v6 h p : plain_stack p -> plain_stack (PIPv6 h p)
| ps_hop nh o p : plain_stack p -> plain_stack (PHop nh o p)
| ps_dst nh o p : plain_stack p -> plain_stack (PDst nh o p)
| ps_route nh t s o p : plain_stack p -> plain_stack (PRoute nh t s o p)
| ps_nonext p : plain_stack p -> plain_stack (PNoNext p).
(** the IP destination address as it stands in the bytes *)
Inductive dst_of (b : bytes) : pkt -> fam -> addr -> Prop :=
| ds_v4 h p : dst_of b (PIPv4 h p) V4 (AIP V4 (field 128 32 b))
| ds_v6 h p : dst_of b (PIPv6 h p) V6 (AIP V6 (field 192 128 b)).
(** the instance id of a LISP data packet: bit 4 of the flags says whether it is there (RFC 6830 section 5.3) *)
Definition control_instance (d : bytes) : Prop := field 4 1 d = 1 /\ field 32 24 d = 2 ^ 24 - 1.
