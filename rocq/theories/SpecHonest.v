(** * Specification: who can put something in a Map-Server

    Between the ETRs and the Map-Server is a network that delivers, drops, delays, reorders, repeats and makes up
    datagrams as it likes.  What it cannot do is to make a MAC without the key. *)
From Verif Require Import Base Afi Spec SpecEid Records Control SpecRec Auth SpecAuth Tree SpecTree MapServer SpecMs Net Ddt Etr SpecEtr Packet SpecPkt Daemon SpecDaemon Exchange.

(** what an ETR announces in a Map-Register: a prefix with locators, over a configured registration, RTRs, whether it wants
    a Map-Notify, a nonce, and who it is *)
Record announcement := Ann {
  an_pfx : pfx; an_reg : etrr; an_locs : list loc; an_rtrs : list addr; an_want : bool; an_nonce : bytes; an_xtr : Z; an_site : Z }.
Definition register_of (a : announcement) : mreg :=
  new_register (an_pfx a) (an_reg a) (an_locs a) (an_rtrs a) (an_want a) (an_nonce a) (an_xtr a) (an_site a).
Definition proper (a : announcement) : Prop := wf_pfx (an_pfx a) /\ Forall obj_loc (an_locs a) /\ length (an_nonce a) = 8%nat.

(** [used m]: someone who has the key inserted authentication data in [m] with it.  Those who have the key are ETRs that
    make the announcements [made], and the Map-Server, which makes Map-Notifies. *)
Definition by_the_book (made : announcement -> Prop) (used : amsg -> Prop) : Prop :=
  forall m, used m -> (exists a, made a /\ proper a /\ m = AReg (register_of a)) \/ (forall g, m <> AReg g).

(** unforgeability, of the datagrams that arrive in [h]: authentication data that is the MAC, under [key], of a Map-Register
    is one that was computed by someone who has the key, over the same bytes *)
Definition unforged hm (key : bytes) (used : amsg -> Prop) (h : list event) : Prop :=
  forall e m ar clock out n, In e h -> brings e (PCtl (CReg m)) ar clock -> digest_size (g_key m) n ->
    mreg_to_bytes m = Ok out -> auth_field n out = hm (g_key m) key (zeroed n out) ->
    exists m0, used m0 /\ a_to_bytes (set_auth m0 (repeat zero_byte n)) = Ok (zeroed n out).

(** no message without authentication data (finding, C53: they are all accepted) *)
Definition all_keyed (h : list event) : Prop := forall e m ar clock, In e h -> brings e (PCtl (CReg m)) ar clock -> g_key m <> 0.

(** the registration is the announcement *)
Record comes_from (a : announcement) (q : pfx) (so : source) (rg : reg) : Prop := {
  cf_pfx : q = an_pfx a;
  cf_record : arrives_mrec (new_mrec 0 (an_pfx a) (an_locs a)) (rg_record rg);
  cf_proxy : rg_proxy rg = tr_proxy (an_reg a);
  cf_who : an_xtr a <> 0 -> so = SXtr (an_site a) (an_xtr a) }.

(** ** An ETR with a prefix, configured locators and sockets *)
Definition own (p : pfx) (locs : list loc) (socks : list (fam * Z)) (a : announcement) : Prop :=
  an_pfx a = p /\ exists stored tentative, Forall ip_addr (concat stored ++ tentative) /\
    get_etr_locators locs stored socks tentative = Ok (an_locs a).

(** ** C118: the Map-Notifies of the Map-Server, and the ETR that waits for one *)
(** [n] is the Map-Notify with which the nodes [w] answer the Map-Register [m], and its MAC is made with [key]: the key of
    the node that accepted the last one of the accepted records *)
Definition answers hm cfg (key : bytes) (w : mss) (m : mreg) (src : fam * Z) (clock : nat -> Z) (n : mnot) : Prop :=
  (exists w' m' s, handle_map_register hm cfg w m src clock = (w', m', Ok (Some s)) /\ s_msg s = n) /\
  exists j nd, accepted hm cfg w m src clock j nd /\ (forall j' nd', accepted hm cfg w m src clock j' nd' -> (j' <= j)%nat) /\
    ms_key (w (n_id nd)) = key.
(** ... during history [h] *)
Definition answered hm cfg socks (key : bytes) (st : dm) (h : list event) (n : mnot) : Prop :=
  exists h1 e h2 m ar clock, h = h1 ++ e :: h2 /\ brings e (PCtl (CReg m)) ar clock /\
    answers hm cfg key (dm_ms (fst (run hm cfg socks st h1))) m (ar_src ar) clock n.
(** those who have the key use it for announcements, for the answers of the Map-Server, and for Info messages *)
Definition holders (made : announcement -> Prop) (answer : mnot -> Prop) (used : amsg -> Prop) : Prop :=
  forall m, used m -> (exists a, made a /\ proper a /\ m = AReg (register_of a)) \/ (exists n, answer n /\ m = ANot n) \/ (exists i, m = AInfo i).
(** unforgeability, of a Map-Notify *)
Definition unforged_notify hm (key : bytes) (used : amsg -> Prop) (n : mnot) : Prop :=
  forall out k, digest_size (n_key n) k -> mnot_to_bytes n = Ok out -> auth_field k out = hm (n_key n) key (zeroed k out) ->
    exists m0, used m0 /\ a_to_bytes (set_auth m0 (repeat zero_byte k)) = Ok (zeroed k out).
(** everything that reaches the request while [register] waits was received, and has no forged MAC *)
Definition received_genuine hm key used (l : list (attempt mnot)) (late : list ((fam * Z) * mnot)) : Prop :=
  forall x, (In x late \/ exists t, In t l /\ (In x (a_before t) \/ In x (a_in t))) ->
    (exists d, mnot_from_bytes d = Ok (snd x)) /\ unforged_notify hm key used (snd x).
(** a nonce is used for one announcement *)
Definition fresh_nonces (made : announcement -> Prop) : Prop := forall a a', made a -> made a' -> an_nonce a = an_nonce a' -> a = a'.
