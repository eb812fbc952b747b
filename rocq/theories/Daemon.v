(** * The daemon: scripts/lispd, application/lispd/received_message.py, application/lispd/message_handler.py and the
    Info-Reply and NAT-traversal parts of application/lispd/address_tree/etr_node.py.

    The sockets, the clock, the registration threads and the operating system are inputs of the model. *)
From Verif Require Import Base Afi Records Control Auth Tree MapServer Net Ddt Etr Packet.

(** ** Outstanding Info-Requests *)
(** etr_node.py:52-74: registration, nonce, [sent_from] (the socket name: only the address is used), [info_reply],
    and whether the event [reply_received] is set *)
Record outinfo := OutInfo {
  oi_etrr : etrr; oi_nonce : bytes; oi_from : option (fam * Z); oi_reply : option info; oi_event : bool }.
(** etr_node.py:90: [reply.private_etr_rloc = sent_from[0]] *)
Definition set_private (m : info) (x : fam * Z) : info :=
  match i_data m with
  | LNat a b g ms _ l =>
      Info (i_reply m) (i_rsv1 m) (i_nonce m) (i_key m) (i_authdata m) (i_ttl m) (i_rsv2 m) (i_eid m)
           (LNat a b g ms (AIP (fst x) (snd x)) l)
  | _ => m
  end.
(** etr_node.py:82-92.  [None]: not for this request.  Without [sent_from] the subscript raises TypeError after
    [info_reply] was assigned. *)
Definition set_reply_if_matches (source : fam * Z) (m : info) (o : outinfo) : option (outinfo * res unit) :=
  if addr_same (AIP (fst source) (snd source)) (AIP (fst (tr_ms (oi_etrr o))) (snd (tr_ms (oi_etrr o)))) &&
     bytes_eqb (i_nonce m) (oi_nonce o)
  then match oi_from o with
       | Some f => Some (OutInfo (oi_etrr o) (oi_nonce o) (oi_from o) (Some (set_private m f)) true, Ok tt)
       | None => Some (OutInfo (oi_etrr o) (oi_nonce o) (oi_from o) (Some m) (oi_event o), Err EType)
       end
  else None.
(** etr_node.py:659-670 *)
Fixpoint info_record (source : fam * Z) (m : info) (l : list outinfo) : list outinfo * res unit :=
  match l with
  | [] => ([], Ok tt)
  | o :: l => match set_reply_if_matches source m o with
              | Some (o', r) => (o' :: l, r)
              | None => let '(l', r) := info_record source m l in (o :: l', r)
              end
  end.

(** ** State *)
(** the lists [outstanding_map_registrations] and [outstanding_info_requests] of an ETR node, etr_node.py:476-477 *)
Record nout := NOut { no_regs : list outreg; no_infos : list outinfo }.
(** Map-Server nodes, ETR nodes, and [ReceivedMessage.counter] *)
Record dm := Dm { dm_ms : mss; dm_etr : nat -> etr; dm_out : nat -> nout; dm_ctr : Z }.
Definition set_out (w : nat -> nout) (id : nat) (o : nout) : nat -> nout := fun j => if Nat.eqb j id then o else w j.

(** a datagram's source address and port, and the address of the socket it arrived at: [addr], [fd_sock.address] *)
Record arrival := Arr { ar_src : fam * Z; ar_port : Z; ar_at : fam * Z }.

(** what the daemon asks to be sent: send_message over the socket the message arrived at, over the control-plane or the
    data-plane sockets; or sendto on a raw socket *)
Inductive via := VThis | VControl | VData.
Inductive output := OMsg (m : pkt) (v : via) (to : list addr) (port : Z) | ORaw (v : fam) (to : addr) (data : bytes).

(** ** ReceivedMessage, received_message.py:21-58: the counter afterwards, and the inner message of an ECM *)
Definition received (ctr : Z) (m : pkt) : Z * res (option pkt) :=
  (fst (take_nr ctr None),
   if negb (is_control m) then Err EValue
   else match m with
        | PECM _ _ _ _ _ _ =>
            match (let* u := get_udp m in let* i := get_lisp_message false true u in Ok (u, i)) with
            | Ok (PUDP _ dport _ _, i) => if dport =? 4342 then Ok (Some i) else Err EValue
            | _ => Err EValue
            end
        | _ => Ok None
        end).

Section Daemon.
Variable hm : Z -> bytes -> bytes -> bytes.
Variable cfg : instances.
Variable socks : list (fam * Z).        (* the addresses of the control-plane sockets *)

(** where the messages of an ETR are looked up: [resolve] gives an ETRNode (message_handler.py:134-137, 158-160) *)
Definition etr_for (eid : addr) : res (option nat) :=
  match determine eid with
  | None => Ok None
  | Some (iid, afi, a) =>
      match pfx_of a with
      | None => Err EValue
      | Some q => let* o := g_resolve cfg iid afi q in
                  match o with
                  | Some nd => match n_cls nd with NETR => Ok (Some (n_id nd)) | _ => Ok None end
                  | None => Ok None
                  end
      end
  end.

(** message_handler.py:127-142: an exception leaves what was done for earlier records *)
Fixpoint notify_loop (src : fam * Z) (n : mnot) (l : list mrec) (w : nat -> nout) : (nat -> nout) * res unit :=
  match l with
  | [] => (w, Ok tt)
  | r :: l =>
      match etr_for (mr_eid r) with
      | Err e => (w, Err e)
      | Ok None => notify_loop src n l w
      | Ok (Some id) =>
          notify_loop src n l (set_out w id (NOut (notify_record src n (no_regs (w id))) (no_infos (w id))))
      end
  end.

(** message_handler.py:145-164 *)
Definition handle_info (src : fam * Z) (m : info) (w : nat -> nout) : (nat -> nout) * res unit :=
  if negb (i_reply m) then (w, Ok tt)
  else match etr_for (i_eid m) with
       | Err e => (w, Err e)
       | Ok None => (w, Ok tt)
       | Ok (Some id) =>
           let '(l, r) := info_record src m (no_infos (w id)) in (set_out w id (NOut (no_regs (w id)) l), r)
       end.

(** message_handler.py:27-73: exceptions are logged.  [clock i] is the time at which record [i] of a Map-Register is
    stored. *)
Definition handle_message (clock : nat -> Z) (ar : arrival) (m : pkt) (inner : option pkt) (st : dm) : dm * list output :=
  match m with
  | PCtl (CReq q) =>
      (st, match handle_map_request cfg (dm_etr st) socks q (ar_at ar) (ar_port ar) with
           | Ok (Some s) => [OMsg (PCtl (CRep (s_msg s))) VControl (s_to s) (s_port s)]
           | _ => []
           end)
  | PCtl (CRep _) => (st, [])
  | PCtl (CNot n) =>
      (Dm (dm_ms st) (dm_etr st) (fst (notify_loop (ar_src ar) n (n_records n) (dm_out st))) (dm_ctr st), [])
  | PCtl (CReg g) =>
      let '(w, _, r) := handle_map_register hm cfg (dm_ms st) g (ar_src ar) clock in
      (Dm w (dm_etr st) (dm_out st) (dm_ctr st),
       match r with Ok (Some s) => [OMsg (PCtl (CNot (s_msg s))) VThis (s_to s) (s_port s)] | _ => [] end)
  | PCtl (CRef _) => (st, [])
  | PECM sec ddt _ _ _ _ =>
      match inner with
      | Some (PCtl (CReq q)) =>
          if ddt : bool then
            (st, match handle_ddt cfg sec q (ar_src ar) (ar_port ar) with
                 | Ok (Some s) => [OMsg (PCtl (CRef (s_msg s))) VThis (s_to s) (s_port s)]
                 | _ => []
                 end)
          else (st, [])                               (* handle_enc_map_request: pass *)
      | _ => (st, [])
      end
  | PCtl (CInfo i) => (Dm (dm_ms st) (dm_etr st) (fst (handle_info (ar_src ar) i (dm_out st))) (dm_ctr st), [])
  | _ => (st, [])
  end.

(** scripts/lispd:118-124; an exception of ReceivedMessage is logged by the main loop *)
Definition handle_control_message (clock : nat -> Z) (ar : arrival) (m : pkt) (st : dm) : dm * list output :=
  let '(ctr, r) := received (dm_ctr st) m in
  let st := Dm (dm_ms st) (dm_etr st) (dm_out st) ctr in
  match r with
  | Err _ => (st, [])
  | Ok inner => handle_message clock ar m inner st
  end.

(** scripts/lispd:291-298: a datagram arrives at a control-plane socket *)
Definition control_datagram (clock : nat -> Z) (ar : arrival) (d : bytes) (st : dm) : dm * list output :=
  match pkt_from_bytes KCtl d with
  | Err _ => (st, [])
  | Ok m => handle_control_message clock ar m st
  end.

(** scripts/lispd:127-162, 300-307: a datagram arrives at a data-plane socket.  A payload that is not IP is a str,
    which has neither get_final_payload nor to_bytes. *)
Definition data_datagram (clock : nat -> Z) (ar : arrival) (d : bytes) (st : dm) : dm * list output :=
  match pkt_from_bytes (KData true) d with
  | Ok (PData h p) =>
      if (match d_iid h with Some i => i =? 16777215 | None => false end) then
        match get_final_payload p with
        | Ok (_, PUDP _ dport _ q) => if dport =? 4342 then handle_control_message clock ar q st else (st, [])
        | _ => (st, [])
        end
      else
        (st, match p, pkt_to_bytes p with
             | PIPv4 h _, Ok data => [ORaw V4 (h_dst h) data]
             | PIPv6 h _, Ok data => [ORaw V6 (x_dst h) data]
             | _, _ => []
             end)
  | _ => (st, [])
  end.

(** DataPacket(payload=data), data.py:21-34 *)
Definition no_flags : dh := DH false None None None None None.
(** scripts/lispd:87-115: a packet from the NFQUEUE; [petr] is settings.config.PETR *)
Definition queued_packet (petr : option (fam * Z)) (data : bytes) : list output :=
  match petr with
  | None => []
  | Some x =>
      match data with
      | [] => []                                      (* data[0]: IndexError *)
      | b :: _ =>
          let family := byte_val b / 16 in
          match (if family =? 4 then pkt_from_bytes (KIPv4 false) data
                 else if family =? 6 then pkt_from_bytes (KIPv6 false) data else Err EValue) with
          | Ok _ => [OMsg (PData no_flags (PRaw data)) VData [AIP (fst x) (snd x)] 4341]
          | Err _ => []
          end
      end
  end.

(** ** What happens to the daemon: datagrams, queued packets, passes of the cleanup threads, and the registration threads
    changing ETR nodes and their outstanding lists in any way *)
Inductive event :=
| AtControl (ar : arrival) (d : bytes) (clock : nat -> Z)
| AtData (ar : arrival) (d : bytes) (clock : nat -> Z)
| Queued (petr : option (fam * Z)) (d : bytes)
| Cleanup (id : nat) (now : Z)
| EtrThread (id : nat) (e : etr) (o : nout).
Definition step (st : dm) (e : event) : dm * list output :=
  match e with
  | AtControl ar d clock => control_datagram clock ar d st
  | AtData ar d clock => data_datagram clock ar d st
  | Queued petr d => (st, queued_packet petr d)
  | Cleanup id now =>
      (Dm (set_ms (dm_ms st) id (set_regs (dm_ms st id) (cleanup now (ms_regs (dm_ms st id))))) (dm_etr st) (dm_out st)
          (dm_ctr st), [])
  | EtrThread id e o =>
      (Dm (dm_ms st) (fun j => if Nat.eqb j id then e else dm_etr st j) (set_out (dm_out st) id o) (dm_ctr st), [])
  end.
Fixpoint run (st : dm) (h : list event) : dm * list (list output) :=
  match h with
  | [] => (st, [])
  | e :: h => let '(st, o) := step st e in let '(st, l) := run st h in (st, o :: l)
  end.
End Daemon.

(** ** Map-Registers through NAT, etr_node.py:136-177 *)
(** IPv4Packet() and IPv6Packet() with the attributes assigned: [ttl] is not an attribute IPv6Packet serialises
    (ipv6/base.py:23-37), so its hop limit stays 0 *)
Definition natt_ip (src dst : fam * Z) (u : pkt) : pkt :=
  match fst dst with
  | V4 => PIPv4 (V4H 0 0 false false 0 63 17 (AIP (fst src) (snd src)) (AIP V4 (snd dst)) []) u
  | V6 => PIPv6 (V6H 0 0 17 0 (AIP (fst src) (snd src)) (AIP V6 (snd dst))) u
  end.
(** [None]: the families differ and nothing is sent *)
Definition natt_message (src dst : fam * Z) (g : mreg) : res (option pkt) :=
  if negb (fam_eqb (fst dst) (fst src)) then Ok None
  else
    let '(u, c) := calculate_checksum (UDP 4342 4342 0 (PCtl (CReg g))) (AIP (fst src) (snd src)) (AIP (fst dst) (snd dst)) in
    let* c := c in
    Ok (Some (PECM false false false false (repeat false 26) (natt_ip src dst (udp_pkt (set_uck u c))))).
(** MapRegister.send: the message given to send_message, the sockets and the destinations; [nat] is
    [nat_info.private_etr_rloc] and [nat_info.rtr_rlocs] *)
Definition send_register (r : etrr) (nat : option ((fam * Z) * list addr)) (g : mreg) : res (option output) :=
  match nat with
  | None => Ok (Some (OMsg (PCtl (CReg g)) VControl [AIP (fst (tr_ms r)) (snd (tr_ms r))] 4342))
  | Some (private, rtrs) =>
      let* o := natt_message private (tr_ms r) g in
      Ok (match o with Some m => Some (OMsg m VData rtrs 4342) | None => None end)
  end.

(** ** The queries of scripts/map_resolve:31-60 and scripts/ddt_query:37-65 for address [q] asked from [src] *)
Definition query_message (ddt : bool) (nonce : bytes) (src : addr) (v : fam) (q sport : Z) : res pkt :=
  let req := MReq false false false false false (repeat false 9) nonce (AIP v 0) [src] [AIP v q] None in
  let '(u, c) := calculate_checksum (UDP sport 4342 0 (PCtl (CReq req))) (AIP v 0) (AIP v q) in
  let* c := c in
  let u := udp_pkt (set_uck u c) in
  let ip := match v with
            | V4 => PIPv4 (V4H 0 0 false false 0 64 17 (AIP V4 0) (AIP V4 q) []) u
            | V6 => PIPv6 (V6H 0 0 17 64 (AIP V6 0) (AIP V6 q)) u
            end in
  Ok (PECM false ddt false false (repeat false 26) ip).

(** ** Registrations of an ETR node, etr_node.py:466-544 *)
(** a thread: never started, running, asked to stop *)
Inductive tstate := TNew | TRunning | TStopping.
(** [_etrr_threads] (registrations by identity, threads by identity), all threads ever made, the RTRs, and whether there
    are control-plane sockets *)
Record lc := LC { lc_threads : list (nat * nat); lc_all : list tstate; lc_rtrs : list (nat * list addr); lc_socks : bool }.
Definition lc0 : lc := LC [] [] [] false.
Definition set_nth {A} (i : nat) (x : A) (l : list A) : list A := firstn i l ++ match skipn i l with [] => [] | _ :: r => x :: r end.
(** [thread.start()] unless [is_alive()] *)
Definition start1 (l : list tstate) (t : nat) : list tstate :=
  match nth_error l t with Some TNew => set_nth t TRunning l | _ => l end.
Inductive lc_op := LAdd (r : nat) | LRemove (r : nat) | LSockets (b : bool) | LRtrs (r : nat) (rtrs : list addr).
Definition lc_step (s : lc) (o : lc_op) : lc :=
  match o with
  | LAdd r =>                                          (* etr_node.py:525-534 *)
      match nassoc r (lc_threads s) with
      | Some _ => s
      | None => LC (lc_threads s ++ [(r, length (lc_all s))])
                   (lc_all s ++ [if lc_socks s then TRunning else TNew]) (lc_rtrs s) (lc_socks s)
      end
  | LRemove r =>                                       (* etr_node.py:536-544 *)
      match nassoc r (lc_threads s) with
      | None => s
      | Some t => LC (filter (fun x => negb (Nat.eqb (fst x) r)) (lc_threads s)) (set_nth t TStopping (lc_all s)) (lc_rtrs s)
                     (lc_socks s)
      end
  | LSockets b =>                                      (* etr_node.py:491-498 *)
      LC (lc_threads s) (if b then fold_left start1 (map snd (lc_threads s)) (lc_all s) else lc_all s) (lc_rtrs s) b
  | LRtrs r rtrs =>                                    (* etr_node.py:546-552, called by the thread of r (446-451) *)
      LC (lc_threads s) (lc_all s) (nput r (fold_left (fun s x => set_add addr_same x s) rtrs []) (lc_rtrs s)) (lc_socks s)
  end.
Definition lc_run (l : list lc_op) : lc := fold_left lc_step l lc0.
