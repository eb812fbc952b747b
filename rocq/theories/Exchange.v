(** * The exchanges of a registration thread: NAT detection and Map-Register
    (application/lispd/address_tree/etr_node.py:296-410)

    Every attempt is described by what it meets: the messages the main thread routes to the request before the attempt
    sends, what send_message does, the messages routed to it while the thread waits, and whether the thread was asked to
    stop by then.  (Messages are routed by [info_record] and [notify_record]; here are those that reach this request.) *)
From Verif Require Import Base Afi Records Control Auth Tree MapServer Etr Packet Daemon.

Record attempt (M : Type) := Att {
  a_before : list ((fam * Z) * M); a_send : res (option (fam * Z)); a_in : list ((fam * Z) * M); a_stop : bool }.
Arguments Att {M}. Arguments a_before {M}. Arguments a_send {M}. Arguments a_in {M}. Arguments a_stop {M}.
(** how the loop over the attempts was left *)
Inductive left := Stopped | Raised (e : exn) | Through.

Section Loop.
Context {S M : Type}.
Variable sent : option (fam * Z) -> S -> S.        (* the attributes sent_from and sent_to are assigned *)
Variable arrives : (fam * Z) * M -> S -> S.        (* set_reply_if_matches, set_notify_if_matches *)
Variable answered : S -> bool.                     (* the event is set *)
Definition arrive (l : list ((fam * Z) * M)) (s : S) : S := fold_left (fun s x => arrives x s) l s.
(** etr_node.py:306-320, 379-393; the attempts made come out as the last component *)
Fixpoint attempts (l : list (attempt M)) (s : S) : S * left * list (attempt M) :=
  match l with
  | [] => (s, Through, [])
  | t :: l =>
      let s := arrive (a_before t) s in
      match a_send t with
      | Err e => (s, Raised e, [t])
      | Ok f =>
          let s := arrive (a_in t) (sent f s) in
          if a_stop t then (s, Stopped, [t])
          else if answered s then (s, Through, [t])
          else let '(s, r, u) := attempts l s in (s, r, t :: u)
      end
  end.
End Loop.

(** ** NAT detection *)
(** etr_node.py:76-80 *)
Definition info_sent (f : option (fam * Z)) (o : outinfo) : outinfo :=
  OutInfo (oi_etrr o) (oi_nonce o) f (oi_reply o) (oi_event o).
(** a message routed to the request; an exception goes to the main loop *)
Definition info_arrives (x : (fam * Z) * info) (o : outinfo) : outinfo :=
  match set_reply_if_matches (fst x) (snd x) o with Some (o', _) => o' | None => o end.
(** etr_node.py:52-74 *)
Definition new_info (r : etrr) (nonce : bytes) : outinfo := OutInfo r nonce None None false.
(** etr_node.py:296-354.  [late]: the messages routed between the last look at the event and the removal of the request.
    Result: the value ([reply], an LCAFNATTraversalAddress), the attempts made, and whether the request is still in
    outstanding_info_requests. *)
Definition get_nat_info (r : etrr) (nonce : bytes) (l : list (attempt info)) (late : list ((fam * Z) * info))
  : res (option addr) * list (attempt info) * bool :=
  match tr_use_rtr r with
  | Some false => (Ok None, [], false)
  | use_rtr =>
      let '(o, out, used) := attempts info_sent info_arrives oi_event (firstn 3 l) (new_info r nonce) in
      match out with
      | Stopped => (Ok None, used, true)
      | Raised e => (Err e, used, true)
      | Through =>
          let o := arrive info_arrives late o in
          let no_nat (reply : option addr) :=           (* 336-344: info_req.sent_from[0] raises TypeError *)
            match oi_from o with
            | None => Err EType
            | Some _ => match use_rtr, reply with Some true, Some d => Ok (Some d) | _, _ => Ok None end
            end in
          (if oi_event o
           then match oi_reply o with
                | Some m =>
                    match i_data m with
                    | LNat _ ep g _ pr _ =>
                        if negb (addr_same g pr) || negb (ep =? 4342) then Ok (Some (i_data m)) else no_nat (Some (i_data m))
                    | _ => Err EAttr                    (* reply.global_etr_rloc *)
                    end
                | None => Err EAttr                     (* None.reply *)
                end
           else no_nat None, used, false)
      end
  end.

(** ** register *)
(** [addr_same] of LCAF objects is identity: the addresses of an Info-Reply are compared as in 333-334 *)
Definition reg_arrives (x : (fam * Z) * mnot) (o : outreg) : outreg :=
  if set_notify_if_matches (o_etrr o) (o_reg o) (fst x) (snd x) then OutReg (o_etrr o) (o_reg o) (Some (snd x)) else o.
Section Hm.
Variable hm : Z -> bytes -> bytes -> bytes.
(** etr_node.py:366-410, for a MapRegister with message [g]: value ([None] when asked to stop), attempts made, still in
    outstanding_map_registrations *)
Definition register (r : etrr) (g : mreg) (l : list (attempt mnot)) (late : list ((fam * Z) * mnot))
  : res (option bool) * list (attempt mnot) * bool :=
  if negb (g_notify g) then
    let l := firstn 1 l in
    (match l with t :: _ => match a_send t with Ok _ => Ok (Some true) | Err e => Err e end | [] => Ok (Some true) end,
     l, false)
  else
    let '(o, out, used) := attempts (fun _ o => o) reg_arrives (fun o => match o_notify o with Some _ => true | None => false end)
                             (firstn 3 l) (OutReg r g None) in
    match out with
    | Stopped => (Ok None, used, true)
    | Raised e => (Err e, used, true)
    | Through =>
        let o := arrive reg_arrives late o in
        (match o_notify o with
         | Some n => let* b := notify_content_ok hm (tr_key r) g (Some n) in Ok (Some b)
         | None => Ok (Some false)
         end, used, false)
    end.
End Hm.
