(** * The ETR node: pylisp/application/lispd/address_tree/etr_node.py, and the parts of message_handler.py and
    packet/lisp/control/locator_record.py that reach it *)
From Verif Require Import Base Afi Records Control Auth Tree MapServer.

(** ** Equality of Python objects *)
(** [a == b] of values that stand for addresses: ip addresses and networks by value, None by identity; LCAF objects have
    no [__eq__] (utils/lcaf/base.py) and every element of a list is an object of its own *)
Definition addr_same (a b : addr) : bool :=
  match a, b with
  | ANone, ANone => true
  | AIP v z, AIP v' z' => fam_eqb v v' && (z =? z')
  | ANet v z n, ANet v' z' n' => fam_eqb v v' && (z =? z') && (n =? n')
  | _, _ => false
  end.
Fixpoint bits_eqb (a b : bits) : bool :=
  match a, b with [], [] => true | x :: a, y :: b => Bool.eqb x y && bits_eqb a b | _, _ => false end.
(** LocatorRecord.__eq__, locator_record.py:52-62 *)
Definition loc_same (a b : loc) : bool :=
  (l_prio a =? l_prio b) && (l_weight a =? l_weight b) && (l_mprio a =? l_mprio b) && (l_mweight a =? l_mweight b) &&
  Bool.eqb (l_local a) (l_local b) && Bool.eqb (l_probed a) (l_probed b) && Bool.eqb (l_reach a) (l_reach b) &&
  addr_same (l_addr a) (l_addr b) && bits_eqb (l_rsv a) (l_rsv b).
(** [set.add]; a set is a list without duplicates, in the order Python happens to iterate *)
Definition set_add {A} (same : A -> A -> bool) (x : A) (l : list A) : list A :=
  if existsb (same x) l then l else l ++ [x].

(** ** Locators *)
(** etr_node.py:554-561: the RTRs of all registrations, as plain addresses *)
Fixpoint as_ips (l : list addr) : res (list addr) :=
  match l with
  | [] => Ok []
  | a :: l => let* '(v, z) := as_address a in let* r := as_ips l in Ok (AIP v z :: r)
  end.
Definition get_rtrs (rtrs : list (list addr)) : res (list addr) :=
  let* l := as_ips (concat rtrs) in
  Ok (fold_left (fun s x => set_add addr_same x s) l []).

(** LocatorRecord(priority=..., local=..., reachable=True, address=...), locator_record.py:26-50 *)
Definition new_loc (l : loc) (local : bool) (a : addr) : loc :=
  Loc (l_prio l) (l_weight l) (l_mprio l) (l_mweight l) (repeat false 13) local false true a.

(** etr_node.py:577-581: the integers are compared, whatever the family *)
Definition is_local_loc (socks : list (fam * Z)) (z : Z) : bool := existsb (fun s => snd s =? z) socks.

(** etr_node.py:568-602, one pass over the configured locators *)
Fixpoint announce (socks : list (fam * Z)) (rtrs : list addr) (locs : list loc) (included : bool) (acc : list loc)
  : res (list loc) :=
  match locs with
  | [] => Ok acc
  | l :: locs =>
      match l_addr l with
      | AIP v z =>
          if z =? 0 then announce socks rtrs locs included acc
          else
            let local := is_local_loc socks z in
            if local && nonempty rtrs then
              if included then announce socks rtrs locs included acc
              else announce socks rtrs locs true
                     (fold_left (fun s r => set_add loc_same (new_loc l false r) s) rtrs acc)
            else announce socks rtrs locs included (set_add loc_same (new_loc l local (AIP v z)) acc)
      | _ => Err EType                               (* int(None), int(lcaf) *)
      end
  end.
(** etr_node.py:563-604 *)
Definition get_etr_locators (locs : list loc) (stored : list (list addr)) (socks : list (fam * Z)) (tentative : list addr)
  : res (list loc) :=
  let* rtrs := get_rtrs stored in
  announce socks (fold_left (fun s x => set_add addr_same x s) tentative rtrs) locs false [].

(** ** Map-Requests *)
Definition set_flags (probe : bool) (dest : fam * Z) (l : loc) : loc :=
  Loc (l_prio l) (l_weight l) (l_mprio l) (l_mweight l) (l_rsv l) (l_local l)
      (probe && addr_same (AIP (fst dest) (snd dest)) (l_addr l)) true (l_addr l).
(** MapReplyRecord(ttl, action, authoritative, eid_prefix, locator_records), map_reply_record.py:39-56 *)
Definition new_mrec (action : Z) (p : pfx) (locs : list loc) : mrec :=
  MRec 1440 action true (repeat false 16) 0 (ANet (x_fam p) (x_net p) (x_len p)) locs.
(** etr_node.py:618-657: the message and the arguments of send_message.  [dest] is received_message.destination[0],
    [port] is received_message.source[1]. *)
Definition etr_map_request (p : pfx) (locs : list loc) (stored : list (list addr)) (socks : list (fam * Z))
  (m : mreq) (dest : fam * Z) (port : Z) : res (sent mrep) :=
  let* ls := get_etr_locators locs stored socks [] in
  let record := match ls with
                | [] => new_mrec 1 p []
                | _ :: _ => new_mrec 0 p (map (set_flags (q_probe m) dest) ls)
                end in
  Ok (Sent (MRep (q_probe m) false false (repeat false 17) (q_nonce m) [record]) (q_rlocs m) port).

(** state of an ETR node: configured locators, RTRs of every registration, and the flag [need_new_registration] of the
    thread of every registration (etr_node.py:466-486, 291) *)
Record etr := Etr { e_locs : list loc; e_rtrs : list (nat * list addr); e_flags : list (nat * bool) }.

(** message_handler.py:167-189; [None]: the message is ignored *)
Definition handle_map_request (cfg : instances) (w : nat -> etr) (socks : list (fam * Z)) (m : mreq) (dest : fam * Z)
  (port : Z) : res (option (sent mrep)) :=
  match q_eids m with
  | [eid] =>
      match determine eid with
      | None => Ok None                              (* resolve_path(None, None, None) is None *)
      | Some (iid, afi, a) =>
          match root_of cfg iid afi with
          | None => Ok None
          | Some n =>
              match pfx_of a with
              | None => Err EValue
              | Some q =>
                  let* l := resolve_path n q in
                  match l with
                  | [] => Ok None
                  | x :: _ =>
                      match n_cls x with
                      | NETR =>
                          let e := w (n_id x) in
                          let* s := etr_map_request (n_pfx x) (e_locs e) (map snd (e_rtrs e)) socks m dest port in
                          Ok (Some s)
                      | _ => Ok None
                      end
                  end
              end
          end
      end
  | _ => Ok None
  end.

(** ** Map-Registers *)
(** etr_node.py:96-122: the message of MapRegister(prefix, etrr, locators, nat_info, want_map_notify).  [nonce] is
    os.urandom(8); [rtrs] is [nat_info and nat_info.rtr_rlocs or set()]. *)
Record etrr := Etrr { tr_ms : fam * Z; tr_keyid : Z; tr_key : bytes; tr_proxy : bool; tr_use_rtr : option bool }.
Definition new_register (p : pfx) (r : etrr) (locs : list loc) (rtrs : list addr) (want : bool) (nonce : bytes)
  (xtr site : Z) : mreg :=
  MReg (tr_proxy r) (nonempty rtrs) (want || nonempty rtrs) (repeat false 1) (repeat false 15) nonce (tr_keyid r) []
       [new_mrec 0 p locs] xtr site.

(** etr_node.py:179-190 *)
Definition set_notify_if_matches (r : etrr) (reg : mreg) (source : fam * Z) (n : mnot) : bool :=
  addr_same (AIP (fst source) (snd source)) (AIP (fst (tr_ms r)) (snd (tr_ms r))) && bytes_eqb (n_nonce n) (g_nonce reg).

(** etr_node.py:234-238 *)
Definition rec_match (reg rec : mrec) : bool :=
  addr_same (mr_eid rec) (mr_eid reg) && (mr_ttl rec =? mr_ttl reg) && (mr_action rec =? mr_action reg) &&
  (mr_ver rec =? mr_ver reg) && Nat.eqb (length (mr_locs rec)) (length (mr_locs reg)).

Section Hm.
Variable hm : Z -> bytes -> bytes -> bytes.

(** etr_node.py:192-270.  [None]: no Map-Notify has been received.  The format strings ["{0x}"] raise KeyError
    (202, 212, 217).  The comparison of the locators (242-259) only writes a log line. *)
Definition notify_content_ok (key : bytes) (reg : mreg) (notify : option mnot) : res bool :=
  match notify with
  | None => Ok false
  | Some n =>
      let '(a, v) := verify hm (ANot n) key in
      let* ok := v in
      if negb ok then Ok false
      else match a with
           | ANot n =>
               if negb (bytes_eqb (n_nonce n) (g_nonce reg)) then Err EKey
               else if negb (n_key n =? g_key reg) then Ok false
               else if negb (n_xtr n =? 0) && negb (n_xtr n =? g_xtr reg) then Err EKey
               else if negb (n_site n =? 0) && negb (n_site n =? g_site reg) then Err EKey
               else if negb (Nat.eqb (length (n_records n)) (length (g_records reg))) then Ok false
               else Ok (forallb (fun r => existsb (rec_match r) (n_records n)) (g_records reg))
           | _ => Ok false
           end
  end.
End Hm.

(** ** The registration thread (etr_node.py:412-459) *)
Record rs := RS { r_nat : Z; r_reg : Z; r_ok : bool; r_need : bool }.
(** what an iteration meets: the time, whether a change was signalled since the previous iteration read the flag, how
    NAT detection ends (true: returns, false: raises), how the registration ends (None: raises; Some b: returns, b tells
    if the value is true) and whether a change is signalled during the registration (after the flag was cleared) *)
Record inp := Inp { in_now : Z; in_sig : bool; in_nat : bool; in_reg : option bool; in_sig2 : bool }.
Inductive ev := EvNat | EvReg (force : bool).
Definition rs0 : rs := RS 0 0 false false.
Definition second : Z := 1000000.
Definition iteration (s : rs) (i : inp) : rs * list ev :=
  let need := r_need s || in_sig i in
  let detect := negb (r_ok s) || (r_nat s + 15 * 60 * second <? in_now i) in
  if detect && negb (in_nat i) then (RS (r_nat s) (r_reg s) (r_ok s) need, [EvNat])
  else
    let nat_t := if detect then in_now i else r_nat s in
    let ok := if detect then false else r_ok s in
    let e1 := if detect then [EvNat] else [] in
    if negb ok || need || (r_reg s + 60 * second <? in_now i) then
      match in_reg i with
      | None => (RS nat_t (r_reg s) ok (in_sig2 i), e1 ++ [EvReg (negb ok)])
      | Some b => (RS nat_t (in_now i) b (in_sig2 i), e1 ++ [EvReg (negb ok)])
      end
    else (RS nat_t (r_reg s) ok need, e1).

(** ** RTRs and signals *)
Fixpoint nassoc {A} (k : nat) (l : list (nat * A)) : option A :=
  match l with [] => None | (k', x) :: l => if Nat.eqb k' k then Some x else nassoc k l end.
Fixpoint nput {A} (k : nat) (x : A) (l : list (nat * A)) : list (nat * A) :=
  match l with
  | [] => [(k, x)]
  | (k', y) :: l => if Nat.eqb k' k then (k, x) :: l else (k', y) :: nput k x l
  end.
(** etr_node.py:519-523 *)
Definition locators_have_changed (e : etr) : etr := Etr (e_locs e) (e_rtrs e) (map (fun x => (fst x, true)) (e_flags e)).
(** comparison of two sets *)
Definition same_set (a b : list addr) : bool :=
  forallb (fun x => existsb (addr_same x) b) a && forallb (fun x => existsb (addr_same x) a) b.
(** etr_node.py:546-552: [old_rtrs] is the list [] the first time, and a list never equals a set *)
Definition set_rtrs (k : nat) (rtrs : list addr) (e : etr) : etr :=
  let new := fold_left (fun s x => set_add addr_same x s) rtrs [] in
  let e' := Etr (e_locs e) (nput k new (e_rtrs e)) (e_flags e) in
  match nassoc k (e_rtrs e) with
  | None => locators_have_changed e'
  | Some old => if same_set old new then e' else locators_have_changed e'
  end.

(** ** Locator changes *)
(** calling the method with [args] arguments: etr_node.py:516-517 takes one and then looks up an attribute that does not
    exist *)
Definition on_locator_change (args : nat) (e : etr) : etr * res unit :=
  (e, if Nat.eqb args 1 then Err EAttr else Err EType).
(** locator_record.py:75-80: called without arguments, exceptions are logged *)
Definition send_notifications (targets : list nat) (w : nat -> etr) : nat -> etr :=
  fold_left (fun w t => let '(e, _) := on_locator_change 0 (w t) in fun k => if Nat.eqb k t then e else w k) targets w.
(** locator_record.py:82-84, called by AutoAddress when the address changes (Net.v) *)
Definition on_address_change (targets : list nat) (w : nat -> etr) : nat -> etr := send_notifications targets w.

(** ** Routing of Map-Notify and Info-Reply messages to what is outstanding *)
(** an outstanding Map-Register: registration, message, and the Map-Notify stored (etr_node.py:96-132) *)
Record outreg := OutReg { o_etrr : etrr; o_reg : mreg; o_notify : option mnot }.
(** etr_node.py:606-616: the first one that matches *)
Fixpoint notify_record (source : fam * Z) (n : mnot) (l : list outreg) : list outreg :=
  match l with
  | [] => []
  | o :: l => if set_notify_if_matches (o_etrr o) (o_reg o) source n
              then OutReg (o_etrr o) (o_reg o) (Some n) :: l
              else o :: notify_record source n l
  end.
