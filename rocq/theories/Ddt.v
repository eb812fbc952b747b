(** * DDT: application/lispd/address_tree/ddt_referral_node.py and
    application/lispd/utils/ddt_root_loader.py *)
From Verif Require Import Base Afi Records Control Tree MapServer.

(** ** Map-Referral answers *)
(** [LocatorRecord(..., locator=ddt_node)] in a loop over the DDT nodes: LocatorRecord has no parameter
    [locator], so the first iteration raises TypeError (ddt_referral_node.py:65-70, 139-144, 162-167;
    locator_record.py:26-28) *)
Definition ddt_locators (nodes : list addr) : res (list loc) :=
  match nodes with [] => Ok [] | _ :: _ => Err EType end.

(** MapReferralRecord(...) with the defaults of map_referral_record.py:62-79 *)
Definition new_rrec (ttl action : Z) (auth incomplete : bool) (eid : addr) (locs : list loc) : rrec :=
  RRec ttl action auth incomplete (repeat false 11) 0 0 eid locs.

(** ddt_referral_node.py:64-78 *)
Definition get_referral (p : pfx) (ddt : list addr) : res rrec :=
  let* locs := ddt_locators ddt in
  Ok (new_rrec 1440 0 true false (ANet (x_fam p) (x_net p) (x_len p)) locs).

(** ddt_referral_node.py:81-92: the message and the arguments of send_message *)
Definition send_answer (m : mreq) (src : fam * Z) (port : Z) (r : rrec) : sent mref :=
  Sent (MRef (repeat false 20) (q_nonce m) [r]) [AIP (fst src) (snd src)] port.

(** ddt_referral_node.py:114-125 *)
Definition delegation_hole (eid : addr) : rrec := new_rrec 15 4 true false eid [].
(** ddt_referral_node.py:128-139 *)
Definition not_authoritative (eid : addr) : rrec := new_rrec 0 5 false true eid [].
(** ddt_referral_node.py:142-162: MS-ACK is announced with the action MS-NOT-REGISTERED and TTL 1440 *)
Definition ms_ack (p : pfx) (others : list addr) : res rrec :=
  let* locs := ddt_locators others in
  Ok (new_rrec 1440 3 false (negb (nonempty locs)) (ANet (x_fam p) (x_net p) (x_len p)) locs).
(** ddt_referral_node.py:165-185 *)
Definition ms_not_registered (p : pfx) (others : list addr) : res rrec :=
  let* locs := ddt_locators others in
  Ok (new_rrec 1 3 false (negb (nonempty locs)) (ANet (x_fam p) (x_net p) (x_len p)) locs).

(** [auth_node.ddt_nodes] (254, 258): only AuthContainerNode and DDTReferralNode have the attribute *)
Definition ddt_nodes_of (n : node) : res (list addr) :=
  match n_cls n with NAuth d | NReferral d => Ok d | _ => Err EAttr end.

(** ddt_referral_node.py:207-232: from the root down; the authoritative node so far and the handler *)
Fixpoint scan (auth : option node) (l : list node) : option node * option node :=
  match l with
  | [] => (auth, None)
  | n :: l =>
      let auth := match n_cls n with NAuth _ | NMapServer => Some n | _ => auth end in
      match n_cls n with
      | NReferral _ | NMapServer => (auth, Some n)
      | _ => scan auth l
      end
  end.

(** ddt_referral_node.py:188-264.  [security] is the flag of the ECM, [m] its inner Map-Request, [src] and
    [port] its sender.  MapServerNode.handle_map_request returns None (map_server_node.py:178-179), so
    [handled] is false. *)
Definition handle_ddt (cfg : instances) (security : bool) (m : mreq) (src : fam * Z) (port : Z)
  : res (option (sent mref)) :=
  if security then Ok None
  else
    match q_eids m with
    | [] => Err EIndex
    | eid :: _ =>
        let* path := match determine eid with
                     | None => Ok None
                     | Some (iid, afi, a) =>
                         match root_of cfg iid afi with
                         | None => Ok None
                         | Some n => match pfx_of a with
                                     | None => Err EValue
                                     | Some q => let* l := resolve_path n q in Ok (Some l)
                                     end
                         end
                     end in
        match path with
        | None => Err EType                          (* None[::-1] *)
        | Some l =>
            let '(auth, handler) := scan None (rev l) in
            match handler with
            | None => Ok (Some (send_answer m src port (not_authoritative eid)))
            | Some h =>
                match n_cls h with
                | NReferral ddt => let* r := get_referral (n_pfx h) ddt in Ok (Some (send_answer m src port r))
                | NMapServer =>
                    let handled := false in
                    let* others := match auth with Some a => ddt_nodes_of a | None => Ok [] end in
                    let* r := if handled then ms_ack (n_pfx h) others else ms_not_registered (n_pfx h) others in
                    Ok (Some (send_answer m src port r))
                | _ =>
                    match auth with
                    | Some _ => Ok (Some (send_answer m src port (delegation_hole eid)))
                    | None => Ok (Some (send_answer m src port (not_authoritative eid)))
                    end
                end
            end
        end
    end.

(** what is put on the wire: send_message serialises the message (send_message.py:40) *)
Definition ddt_wire (cfg : instances) (security : bool) (m : mreq) (src : fam * Z) (port : Z) : res (option bytes) :=
  let* o := handle_ddt cfg security m src port in
  match o with
  | None => Ok None
  | Some s => let* b := mref_to_bytes (s_msg s) in Ok (Some b)
  end.

(** ** The DDT root loader *)
(** a node object is changed in place: every place of the tree that holds it *)
Fixpoint alter (id : nat) (f : node -> node) (n : node) : node :=
  match n with
  | Node i p c ch => if Nat.eqb i id then f n else Node i p c (map (alter id f) ch)
  end.
Definition addr_eqb2 (x y : fam * Z) : bool := fam_eqb (fst x) (fst y) && (snd x =? snd y).
(** [ddt_nodes.add(address)], ddt_referral_node.py:40-44 (a set) *)
Definition add_addr (x : fam * Z) (l : list addr) : list addr :=
  if existsb (fun a => match a with AIP v z => addr_eqb2 (v, z) x | _ => false end) l then l else AIP (fst x) (snd x) :: l.
Definition add_ddt (x : fam * Z) (n : node) : node :=
  match n with Node i p (NReferral d) ch => Node i p (NReferral (add_addr x d)) ch | n => n end.

(** loader state: the dictionary and the next unused object identity *)
Definition ld := (instances * nat)%type.

(** ddt_root_loader.py:20-52.  [find_exact] inside [ContainerNode.add] may raise; [add] gives the changed
    container, which takes the place of the old one in the tree. *)
Definition add_delegation (s : ld) (iid afi : Z) (q : pfx) (x : fam * Z) : ld * res unit :=
  let '(cfg, next) := s in
  let inst := match assoc iid cfg with Some i => i | None => [] end in
  let cfg := put iid inst cfg in
  match (match assoc afi inst with
         | Some root => Ok (root, next)
         | None => if afi =? 1 then Ok (Node next (Pfx V4 0 0) (NAuth []) [], S next)
                   else if afi =? 2 then Ok (Node next (Pfx V6 0 0) (NAuth []) [], S next)
                   else Err EValue
         end) with
  | Err e => ((cfg, next), Err e)
  | Ok (root, next) =>
      let with_root r := put iid (put afi r inst) cfg in
      match resolve root q with
      | Err e => ((with_root root, next), Err e)
      | Ok best =>
          match n_cls best with
          | NReferral _ =>
              if negb (pfx_eqb (n_pfx best) q) then ((with_root root, next), Err EValue)
              else ((with_root (alter (n_id best) (add_ddt x) root), next), Ok tt)
          | NContainer | NAuth _ =>
              let '(best', r) := add best (Node next q (NReferral [AIP (fst x) (snd x)]) []) in
              ((with_root (alter (n_id best) (fun _ => best') root), S next), r)
          | _ => ((with_root root, next), Err EValue)
          end
      end
  end.

(** one usable line of the file: instance, AFI, prefix ([None]: text that ip_network refuses), address.
    The text of the lines is in RootFile.v. *)
Record line := Line { ln_iid : Z; ln_afi : Z; ln_pfx : option pfx; ln_addr : fam * Z }.

(** ddt_root_loader.py:74-82; a ValueError is raised again as ValueError *)
Definition load_line (s : ld) (l : line) : ld * res unit :=
  if ln_afi l =? 0 then
    let '(s, r) := add_delegation s (ln_iid l) 1 (Pfx V4 0 0) (ln_addr l) in
    match r with
    | Err e => (s, Err e)
    | Ok _ => add_delegation s (ln_iid l) 2 (Pfx V6 0 0) (ln_addr l)
    end
  else match ln_pfx l with
       | None => (s, Err EValue)
       | Some q => add_delegation s (ln_iid l) (ln_afi l) q (ln_addr l)
       end.
Fixpoint load_lines (s : ld) (l : list line) : ld * res unit :=
  match l with
  | [] => (s, Ok tt)
  | x :: l => let '(s, r) := load_line s x in
              match r with Ok _ => load_lines s l | Err e => (s, Err e) end
  end.
(** load_ddt_root, ddt_root_loader.py:55-84 *)
Definition load_ddt_root (l : list line) : res instances :=
  let '((cfg, _), r) := load_lines ([], O) l in
  match r with Ok _ => Ok cfg | Err e => Err e end.
