(** * The Map-Server: application/lispd/address_tree/map_server_node.py and
    application/lispd/message_handler.py:80-120. *)
From Verif Require Import Base Afi Records Control Auth Tree Dict.

(** time.time() in microseconds (the floats of Python are not modelled) *)
Definition sec : Z := 1000000.

(** key of the inner dictionaries: '{site_id:x}-{xtr_id:x}' (injective on the non-negative ids that
    pass sanitize) or the sender's address, map_server_node.py:154-159 *)
Inductive source := SXtr (site xtr : Z) | SAddr (v : fam) (z : Z).
Definition source_eqb (a b : source) : bool :=
  match a, b with
  | SXtr s x, SXtr s' x' => (s =? s') && (x =? x')
  | SAddr v z, SAddr v' z' => fam_eqb v v' && (z =? z')
  | _, _ => false
  end.

(** map_server_node.py:37-43 *)
Record reg := Reg { rg_record : mrec; rg_proxy : bool; rg_deadline : Z }.
Definition new_reg (r : mrec) (proxy : bool) (now : Z) : reg := Reg r proxy (now + 180 * sec).

Definition regs := list (pfx * list (source * reg)).
(** attributes of a MapServerNode apart from its prefix (map_server_node.py:111-118) *)
Record ms := MS { ms_key : bytes; ms_more : bool; ms_regs : regs }.
Definition set_regs (s : ms) (d : regs) : ms := MS (ms_key s) (ms_more s) d.

(** map_server_node.py:161-176 *)
Definition store (d : regs) (q : pfx) (s : source) (r : reg) : regs :=
  let inner := match dget pfx_eqb q d with Some i => i | None => [] end in
  dput pfx_eqb q (dput source_eqb s r inner) d.

(** one pass of the cleanup thread, map_server_node.py:81-94; [now] was read before the lock was taken *)
Definition cleanup (now : Z) (d : regs) : regs :=
  filter (fun e => nonempty (snd e))
    (map (fun e => (fst e, filter (fun x => negb (now >? rg_deadline (snd x))) (snd e))) d).

(** returned normally; raised a MapServerException, which the caller catches
    (MapServerAuthenticationError, MapServerScopeError: map_server_node.py:25-34); raised anything else *)
Inductive ms_out := Done | Refused (e : exn) | Raised (e : exn).

Section Hm.
Variable hm : Z -> bytes -> bytes -> bytes.

(** map_server_node.py:129-176 for the node with prefix [p] and state [s], record number [i] of the
    message, received from address [(v, z)], the clock showing [now].  Gives the new state, the
    message object (verification normalises its records) and the outcome.  A record that is
    stored is the object of the message; normalisation by a later serialisation is not followed
    into the store.  The log line of :167 formats every locator, which raises for a non-empty AFI-list; no such
    locator passes sanitize, so none is in a message that was decoded or that carries a key id other than 0
    (C51_locators_print); hand-made messages with key id 0 and such a locator are outside the model. *)
Definition handle_record (p : pfx) (s : ms) (m : mreg) (i : nat) (src : fam * Z) (now : Z)
  : ms * mreg * ms_out :=
  let '(a, ok) := verify hm (AReg m) (ms_key s) in
  let m := match a with AReg m' => m' | _ => m end in
  match ok with
  | Err e => (s, m, Raised e)
  | Ok false => (s, m, Refused EAuthFail)
  | Ok true =>
      match nth_error (g_records m) i with
      | None => (s, m, Raised EValue)
      | Some r =>
          match determine (mr_eid r) with
          | Some (_, _, ANet v z n) =>
              let q := Pfx v z n in
              if negb (overlaps q p) || (x_len q <? x_len p) then (s, m, Refused EScope)
              else if (x_len q >? x_len p) && negb (ms_more s) then (s, m, Refused EScope)
              else
                let source := if negb (g_xtr m =? 0) then SXtr (g_site m) (g_xtr m)
                              else SAddr (fst src) (snd src) in
                (set_regs s (store (ms_regs s) q source (new_reg r (g_proxy m) now)), m, Done)
          | _ => (s, m, Raised EAttr)
          end
      end
  end.

(** all MapServerNodes of the daemon by node identity *)
Definition mss := nat -> ms.
Definition set_ms (w : mss) (id : nat) (s : ms) : mss := fun j => if Nat.eqb j id then s else w j.

(** message_handler.py:86-104: records [i], [i+1], ... [i+k-1].  [done] are the numbers of the processed
    records, [key] is [saved_key], [clock i] the time at which record [i] is stored. *)
Fixpoint reg_loop (cfg : instances) (src : fam * Z) (clock : nat -> Z) (k i : nat)
  (w : mss) (m : mreg) (done : list nat) (key : bytes) : mss * mreg * res (list nat * bytes) :=
  match k with
  | O => (w, m, Ok (done, key))
  | S k =>
      match nth_error (g_records m) i with
      | None => (w, m, Ok (done, key))
      | Some r =>
          match determine (mr_eid r) with
          | None => reg_loop cfg src clock k (S i) w m done key
          | Some (iid, afi, a) =>
              match pfx_of a with
              | None => (w, m, Err EValue)
              | Some q =>
                  match g_resolve cfg iid afi q with
                  | Err e => (w, m, Err e)
                  | Ok None => reg_loop cfg src clock k (S i) w m done key
                  | Ok (Some nd) =>
                      match n_cls nd with
                      | NMapServer =>
                          let '(s', m', out) := handle_record (n_pfx nd) (w (n_id nd)) m i src (clock i) in
                          let w' := set_ms w (n_id nd) s' in
                          match out with
                          | Done => reg_loop cfg src clock k (S i) w' m' (done ++ [i]) (ms_key s')
                          | Refused _ => reg_loop cfg src clock k (S i) w' m' done key
                          | Raised e => (w', m', Err e)
                          end
                      | _ => reg_loop cfg src clock k (S i) w m done key
                      end
                  end
              end
          end
      end
  end.

(** arguments of the call of send_message *)
Record sent (M : Type) := Sent { s_msg : M; s_to : list addr; s_port : Z }.
Arguments Sent {M} _ _ _. Arguments s_msg {M} _. Arguments s_to {M} _. Arguments s_port {M} _.

(** message_handler.py:80-120: new states, and the Map-Notify handed to send_message, if any.
    [received_message.socket] is the only socket offered. *)
Definition handle_map_register (cfg : instances) (w : mss) (m : mreg) (src : fam * Z) (clock : nat -> Z)
  : mss * mreg * res (option (sent mnot)) :=
  let '(w', m', out) := reg_loop cfg src clock (length (g_records m)) 0 w m [] [] in
  match out with
  | Err e => (w', m', Err e)
  | Ok (done, key) =>
      if g_notify m' && nonempty done then
        let n := MNot (repeat false 19) (g_nonce m') (g_key m') []
                   (flat_map (fun i => match nth_error (g_records m') i with Some r => [r] | None => [] end) done)
                   (g_xtr m') (g_site m') in
        let '(a, r) := insert hm (ANot n) key in
        match r, a with
        | Ok _, ANot n' => (w', m', Ok (Some (Sent n' [AIP (fst src) (snd src)] 4342)))
        | Ok _, _ => (w', m', Err EType)
        | Err e, _ => (w', m', Err e)
        end
      else (w', m', Ok None)
  end.
End Hm.
Arguments Sent {M} _ _ _. Arguments s_msg {M} _. Arguments s_to {M} _. Arguments s_port {M} _.
