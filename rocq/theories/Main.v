(** * The lispd program: scripts/lispd main() and what it calls to start up.
    Opening UDP sockets, raw sockets and NFQUEUEs is taken to succeed; the operating system's socket buffers are unbounded
    queues.  Logging and argument parsing are left out ([show_config] is the flag -C). *)
From Verif Require Import Base Afi Records Control Auth Tree MapServer Net Ddt Etr Packet Daemon.

(** ** Starting *)
(** AutoUDPSocket(address, port) *)
Definition sock : Type := fam * Z * Z.
(** settings.py:30-45: the settings main() looks at *)
Record conf := Cf {
  cf_listen : list (fam * Z); cf_process_data : bool; cf_petr : option (fam * Z);
  cf_queue4 : option Z; cf_queue6 : option Z; cf_instances : instances }.
(** scripts/lispd:68-79 *)
Fixpoint create_sockets (process_data : bool) (l : list (fam * Z)) : list sock * list sock :=
  match l with
  | [] => ([], [])
  | a :: l =>
      let '(c, d) := create_sockets process_data l in
      ((a, 4342) :: c, if process_data then (a, 4341) :: d else d)
  end.

(** the attributes [control_plane_sockets] and [data_plane_sockets] of every node, base.py:20-26 *)
Definition holds := nat -> list sock * list sock.
Definition set_holds (w : holds) (id : nat) (x : list sock * list sock) : holds := fun j => if Nat.eqb j id then x else w j.
(** base.py:24-26, container_node.py:23-27; etr_node.py:491-498 is the same for the attributes *)
Fixpoint set_sockets (x : list sock * list sock) (n : node) (w : holds) : holds :=
  match n with Node id _ _ ch => fold_left (fun w c => set_sockets x c w) ch (set_holds w id x) end.
(** scripts/lispd:261-265 *)
Definition set_all (x : list sock * list sock) (c : instances) (w : holds) : holds :=
  fold_left (fun w m => fold_left (fun w t => set_sockets x (snd t) w) (snd m) w) c w.

(** [Exit n]: main() returns n; [Serve]: it reaches the main loop, with these sockets, NFQUEUEs and node attributes *)
Inductive started := Exit (code : Z) | Serve (ctl data : list sock) (queues : list (fam * Z)) (w : holds).
(** scripts/lispd:205-265 and 338-348; no settings: Settings() raised ConfigurationError.  [have_nfqueue]: the module nfqueue
    could be imported (scripts/lispd:32-35).  [w]: the attributes of the nodes before, [([], [])] at first *)
Definition start (show_config have_nfqueue : bool) (settings : option conf) (w : holds) : started :=
  match settings with
  | None => Exit 1
  | Some c =>
      if show_config then Exit 2
      else
        let '(ctl, data) := create_sockets (cf_process_data c) (cf_listen c) in
        let is_none := fun o : option Z => match o with None => true | Some _ => false end in
        let use_queue := negb (is_none (cf_queue4 c)) || negb (is_none (cf_queue6 c)) in
        let petr := match cf_petr c with Some _ => true | None => false end in
        if cf_process_data c && petr && (is_none (cf_queue4 c) || is_none (cf_queue6 c)) then Exit 2
        else if cf_process_data c && use_queue && negb have_nfqueue then Exit 2
        else
          let queues := if cf_process_data c
                        then (match cf_queue4 c with Some q => [(V4, q)] | None => [] end) ++
                             (match cf_queue6 c with Some q => [(V6, q)] | None => [] end)
                        else [] in
          match ctl with
          | [] => Exit 2
          | _ => Serve ctl data queues (set_all (ctl, data) (cf_instances c) w)
          end
  end.

(** ** The main loop, scripts/lispd:273-335 *)
Inductive sgn := SIGHUP | SIGINT | SIGTERM.
(** what the operating system has for a socket or NFQUEUE: something that becomes an event of the daemon, or an error of
    recvfrom *)
Inductive item := Gram (e : event) | Fault.
(** what select() reports: a socket, an NFQUEUE, or the signal pipe; with the pipe, how update_addresses() ends if it is called *)
Inductive fd := FSock (i : nat) | FQueue (i : nat) | FPipe (update : res unit).
(** the daemon, what is queued for the sockets and NFQUEUEs, the bytes in the pipe, [running], what was sent, and how often
    update_addresses() was called *)
Record ml := Ml { ml_st : dm; ml_q : nat -> list item; ml_pipe : list sgn; ml_run : bool; ml_out : list (list output); ml_upd : nat }.
Definition set_q (w : nat -> list item) (i : nat) (l : list item) : nat -> list item := fun j => if Nat.eqb j i then l else w j.

Section Main.
Variable hm : Z -> bytes -> bytes -> bytes.
Variable cfg : instances.
Variable socks : list (fam * Z).

Definition act (e : event) (s : ml) : ml :=
  let '(st, o) := step hm cfg socks (ml_st s) e in Ml st (ml_q s) (ml_pipe s) (ml_run s) (ml_out s ++ [o]) (ml_upd s).
(** scripts/lispd:290-307: one recvfrom; an exception is logged.  Without anything to read recvfrom would wait; select() does
    not report such sockets *)
Definition take_one (i : nat) (s : ml) : ml :=
  match ml_q s i with
  | [] => s
  | x :: l =>
      let s := Ml (ml_st s) (set_q (ml_q s) i l) (ml_pipe s) (ml_run s) (ml_out s) (ml_upd s) in
      match x with Gram e => act e s | Fault => s end
  end.
Definition handle_fd (f : fd) (s : ml) : ml * res unit :=
  match f with
  | FSock i => (take_one i s, Ok tt)
  | FQueue i => (Nat.iter 5 (take_one i) s, Ok tt)       (* process_pending(5) *)
  | FPipe upd =>
      match ml_pipe s with
      | [] => (s, Ok tt)
      | sg :: l =>
          match sg with
          | SIGINT | SIGTERM => (Ml (ml_st s) (ml_q s) l false (ml_out s) (ml_upd s), Ok tt)
          | SIGHUP => (Ml (ml_st s) (ml_q s) l (ml_run s) (ml_out s) (S (ml_upd s)), upd)
          end
      end
  end.
(** scripts/lispd:288-333: the for loop; an exception ends it *)
Fixpoint ready (l : list fd) (s : ml) : ml :=
  match l with
  | [] => s
  | f :: l => match handle_fd f s with
              | (s, Ok _) => ready l s
              | (s, Err _) => s
              end
  end.
(** ** The world around it: something arrives for a socket, a signal arrives (the handler writes to the pipe,
    scripts/lispd:58-65), select() returns (or fails, scripts/lispd:283-286), a thread runs *)
Inductive world := WArrive (i : nat) (x : item) | WSignal (sg : sgn) | WSelect (l : option (list fd)) | WThread (e : event).
Definition turn (s : ml) (w : world) : ml :=
  match w with
  | WArrive i x => Ml (ml_st s) (set_q (ml_q s) i (ml_q s i ++ [x])) (ml_pipe s) (ml_run s) (ml_out s) (ml_upd s)
  | WSignal sg => Ml (ml_st s) (ml_q s) (ml_pipe s ++ [sg]) (ml_run s) (ml_out s) (ml_upd s)
  | WSelect l => if ml_run s then match l with Some l => ready l s | None => s end else s
  | WThread e => act e s
  end.
Definition serve (st : dm) (h : list world) : ml :=
  fold_left turn h (Ml st (fun _ => []) [] true [] 0).
End Main.
