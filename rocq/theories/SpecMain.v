(** * Specification: how lispd starts, serves and stops *)
From Verif Require Import Base Afi Tree SpecTree Daemon Main.

(** the node attributes before main(): AbstractNode.__init__ *)
Definition no_sockets : holds := fun _ => ([], []).
(** [n] is somewhere in the configured trees *)
Definition configured_node (c : instances) (n : node) : Prop := exists iid m afi t, In (iid, m) c /\ In (afi, t) m /\ in_tree n t.
(** configurations lispd cannot run with: no address to listen on; data is to be sent to a proxy ETR but there is no queue to
    take it from for one of the families; or there is a queue and no module to read it *)
Definition unusable (have_nfqueue : bool) (c : conf) : Prop :=
  cf_listen c = [] \/
  (cf_process_data c = true /\
   ((cf_petr c <> None /\ (cf_queue4 c = None \/ cf_queue6 c = None)) \/
    (have_nfqueue = false /\ (cf_queue4 c <> None \/ cf_queue6 c <> None)))).

(** what arrived for socket [i], in order, errors left out *)
Definition grams (l : list item) : list event := flat_map (fun x => match x with Gram e => [e] | Fault => [] end) l.
Definition arrived (i : nat) (h : list world) : list event :=
  flat_map (fun w => match w with WArrive j (Gram e) => if Nat.eqb j i then [e] else [] | _ => [] end) h.
Definition by_threads (h : list world) : list event := flat_map (fun w => match w with WThread e => [e] | _ => [] end) h.
Definition signals (h : list world) : list sgn := flat_map (fun w => match w with WSignal s => [s] | _ => [] end) h.
Fixpoint hups (l : list sgn) : nat := match l with [] => 0 | SIGHUP :: l => S (hups l) | _ :: l => hups l end.
Inductive stops : sgn -> Prop := st_int : stops SIGINT | st_term : stops SIGTERM.
(** where an event that was handled came from *)
Inductive origin := FromSocket (i : nat) | FromThread.
Definition of_socket (i : nat) (t : list (origin * event)) : list event :=
  flat_map (fun x => match fst x with FromSocket j => if Nat.eqb j i then [snd x] else [] | FromThread => [] end) t.
Definition of_threads (t : list (origin * event)) : list event :=
  flat_map (fun x => match fst x with FromThread => [snd x] | _ => [] end) t.
(** how many items of socket or NFQUEUE [i] a round takes (an NFQUEUE gives up to five packets), and how many signals *)
Fixpoint taken (i : nat) (l : list fd) : nat :=
  match l with
  | [] => 0
  | FSock j :: l => (if Nat.eqb j i then 1 else 0) + taken i l
  | FQueue j :: l => (if Nat.eqb j i then 5 else 0) + taken i l
  | FPipe _ :: l => taken i l
  end.
Fixpoint pipes (l : list fd) : nat := match l with [] => 0 | FPipe _ :: l => S (pipes l) | _ :: l => pipes l end.
