(** * The life of the threads of nodes

    The registration threads of an ETR node (etr_node.py:412-463) and the cleanup thread of a Map-Server node
    (map_server_node.py:68-107) have the same loop; only the pass and the time between passes differ.  A pass may take any
    number of steps, each of which uses the node through the weakref proxy. *)
From Verif Require Import Base Afi Etr Daemon.

(** where the thread is: before the check of the stop event (etr_node.py:419, map_server_node.py:73), in a pass, in
    [self._stop_event.wait(...)] (456, 100), or out of the loop *)
Inductive place := LoopTop | InPass | Waiting | Ended.
(** what a step of a pass comes to *)
Inductive outcome := GoesOn | Finishes | RaisesExn (e : exn).
(** [tl_node]: the node still exists, [tl_acts]: steps of passes that used the node, [tl_passes]: passes begun *)
Record tloop := TLoop { tl_at : place; tl_stop : bool; tl_node : bool; tl_passes : nat; tl_acts : nat }.
(** after [start()] *)
Definition tloop0 : tloop := TLoop LoopTop false true 0 0.

Inductive tl_event :=
| Turn (o : outcome)   (* the thread runs: it passes the check, does a step of its pass, or looks whether it was woken up *)
| Elapsed              (* the time of the wait is over *)
| Told                 (* stop(): etr_node.py:461-463, map_server_node.py:105-107 *)
| Freed                (* the last reference to the node is gone: the weakref proxy is dead *)
| Deleted.             (* __del__: etr_node.py:487-489, map_server_node.py:124-127, which calls stop() *)

Definition at_place (p : place) (s : tloop) : tloop := TLoop p (tl_stop s) (tl_node s) (tl_passes s) (tl_acts s).
Definition told_to_stop (s : tloop) : tloop := TLoop (tl_at s) true (tl_node s) (tl_passes s) (tl_acts s).
Definition tl_step (s : tloop) (e : tl_event) : tloop :=
  match e with
  | Turn o =>
      match tl_at s with
      | LoopTop => if tl_stop s then at_place Ended s else TLoop InPass (tl_stop s) (tl_node s) (S (tl_passes s)) (tl_acts s)
      | InPass =>
          if tl_node s then
            let s := TLoop InPass (tl_stop s) (tl_node s) (tl_passes s) (S (tl_acts s)) in
            match o with
            | GoesOn => s
            | Finishes => at_place Waiting s
            | RaisesExn _ => at_place Waiting s        (* the inner [except:], etr_node.py:452, map_server_node.py:96 *)
            end
          else at_place Waiting s                      (* ReferenceError: caught by the inner [except:] as well; the handlers
                                                          around the loop (458-459, 102-103) are never reached *)
      | Waiting => if tl_stop s then at_place LoopTop s else s
      | Ended => s
      end
  | Elapsed => match tl_at s with Waiting => at_place LoopTop s | _ => s end
  | Told => told_to_stop s
  | Freed => TLoop (tl_at s) (tl_stop s) false (tl_passes s) (tl_acts s)
  | Deleted => told_to_stop (TLoop (tl_at s) (tl_stop s) false (tl_passes s) (tl_acts s))
  end.
Definition tl_run (h : list tl_event) : tloop := fold_left tl_step h tloop0.

(** etr_node.py:487-489: dropping an ETR node tells the threads of its registrations to stop *)
Definition lc_drop (s : lc) : list tstate := fold_left (fun l t => set_nth t TStopping l) (map snd (lc_threads s)) (lc_all s).
