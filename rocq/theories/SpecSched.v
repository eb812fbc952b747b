(** * Specification of what concurrent threads may do to each other *)
From Verif Require Import Base Afi Records Control Tree Dict MapServer SpecMs Etr SpecEtr Packet Daemon SpecRoute Sched.

(** ** Requests and their answers *)
(** the requests the registration threads add while the main thread searches *)
Fixpoint added (h : list turn) : list nat :=
  match h with [] => [] | TAppend x :: h => x :: added h | _ :: h => added h end.
(** how often the main thread gets to run *)
Fixpoint main_turns (h : list turn) : nat :=
  match h with [] => 0 | TMain :: h => S (main_turns h) | _ :: h => main_turns h end.
(** [run h]: where the main thread is after the turns [h].  Request [x] is taken off the list after the main thread came to it *)
Definition taken_behind (run : list turn -> pc) (h : list turn) : Prop :=
  exists h1 h2 h3 x i, h = h1 ++ h2 ++ TRemove x :: h3 /\ run h1 = Test i x.

(** ** The registrations, as a table *)
Definition table := pfx -> source -> option reg.
Definition table_of (d : regs) : table :=
  fun q s => match dget pfx_eqb q d with Some i => dget source_eqb s i | None => None end.
(** [t'] is [t] after the operation *)
Definition table_step (t : table) (o : op) (t' : table) : Prop :=
  match o with
  | Store q s r => t' q s = Some r /\ forall q' s', (q', s') <> (q, s) -> t' q' s' = t q' s'
  | Clean now => forall q s r, t' q s = Some r <-> t q s = Some r /\ now <= rg_deadline r
  end.
Inductive table_run : table -> list op -> table -> Prop :=
| run_nil t : table_run t [] t
| run_cons t o t1 l t2 : table_step t o t1 -> table_run t1 l t2 -> table_run t (o :: l) t2.
(** the operations thread [k] did, in a list of who did what *)
Definition by_thread (k : nat) (log : list (nat * op)) : list op :=
  map snd (filter (fun e => Nat.eqb (fst e) k) log).
(** dictionaries have every key once; nobody leaves empty dictionaries behind *)
Definition regs_ok (d : regs) : Prop :=
  NoDup (map fst d) /\ forall q i, In (q, i) d -> NoDup (map fst i) /\ i <> [].

(** ** Time *)
(** what happened to a Map-Server node up to time [t], with the times: [l] are the passes the cleanup thread made (when it
    read the clock, when it was done) *)
Definition timed := list (Z * ms_ev).
Definition up_to (t : Z) (h : timed) : list ms_ev := map snd (filter (fun e => fst e <=? t) h).
Definition clean_events (l : list (Z * Z)) : timed := map (fun p => (snd p, EvClean (fst p))) l.
Definition is_clean (e : ms_ev) : bool := match e with EvClean _ => true | _ => false end.
