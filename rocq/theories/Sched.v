(** * Threads that run at the same time: the lists of outstanding requests (main thread against registration threads) and
    the registrations of a Map-Server (main thread against cleanup thread).

    A step is what one Python bytecode does to a shared object; the interpreter lock makes single operations on lists and
    dicts atomic, and any thread may run between two steps. *)
From Verif Require Import Base Afi Records Control Auth Tree Dict MapServer Etr Packet Daemon.

(** ** A [for] statement over a list that other threads change: etr_node.py:606-616 and 659-670 in the main thread;
    append and remove in the registration threads, etr_node.py:304, 323, 377, 396 *)
Section Search.
Context {O : Type}.
Variable matches : O -> bool.                    (* set_notify_if_matches, set_reply_if_matches *)
Variable change : O -> O.                        (* what they do to the object if so *)

(** the requests are objects: a list holds references, [heap] their attributes *)
Record shared := Sh { sh_list : list nat; sh_heap : nat -> O }.
Definition set_heap (h : nat -> O) (x : nat) (o : O) : nat -> O := fun j => if Nat.eqb j x then o else h j.
(** the main thread: about to fetch the element the list iterator is at; with an element at hand that it will look at
    next; or finished, with the request it found *)
Inductive pc := Fetch (i : nat) | Test (i : nat) (x : nat) | Finished (x : option nat).
Definition main_step (p : pc) (s : shared) : pc * shared :=
  match p with
  | Fetch i => match nth_error (sh_list s) i with
               | Some x => (Test i x, s)
               | None => (Finished None, s)
               end
  | Test i x => if matches (sh_heap s x)
                then (Finished (Some x), Sh (sh_list s) (set_heap (sh_heap s) x (change (sh_heap s x))))
                else (Fetch (S i), s)
  | Finished x => (Finished x, s)
  end.
(** list.remove: the first occurrence *)
Fixpoint remove1 (x : nat) (l : list nat) : list nat :=
  match l with [] => [] | y :: l => if Nat.eqb y x then l else y :: remove1 x l end.
Inductive turn := TMain | TAppend (x : nat) | TRemove (x : nat).
Definition sched_step (st : pc * shared) (t : turn) : pc * shared :=
  let '(p, s) := st in
  match t with
  | TMain => main_step p s
  | TAppend x => (p, Sh (sh_list s ++ [x]) (sh_heap s))
  | TRemove x => (p, Sh (remove1 x (sh_list s)) (sh_heap s))
  end.
(** the main thread starts its loop, and the threads run in the order [h] *)
Definition search (s : shared) (h : list turn) : pc * shared := fold_left sched_step h (Fetch 0, s).
End Search.
Arguments Sh {O} _ _. Arguments sh_list {O} _. Arguments sh_heap {O} _.

(** a Map-Notify, etr_node.py:179-190 *)
Definition notify_search (src : fam * Z) (n : mnot) : shared -> list turn -> pc * shared :=
  search (fun o => set_notify_if_matches (o_etrr o) (o_reg o) src n) (fun o => OutReg (o_etrr o) (o_reg o) (Some n)).
(** an Info-Reply, etr_node.py:82-92; an exception ends the loop too *)
Definition info_search (src : fam * Z) (m : info) : shared -> list turn -> pc * shared :=
  search (fun o => match set_reply_if_matches src m o with Some _ => true | None => false end)
         (fun o => match set_reply_if_matches src m o with Some (o', _) => o' | None => o end).

(** ** The registrations of a Map-Server: map_server_node.py:81-94 (cleanup thread) and 161-176 (main thread), under
    [registrations_lock] *)
Section Del.
Context {K V : Type} (eqb : K -> K -> bool).
(** [del d[k]]: KeyError if it is not there *)
Fixpoint ddel (k : K) (d : list (K * V)) : res (list (K * V)) :=
  match d with
  | [] => Err EKey
  | (k', v) :: d => if eqb k' k then Ok d else let* d := ddel k d in Ok ((k', v) :: d)
  end.
End Del.
(** [d[k]] *)
Definition dget_exn {K V} (eqb : K -> K -> bool) (k : K) (d : list (K * V)) : res V :=
  match dget eqb k d with Some v => Ok v | None => Err EKey end.

(** what a thread does with the lock held *)
Inductive op := Store (q : pfx) (s : source) (r : reg) | Clean (now : Z).
(** where a thread is: nothing to do with the registrations now; waiting for the lock; and inside *)
Inductive at_ :=
| Outside
| S1 (q : pfx) (s : source) (r : reg)                     (* 162-163: if prefix not in self.registrations *)
| S2 (q : pfx) (s : source) (r : reg)                     (* 175: store *)
| C1 (now : Z)                                            (* 82: prefixes = registrations.keys() *)
| C2 (now : Z) (ps : list pfx)                            (* 83-84: for prefix in prefixes, sources = ... *)
| C3 (now : Z) (q : pfx) (ss : list source) (ps : list pfx)  (* 85-90: for source in sources *)
| C4 (now : Z) (q : pfx) (s : source) (ss : list source) (ps : list pfx)  (* 90: del *)
| C5 (now : Z) (q : pfx) (ps : list pfx)                  (* 92-94: if the dict is empty *)
| Leave (r : res unit).                                   (* release the lock; an exception passes through *)
Definition enter (o : op) : at_ := match o with Store q s r => S1 q s r | Clean now => C1 now end.
Definition inside_step (a : at_) (d : regs) : at_ * regs :=
  match a with
  | Outside => (Outside, d)
  | S1 q s r => (S2 q s r, if dhas pfx_eqb q d then d else dput pfx_eqb q [] d)
  | S2 q s r => match dget_exn pfx_eqb q d with
                | Ok i => (Leave (Ok tt), dput pfx_eqb q (dput source_eqb s r i) d)
                | Err e => (Leave (Err e), d)
                end
  | C1 now => (C2 now (map fst d), d)
  | C2 now [] => (Leave (Ok tt), d)
  | C2 now (q :: ps) => match dget_exn pfx_eqb q d with
                        | Ok i => (C3 now q (map fst i) ps, d)
                        | Err e => (Leave (Err e), d)
                        end
  | C3 now q [] ps => (C5 now q ps, d)
  | C3 now q (s :: ss) ps =>
      match (let* i := dget_exn pfx_eqb q d in dget_exn source_eqb s i) with
      | Ok r => (if now >? rg_deadline r then C4 now q s ss ps else C3 now q ss ps, d)
      | Err e => (Leave (Err e), d)
      end
  | C4 now q s ss ps =>
      match (let* i := dget_exn pfx_eqb q d in let* i := ddel source_eqb s i in Ok (dput pfx_eqb q i d)) with
      | Ok d => (C3 now q ss ps, d)
      | Err e => (Leave (Err e), d)
      end
  | C5 now q ps =>
      match (let* i := dget_exn pfx_eqb q d in
             match i with [] => ddel pfx_eqb q d | _ => Ok d end) with
      | Ok d => (C2 now ps, d)
      | Err e => (Leave (Err e), d)
      end
  | Leave r => (Leave r, d)
  end.
(** a thread: where it is, what it still has to do, and whether an exception was raised *)
Record thr := Thr { th_at : at_; th_todo : list op; th_raised : bool }.
Record world := Wd { w_regs : regs; w_lock : option nat; w_thr : nat -> thr }.
Definition set_thr (w : nat -> thr) (k : nat) (t : thr) : nat -> thr := fun j => if Nat.eqb j k then t else w j.
(** thread [k] runs; it waits if it wants the lock and another one has it *)
Definition thread_step (w : world) (k : nat) : world :=
  let t := w_thr w k in
  match th_at t with
  | Outside =>
      match th_todo t, w_lock w with
      | o :: rest, None => Wd (w_regs w) (Some k) (set_thr (w_thr w) k (Thr (enter o) rest (th_raised t)))
      | _, _ => w
      end
  | Leave r => Wd (w_regs w) None
                  (set_thr (w_thr w) k (Thr Outside (th_todo t) (th_raised t || match r with Ok _ => false | Err _ => true end)))
  | a => let '(a, d) := inside_step a (w_regs w) in
         Wd d (w_lock w) (set_thr (w_thr w) k (Thr a (th_todo t) (th_raised t)))
  end.
(** the threads have these operations to do, and run in the order [h] *)
Definition interleave (d : regs) (todo : nat -> list op) (h : list nat) : world :=
  fold_left thread_step h (Wd d None (fun k => Thr Outside (todo k) false)).

(** ** The cleanup thread's clock, map_server_node.py:69-99: [(lock, gap)]: how long a pass takes until it is done, and how
    late the thread wakes up after its 30 seconds.  Gives when every pass reads the clock and when it is done. *)
Fixpoint passes (now : Z) (l : list (Z * Z)) : list (Z * Z) :=
  match l with
  | [] => []
  | (lock, late) :: l => (now, now + lock) :: passes (now + lock + 30 * sec + late) l
  end.
(** when it wakes up next after these passes *)
Fixpoint wakes (now : Z) (l : list (Z * Z)) : Z :=
  match l with [] => now | (lock, late) :: l => wakes (now + lock + 30 * sec + late) l end.
