(** * Collecting the locators while addresses change: [get_etr_locators] (etr_node.py:563-604) in a registration thread, while
    the main thread runs [update_addresses] (scripts/lispd:326, utils/auto_addresses.py:67-114).

    The addresses of configured locators and of sockets can be AutoAddress objects; every [int(...)] and [unicode(...)] of one
    reads its [_ip] anew.  [env t i] is what the [_ip] of AutoAddress [i] is at the [t]-th of these reads: any function, as the
    main thread can run in between, or not.  The family of an AutoAddress never changes. *)
From Verif Require Import Base Afi Records Control Auth Tree MapServer Etr.

(** a configured locator, a socket; with the AutoAddress that its address is, if it is one *)
Record cloc := CLoc { cl_loc : loc; cl_auto : option nat }.
Record csock := CSock { cs_addr : fam * Z; cs_auto : option nat }.

Section Env.
Variable env : nat -> nat -> Z.
Definition addr_at (t : nat) (l : cloc) : addr :=
  match l_addr (cl_loc l), cl_auto l with AIP v _, Some i => AIP v (env t i) | a, _ => a end.
Definition sock_at (t : nat) (s : csock) : Z := match cs_auto s with Some i => env t i | None => snd (cs_addr s) end.
(** etr_node.py:576-580: the socket is read first; with the number of the next read *)
Fixpoint local_now (l : cloc) (socks : list csock) (t : nat) : bool * nat :=
  match socks with
  | [] => (false, t)
  | s :: socks =>
      match addr_at (S t) l with
      | AIP _ z => if sock_at t s =? z then (true, S (S t)) else local_now l socks (S (S t))
      | _ => (false, t)                               (* not reached: 572 has raised *)
      end
  end.
(** etr_node.py:570-602 *)
Fixpoint collect (socks : list csock) (rtrs : list addr) (locs : list cloc) (included : bool) (acc : list loc) (t : nat)
  : res (list loc * nat) :=
  match locs with
  | [] => Ok (acc, t)
  | l :: locs =>
      match addr_at t l with                          (* 572 *)
      | AIP _ z =>
          if z =? 0 then collect socks rtrs locs included acc (S t)
          else
            let '(local, t) := local_now l socks (S t) in
            if local && nonempty rtrs then
              if included then collect socks rtrs locs included acc t
              else collect socks rtrs locs true
                     (fold_left (fun s r => set_add loc_same (new_loc (cl_loc l) false r) s) rtrs acc) t
            else collect socks rtrs locs included (set_add loc_same (new_loc (cl_loc l) local (addr_at t l)) acc) (S t)   (* 602 *)
      | _ => Err EType                               (* int(None), int(lcaf) *)
      end
  end.
(** etr_node.py:563-604 *)
Definition collect_locators (locs : list cloc) (stored : list (list addr)) (socks : list csock) (tentative : list addr)
  : res (list loc * nat) :=
  let* rtrs := get_rtrs stored in
  collect socks (fold_left (fun s x => set_add addr_same x s) tentative rtrs) locs false [] 0.
End Env.
