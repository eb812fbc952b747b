(** * The locators of an ETR node: etr_node.py:465-514, packet/lisp/control/locator_record.py:26-66

    [self._locators] is a Python set of objects whose attributes may change while they are in it.  Which objects want to be told about
    changes ([_notify_targets]) is not modelled here: being told has no effect (C61). *)
From Verif Require Import Base Afi Records Tree MapServer Etr.

(** the address of a locator: an IPv4Address or IPv6Address, or an AutoIPv4Address or AutoIPv6Address of interface [n] *)
Inductive aref := RFixed (v : fam) (z : Z) | RAuto (v : fam) (n : Z).
Definition ref_fam (r : aref) : fam := match r with RFixed v _ => v | RAuto v _ => v end.
(** what the interfaces have now: the numbers of the AutoAddresses (C100), auto_addresses.py:64-108 *)
Definition ifaddrs := fam -> Z -> Z.
(** a LocatorRecord *)
Record lobj := LObj { lo_prio : Z; lo_weight : Z; lo_mprio : Z; lo_mweight : Z; lo_rsv : bits; lo_local : bool; lo_probed : bool;
  lo_reach : bool; lo_ref : aref }.
Definition address_now (env : ifaddrs) (r : aref) : addr :=
  match r with RFixed v z => AIP v z | RAuto v n => AIP v (env v n) end.
Definition now (env : ifaddrs) (l : lobj) : loc :=
  Loc (lo_prio l) (lo_weight l) (lo_mprio l) (lo_mweight l) (lo_rsv l) (lo_local l) (lo_probed l) (lo_reach l) (address_now env (lo_ref l)).

(** what a program can do with the node and with locators *)
Inductive lop :=
| LocAdd (o : nat)                    (* add_locator *)
| LocRemove (o : nat)                 (* remove_locator *)
| LocIfaces (env : ifaddrs)           (* update_addresses() after interfaces changed *)
| LocAssign (o : nat) (l : lobj).     (* attributes of a locator assigned *)
(** the objects, the interfaces, and the set: every element with the hash it had when it was added *)
Record lw := LW { lw_heap : nat -> lobj; lw_env : ifaddrs; lw_set : list (Z * nat) }.

Section Hash.
(** Python's hash() of hex(long(ip)) and of an interface name *)
Variables (hash_ip hash_name : Z -> Z).
(** locator_record.py:64-66, ipaddress._BaseAddress.__hash__, auto_addresses.py:53-55 *)
Definition loc_hash (l : lobj) : Z := match lo_ref l with RFixed _ z => hash_ip z | RAuto _ n => hash_name n end.
(** the element is the one a lookup of [o] finds: the hash it was stored with, and identity or [__eq__] *)
Definition found (w : lw) (o : nat) (e : Z * nat) : bool :=
  (fst e =? loc_hash (lw_heap w o)) &&
  (Nat.eqb (snd e) o || loc_same (now (lw_env w) (lw_heap w (snd e))) (now (lw_env w) (lw_heap w o))).
(** set.discard: the first element found *)
Fixpoint discard (p : Z * nat -> bool) (l : list (Z * nat)) : list (Z * nat) :=
  match l with [] => [] | e :: l => if p e then l else e :: discard p l end.
(** etr_node.py:500-514 *)
Definition loc_step (w : lw) (e : lop) : lw :=
  match e with
  | LocAdd o =>
      if existsb (found w o) (lw_set w) then w
      else LW (lw_heap w) (lw_env w) (lw_set w ++ [(loc_hash (lw_heap w o), o)])
  | LocRemove o => LW (lw_heap w) (lw_env w) (discard (found w o) (lw_set w))
  | LocIfaces env => LW (lw_heap w) env (lw_set w)
  | LocAssign o l => LW (fun j => if Nat.eqb j o then l else lw_heap w j) (lw_env w) (lw_set w)
  end.
(** a new node: etr_node.py:468; the constructor then adds its locators one by one (477-479) *)
Definition loc_run (heap : nat -> lobj) (env : ifaddrs) (h : list lop) : lw := fold_left loc_step h (LW heap env []).
(** the locators as get_etr_locators meets them, etr_node.py:570 *)
Definition locators_now (w : lw) : list loc := map (fun e => now (lw_env w) (lw_heap w (snd e))) (lw_set w).
End Hash.
