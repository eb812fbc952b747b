(** * All automatic addresses of the process: utils/auto_addresses.py:20-51, 111-177

    One AutoAddress is modelled in Net.v ([auto], [update_address]).  Here: the module variables, the constructors and the functions
    get_ipv4_address, get_ipv6_address and update_addresses.  What listeners do is modelled elsewhere (Net.v, Etr.v); the order in
    which a set is iterated is the order of registration. *)
From Verif Require Import Base Afi Net.

(** an AutoIPv4Address or AutoIPv6Address: its class, [_if_name], and [_ip] with [_notify_targets] *)
Record aobj := AObj { ao_fam : fam; ao_if : Z; ao_auto : auto }.
Definition ao_ip (a : aobj) : Z := au_ip (ao_auto a).
(** the objects made so far (an object is its position), the WeakSet [_all_auto_addresses] and the dictionaries [_auto_ipv4_cache] and
    [_auto_ipv6_cache] *)
Record areg := AReg { objs : list aobj; reg : list nat; cache : list (fam * Z * nat) }.
Definition areg0 : areg := AReg [] [] [].
(** what netifaces says about every interface *)
Definition ifaces := fam -> Z -> iface.

Section Reg.
(** Python's hash() of a string *)
Variable hash : Z -> Z.

(** auto_addresses.py:53-55 *)
Definition a_hash (a : aobj) : Z := hash (ao_if a).
(** __eq__ of ipaddress.IPv4Address and IPv6Address, which AutoAddress does not override *)
Definition a_eqb (a b : aobj) : bool := fam_eqb (ao_fam a) (ao_fam b) && (ao_ip a =? ao_ip b).
(** a set finds an element with the same hash that is equal *)
Definition same_key (a b : aobj) : bool := (a_hash a =? a_hash b) && a_eqb a b.
Definition registered (w : areg) (a : aobj) : bool :=
  existsb (fun j => match nth_error (objs w) j with Some b => same_key b a | None => false end) (reg w).

(** auto_addresses.py:119-121, 131-133 and 36-48: the address is 0 when the object is put into the set *)
Definition construct (env : ifaces) (v : fam) (n : Z) (w : areg) : areg * nat :=
  let a := AObj v n (Auto 0 []) in
  let i := length (objs w) in
  let r := if registered w a then reg w else reg w ++ [i] in
  (AReg (objs w ++ [AObj v n (fst (update_address v (env v n) (Auto 0 [])))]) r (cache w), i).
Definition cached (v : fam) (n : Z) (w : areg) : option nat :=
  option_map snd (find (fun e => fam_eqb (fst (fst e)) v && (snd (fst e) =? n)) (cache w)).
(** auto_addresses.py:141-177 *)
Definition get_address (env : ifaces) (v : fam) (n : Z) (w : areg) : areg * nat :=
  match cached v n w with
  | Some i => (w, i)
  | None => let '(w', i) := construct env v n w in (AReg (objs w') (reg w') (cache w' ++ [(v, n, i)]), i)
  end.
(** the k-th object replaced *)
Fixpoint set_obj (k : nat) (a : aobj) (l : list aobj) : list aobj :=
  match l, k with
  | [], _ => []
  | _ :: l, O => a :: l
  | b :: l, S k => b :: set_obj k a l
  end.
(** auto_addresses.py:63-108 for the object i; the calls of on_address_change *)
Definition update_one (env : ifaces) (i : nat) (w : areg) : areg * list (nat * nat) :=
  match nth_error (objs w) i with
  | None => (w, [])
  | Some a =>
      let '(u, called) := update_address (ao_fam a) (env (ao_fam a) (ao_if a)) (ao_auto a) in
      (AReg (set_obj i (AObj (ao_fam a) (ao_if a) u) (objs w)) (reg w) (cache w), map (fun t => (i, t)) called)
  end.
Fixpoint update_list (env : ifaces) (l : list nat) (w : areg) : areg * list (nat * nat) :=
  match l with
  | [] => (w, [])
  | i :: l => let '(w1, c1) := update_one env i w in let '(w2, c2) := update_list env l w1 in (w2, c1 ++ c2)
  end.
(** auto_addresses.py:24-30 *)
Definition update_addresses (env : ifaces) (w : areg) : areg * list (nat * nat) := update_list env (reg w) w.
(** auto_addresses.py:57-58 *)
Definition listen (i t : nat) (w : areg) : areg :=
  match nth_error (objs w) i with
  | None => w
  | Some a => AReg (set_obj i (AObj (ao_fam a) (ao_if a) (add_target t (ao_auto a))) (objs w)) (reg w) (cache w)
  end.
(** the last reference to an object goes away: the WeakSet forgets it.  The caches hold references for ever *)
Definition collect (i : nat) (w : areg) : areg :=
  if existsb (fun e => Nat.eqb (snd e) i) (cache w) then w
  else AReg (objs w) (filter (fun j => negb (Nat.eqb j i)) (reg w)) (cache w).

(** what a program can do *)
Inductive aev :=
| ANew (v : fam) (n : Z) (env : ifaces)        (* AutoIPv4Address(name), AutoIPv6Address(name) *)
| AGet (v : fam) (n : Z) (env : ifaces)        (* get_ipv4_address(name), get_ipv6_address(name) *)
| AListen (i t : nat)                          (* add_notify_target *)
| AUpdate (env : ifaces)                       (* update_addresses() *)
| ACollect (i : nat).
Definition a_step (w : areg) (e : aev) : areg :=
  match e with
  | ANew v n env => fst (construct env v n w)
  | AGet v n env => fst (get_address env v n w)
  | AListen i t => listen i t w
  | AUpdate env => fst (update_addresses env w)
  | ACollect i => collect i w
  end.
Definition a_run (h : list aev) : areg := fold_left a_step h areg0.
End Reg.
