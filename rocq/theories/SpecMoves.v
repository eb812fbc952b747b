(** * Specification: when a change of address has reached the Map-Server *)
From Verif Require Import Base Afi Spec Records Control Auth Tree MapServer SpecRec SpecAccept Etr SpecEtr Collect.

(** [w t i]: what address the interface of AutoAddress [i] has at time [t].  From [T] on nothing changes. *)
Definition settled (w : Z -> nat -> Z) (T : Z) : Prop := forall t i, T <= t -> w t i = w T i.
(** at time [t] configured locator [l] has the address with number [z] of family [v] *)
Definition address_at (w : Z -> nat -> Z) (t : Z) (l : cloc) (v : fam) (z : Z) : Prop :=
  exists z0, l_addr (cl_loc l) = AIP v z0 /\ z = match cl_auto l with Some i => w t i | None => z0 end.
(** [x] has the priorities and weights of [c] *)
Definition weighs (c x : loc) : Prop :=
  l_prio x = l_prio c /\ l_weight x = l_weight c /\ l_mprio x = l_mprio c /\ l_mweight x = l_mweight c.
(** The locators [ls] are those of time [t]: each is a configured one with the address it has at [t], or an RTR; and each
    configured one that has an address at [t] is there, or an RTR is. *)
Definition current (rtr : addr -> Prop) (w : Z -> nat -> Z) (t : Z) (locs : list cloc) (ls : list loc) : Prop :=
  (forall x, In x ls -> exists l, In l locs /\ weighs (cl_loc l) x /\
     ((exists v z, address_at w t l v z /\ z <> 0 /\ l_addr x = AIP v z) \/ rtr (l_addr x))) /\
  (forall l v z, In l locs -> address_at w t l v z -> z <> 0 ->
     (exists x, In x ls /\ weighs (cl_loc l) x /\ l_addr x = AIP v z) \/ exists x, In x ls /\ rtr (l_addr x)).

(** the locators that an attempt that began at time [a] collects: the reads of the addresses are at whatever times after [a] *)
Definition collected (rtr : addr -> Prop) (w : Z -> nat -> Z) (locs : list cloc) (socks : list csock) (a : Z) (ls : list loc) : Prop :=
  exists (at_time : nat -> Z) stored tentative n, (forall k, a <= at_time k) /\
    (forall x, In x (concat stored ++ tentative) -> rtr x /\ ip_addr x) /\
    collect_locators (fun k => w (at_time k)) locs stored socks tentative = Ok (ls, n).
(** [out] is the Map-Register of that attempt (etr_node.py:356-374, 87-115) *)
Definition register_of hm (p : pfx) (r : etrr) (xtr site : Z) rtr w locs socks (a : Z) (out : bytes) : Prop :=
  exists ls rtrs want nonce g, collected rtr w locs socks a ls /\
    Forall (fun l => obj_loc l /\ good_locator l) ls /\ (length ls <= 255)%nat /\ length nonce = 8%nat /\
    insert hm (AReg (new_register p r ls rtrs want nonce xtr site)) (tr_key r) = (AReg g, Ok tt) /\ mreg_to_bytes g = Ok out.
