(** * Specification: automatic addresses *)
From Verif Require Import Base Afi Net SpecNet AutoReg.

(** the history asks for addresses with get_ipv4_address and get_ipv6_address only *)
Definition only_gets (h : list aev) : Prop := forall v n env, ~ In (ANew v n env) h.
(** hash() tells the names of the history apart *)
Definition no_collision (hash : Z -> Z) (h : list aev) : Prop :=
  forall v1 n1 e1 v2 n2 e2, In (AGet v1 n1 e1) h -> In (AGet v2 n2 e2) h -> hash n1 = hash n2 -> n1 = n2.
(** the address of object i in [w] *)
Definition address_of (w : areg) (i : nat) (z : Z) : Prop := exists a, nth_error (objs w) i = Some a /\ ao_ip a = z.
(** t listens to object i *)
Definition listens (w : areg) (i t : nat) : Prop := exists a, nth_error (objs w) i = Some a /\ In t (au_targets (ao_auto a)).
(** object i is the address of interface n, family v *)
Definition is_for (w : areg) (i : nat) (v : fam) (n : Z) : Prop := exists a, nth_error (objs w) i = Some a /\ ao_fam a = v /\ ao_if a = n.
