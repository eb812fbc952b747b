(** * Specification: what is announced while addresses change *)
From Verif Require Import Base Afi Records Control Auth Tree MapServer Etr SpecEtr Collect.

(** at moment [t] the configured locator has address [z] of family [v]; the socket has number [z] *)
Definition has_addr (env : nat -> nat -> Z) (t : nat) (l : cloc) (v : fam) (z : Z) : Prop :=
  exists z0, l_addr (cl_loc l) = AIP v z0 /\ z = match cl_auto l with Some i => env t i | None => z0 end.
Definition sock_has (env : nat -> nat -> Z) (t : nat) (s : csock) (z : Z) : Prop :=
  z = match cs_auto s with Some i => env t i | None => snd (cs_addr s) end.
(** before moment [n], one of the sockets had the number that the locator had right after it *)
Definition met (env : nat -> nat -> Z) (n : nat) (socks : list csock) (l : cloc) : Prop :=
  exists t s v z, (S t < n)%nat /\ In s socks /\ sock_has env t s z /\ has_addr env (S t) l v z.
(** an interface that has an address keeps one (it may be another) *)
Definition stays_up (env : nat -> nat -> Z) (n : nat) (l : cloc) : Prop :=
  forall t u v z w y, (t <= u < n)%nat -> has_addr env t l v z -> has_addr env u l w y -> z <> 0 -> y <> 0.
Definition always_up (env : nat -> nat -> Z) (n : nat) (l : cloc) : Prop := forall t v z, (t < n)%nat -> has_addr env t l v z -> z <> 0.
(** the locators and sockets as they are at moment 0 *)
Definition loc_now (env : nat -> nat -> Z) (l : cloc) (x : loc) : Prop :=
  l_addr x = match l_addr (cl_loc l), cl_auto l with AIP v _, Some i => AIP v (env 0%nat i) | a, _ => a end /\
  l_prio x = l_prio (cl_loc l) /\ l_weight x = l_weight (cl_loc l) /\ l_mprio x = l_mprio (cl_loc l) /\ l_mweight x = l_mweight (cl_loc l).
Definition sock_now (env : nat -> nat -> Z) (s : csock) (x : fam * Z) : Prop := sock_has env 0 s (snd x).
