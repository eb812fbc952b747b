(** * Specification vocabulary for the ETR *)
From Verif Require Import Base Afi Spec Records Control SpecRec Tree SpecTree SpecDdt MapServer Etr.

(** ** Announced locators *)
(** the locator has an address to announce *)
Definition bound (l : loc) : Prop := exists v z, l_addr l = AIP v z /\ z <> 0.
(** one of the sockets has this address *)
Definition ours (socks : list (fam * Z)) (l : loc) : Prop := exists v z, l_addr l = AIP v z /\ In (v, z) socks.
(** a socket and a locator of different families do not have the same address number *)
Definition no_mixup (socks : list (fam * Z)) (locs : list loc) : Prop :=
  forall l v z v', In l locs -> l_addr l = AIP v z -> In (v', z) socks -> v' = v.
(** [x] announces address [a] with the priorities and weights of [l] *)
Record announces (l : loc) (local : bool) (a : addr) (x : loc) : Prop := {
  an_prio : l_prio x = l_prio l; an_weight : l_weight x = l_weight l;
  an_mprio : l_mprio x = l_mprio l; an_mweight : l_mweight x = l_mweight l;
  an_local : l_local x = local; an_reach : l_reach x = true; an_probed : l_probed x = false;
  an_res : l_rsv x = repeat false 13; an_addr : l_addr x = a }.
Definition ip_locator (l : loc) : Prop := exists v z, l_addr l = AIP v z.
Definition ip_addr (a : addr) : Prop := exists v z, a = AIP v z.

(** a locator in the reply to a request sent to [dest]: as announced, with the probed bit only if this is a probe and the
    locator is the address the request was sent to *)
Definition replied (probe : bool) (dest : fam * Z) (x y : loc) : Prop :=
  l_prio y = l_prio x /\ l_weight y = l_weight x /\ l_mprio y = l_mprio x /\ l_mweight y = l_mweight x /\
  l_local y = l_local x /\ l_reach y = true /\ l_addr y = l_addr x /\
  (l_probed y = true <-> probe = true /\ l_addr x = AIP (fst dest) (snd dest)).

(** a locator that may be put in a record (C37): priorities and weights are bytes, the address is an IP address that is not
    a forbidden one *)
Definition sendable_addr (a : addr) : Prop := exists v z, a = AIP v z /\ 0 <= z < 2 ^ wz v /\ ~ forbidden_locator (AIP v z).
Definition byte_fields (l : loc) : Prop :=
  0 <= l_prio l <= 255 /\ 0 <= l_weight l <= 255 /\ 0 <= l_mprio l <= 255 /\ 0 <= l_mweight l <= 255.
(** a configured locator that can be announced: unbound (address 0), or sendable *)
Definition usable_locator (l : loc) : Prop :=
  byte_fields l /\ ((exists v, l_addr l = AIP v 0) \/ sendable_addr (l_addr l)).

(** ** Map-Notify *)
(** the record confirms the registered record: same prefix, TTL, action, version and the same locators *)
Definition same_locator (a b : loc) : Prop :=
  l_prio a = l_prio b /\ l_weight a = l_weight b /\ l_mprio a = l_mprio b /\ l_mweight a = l_mweight b /\
  l_reach a = l_reach b /\ l_addr a = l_addr b.
Definition same_header (a b : mrec) : Prop :=
  mr_eid a = mr_eid b /\ mr_ttl a = mr_ttl b /\ mr_action a = mr_action b /\ mr_ver a = mr_ver b /\
  length (mr_locs a) = length (mr_locs b).
Definition confirms (a b : mrec) : Prop :=
  same_header a b /\ forall l, In l (mr_locs b) -> exists l', In l' (mr_locs a) /\ same_locator l' l.

(** ** Histories of the registration thread *)
(** the iterations so far with what each did, oldest first *)
Fixpoint history (s : rs) (l : list inp) : list (inp * list ev) :=
  match l with [] => [] | i :: l => let '(s', e) := iteration s i in (i, e) :: history s' l end.
(** a thread that was just started meets the iterations [l] *)
Definition thread_log (l : list inp) : list (inp * list ev) := history rs0 l.
Definition detects (e : list ev) : Prop := In EvNat e.
Definition registers (e : list ev) : Prop := exists f, In (EvReg f) e.
(** this iteration completed a registration with result [b] *)
Definition completed (x : inp * list ev) (b : bool) : Prop := registers (snd x) /\ in_reg (fst x) = Some b.
(** this iteration did not try to register *)
Definition quiet (x : inp * list ev) : Prop := ~ registers (snd x).
(** this iteration found out whether there is a NAT *)
Definition detected (x : inp * list ev) : Prop := detects (snd x) /\ in_nat (fst x) = true.
(** this iteration tried to register and an exception was caught *)
Definition raised (x : inp * list ev) : Prop := registers (snd x) /\ in_reg (fst x) = None.
(** the time of the last NAT detection that succeeded, 0 if there is none *)
Inductive last_detection : list (inp * list ev) -> Z -> Prop :=
| ld_none h : Forall (fun x => ~ detected x) h -> last_detection h 0
| ld_some pre x post : detected x -> Forall (fun y => ~ detected y) post -> last_detection (pre ++ x :: post) (in_now (fst x)).
(** a change was signalled after iteration [x] cleared the flag: while it registered, during [mid], or before [i] *)
Definition signalled (x : inp * list ev) (mid : list (inp * list ev)) (i : inp) : Prop :=
  in_sig2 (fst x) = true \/ (exists y, In y mid /\ in_sig (fst y) = true) \/ in_sig i = true.
Definition minute : Z := 60000000.
