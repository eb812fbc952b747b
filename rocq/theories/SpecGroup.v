(** * Specification: the records of a Map-Register sent in Map-Registers of their own *)
From Verif Require Import Base Afi Records Control Auth Tree MapServer SpecMs Etr Packet Daemon SpecDaemon.

(** [l] is [m] with the one record [r]: the same sender, proxy bit and key id, authentic for the same keys *)
Definition alone hm (m : mreg) (r : mrec) (l : mreg) : Prop :=
  g_records l = [r] /\ g_xtr l = g_xtr m /\ g_site l = g_site m /\ g_proxy l = g_proxy m /\ g_key l = g_key m /\
  forall key, authentic hm key l <-> authentic hm key m.
(** the events [es] bring the records of [m] one by one, from where [m] came from and at the times [clock] shows for them *)
Definition one_by_one hm (m : mreg) (ar : arrival) (clock : nat -> Z) (es : list event) : Prop :=
  length es = length (g_records m) /\
  forall i e r, nth_error es i = Some e -> nth_error (g_records m) i = Some r ->
    exists l c, alone hm m r l /\ brings e (PCtl (CReg l)) ar c /\ c 0%nat = clock i.
