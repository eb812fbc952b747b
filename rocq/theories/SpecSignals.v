(** * Specification: no change of the RTRs is missed *)
From Verif Require Import Base Afi Signals.

(** [x] is an RTR of one of the registrations *)
Definition in_use (regs : list nat) (all : known) (x : rtr) : Prop := exists k s, In k regs /\ all k = Some s /\ In x s.
(** [x] was announced by the last Map-Register of registration [k] *)
Definition announced (regs : list nat) (w : signals) (k : nat) (x : rtr) : Prop :=
  exists mine all, sg_said w k = Some (mine, all) /\ (In x mine \/ in_use regs all x).
(** no thread is in the middle of a pass *)
Definition quiet (w : signals) : Prop := forall k, sg_at w k = SIdle.
(** registration [k] has registered, and need not register again because of RTRs *)
Definition content (w : signals) (k : nat) : Prop := sg_said w k <> None /\ sg_need w k = false.
(** no Map-Register was cut off by an exception *)
Definition no_failure (h : list sig_move) : Prop := forall k, ~ In (SRaise k) h.
