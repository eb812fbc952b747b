(** * Specification of the lifecycle of an ETR node's registrations, on histories *)
From Verif Require Import Base Afi Etr Daemon.

(** [a_then l o p]: operation [o] occurs in [l] and nothing after it satisfies [p] *)
Definition and_then_no {A} (l : list A) (o : A) (p : A -> Prop) : Prop :=
  exists l1 l2, l = l1 ++ o :: l2 /\ forall x, In x l2 -> ~ p x.
(** registration [r] is configured: added, and not removed since *)
Definition configured (l : list lc_op) (r : nat) : Prop := and_then_no l (LAdd r) (fun o => o = LRemove r).
(** the node has control-plane sockets: it was given some, and nothing else since *)
Definition has_sockets (l : list lc_op) : Prop := and_then_no l (LSockets true) (fun o => exists b, o = LSockets b).
(** at some time the node had sockets and the registration, which has not been removed since *)
Definition got_started (l : list lc_op) (r : nat) : Prop :=
  exists l1 l2, l = l1 ++ l2 /\ configured l1 r /\ has_sockets l1 /\ ~ In (LRemove r) l2.
(** the RTRs registration [r] reported last *)
Definition last_rtrs (l : list lc_op) (r : nat) (rtrs : list addr) : Prop :=
  and_then_no l (LRtrs r rtrs) (fun o => exists x, o = LRtrs r x).
(** the node announces [a] as an RTR (get_rtrs) *)
Definition announced (s : lc) (a : addr) : Prop := exists r rtrs, In (r, rtrs) (lc_rtrs s) /\ In a rtrs.
