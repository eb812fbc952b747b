(** * Specification: the reported source is where the datagram left from *)
From Verif Require Import Base Afi Net SpecNet RebindRace.

(** the address of the socket was [z], some time in the history *)
Definition was_address (h : list rb_move) (z : Z) : Prop := In (RbStart z) h.
(** the main thread was not in [rebind] whenever thread [k] was in [sendto] or about to report *)
Definition undisturbed (v : fam) (h : list rb_move) (k : nat) : Prop :=
  forall h1 h2, h = h1 ++ h2 ->
    match rb_send (rb_race v h1) k with SdLoading | SdCalling _ | SdNaming _ => rb_main (rb_race v h1) = RIdle | _ => True end.
(** … and the system accepted every datagram *)
Definition accepted_all (v : fam) (h : list rb_move) (k : nat) : Prop :=
  forall h1 h2 o, h = h1 ++ SdGo k false :: h2 -> rb_send (rb_race v h1) k <> SdCalling o.
(** a thread was about to hand a datagram to the system while the main thread was between creating the socket and binding
    it, or closing it because the binding failed *)
Definition unbound_window (v : fam) (h : list rb_move) : Prop :=
  exists h1 h2 j o, h = h1 ++ h2 /\ (rb_main (rb_race v h1) = RFailClosing \/ exists z, rb_main (rb_race v h1) = RBinding z) /\
    rb_send (rb_race v h1) j = SdCalling o.
