(** * Specification: histories that differ in cleanup passes *)
From Verif Require Import Base Afi Records Control Auth Tree MapServer SpecMs Etr Packet Daemon SpecDaemon.

(** [other_passes t h h']: [h'] is [h] with passes of the cleanup threads left out, added or both, all made for times up to [t] *)
Inductive other_passes (t : Z) : list event -> list event -> Prop :=
| op_nil : other_passes t [] []
| op_both e h h' : other_passes t h h' -> other_passes t (e :: h) (e :: h')
| op_less id u h h' : u <= t -> other_passes t h h' -> other_passes t (Cleanup id u :: h) h'
| op_more id u h h' : u <= t -> other_passes t h h' -> other_passes t h (Cleanup id u :: h').
