(** * Specification: histories that differ in other senders' datagrams *)
From Verif Require Import Base Afi Records Control Auth Tree MapServer SpecMs Etr Packet Daemon SpecDaemon SpecReorder.

(** [same_for so h h']: [h'] is [h] with datagrams lost, added or both, none of which is a Map-Register of the sender [so] *)
Inductive same_for (so : source) : list event -> list event -> Prop :=
| sf_nil : same_for so [] []
| sf_both e h h' : same_for so h h' -> same_for so (e :: h) (e :: h')
| sf_lost e h h' : is_datagram e -> ~ register_from e so -> same_for so h h' -> same_for so (e :: h) h'
| sf_added e h h' : is_datagram e -> ~ register_from e so -> same_for so h h' -> same_for so h (e :: h').
