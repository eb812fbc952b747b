(** * Specification: datagrams overtaking each other on the way *)
From Verif Require Import Base Afi Records Control Auth Tree MapServer SpecMs Etr Packet Daemon SpecDaemon.

(** something that arrived over the network *)
Definition is_datagram (e : event) : Prop :=
  match e with AtControl _ _ _ => True | AtData _ _ _ => True | _ => False end.
(** [e] brings a Map-Register of the sender [so]: the xTR if it gives its id, otherwise the address *)
Definition register_from (e : event) (so : source) : Prop :=
  exists m ar clock, brings e (PCtl (CReg m)) ar clock /\ sender m (ar_src ar) so.
(** [overtaken h h']: [h'] is [h], except that datagrams have overtaken each other, but never a Map-Register one of the same sender *)
Inductive overtaken : list event -> list event -> Prop :=
| ov_same h : overtaken h h
| ov_swap h1 e1 e2 h2 : is_datagram e1 -> is_datagram e2 -> (forall so, register_from e1 so -> ~ register_from e2 so) ->
    overtaken (h1 ++ e1 :: e2 :: h2) (h1 ++ e2 :: e1 :: h2)
| ov_trans a b c : overtaken a b -> overtaken b c -> overtaken a c.
