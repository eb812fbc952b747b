(** * Specification: the same datagram again *)
From Verif Require Import Base Afi Records Control Auth Tree MapServer SpecMs Etr Packet Daemon SpecDaemon.

(** events [e] and [e'] are the arrivals of the same bytes at the same port, from and to the same addresses, at the times [clock]
    and [clock'] *)
Inductive again : event -> (nat -> Z) -> event -> (nat -> Z) -> Prop :=
| ag_control ar d clock clock' : again (AtControl ar d clock) clock (AtControl ar d clock') clock'
| ag_data ar d clock clock' : again (AtData ar d clock) clock (AtData ar d clock') clock'.
(** what happens between the two leaves the registration of [q] by [so] at node [id] alone: no other Map-Register for it, and
    cleanup passes only before anything the first arrival registered is due *)
Definition quiet hm cfg keys mores (id : nat) (q : pfx) (so : source) (clock : nat -> Z) (l : list event) : Prop :=
  (forall x rg, In x l -> ~ registers hm cfg keys mores x id q so rg) /\
  (forall t i, In (Cleanup id t) l -> t <= clock i + 180 * sec).
(** the same registration, except that the second one is in force for as long or longer *)
Definition kept (o o' : option reg) : Prop :=
  match o, o' with
  | None, None => True
  | Some rg, Some rg' => rg_record rg' = rg_record rg /\ rg_proxy rg' = rg_proxy rg /\ rg_deadline rg <= rg_deadline rg'
  | _, _ => False
  end.
