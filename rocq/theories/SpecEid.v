(** * What an EID names: instance, address family and address or prefix *)
From Verif Require Import Base Afi Spec.

(** address family numbers (IANA): 1 for IPv4, 2 for IPv6 *)
Inductive fam_number : addr -> Z -> Prop :=
| fn_ip4 z : fam_number (AIP V4 z) 1
| fn_net4 z n : fam_number (ANet V4 z n) 1
| fn_ip6 z : fam_number (AIP V6 z) 2
| fn_net6 z n : fam_number (ANet V6 z n) 2.
(** the instance id around the EID; without one it is in instance 0 *)
Inductive instance_of : addr -> Z -> Prop :=
| io_inst i a m : instance_of (LInst i a m) i
| io_none a : (forall i b m, a <> LInst i b m) -> instance_of a 0.
(** EID [e] names exactly one address or prefix [a], of family [afi], in instance [i] *)
Definition eid_named (e : addr) (i afi : Z) (a : addr) : Prop := leaves e [a] /\ fam_number a afi /\ instance_of e i.
