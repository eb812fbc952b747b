(** * Specification: how deep decoding recurses *)
From Verif Require Import Base Afi Packet.

(** [rd_afi n] and [parse n] are the decoders of addresses (utils/afi.py, utils/lcaf) and of packets (packet/ip,
    packet/lisp) with room for [n] nested calls of themselves, as an interpreter with a limited stack has; [EFuel] says
    that there was no room for another one. *)
Definition address_within (n : nat) (pl : option Z) (s : bits) : Prop := rd_afi n pl s <> Err EFuel.
Definition packet_within (n : nat) (k : kind) (d : bytes) : Prop := parse n k d <> Err EFuel.
(** what a UDP datagram over IPv4 can carry; what fits into an Ethernet frame; Python's limit, sys.getrecursionlimit() *)
Definition max_datagram : Z := 65507.
Definition frame : Z := 1500.
Definition python_limit : nat := 1000.
