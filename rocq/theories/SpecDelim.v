(** * Where a message ends: what it means that bytes are read up to the end of the message and no further *)
From Verif Require Import Base.

Section Delim.
  Context {A : Type}.
  Variable parse : bytes -> res A.
  (** nothing that is missing its end is accepted *)
  Definition cuts_refused (d : bytes) : Prop := forall p q, d = p ++ q -> q <> [] -> exists e, parse p = Err e.
  (** every accepted string starts with a message that is accepted with anything (or nothing) after it, always with the same
      result, and not accepted when its end is missing *)
  Definition self_delimiting : Prop := forall d m, parse d = Ok m ->
    exists message rest, d = message ++ rest /\ (forall more, parse (message ++ more) = Ok m) /\ cuts_refused message.
  (** no accepted string is the beginning of another one: neither cut short nor with bytes added is it accepted *)
  Definition exact_length : Prop := forall d more m m', parse d = Ok m -> parse (d ++ more) = Ok m' -> more = [].
End Delim.
From Verif Require Import Afi Records Control Spec SpecRec Packet.
(** control messages as Python objects hold them (reserved fields of the declared width etc.) *)
Definition obj_ctl (c : ctl) : Prop :=
  match c with
  | CReq m => obj_mreq m | CRep m => obj_mrep m | CReg m => obj_mreg m | CNot m => obj_mnot m | CRef m => obj_mref m | CInfo m => obj_info m
  end.
Inductive is_ip_packet : pkt -> Prop :=
| iip4 h p : is_ip_packet (PIPv4 h p)
| iip6 h p : is_ip_packet (PIPv6 h p).
