(** * Specification: NAT detection as seen from outside *)
From Verif Require Import Base Afi Records Control Auth Tree MapServer Etr Packet Daemon Exchange SpecExch.

(** What stands between the ETR and the Map-Server: a datagram sent from an address, port 4342, arrives there from
    [seen] of the address: this address and port.  Without NAT, it is the same address and port 4342. *)
Definition path := fam * Z -> (fam * Z) * Z.
Definition nat_between (seen : path) (f : fam * Z) : Prop := seen f <> (f, 4342).
(** the Map-Server answers only requests that were sent, with the source it has seen *)
Definition honest_server (seen : path) (r : etrr) (nonce : bytes) (h : list (hap info)) : Prop :=
  forall pre src m post, h = pre ++ Hears src m :: post -> reply_for r nonce src m ->
  exists f mp ms p rtrs, In (Sends (Some f)) pre /\
    i_data m = LNat mp (snd (seen f)) (AIP (fst (fst (seen f))) (snd (fst (seen f)))) ms p rtrs.
(** every request of the exchange that was sent was sent from [f] *)
Definition sent_only_from (f : fam * Z) (h : list (hap info)) : Prop := forall x, In (Sends x) h -> x = Some f.
(** the verdict [v] tells that the Map-Server has seen the ETR at [g], port [ep], while it sent from [f] *)
Definition tells (v : res (option addr)) (f : fam * Z) (g : (fam * Z) * Z) : Prop :=
  exists mp ms rtrs, v = Ok (Some (LNat mp (snd g) (AIP (fst (fst g)) (snd (fst g))) ms (AIP (fst f) (snd f)) rtrs)).
