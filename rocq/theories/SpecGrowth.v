(** * Specification: what a Map-Server holds, and what it was asked to hold *)
From Verif Require Import Base Afi Records Control Auth Tree MapServer SpecMs Etr Packet Daemon SpecDaemon.

(** everything in the table of a Map-Server: prefixes with the senders they are registered for *)
Definition kept_entries (d : regs) : list (pfx * source) := flat_map (fun e => map (fun x => (fst e, fst x)) (snd e)) d.
(** [L] lists every record (event and position) of the Map-Registers in [h] that was handled at most 180 seconds before [t] *)
Definition recent_records (t : Z) (h : list event) (L : list (event * nat)) : Prop :=
  forall e m ar clock i, In e h -> brings e (PCtl (CReg m)) ar clock -> (i < length (g_records m))%nat -> t <= clock i + 180 * sec -> In (e, i) L.
