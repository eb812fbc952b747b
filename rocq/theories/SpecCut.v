(** * Specification: registrations that are cut short *)
From Verif Require Import Base Afi Records Control Auth Tree MapServer Etr Packet Daemon Exchange SpecExch Race RaceInfo SpecRaceInfo.

Section R.
Variable hm : Z -> bytes -> bytes -> bytes.
Variable r : etrr.
Variable reg : mreg.
(** in the course of [h] the thread sends (or tries to) its Map-Register: the moves, counted from 0, at which it does *)
Definition sends (h : list move) (i : nat) : Prop :=
  exists h1 s h2 k, h = h1 ++ RegGoes s :: h2 /\ length h1 = i /\ p_reg (race hm r reg h1) = Sending k.
(** the operating system refused it: an exception *)
Definition send_raises (h : list move) : Prop :=
  exists h1 e h2 k, h = h1 ++ RegGoes (Err e) :: h2 /\ p_reg (race hm r reg h1) = Sending k.
(** the thread runs [n] times in [h] *)
Definition turns (h : list move) : nat := length (filter (fun m => match m with RegGoes _ => true | _ => false end) h).
(** the thread is in the loop of attempts *)
Definition attempting (w : pair) : Prop :=
  match p_reg w with Sending _ | Waiting _ | Stopping _ | Looking _ => True | _ => False end.
End R.
Section I.
Variable r : etrr.
Variable nonce : bytes.
(** the same for its Info-Request *)
Definition asks (h : list imove) (i : nat) : Prop :=
  exists h1 s h2 k, h = h1 ++ IRegGoes s :: h2 /\ length h1 = i /\ ip_reg (irace r nonce h1) = ISending k.
Definition ask_raises (h : list imove) : Prop :=
  exists h1 e h2 k, h = h1 ++ IRegGoes (Err e) :: h2 /\ ip_reg (irace r nonce h1) = ISending k.
Definition iturns (h : list imove) : nat := length (filter (fun m => match m with IRegGoes _ => true | _ => false end) h).
Definition asking (w : ipair) : Prop :=
  match ip_reg w with ISending _ | IAssigning _ _ | IWaiting _ | IStopping _ | ILooking _ => True | _ => False end.
End I.
(** at most [n] places have [P] *)
Definition at_most (n : nat) (P : nat -> Prop) : Prop := forall l, NoDup l -> (forall i, In i l -> P i) -> (length l <= n)%nat.
(** the places of [P] at or after [k] *)
Definition from (k : nat) (P : nat -> Prop) (i : nat) : Prop := (k <= i)%nat /\ P i.
(** a stop request at place [k] *)
Definition told_at (h : list move) (k : nat) : Prop := nth_error h k = Some AskStop.
Definition itold_at (h : list imove) (k : nat) : Prop := nth_error h k = Some IAskStop.

(** One pass, etr_node.py:427-452: NAT detection in [hi], then registration in [hr] (which asks for a Map-Notify); told to stop
    in the first part, the stop event is set at the start of the second. *)
Definition one_pass (hi : list imove) (hr : list move) : Prop := In IAskStop hi -> exists h, hr = AskStop :: h.
(** the thread found the stop event set between two attempts *)
Definition asking_stopped (r : etrr) (nonce : bytes) (h : list imove) : Prop :=
  exists h1 s h2 k, h = h1 ++ IRegGoes s :: h2 /\ ip_reg (irace r nonce h1) = IStopping k /\ ip_stop (irace r nonce h1) = true.
(** an Info-Reply that shows a NAT was recorded *)
Definition nat_known (r : etrr) (nonce : bytes) (h : list imove) : Prop :=
  ip_event (irace r nonce h) = true /\ exists i d, returned (irace r nonce h) i d /\ nat_seen d.
