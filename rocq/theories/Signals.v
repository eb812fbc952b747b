(** * The registration threads of an ETR tell each other about RTRs (etr_node.py:435-451, 519-523, 546-552, 554-567),
    one access to shared data at a time, as in Race.v.

    What the threads of one node share: [_rtrs] and the flags [need_new_registration].  The registrations of the node are
    fixed; adding and removing some is in Daemon.v. *)
From Verif Require Import Base Afi.

(** an RTR; a set of RTRs *)
Notation rtr := (fam * Z)%type.
Definition rtr_eqb (a b : rtr) : bool := fam_eqb (fst a) (fst b) && (snd a =? snd b).
(** comparison of two sets *)
Definition same_rtrs (a b : list rtr) : bool :=
  forallb (fun x => existsb (rtr_eqb x) b) a && forallb (fun x => existsb (rtr_eqb x) a) b.
(** what [_rtrs] holds: a set for every registration that called [set_rtrs] *)
Notation known := (nat -> option (list rtr)).
Definition put {X} (f : nat -> X) (k : nat) (x : X) : nat -> X := fun j => if Nat.eqb j k then x else f j.

(** a registration thread: between passes or before 435; about to reset its flag (438), with the RTRs [mine] of its own
    NAT detection; about to read [_rtrs] (get_etr_locators, 565); in [register], having read [all]; in [set_rtrs] before
    reading the old value (547), before storing the new one (548), before the comparison (551); about to set the flags of
    the registrations [l] (522-523) *)
Inductive sig_at := SIdle | SResetting (mine : list rtr) | SReading (mine : list rtr) | SRegistering (mine : list rtr) (all : known)
| SGetting (mine : list rtr) | SStoring (mine : list rtr) (old : option (list rtr)) | SComparing (mine : list rtr) (old : option (list rtr))
| SSignalling (l : list nat).
(** [sg_said]: the RTRs announced by the last Map-Register of each registration that was not cut off by an exception: those
    of its own NAT detection, and what [_rtrs] held *)
Record signals := Signals { sg_rtrs : known; sg_need : nat -> bool; sg_at : nat -> sig_at; sg_said : nat -> option (list rtr * known) }.
(** thread [k] is in its pass at 435, its NAT detection having found [mine]; [force]: another reason to register (the last
    time was no success, or a minute is over); thread [k] goes on; [register] raises an exception *)
Inductive sig_move := SBegin (k : nat) (mine : list rtr) (force : bool) | SGo (k : nat) | SRaise (k : nat).

Section Node.
(** the registrations of the node, in the order of [_etrr_threads.values()] *)
Variable regs : list nat.
Definition sig_to (w : signals) (k : nat) (a : sig_at) : signals := Signals (sg_rtrs w) (sg_need w) (put (sg_at w) k a) (sg_said w).
Definition sig_step (w : signals) (m : sig_move) : signals :=
  match m with
  | SBegin k mine force =>
      match sg_at w k with
      | SIdle => if existsb (Nat.eqb k) regs && (force || sg_need w k) then sig_to w k (SResetting mine) else w
      | _ => w
      end
  | SGo k =>
      match sg_at w k with
      | SIdle => w
      | SResetting mine => Signals (sg_rtrs w) (put (sg_need w) k false) (put (sg_at w) k (SReading mine)) (sg_said w)
      | SReading mine => sig_to w k (SRegistering mine (sg_rtrs w))
      | SRegistering mine all => Signals (sg_rtrs w) (sg_need w) (put (sg_at w) k (SGetting mine)) (put (sg_said w) k (Some (mine, all)))
      | SGetting mine => sig_to w k (SStoring mine (sg_rtrs w k))
      | SStoring mine old => Signals (put (sg_rtrs w) k (Some mine)) (sg_need w) (put (sg_at w) k (SComparing mine old)) (sg_said w)
      | SComparing mine old =>
          (* a list never equals a set: the first time there is always a difference *)
          if match old with Some o => same_rtrs o mine | None => false end then sig_to w k SIdle else sig_to w k (SSignalling regs)
      | SSignalling [] => sig_to w k SIdle
      | SSignalling (j :: l) => Signals (sg_rtrs w) (put (sg_need w) j true) (put (sg_at w) k (SSignalling l)) (sg_said w)
      end
  | SRaise k =>
      match sg_at w k with
      | SRegistering _ _ => sig_to w k SIdle       (* caught at 452 *)
      | _ => w
      end
  end.
Definition sig0 : signals := Signals (fun _ => None) (fun _ => false) (fun _ => SIdle) (fun _ => None).
Definition sig_run (h : list sig_move) : signals := fold_left sig_step h sig0.
End Node.
