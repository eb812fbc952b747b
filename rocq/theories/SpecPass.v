(** * Specification: which NAT detection a registration uses *)
From Verif Require Import Base Afi Records Control Auth Tree MapServer Etr SpecEtr Pass.

(** the passes of a thread that was just started, with the calls each makes *)
Definition pass_log (l : list tinp) : list (tinp * list tev) := snd (passes t0 l).
(** this pass detected NAT, and the result is [d] *)
Definition found (x : tinp * list tev) (d : option addr) : Prop := In TDetect (snd x) /\ ti_nat (fst x) = Ok d.
(** this pass called [register] with [d] *)
Definition used (x : tinp * list tev) (d : option addr) : Prop := exists f, In (TRegister f d) (snd x).
(** ... which returned [v]; ... which raised an exception *)
Definition returned (x : tinp * list tev) (d : option addr) (v : option bool) : Prop := used x d /\ ti_reg (fst x) = Ok v.
Definition raises (x : tinp * list tev) : Prop := (exists d, used x d) /\ exists e, ti_reg (fst x) = Err e.
(** [x] is the last detection of [h] that came to a result, and that is [d]; [post]: the passes since *)
Definition last_found (h : list (tinp * list tev)) (x : tinp * list tev) (d : option addr) (post : list (tinp * list tev)) : Prop :=
  (exists pre, h = pre ++ x :: post) /\ found x d /\ forall y d', In y post -> ~ found y d'.
(** the last call of [register] in [h] that returned was with [d] *)
Definition last_returned (h : list (tinp * list tev)) (d : option addr) : Prop :=
  exists pre x post v, h = pre ++ x :: post /\ returned x d v /\ forall y d' v', In y post -> ~ returned y d' v'.
(** the RTRs of the NAT detection before are others, or there was none *)
Definition other_rtrs (h : list (tinp * list tev)) (d : option addr) : Prop :=
  forall d0, last_returned h d0 -> ~ (forall a, In a (rtr_rlocs d0) <-> In a (rtr_rlocs d)).
(** RTRs are recorded last in [h] with contents [rs] *)
Definition last_recorded (h : list (tinp * list tev)) (rs : list addr) : Prop :=
  exists pre x post, h = pre ++ x :: post /\ In (TRecord rs) (snd x) /\ forall y r, In y post -> ~ In (TRecord r) (snd y).
(** a pass as in C60 *)
Definition seen_as (i : tinp) (j : inp) : Prop :=
  in_now j = ti_now i /\ in_sig j = ti_sig i /\ (in_nat j = true <-> exists d, ti_nat i = Ok d) /\
  in_reg j = match ti_reg i with Ok (Some b) => Some b | Ok None => Some false | Err _ => None end /\ (ti_sig2 i = true -> in_sig2 j = true).
Definition events_as (e : list tev) (e' : list ev) : Prop :=
  (In TDetect e <-> In EvNat e') /\ forall f, (exists d, In (TRegister f d) e) <-> In (EvReg f) e'.
