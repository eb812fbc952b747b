(** * Specification: positions in degrees, minutes and seconds *)
From Coq Require Import QArith.
From Verif Require Import Base Afi Geo.
Local Open Scope Q_scope.

(** x is a finite double *)
Definition double (x : Q) : Prop :=
  exists m e, (Z.abs m < 2 ^ 53)%Z /\ (-1074 <= e <= 971)%Z /\ x == inject_Z m * 2 ^ e.
(** the position in seconds *)
Definition in_seconds (a : dms) : Z := (3600 * deg a + 60 * minutes a + seconds a)%Z.
(** usual notation: 0 <= minutes, seconds < 60 *)
Definition normal (a : dms) : Prop := (0 <= deg a /\ 0 <= minutes a < 60 /\ 0 <= seconds a < 60)%Z.
(** [x] and [y] differ by at most [e] *)
Definition within (e x y : Q) : Prop := x - y <= e /\ y - x <= e.
