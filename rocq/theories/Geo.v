(** * Decimal degrees of LCAFGeoAddress: utils/lcaf/geo_address.py:44-66

    A Python float is an IEEE 754 double.  Finite doubles are modelled as the rational numbers they are, and every arithmetic
    operation gives the double nearest to the exact result (ties to even).  Infinities, NaN and overflow are not modelled:
    they do not arise from numbers of the sizes in the statements.  Latitude and longitude have the same code. *)
From Coq Require Import QArith Qround.
From Verif Require Import Base Afi.
Local Open Scope Q_scope.

(** ** Doubles *)
(** 2^k <= q < 2^(k+1), for q > 0 *)
Definition expo (q : Q) : Z :=
  let l := (Z.log2 (Qnum q) - Z.log2 (Zpos (Qden q)))%Z in if Qle_bool (2 ^ l) q then l else (l - 1)%Z.
(** the integer nearest to m, the even one if there are two *)
Definition nearest_even (m : Q) : Z :=
  let f := Qfloor m in
  match Qcompare (m - inject_Z f) (1 # 2) with
  | Lt => f
  | Gt => (f + 1)%Z
  | Eq => if Z.even f then f else (f + 1)%Z
  end.
(** the double nearest to q > 0: 53 bits, exponents from -1074 *)
Definition rnd_pos (q : Q) : Q :=
  let e := Z.max (expo q - 52) (-1074) in inject_Z (nearest_even (q / 2 ^ e)) * 2 ^ e.
Definition rnd (q : Q) : Q :=
  match Qcompare q 0 with Eq => 0 | Gt => rnd_pos q | Lt => - rnd_pos (- q) end.

(** ** Python's operations *)
(** int(x): towards zero *)
Definition py_int (x : Q) : Z := if Qle_bool 0 x then Qfloor x else (- Qfloor (- x))%Z.
(** x % 1: fmod is exact; for a negative remainder 1 is added *)
Definition py_mod1 (x : Q) : Q :=
  let r := x - inject_Z (py_int x) in if Qle_bool 0 r then r else rnd (r + 1).
(** round(x): to the nearest integer, away from zero if there are two *)
Definition py_round (x : Q) : Z := if Qle_bool 0 x then Qfloor (x + (1 # 2)) else (- Qfloor (- x + (1 # 2)))%Z.

(** ** The properties latitude and longitude *)
Record dms := DMS { deg : Z; minutes : Z; seconds : Z }.
(** geo_address.py:44-47, 56-59 *)
Definition get_decimal (a : dms) : Q :=
  rnd (rnd (inject_Z (deg a) + rnd (inject_Z (minutes a) / 60)) + rnd (inject_Z (seconds a) / 3600)).
(** geo_address.py:49-54, 61-66 *)
Definition set_decimal (x : Q) : dms :=
  let m := rnd (py_mod1 x * 60) in
  let s := rnd (py_mod1 m * 60) in
  DMS (py_int x) (py_int m) (py_round s).
(** the attributes of the address *)
Definition latitude (g : geo) : dms := DMS (g_latd g) (g_latm g) (g_lats g).
Definition longitude (g : geo) : dms := DMS (g_lond g) (g_lonm g) (g_lons g).
Definition set_latitude (g : geo) (x : Q) : geo :=
  let a := set_decimal x in
  Geo (g_north g) (deg a) (minutes a) (seconds a) (g_east g) (g_lond g) (g_lonm g) (g_lons g) (g_alt g).
Definition set_longitude (g : geo) (x : Q) : geo :=
  let a := set_decimal x in
  Geo (g_north g) (g_latd g) (g_latm g) (g_lats g) (g_east g) (deg a) (minutes a) (seconds a) (g_alt g).
Definition get_latitude (g : geo) : Q := get_decimal (latitude g).
Definition get_longitude (g : geo) : Q := get_decimal (longitude g).
