(** * Specification: layered settings, and the configuration that results *)
From Coq Require Import Ascii String.
From Verif Require Import Base Afi Spec Tree SpecTree Net SpecNet Conf.

(** a name without lower-case letters *)
Definition setting_name (n : string) : Prop := forall i c, String.get i n = Some c -> ~ (97 <= nat_of_ascii c <= 122)%nat.
(** the value of the last file that defines the setting; [defines f n x]: executing [f] succeeds and gives [n] the value [x] *)
Definition defines {V} (f : cfile V) (n : string) (x : V) : Prop := exists defs, f = FModule defs /\ getattr n defs = Some x.
Definition last_defines {V} (files : list (cfile V)) (n : string) (x : V) : Prop :=
  exists pre f post, files = pre ++ f :: post /\ defines f n x /\ forall g y, In g post -> ~ defines g n y.

(** [cfg] is the configuration the accepted setting INSTANCES stands for *)
Fixpoint kassoc (k : Z) (l : list (ckey * cinst)) : option cinst :=
  match l with
  | [] => None
  | (KInt k', x) :: l => if k' =? k then Some x else kassoc k l
  | (KOther, _) :: l => kassoc k l
  end.
Definition runs (d : list (ckey * cinst)) (cfg : instances) : Prop :=
  forall iid afi n, root_of cfg iid afi = Some n <-> exists m, kassoc iid d = Some (CDict m) /\ assoc afi m = Some (CNode n).
Definition configured (d : list (ckey * cinst)) (iid : Z) : Prop := exists x, kassoc iid d = Some x.
Definition afi_of (v : fam) : Z := match v with V4 => 1 | V6 => 2 end.
