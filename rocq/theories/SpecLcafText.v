(** * Specification: the texts of addresses *)
From Coq Require Import Ascii String.
From Verif Require Import Base Afi Spec RootFile SpecRoot SpecText SpecCanon.

(** A non-empty AFI-list is part of what is printed (the RTRs of a NAT address are not printed one by one) *)
Inductive prints_list : addr -> Prop :=
| pl_list x l : prints_list (LList (x :: l))
| pl_inst i a m : prints_list a -> prints_list (LInst i a m)
| pl_as n a : prints_list a -> prints_list (LAs n a)
| pl_geo g a : prints_list a -> prints_list (LGeo g a)
| pl_nat mp ep g m p l x : x = g \/ x = m \/ x = p -> prints_list x -> prints_list (LNat mp ep g m p l).

(** Addresses, networks, and these in instances and AS numbers *)
Inductive plain : addr -> Prop :=
| p_none : plain ANone
| p_ip v z : plain (AIP v z)
| p_net v z n : plain (ANet v z n)
| p_null : plain LNull
| p_empty : plain (LList [])
| p_inst i a m : 0 <= i -> plain a -> plain (LInst i a m)
| p_as n a : 0 <= n -> plain a -> plain (LAs n a).

(** The two addresses differ at most in wrappers for instance 0 and in mask lengths of instances *)
Inductive same_but_default : addr -> addr -> Prop :=
| sd_refl a : same_but_default a a
| sd_left a b m : same_but_default a b -> same_but_default (LInst 0 a m) b
| sd_right a b m : same_but_default a b -> same_but_default a (LInst 0 b m)
| sd_inst i a b m m' : same_but_default a b -> same_but_default (LInst i a m) (LInst i b m')
| sd_as n a b : same_but_default a b -> same_but_default (LAs n a) (LAs n b).

(** ** What the text of an address is *)
(** the codes of the characters of a literal text *)
Definition codes (s : string) : text := map (fun c => Z.of_N (N_of_ascii c)) (list_ascii_of_string s).
(** a number in decimal without leading zeros *)
Definition in_decimal (n : Z) (t : text) : Prop := some_of digit t /\ n = decimal t /\ (hd 0 t = 48 -> t = [48]).

Section T.
(** how the floats of a position and a list of addresses are printed is left open *)
Variable coords : Z * Z * Z -> Z * Z * Z -> text.
Variable listed : list addr -> text.

(** Nothing: "None"; an address or network: its canonical text; Null: "NULL"; the empty list: nothing; in instance 0: the same as
    without; in instance 7: "[7]" in front; of AS 7: "[AS7]" in front; at a position: "[longitude,latitude]" in front; behind NAT:
    "<MS:[...]:4342 Private:[...] Public:[...]:4341 RTRs:...>" with the addresses of the Map-Server, the xTR itself and what is seen of it. *)
Inductive written_as : addr -> text -> Prop :=
| w_none : written_as ANone (codes "None")
| w_ip v z t : canonical t (v, z) -> written_as (AIP v z) t
| w_net v z n t : canonical_net t v z n -> written_as (ANet v z n) t
| w_null : written_as LNull (codes "NULL")
| w_empty : written_as (LList []) []
| w_inst0 a m t : written_as a t -> written_as (LInst 0 a m) t
| w_inst i d a m t : i <> 0 -> in_decimal i d -> written_as a t -> written_as (LInst i a m) (codes "[" ++ d ++ codes "]" ++ t)
| w_as n d a t : in_decimal n d -> written_as a t -> written_as (LAs n a) (codes "[AS" ++ d ++ codes "]" ++ t)
| w_geo g a t : written_as a t ->
    written_as (LGeo g a)
      (codes "[" ++ coords (g_lond g, g_lonm g, g_lons g) (g_latd g, g_latm g, g_lats g) ++ codes "]" ++ t)
| w_nat mp ep g m p l tm dm tp tg de :
    written_as m tm -> in_decimal mp dm -> written_as p tp -> written_as g tg -> in_decimal ep de ->
    written_as (LNat mp ep g m p l)
      (codes "<MS:[" ++ tm ++ codes "]:" ++ dm ++ codes " Private:[" ++ tp ++ codes "] Public:[" ++ tg ++ codes "]:" ++ de ++
       codes " RTRs:" ++ listed l ++ codes ">").
End T.
(** No number in the address is negative: instances, AS numbers and ports (not of the RTRs, which are left open) *)
Inductive unsigned : addr -> Prop :=
| u_none : unsigned ANone
| u_ip v z : unsigned (AIP v z)
| u_net v z n : unsigned (ANet v z n)
| u_null : unsigned LNull
| u_list l : unsigned (LList l)
| u_inst i a m : 0 <= i -> unsigned a -> unsigned (LInst i a m)
| u_as n a : 0 <= n -> unsigned a -> unsigned (LAs n a)
| u_geo g a : unsigned a -> unsigned (LGeo g a)
| u_nat mp ep g m p l : 0 <= mp -> 0 <= ep -> unsigned g -> unsigned m -> unsigned p -> unsigned (LNat mp ep g m p l).
