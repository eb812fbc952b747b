(** * Specification: the one way to write an address, RFC 5952 section 4 and dotted decimal *)
From Verif Require Import Base Afi Spec RootFile SpecRoot SpecText.

(** lower case hexadecimal digits (section 4.3) *)
Definition lower (c : Z) : Prop := 48 <= c <= 57 \/ 97 <= c <= 102.
(** leading zeros are left out, and a group that is zero is a single 0 (section 4.1) *)
Definition canon_group (t : text) (n : Z) : Prop := hex_number t n /\ Forall lower t /\ (hd 0 t = 48 -> t = [48]).
(** groups with a ':' between any two; the same, or nothing *)
Inductive canon_seq : text -> list Z -> Prop :=
| cs_one t n : canon_group t n -> canon_seq t [n]
| cs_more t n t' l : canon_group t n -> canon_seq t' l -> canon_seq (t ++ 58 :: t') (n :: l).
Definition canon_part (t : text) (l : list Z) : Prop := (t = [] /\ l = []) \/ canon_seq t l.
(** [n] groups of [l] in a row are zero, the first of them being group [s] *)
Definition zeros_at (l : list Z) (s n : nat) : Prop := exists a b, l = a ++ repeat 0 n ++ b /\ length a = s.
(** '::' is used whenever it can shorten two groups or more (4.2.1, 4.2.2), for the longest such sequence and the first
    one of these (4.2.3); otherwise all eight groups are written *)
Definition canonical6 (t : text) (z : Z) : Prop :=
  exists l, length l = 8%nat /\ Forall (fun g => 0 <= g < 2 ^ 16) l /\ z = value l /\
    ((canon_seq t l /\ forall s, ~ zeros_at l s 2) \/
     (exists hi lo l1 l2 k, t = hi ++ 58 :: 58 :: lo /\ l = l1 ++ repeat 0 k ++ l2 /\ canon_part hi l1 /\ canon_part lo l2 /\
        (2 <= k)%nat /\ (forall s n, zeros_at l s n -> (n <= k)%nat) /\ (forall s, zeros_at l s k -> (length l1 <= s)%nat))).
(** dotted decimal without leading zeros *)
Definition canonical (t : text) (a : fam * Z) : Prop :=
  match a with (V4, z) => denotes4 (fun _ => false) t z | (V6, z) => canonical6 t z end.
(** a network: its address, '/' and the length in decimal without leading zeros *)
Definition canonical_net (t : text) (v : fam) (z n : Z) : Prop :=
  exists a m, t = a ++ 47 :: m /\ canonical a (v, z) /\ some_of digit m /\ n = decimal m /\ (hd 0 m = 48 -> m = [48]).
