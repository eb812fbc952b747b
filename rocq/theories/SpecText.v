(** * Specification: addresses and networks as text *)
From Verif Require Import Base Afi Spec Tree SpecTree Ddt RootFile SpecRoot.

(** ** Numbers *)
(** a hexadecimal digit and its value *)
Inductive hex_value : Z -> Z -> Prop :=
| hv_digit c : 48 <= c <= 57 -> hex_value c (c - 48)
| hv_lower c : 97 <= c <= 102 -> hex_value c (c - 97 + 10)
| hv_upper c : 65 <= c <= 70 -> hex_value c (c - 65 + 10).
(** [t] is a number [n] in hexadecimal notation *)
Inductive hex_number : text -> Z -> Prop :=
| hn_one c d : hex_value c d -> hex_number [c] d
| hn_more t c n d : hex_number t n -> hex_value c d -> hex_number (t ++ [c]) (16 * n + d).

(** ** IPv4: dotted decimal *)
Section O.
Variable octal : text -> bool.
(** one to three digits for a number up to 255, without a leading zero unless [octal] lets it pass *)
Definition octet_text (t : text) (n : Z) : Prop :=
  some_of digit t /\ (length t <= 3)%nat /\ n = decimal t /\ n <= 255 /\
  (hd 0 t = 48 -> (1 < length t)%nat -> octal t = true).
Definition denotes4 (t : text) (z : Z) : Prop :=
  exists a b c d x y v w, t = a ++ 46 :: b ++ 46 :: c ++ 46 :: d /\
    octet_text a x /\ octet_text b y /\ octet_text c v /\ octet_text d w /\ z = x * 2 ^ 24 + y * 2 ^ 16 + v * 2 ^ 8 + w.

(** ** IPv6: RFC 4291, section 2.2 *)
(** one to four hexadecimal digits *)
Definition group (t : text) (n : Z) : Prop := (length t <= 4)%nat /\ hex_number t n.
(** groups with a ':' between any two; with [quad], the last two groups may be written as an IPv4 address *)
Inductive group_seq (quad : bool) : text -> list Z -> Prop :=
| gr_one t n : group t n -> group_seq quad t [n]
| gr_quad t z : quad = true -> denotes4 t z -> group_seq quad t [z / 2 ^ 16; z mod 2 ^ 16]
| gr_more t n t' l : group t n -> group_seq quad t' l -> group_seq quad (t ++ 58 :: t') (n :: l).
(** the same, or nothing *)
Definition some_groups (quad : bool) (t : text) (l : list Z) : Prop := (t = [] /\ l = []) \/ group_seq quad t l.
Definition value (l : list Z) : Z := fold_left (fun n g => n * 2 ^ 16 + g) l 0.
(** eight groups; or fewer than eight with one '::' that stands for the missing groups, which are zero *)
Definition denotes6 (t : text) (z : Z) : Prop :=
  (exists l, group_seq true t l /\ length l = 8%nat /\ z = value l) \/
  (exists hi lo l1 l2 k, t = hi ++ 58 :: 58 :: lo /\ some_groups false hi l1 /\ some_groups true lo l2 /\
     (length l1 + k + length l2 = 8)%nat /\ (1 <= k)%nat /\ z = value (l1 ++ repeat 0 k ++ l2)).

Definition denotes (t : text) (a : fam * Z) : Prop :=
  match a with (V4, z) => denotes4 t z | (V6, z) => denotes6 t z end.

(** ** Networks: an address, '/' and the length of the prefix; or an address alone.  There are no host bits.
    [dotted]: what an IPv4 mask in dotted notation stands for *)
Variable dotted : text -> option Z.
Definition length_text (v : fam) (m : text) (n : Z) : Prop :=
  (some_of digit m /\ n = decimal m /\ n <= wz v) \/
  (v = V4 /\ length (filter (Z.eqb 46) m) = 3%nat /\ dotted m = Some n).
Definition denotes_net (t : text) (p : pfx) : Prop :=
  (denotes t (x_fam p, x_net p) /\ x_len p = wz (x_fam p)) \/
  (exists a m, t = a ++ 47 :: m /\ denotes a (x_fam p, x_net p) /\ length_text (x_fam p) m (x_len p) /\
     aligned (wz (x_fam p)) (x_len p) (x_net p)).
End O.

(** addresses there are *)
Definition real_address (a : fam * Z) : Prop := 0 <= snd a < 2 ^ wz (fst a).

(** ** A DDT root file written down: for every entry a line with its four fields *)
Section W.
Variable number : Z -> text.
Variable addr_text : fam * Z -> text.
Variable pfx_text : pfx -> text.
Definition written_line (e : Z * Z * pfx * (fam * Z)) : text :=
  let '(iid, afi, p, x) := e in number iid ++ [32] ++ number afi ++ [32] ++ pfx_text p ++ [32] ++ addr_text x ++ [10].
Definition written (es : list (Z * Z * pfx * (fam * Z))) : text := concat (map written_line es).
End W.

(** entries that can be written, and what they say *)
Definition entry_ok (e : Z * Z * pfx * (fam * Z)) : Prop := let '(iid, afi, p, x) := e in 0 <= iid /\ 0 <= afi /\ wf_pfx p /\ real_address x.
Definition entry_line (e : Z * Z * pfx * (fam * Z)) : line := let '(iid, afi, p, x) := e in Line iid afi (Some p) x.

(** ** What a line of a DDT root file says, read as text: instance, family, prefix (nothing, if the text is no network) and
    address *)
Definition says_text (octal : text -> bool) (dotted : text -> option Z) (raw : text) (iid afi : Z) (p : option pfx) (x : fam * Z) : Prop :=
  exists i a pt xt, fields raw i a pt xt /\ iid = decimal i /\ afi = decimal a /\ denotes octal xt x /\
    match p with Some q => denotes_net octal dotted pt q | None => forall q, ~ denotes_net octal dotted pt q end.
