(** * Specification vocabulary, independent of the codecs.

    Only arithmetic and list notions; nothing here mentions an encoder, a decoder or a
    [sanitize] function of the model. *)
From Verif Require Import Base Afi.

(** ** Reading fields off a byte string by position *)
(** big-endian integer value of a byte string *)
Fixpoint be (l : bytes) : Z :=
  match l with
  | [] => 0
  | b :: r => byte_val b * 256 ^ Z.of_nat (length r) + be r
  end.

(** the unsigned integer in the [w] bits that start [off] bits from the beginning *)
Definition field (off w : nat) (b : bytes) : Z :=
  (be b / 2 ^ (8 * Z.of_nat (length b) - Z.of_nat off - Z.of_nat w)) mod 2 ^ Z.of_nat w.

(** bytes [from .. from+n-1] *)
Definition slice {A} (from n : nat) (l : list A) : list A := firstn n (skipn from l).

(** ** IP prefixes *)
(** all bits of [z] after the first [n] of [w] are zero *)
Definition aligned (w n z : Z) : Prop := z mod 2 ^ (w - n) = 0.

(** address [z] lies in the prefix [p]/[n] of width [w]: same first [n] bits *)
Definition in_prefix (w p n z : Z) : Prop := z / 2 ^ (w - n) = p / 2 ^ (w - n).

(** ** Leaves of a nested LCAF address *)
Definition lcaf_children (a : addr) : list addr :=
  match a with
  | LList l => l
  | LInst _ x _ => [x]
  | LAs _ x => [x]
  | LGeo _ x => [x]
  | _ => []
  end.

(** [leaves a l]: [l] lists the non-LCAF values at the leaves of [a], left to right; a NAT-traversal address
    stands for its RTRs, as they are *)
Inductive leaves : addr -> list addr -> Prop :=
| leaves_plain a : is_lcaf a = false -> leaves a [a]
| leaves_nat mp ep g m p rtrs : leaves (LNat mp ep g m p rtrs) rtrs
| leaves_nested a ls :
    is_lcaf a = true -> (forall mp ep g m p rtrs, a <> LNat mp ep g m p rtrs) ->
    Forall2 leaves (lcaf_children a) ls -> leaves a (concat ls).

(** ** Shapes of addresses *)
(** No network object anywhere inside. *)
Fixpoint no_nets (a : addr) : bool :=
  match a with
  | ANone | AIP _ _ | LNull => true
  | ANet _ _ _ => false
  | LList l => forallb no_nets l
  | LInst _ a _ => no_nets a
  | LAs _ a => no_nets a
  | LGeo _ a => no_nets a
  | LNat _ _ g m p l => no_nets g && no_nets m && no_nets p && forallb no_nets l
  end.

(** Prefixes of length [n] in the forms the code can decode with a prefix length. *)
Inductive prefix_form (n : Z) : addr -> Prop :=
| pf_net v z : prefix_form n (ANet v z n)
| pf_inst i v z m : prefix_form n (LInst i (ANet v z n) m)
| pf_as i v z : prefix_form n (LAs i (ANet v z n))
| pf_geo g v z : prefix_form n (LGeo g (ANet v z n))
| pf_list l : Forall (fun a => exists v z, a = ANet v z n /\ wf_ip a = true) l -> prefix_form n (LList l).

(** the [ipaddress] invariants of the address(es) directly inside *)
Fixpoint wf_addr (a : addr) : bool :=
  match a with
  | ANone | AIP _ _ | ANet _ _ _ => wf_ip a
  | LNull => true
  | LList l => forallb wf_addr l
  | LInst _ a _ => wf_addr a
  | LAs _ a => wf_addr a
  | LGeo _ a => wf_addr a
  | LNat _ _ g m p l => wf_addr g && wf_addr m && wf_addr p && forallb wf_addr l
  end.


(** ** What an address looks like on the wire (RFC 6830 / draft-ietf-lisp-lcaf): [wire a b] *)
Definition afi_number (v : fam) : Z := match v with V4 => 1 | V6 => 2 end.

Inductive wire : addr -> bytes -> Prop :=
| wire_none b : length b = 2%nat -> be b = 0 -> wire ANone b
| wire_ip v z b : length b = (2 + width v / 8)%nat ->
    field 0 16 b = afi_number v -> be (skipn 2 b) = z -> wire (AIP v z) b
| wire_net v z n b : length b = (2 + width v / 8)%nat ->
    field 0 16 b = afi_number v -> be (skipn 2 b) = z -> wire (ANet v z n) b
| wire_lcaf a type rsvd2 b :
    (8 <= length b)%nat ->
    field 0 16 b = 0x4003 -> field 16 8 b = 0 -> field 24 8 b = 0 ->
    field 32 8 b = type -> field 40 8 b = rsvd2 ->
    field 48 16 b = Z.of_nat (length (skipn 8 b)) ->
    wire_data a type rsvd2 (skipn 8 b) -> wire a b
with wire_data : addr -> Z -> Z -> bytes -> Prop :=
| wd_null : wire_data LNull 0 0 []
| wd_list l bs : wires l bs -> wire_data (LList l) 1 0 (concat bs)
| wd_inst i a m d : (4 <= length d)%nat -> field 0 32 d = i -> wire a (skipn 4 d) ->
    wire_data (LInst i a m) 2 m d
| wd_as i a d : (4 <= length d)%nat -> field 0 32 d = i -> wire a (skipn 4 d) ->
    wire_data (LAs i a) 3 0 d
| wd_geo g a d : (12 <= length d)%nat ->
    field 0 1 d = Z.b2z (g_north g) -> field 1 15 d = g_latd g ->
    field 16 8 d = g_latm g -> field 24 8 d = g_lats g ->
    field 32 1 d = Z.b2z (g_east g) -> field 33 15 d = g_lond g ->
    field 48 8 d = g_lonm g -> field 56 8 d = g_lons g ->
    field 64 32 d = g_alt g mod 2 ^ 32 -> wire a (skipn 12 d) -> wire_data (LGeo g a) 5 0 d
| wd_nat mp ep g m p rtrs d bg bm bp bs : (4 <= length d)%nat ->
    field 0 16 d = mp -> field 16 16 d = ep ->
    wire g bg -> wire m bm -> wire p bp -> wires rtrs bs ->
    skipn 4 d = bg ++ bm ++ bp ++ concat bs ->
    wire_data (LNat mp ep g m p rtrs) 7 0 d
with wires : list addr -> list bytes -> Prop :=
| wires_nil : wires [] []
| wires_cons a b l bs : wire a b -> wires l bs -> wires (a :: l) (b :: bs).

(** [layout out [(off, w, v); ...]]: the [w] bits at bit offset [off] of [out] hold [v] *)
Definition layout (out : bytes) (l : list (nat * nat * Z)) : Prop :=
  Forall (fun '(off, w, v) => (off + w <= 8 * length out)%nat /\ field off w out = v) l.

(** ** Internet checksum (RFC 1071) *)
(** sum of the 16-bit big-endian words; a trailing odd byte is the high half of a last word *)
Fixpoint word_sum (m : bytes) : Z :=
  match m with
  | a :: b :: r => 256 * byte_val a + byte_val b + word_sum r
  | [a] => 256 * byte_val a
  | [] => 0
  end.

(** folding the carries back until 16 bits remain: RFC 1071 section 4.1 ("while (sum>>16)") *)
Inductive folds : Z -> Z -> Prop :=
| folds_done s : 0 <= s < 65536 -> folds s s
| folds_carry s t : 65536 <= s -> folds (s / 65536 + s mod 65536) t -> folds s t.

(** the RFC 1071 checksum: complement of the folded sum *)
Definition rfc1071 (m : bytes) (c : Z) : Prop := exists s, folds (word_sum m) s /\ c = 65535 - s.

(** ** Texts of address objects *)
(** the IP address an address object is shown as, by [unicode()]: an address in instance 0 is shown without its instance *)
Fixpoint shown (a : addr) : option (fam * Z) :=
  match a with
  | AIP v z => Some (v, z)
  | LInst i a _ => if i =? 0 then shown a else None
  | _ => None
  end.
