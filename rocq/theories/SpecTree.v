(** * Specification vocabulary for the address tree: prefixes as sets of addresses. *)
From Coq Require Import Permutation.
From Verif Require Import Base Afi Spec Tree.

(** the address [z] of family [v] belongs to the prefix: same first bits *)
Definition in_pfx (p : pfx) (v : fam) (z : Z) : Prop :=
  x_fam p = v /\ in_prefix (wz v) (x_net p) (x_len p) z.
(** network objects: length in range, address in range, no host bits *)
Definition wf_pfx (p : pfx) : Prop :=
  0 <= x_len p <= wz (x_fam p) /\ 0 <= x_net p < 2 ^ wz (x_fam p) /\
  aligned (wz (x_fam p)) (x_len p) (x_net p).
Definition inside (q p : pfx) : Prop := forall v z, in_pfx q v z -> in_pfx p v z.
Definition apart (p q : pfx) : Prop := forall v z, ~ (in_pfx p v z /\ in_pfx q v z).

(** [x] is [n] or a descendant of [n] *)
Inductive in_tree (x : node) : node -> Prop :=
| it_self : in_tree x x
| it_below n c : In c (n_ch n) -> in_tree x c -> in_tree x n.

(** siblings do not overlap and lie inside their parents; only containers have children *)
Inductive tidy : node -> Prop :=
| tidy_node i p c ch :
    wf_pfx p ->
    (is_container (Node i p c ch) = false -> ch = []) ->
    ForallOrdPairs (fun a b => apart (n_pfx a) (n_pfx b)) ch ->
    (forall x, In x ch -> inside (n_pfx x) p) ->
    (forall x, In x ch -> tidy x) ->
    tidy (Node i p c ch).

(** [l] leads from a node up to [r], each node a child of the next *)
Inductive climbs : list node -> node -> Prop :=
| climbs_top r : climbs [r] r
| climbs_up x y l r : In x (n_ch y) -> climbs (y :: l) r -> climbs (x :: y :: l) r.

(** a node whose prefix contains [q] has two children that overlap [q] *)
Definition crowded (n : node) (q : pfx) : Prop :=
  exists y l1 c1 l2 c2 l3, in_tree y n /\ inside q (n_pfx y) /\
    n_ch y = l1 ++ c1 :: l2 ++ c2 :: l3 /\ ~ apart q (n_pfx c1) /\ ~ apart q (n_pfx c2).

(** the same tree up to the order of siblings *)
Inductive same_tree : node -> node -> Prop :=
| same_node i p c ch ch1 ch' :
    Permutation ch ch1 -> Forall2 same_tree ch1 ch' ->
    same_tree (Node i p c ch) (Node i p c ch').

(** every node of the tree has a network object as prefix *)
Definition all_wf (n : node) : Prop := forall x, in_tree x n -> wf_pfx (n_pfx x).

(** ** Histories of calls on one container *)
Inductive call := CAdd (c : node) | CUpdate (l : list node) | CDiscard (t : target) | CRemove (t : target) | CClear.
Definition called (n : node) (o : call) : node :=
  match o with
  | CAdd c => fst (add n c)
  | CUpdate l => fst (update n l)
  | CDiscard t => fst (discard n t)
  | CRemove t => fst (remove n t)
  | CClear => clear n
  end.
(** a new container after the calls of a history, some of which may have raised *)
Definition container_after (i : nat) (p : pfx) (c : ncls) (h : list call) : node :=
  fold_left called h (Node i p c []).
(** nodes handed to the container *)
Definition given (h : list call) : list node :=
  flat_map (fun o => match o with CAdd c => [c] | CUpdate l => l | _ => [] end) h.

(** two members at different positions *)
Definition two_of {A} (l : list A) (a b : A) : Prop := exists l1 l2 l3, l = l1 ++ a :: l2 ++ b :: l3.
Definition three_of {A} (l : list A) (a b c : A) : Prop :=
  exists l1 l2 l3 l4, l = l1 ++ a :: l2 ++ b :: l3 ++ c :: l4.
