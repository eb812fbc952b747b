(** * Specification: configurations that differ in the order of their nodes *)
From Verif Require Import Base Afi Tree SpecTree.

(** the same instances and address families, with the same nodes, whatever the order of the nodes below a container *)
Definition reordered_config (c c' : instances) : Prop := forall iid afi,
  match root_of c iid afi, root_of c' iid afi with
  | Some n, Some n' => same_tree n n'
  | None, None => True
  | _, _ => False
  end.
