(** * The DDT nodes of a referral: address_tree/ddt_referral_node.py:22-62, authoritative_container_node.py:16-30 *)
From Verif Require Import Base Afi.

(** an argument: an IPv4Address or IPv6Address, or a text *)
Inductive darg := DAddr (a : fam * Z) | DText (t : Z).
Definition ip_same (a b : fam * Z) : bool := fam_eqb (fst a) (fst b) && (snd a =? snd b).
Inductive dop := DAdd (a : darg) | DUpdate (l : list darg) | DClear | DDiscard (a : darg) | DRemove (a : darg).

Section D.
(** ipaddress.ip_address of a text *)
Variable ip_text : Z -> option (fam * Z).
Definition ip_address (a : darg) : res (fam * Z) :=
  match a with DAddr x => Ok x | DText t => match ip_text t with Some x => Ok x | None => Err EValue end end.
Definition put_ip (x : fam * Z) (s : list (fam * Z)) : list (fam * Z) := if existsb (ip_same x) s then s else s ++ [x].
(** ddt_referral_node.py:38-42 *)
Definition d_add (s : list (fam * Z)) (a : darg) : list (fam * Z) * res unit :=
  match ip_address a with Ok x => (put_ip x s, Ok tt) | Err e => (s, Err e) end.
(** 59-61: what was added before an exception stays *)
Fixpoint d_update (s : list (fam * Z)) (l : list darg) : list (fam * Z) * res unit :=
  match l with
  | [] => (s, Ok tt)
  | a :: l => match d_add s a with (s', Ok _) => d_update s' l | (s', Err e) => (s', Err e) end
  end.
(** 47-48: the argument is not converted, and a text is not equal to an address *)
Definition d_contains (s : list (fam * Z)) (a : darg) : bool :=
  match a with DAddr x => existsb (ip_same x) s | DText _ => false end.
Definition d_without (s : list (fam * Z)) (a : darg) : list (fam * Z) :=
  match a with DAddr x => filter (fun y => negb (ip_same x y)) s | DText _ => s end.
(** 38-61 *)
Definition d_step (s : list (fam * Z)) (o : dop) : list (fam * Z) * res unit :=
  match o with
  | DAdd a => d_add s a
  | DUpdate l => d_update s l
  | DClear => ([], Ok tt)
  | DDiscard a => (d_without s a, Ok tt)
  | DRemove a => if d_contains s a then (d_without s a, Ok tt) else (s, Err EKey)
  end.
Definition d_run (h : list dop) : list (fam * Z) := fold_left (fun s o => fst (d_step s o)) h [].
(** 23-28 and authoritative_container_node.py:21-30: the constructors, which do not return when an exception is raised *)
Definition d_new (l : list darg) : res (list (fam * Z)) := match d_update [] l with (s, Ok _) => Ok s | (_, Err e) => Err e end.
(** 50-51 *)
Definition d_copy (s : list (fam * Z)) : res (list (fam * Z)) := d_new (map DAddr s).
End D.
