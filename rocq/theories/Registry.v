(** * The three type registries: packet/lisp/control/type_registry.py, utils/lcaf/type_registry.py,
    packet/ip/protocol_registry.py *)
From Verif Require Import Base.

Inductive regkind := RControl | RLcaf | RProtocol.
Definition regkind_eqb (a b : regkind) : bool :=
  match a, b with RControl, RControl | RLcaf, RLcaf | RProtocol, RProtocol => true | _, _ => false end.

(** A Python class object: its identity (what [is] compares), the base classes ControlMessage /
    LCAFAddress / Protocol it derives from, and its class attribute message_type / lcaf_type /
    header_type ([None]: not an integer). *)
Record pyclass := PyClass { c_id : nat; c_bases : list regkind; c_nr : option Z }.

(** the dictionary [_type_classes] *)
Definition registry := list (Z * pyclass).
(** control/type_registry.py:42-43, lcaf/type_registry.py:42-43, protocol_registry.py:43-44 *)
Fixpoint get_type_class (r : registry) (n : Z) : option pyclass :=
  match r with
  | [] => None
  | (k, c) :: r => if k =? n then Some c else get_type_class r n
  end.

(** control/type_registry.py:24-26 (1..15), lcaf/type_registry.py:24-26 and
    protocol_registry.py:25-27 (0..255) *)
Definition nr_ok (k : regkind) (n : Z) : bool :=
  match k with
  | RControl => negb ((n <=? 0) || (n >? 15))
  | RLcaf | RProtocol => negb ((n <? 0) || (n >? 255))
  end.

(** control/type_registry.py:15-39, lcaf/type_registry.py:15-39, protocol_registry.py:16-40:
    new registry and outcome *)
Definition register_type_class (k : regkind) (r : registry) (c : pyclass) : registry * res unit :=
  if negb (existsb (regkind_eqb k) (c_bases c)) then (r, Err EValue)
  else match c_nr c with
       | None => (r, Err EValue)
       | Some n =>
           if negb (nr_ok k n) then (r, Err EValue)
           else match get_type_class r n with
                | Some c' => if Nat.eqb (c_id c) (c_id c') then (r, Ok tt) else (r, Err EValue)
                | None => ((n, c) :: r, Ok tt)
                end
       end.

(** a history of calls, starting from the given registry; exceptions are caught by the caller *)
Fixpoint register_all (k : regkind) (r : registry) (h : list pyclass) : registry :=
  match h with
  | [] => r
  | c :: h => register_all k (fst (register_type_class k r c)) h
  end.
