(** * Base: results, exceptions, bytes, bits and the part of [bitstring] pylisp uses.

    pylisp builds and reads every packet with the third-party module [bitstring]
    (imported for instance in /repo/pylisp/utils/afi.py:6).  A [ConstBitStream]
    is modelled by the list of its unread bits; [pos == len] is "no bits left". *)
From Coq Require Export List ZArith Lia Bool Arith.
Export ListNotations.
Open Scope Z_scope.

(** ** Exceptions as values.  One constructor per Python exception class the
    modelled code can raise; [EFuel] is not a Python exception: it marks the
    exhaustion of the explicit fuel of a modelled [while]/recursion and is proved
    unreachable. *)
Inductive exn :=
| EValue          (* ValueError *)
| EType           (* TypeError *)
| EKey            (* KeyError *)
| EAttr           (* AttributeError *)
| ERead           (* bitstring.ReadError (an IndexError) *)
| ECreate         (* bitstring.CreationError (a ValueError) *)
| EInterp         (* bitstring.InterpretError (a ValueError) *)
| ENotImpl        (* NotImplementedError *)
| ENotAuth        (* address_tree.container_node.NotAuthoritativeError *)
| EMoreSpecifics  (* address_tree.container_node.MoreSpecificsFoundError *)
| EAuthFail       (* MapServerAuthenticationError *)
| EScope          (* MapServerScopeError / registration not covered *)
| EConfig         (* settings.ConfigurationError *)
| ESock           (* socket.error *)
| EIndex          (* IndexError *)
| EFuel.

Inductive res (A : Type) := Ok (a : A) | Err (e : exn).
Arguments Ok {A} a.
Arguments Err {A} e.

Definition bind {A B} (x : res A) (f : A -> res B) : res B :=
  match x with Ok a => f a | Err e => Err e end.

Notation "'let*' x ':=' e 'in' f" := (bind e (fun x => f))
  (at level 200, x binder, e at level 200, f at level 200).
Notation "'let*' ' p ':=' e 'in' f" := (bind e (fun x => match x with p => f end))
  (at level 200, p strict pattern, e at level 200, f at level 200).

(** [if not cond: raise e] *)
Definition guard (c : bool) (e : exn) : res unit := if c then Ok tt else Err e.

Definition is_ok {A} (x : res A) : bool := match x with Ok _ => true | Err _ => false end.

Section MapM.
  Context {A B : Type}.
  Variable f : A -> res B.
  (** [[f(x) for x in l]] *)
  Fixpoint mapM (l : list A) : res (list B) :=
    match l with
    | [] => Ok []
    | x :: r => let* y := f x in let* ys := mapM r in Ok (y :: ys)
    end.
End MapM.

(** [for x in l: data += f(x)] *)
Definition concatM {A B} (f : A -> res (list B)) (l : list A) : res (list B) :=
  let* ls := mapM f l in Ok (concat ls).

(** ** Bytes.  A Python 2 [str] byte as its 8 bits, most significant first. *)
Inductive byte := Byte (b7 b6 b5 b4 b3 b2 b1 b0 : bool).
Definition bytes := list byte.
Definition bits := list bool.

Definition bits_of_byte (b : byte) : bits :=
  match b with Byte b7 b6 b5 b4 b3 b2 b1 b0 => [b7; b6; b5; b4; b3; b2; b1; b0] end.

(** [ConstBitStream(bytes=...)] *)
Definition bits_of_bytes (l : bytes) : bits := flat_map bits_of_byte l.

(** [bitstream.bytes]: raises InterpretError unless the length is a multiple of 8. *)
Fixpoint bytes_of_bits (l : bits) : res bytes :=
  match l with
  | [] => Ok []
  | b7 :: b6 :: b5 :: b4 :: b3 :: b2 :: b1 :: b0 :: r =>
      let* t := bytes_of_bits r in Ok (Byte b7 b6 b5 b4 b3 b2 b1 b0 :: t)
  | _ => Err EInterp
  end.

Definition zero_byte : byte := Byte false false false false false false false false.

(** ** Unsigned integers as bit strings, most significant bit first. *)
Fixpoint ub (l : bits) : Z :=
  match l with
  | [] => 0
  | b :: r => Z.b2z b * 2 ^ Z.of_nat (length r) + ub r
  end.

Fixpoint enc (n : nat) (z : Z) : bits :=
  match n with
  | O => []
  | S m => Z.testbit z (Z.of_nat m) :: enc m z
  end.

Definition byte_val (b : byte) : Z := ub (bits_of_byte b).
Definition byte_of_Z (z : Z) : byte :=
  Byte (Z.testbit z 7) (Z.testbit z 6) (Z.testbit z 5) (Z.testbit z 4)
       (Z.testbit z 3) (Z.testbit z 2) (Z.testbit z 1) (Z.testbit z 0).
Definition B (l : list Z) : bytes := map byte_of_Z l.

(** [0 <= z < 2**n] *)
Definition fits (n : nat) (z : Z) : bool := (0 <=? z) && (z <? 2 ^ Z.of_nat n).

(** [BitArray('uint:n=%d' % z)]: CreationError when the value does not fit. *)
Definition w_uint (n : nat) (z : Z) : res bits :=
  if fits n z then Ok (enc n z) else Err ECreate.

(** [BitArray('int:n=%d' % z)] (two's complement). *)
Definition w_int (n : nat) (z : Z) : res bits :=
  if (- 2 ^ (Z.of_nat n - 1) <=? z) && (z <? 2 ^ (Z.of_nat n - 1))
  then Ok (enc n z) else Err ECreate.

(** [BitArray(n)]: n zero bits. *)
Definition zeros (n : nat) : bits := repeat false n.

(** ** Reading from a stream. *)
Fixpoint take (n : nat) (s : bits) : option (bits * bits) :=
  match n with
  | O => Some ([], s)
  | S m => match s with
           | [] => None
           | b :: r => match take m r with Some (a, t) => Some (b :: a, t) | None => None end
           end
  end.

(** [bitstream.read(n)] *)
Definition rd_bits (n : nat) (s : bits) : res (bits * bits) :=
  match take n s with Some p => Ok p | None => Err ERead end.

(** [bitstream.read('uint:n')] *)
Definition rd_uint (n : nat) (s : bits) : res (Z * bits) :=
  let* '(a, r) := rd_bits n s in Ok (ub a, r).

(** [bitstream.read('int:n')] *)
Definition signed (n : nat) (u : Z) : Z :=
  if u <? 2 ^ (Z.of_nat n - 1) then u else u - 2 ^ Z.of_nat n.
Definition rd_int (n : nat) (s : bits) : res (Z * bits) :=
  let* '(a, r) := rd_bits n s in Ok (signed n (ub a), r).

(** [bitstream.read('bool')] *)
Definition rd_bool (s : bits) : res (bool * bits) :=
  match s with [] => Err ERead | b :: r => Ok (b, r) end.

(** [bitstream.read('bytes:n')] *)
Definition rd_bytes (n : nat) (s : bits) : res (bytes * bits) :=
  let* '(a, r) := rd_bits (8 * n) s in
  let* b := bytes_of_bits a in Ok (b, r).

(** Comparison of byte strings. *)
Definition byte_eqb (x y : byte) : bool :=
  match x, y with
  | Byte a b c d e f g h, Byte a' b' c' d' e' f' g' h' =>
      Bool.eqb a a' && Bool.eqb b b' && Bool.eqb c c' && Bool.eqb d d' &&
      Bool.eqb e e' && Bool.eqb f f' && Bool.eqb g g' && Bool.eqb h h'
  end.
Fixpoint list_eqb {A} (eqb : A -> A -> bool) (x y : list A) : bool :=
  match x, y with
  | [], [] => true
  | a :: r, b :: t => eqb a b && list_eqb eqb r t
  | _, _ => false
  end.
Definition bytes_eqb : bytes -> bytes -> bool := list_eqb byte_eqb.
Definition bits_eqb : bits -> bits -> bool := list_eqb Bool.eqb.
Definition blen (b : bytes) : Z := Z.of_nat (length b).
