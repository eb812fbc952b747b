(** * The lispd address tree: application/lispd/address_tree/{base,container_node,
    authoritative_container_node}.py and utils/prefix.py.

    Nodes have an identity (Python object identity: AbstractNode defines [__hash__] but no
    [__eq__], base.py:32-33, so sets compare nodes with [is]).  The model is a finite tree;
    a container that was added below itself is not represented. *)
From Verif Require Import Base Afi.

(** IPv4Network / IPv6Network objects *)
Record pfx := Pfx { x_fam : fam; x_net : Z; x_len : Z }.
(** [network[0]] and [network[-1]] *)
Definition x_first (p : pfx) : Z := x_net p.
Definition x_last (p : pfx) : Z := x_net p + 2 ^ (wz (x_fam p) - x_len p) - 1.
(** [address in network] (False for another IP version) *)
Definition has_addr (p : pfx) (v : fam) (z : Z) : bool :=
  fam_eqb (x_fam p) v && (x_net p <=? z) && (z <=? x_last p).
(** [self.overlaps(other)] (py2-ipaddress) *)
Definition overlaps (p q : pfx) : bool :=
  has_addr q (x_fam p) (x_first p) || has_addr q (x_fam p) (x_last p) ||
  has_addr p (x_fam q) (x_first q) || has_addr p (x_fam q) (x_last q).
(** [network == network] *)
Definition pfx_eqb (p q : pfx) : bool :=
  fam_eqb (x_fam p) (x_fam q) && (x_net p =? x_net q) && (x_len p =? x_len q).
(** [ip_network(address)] of an address *)
Definition host (v : fam) (z : Z) : pfx := Pfx v z (wz v).
(** [ip_network] of the values the daemon looks up: addresses and networks *)
Definition pfx_of (a : addr) : option pfx :=
  match a with AIP v z => Some (host v z) | ANet v z n => Some (Pfx v z n) | _ => None end.

(** Node classes: container_node.py:15, authoritative_container_node.py:15 (with [ddt_nodes]),
    ddt_referral_node.py:22 (with [ddt_nodes]), map_server_node.py:110, etr_node.py:466,
    drop_node.py:14, natively_forward_node.py:14.  The state of Map-Server and ETR nodes is kept
    in MapServer.v and Etr.v. *)
Inductive ncls :=
| NContainer | NAuth (ddt : list addr) | NReferral (ddt : list addr)
| NMapServer | NETR | NDrop | NNative.

Inductive node := Node (id : nat) (p : pfx) (c : ncls) (ch : list node).
Definition n_id (n : node) := match n with Node i _ _ _ => i end.
Definition n_pfx (n : node) := match n with Node _ p _ _ => p end.
Definition n_cls (n : node) := match n with Node _ _ c _ => c end.
Definition n_ch (n : node) := match n with Node _ _ _ ch => ch end.

(** [isinstance(n, ContainerNode)] (AuthContainerNode is a subclass) *)
Definition is_container (n : node) : bool :=
  match n_cls n with NContainer | NAuth _ => true | _ => false end.

(** container_node.py:99-101, 117-119: the "authoritative" test *)
Definition inside_test (self q : pfx) : bool :=
  negb (negb (overlaps self q) || (x_first self >? x_first q) || (x_last self <? x_last q)).

(** container_node.py:92-111 *)
Definition find_all (n : node) (q : pfx) : res (list node) :=
  let* _ := guard (inside_test (n_pfx n) q) ENotAuth in
  Ok (filter (fun c => overlaps q (n_pfx c)) (n_ch n)).

(** container_node.py:57-78; [q] is [ip_network(address)] *)
Definition find_one (n : node) (q : pfx) : res (option node) :=
  let* m := find_all n q in
  match m with
  | [] => Ok None
  | [c] => if (x_first (n_pfx c) <=? x_first q) && (x_last (n_pfx c) >=? x_last q)
           then Ok (Some c) else Ok None
  | _ => Err EMoreSpecifics
  end.

(** container_node.py:80-90 *)
Definition find_exact (n : node) (q : pfx) : res (option node) :=
  let* m := find_all n q in
  match m with
  | [c] => if pfx_eqb (n_pfx c) q then Ok (Some c) else Ok None
  | _ => Ok None
  end.

(** container_node.py:39-52.  Structural form of the recursion; [resolve_path_eq] in
    TreeProofs.v is the recursion of the source. *)
Fixpoint resolve_path (n : node) (q : pfx) : res (list node) :=
  match n with
  | Node i p c ch =>
      let* _ := guard (inside_test p q) ENotAuth in
      match filter (fun x => overlaps q (n_pfx (fst x))) (map (fun x => (x, resolve_path x q)) ch) with
      | [] => Ok [n]
      | [(x, r)] =>
          if (x_first (n_pfx x) <=? x_first q) && (x_last (n_pfx x) >=? x_last q)
          then (if is_container x then let* l := r in Ok (l ++ [n]) else Ok [x; n])
          else Ok [n]
      | _ => Err EMoreSpecifics
      end
  end.

(** container_node.py:54-55: [self.resolve_path(address)[0]] *)
Definition resolve (n : node) (q : pfx) : res node :=
  let* l := resolve_path n q in
  match l with x :: _ => Ok x | [] => Err EType end.

(** ** Changing the set of children.  Every operation gives the new node and the outcome. *)
Definition set_ch (n : node) (ch : list node) : node :=
  match n with Node i p c _ => Node i p c ch end.
(** [child in self.children] *)
Definition has_id (l : list node) (c : node) : bool := existsb (fun x => Nat.eqb (n_id x) (n_id c)) l.

(** container_node.py:113-131 *)
Definition add (n c : node) : node * res unit :=
  if negb (inside_test (n_pfx n) (n_pfx c)) then (n, Err ENotAuth)
  else match find_exact n (n_pfx c) with
       | Err e => (n, Err e)
       | Ok (Some _) => (if has_id (n_ch n) c then n else set_ch n (c :: n_ch n), Ok tt)
       | Ok None =>
           match find_all n (n_pfx c) with
           | Err e => (n, Err e)
           | Ok [] => (if has_id (n_ch n) c then n else set_ch n (c :: n_ch n), Ok tt)
           | Ok _ => (n, Err EValue)
           end
       end.

(** container_node.py:133-134 *)
Definition clear (n : node) : node := set_ch n [].

(** argument of __contains__, discard and remove: a node or a network *)
Inductive target := ByNode (c : node) | ByNet (q : pfx).
(** [set.discard] *)
Definition drop_id (l : list node) (c : node) : list node :=
  filter (fun x => negb (Nat.eqb (n_id x) (n_id c))) l.

(** container_node.py:136-143 *)
Definition contains (n : node) (t : target) : res bool :=
  match t with
  | ByNode c => Ok (has_id (n_ch n) c)
  | ByNet q => let* m := find_exact n q in Ok (match m with Some _ => true | None => false end)
  end.

(** container_node.py:148-157 *)
Definition discard (n : node) (t : target) : node * res unit :=
  match t with
  | ByNode c => (set_ch n (drop_id (n_ch n) c), Ok tt)
  | ByNet q => match find_exact n q with
               | Err e => (n, Err e)
               | Ok None => (n, Ok tt)
               | Ok (Some c) => (set_ch n (drop_id (n_ch n) c), Ok tt)
               end
  end.

(** container_node.py:159-163 *)
Definition remove (n : node) (t : target) : node * res unit :=
  let '(n', r) := discard n t in
  match r with
  | Err e => (n', Err e)
  | Ok _ => if negb (Nat.eqb (length (n_ch n')) (length (n_ch n))) then (n', Err EKey) else (n', Ok tt)
  end.

(** container_node.py:165-167 *)
Fixpoint update (n : node) (l : list node) : node * res unit :=
  match l with
  | [] => (n, Ok tt)
  | c :: l => let '(n', r) := add n c in
              match r with Ok _ => update n' l | Err e => (n', Err e) end
  end.

(** [self.__class__(prefix, children)] of a container, container_node.py:16-21,
    authoritative_container_node.py:20-24: [ddt_nodes] is not passed on *)
Definition new_container (id : nat) (p : pfx) (c : ncls) (children : list node) : node * res unit :=
  update (Node id p c []) children.
(** container_node.py:145-146; [id] is the identity of the new object *)
Definition copy (id : nat) (n : node) : node * res unit :=
  new_container id (n_pfx n) (match n_cls n with NAuth _ => NAuth [] | c => c end) (n_ch n).

(** ** settings.config.INSTANCES: instance id -> AFI -> root *)
Definition instances := list (Z * list (Z * node)).
Fixpoint assoc {A} (k : Z) (l : list (Z * A)) : option A :=
  match l with [] => None | (k', x) :: l => if k' =? k then Some x else assoc k l end.
Fixpoint put {A} (k : Z) (x : A) (l : list (Z * A)) : list (Z * A) :=
  match l with
  | [] => [(k, x)]
  | (k', y) :: l => if k' =? k then (k, x) :: l else (k', y) :: put k x l
  end.
Definition root_of (c : instances) (iid afi : Z) : option node :=
  match assoc iid c with Some m => assoc afi m | None => None end.

(** utils/prefix.py:44-51: [None] for an unknown instance or AFI *)
Definition g_resolve_path (c : instances) (iid afi : Z) (q : pfx) : res (option (list node)) :=
  match root_of c iid afi with
  | None => Ok None
  | Some n => let* l := resolve_path n q in Ok (Some l)
  end.
(** utils/prefix.py:54-58 *)
Definition g_resolve (c : instances) (iid afi : Z) (q : pfx) : res (option node) :=
  match root_of c iid afi with
  | None => Ok None
  | Some n => let* x := resolve n q in Ok (Some x)
  end.
