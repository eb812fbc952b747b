(** * Specification: what lispd runs with, given its configuration files *)
From Coq Require Import Ascii String.
From Verif Require Import Base Afi Spec Records Tree SpecTree RootFile SpecRoot SpecText Conf SpecConf Main Startup.
Open Scope string_scope. Open Scope list_scope. Open Scope Z_scope.

Inductive setting : string -> Prop :=
| s_listen : setting "LISTEN_ON" | s_instances : setting "INSTANCES" | s_petr : setting "PETR" | s_natt : setting "NATT"
| s_queue4 : setting "NFQUEUE_IPV4" | s_queue6 : setting "NFQUEUE_IPV6" | s_xtr : setting "XTR_ID" | s_site : setting "SITE_ID"
| s_data : setting "PROCESS_DATA".

Section S.
Variable octal : text -> bool.

(** ** The defaults *)
(** a name from the resolver: the text of an address, perhaps with '%' and a scope *)
Definition resolved (t : text) (a : fam * Z) : Prop :=
  exists h scope, t = h ++ scope /\ (scope = [] \/ exists z, scope = 37 :: z) /\ ~ In 37 h /\ denotes octal h a.
Definition default (own : list (fam * Z)) (xtr : Z) (n : string) : sval :=
  if String.eqb n "LISTEN_ON" then VSeq (map (fun a => VAddr (fst a) (snd a)) own)
  else if String.eqb n "INSTANCES" then VDict []
  else if String.eqb n "XTR_ID" then VLong xtr
  else if String.eqb n "SITE_ID" then VInt 0
  else if String.eqb n "NATT" || String.eqb n "PROCESS_DATA" then VBool true
  else VNone.
(** [v] are the settings in force: of the last file that defines a setting, or its default *)
Definition in_force (own : list (fam * Z)) (xtr : Z) (files : list (cfile sval)) (v : string -> sval) : Prop :=
  forall n, setting n -> last_defines files n (v n) \/ ((forall f x, In f files -> ~ defines f n x) /\ v n = default own xtr n).

(** ** Values that are accepted *)
(** an address object, or something whose text is an address *)
Inductive names_address : sval -> fam * Z -> Prop :=
| na_object v z : names_address (VAddr v z) (v, z)
| na_text t a : denotes octal t a -> names_address (VText t) a
| na_other t b a : denotes octal t a -> names_address (VOther (Some t) b) a.
Inductive lists_addresses : sval -> list (fam * Z) -> Prop :=
| la_seq l A : Forall2 names_address l A -> lists_addresses (VSeq l) A
| la_keys d A : Forall2 names_address (map fst d) A -> lists_addresses (VDict d) A
| la_nothing : lists_addresses (VText []) [].

(** a key that is the integer [k] *)
Inductive is_number : sval -> Z -> Prop :=
| in_int k : is_number (VInt k) k | in_long k : is_number (VLong k) k | in_true : is_number (VBool true) 1 | in_false : is_number (VBool false) 0.
(** a Python int: not a long *)
Inductive plain_int : sval -> Prop := pi_int k : plain_int (VInt k) | pi_bool b : plain_int (VBool b).
(** what a dictionary has for the integer [k] *)
Inductive has_entry (k : Z) : list (sval * sval) -> sval -> Prop :=
| he_here key x d : is_number key k -> has_entry k ((key, x) :: d) x
| he_later key y d x : ~ is_number key k -> has_entry k d x -> has_entry k ((key, y) :: d) x.
(** a container for the whole address space of a family *)
Definition whole (f : fam) (x : sval) : Prop := exists n, x = VNode n /\ n_pfx n = Pfx f 0 0 /\ (n_cls n = NContainer \/ exists d, n_cls n = NAuth d).
Definition instance_ok (e : sval * sval) : Prop :=
  plain_int (fst e) /\ exists d x4 x6, snd e = VDict d /\ has_entry 1 d x4 /\ whole V4 x4 /\ has_entry 2 d x6 /\ whole V6 x6.
Inductive instances_ok : sval -> Prop :=
| io_dict d : Forall instance_ok d -> instances_ok (VDict d)
| io_list : instances_ok (VSeq [])
| io_text : instances_ok (VText []).
Definition petr_ok (x : sval) : Prop := x = VNone \/ exists f z, x = VAddr f z.
Definition queue_ok (x : sval) : Prop := x = VNone \/ plain_int x.
Definition accepted (v : string -> sval) : Prop :=
  (exists A, lists_addresses (v "LISTEN_ON") A) /\ instances_ok (v "INSTANCES") /\ petr_ok (v "PETR") /\
  (exists b, v "NATT" = VBool b) /\ queue_ok (v "NFQUEUE_IPV4") /\ queue_ok (v "NFQUEUE_IPV6").

(** ** Running *)
(** [f] is an entry (address family and value) of some instance *)
Definition family_entry (i : sval) (f : sval * sval) : Prop := exists d k m, i = VDict d /\ In (k, VDict m) d /\ In f m.
(** values that count as false *)
Inductive is_false : sval -> Prop :=
| f_none : is_false VNone | f_false : is_false (VBool false) | f_zero : is_false (VInt 0) | f_zerol : is_false (VLong 0)
| f_text : is_false (VText []) | f_seq : is_false (VSeq []) | f_dict : is_false (VDict []) | f_other t : is_false (VOther t false).
(** accepted, but lispd does not run with it *)
Definition useless (have_nfqueue : bool) (v : string -> sval) : Prop :=
  lists_addresses (v "LISTEN_ON") [] \/
  (exists f, family_entry (v "INSTANCES") f /\ forall n, snd f <> VNode n) \/
  (~ is_false (v "PROCESS_DATA") /\
   ((v "PETR" <> VNone /\ (v "NFQUEUE_IPV4" = VNone \/ v "NFQUEUE_IPV6" = VNone)) \/
    (have_nfqueue = false /\ (v "NFQUEUE_IPV4" <> VNone \/ v "NFQUEUE_IPV6" <> VNone)))).
End S.
