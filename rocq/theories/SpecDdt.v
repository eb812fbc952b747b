(** * Specification vocabulary for DDT *)
From Verif Require Import Base Afi Spec SpecEid Records Control SpecRec Tree SpecTree MapServer Ddt.

(** ** What a DDT node has to answer (draft-ietf-lisp-ddt, the comment in map_referral_record.py:100-140) *)
(** [x] is the most specific node of the tree of [n] that covers [q]: none of its children covers [q]
    (a child may have the same prefix as its parent) *)
Definition most_specific (n : node) (q : pfx) (x : node) : Prop :=
  in_tree x n /\ inside q (n_pfx x) /\ forall c, In c (n_ch x) -> ~ inside q (n_pfx c).
(** this DDT node has authority for space that covers [q] *)
Definition authority (n : node) (q : pfx) : Prop :=
  exists y d, in_tree y n /\ inside q (n_pfx y) /\ n_cls y = NAuth d.
(** action codes: 0 NODE-REFERRAL, 2 MS-ACK, 3 MS-NOT-REGISTERED, 4 DELEGATION-HOLE, 5 NOT-AUTHORITATIVE *)
Inductive prescribed (n : node) (q : pfx) : Z -> Prop :=
| pr_referral x d : most_specific n q x -> n_cls x = NReferral d -> prescribed n q 0
| pr_ms_ack x : most_specific n q x -> n_cls x = NMapServer -> prescribed n q 2
| pr_ms_not x : most_specific n q x -> n_cls x = NMapServer -> prescribed n q 3
| pr_hole x : most_specific n q x -> n_cls x <> NMapServer -> (forall d, n_cls x <> NReferral d) ->
    authority n q -> prescribed n q 4
| pr_not_auth x : most_specific n q x -> n_cls x <> NMapServer -> (forall d, n_cls x <> NReferral d) ->
    ~ authority n q -> prescribed n q 5.

(** the request's first EID is in instance [iid], family [afi], prefix [q] *)
Definition asks (m : mreq) (iid afi : Z) (q : pfx) : Prop :=
  exists eid l a, q_eids m = eid :: l /\ eid_named eid iid afi a /\ pfx_of a = Some q.

(** the configured tree of that instance and family *)
Definition tree_for (cfg : instances) (iid afi : Z) (n : node) : Prop := root_of cfg iid afi = Some n.

(** ** The DDT root file *)
(** delegations a line lists: (instance, AFI, prefix, address); AFI 0 stands for both families *)
Definition delegation := (Z * Z * pfx * (fam * Z))%type.
Definition listed_by (l : line) (e : delegation) : Prop :=
  (ln_afi l = 0 /\ (e = (ln_iid l, 1, Pfx V4 0 0, ln_addr l) \/ e = (ln_iid l, 2, Pfx V6 0 0, ln_addr l))) \/
  (ln_afi l <> 0 /\ exists q, ln_pfx l = Some q /\ e = (ln_iid l, ln_afi l, q, ln_addr l)).
Definition listed (ls : list line) (e : delegation) : Prop := exists l, In l ls /\ listed_by l e.
(** address family numbers *)
Definition fam_afi (afi : Z) (v : fam) : Prop := (afi = 1 /\ v = V4) \/ (afi = 2 /\ v = V6).
(** a line whose prefix is a prefix of the family it names *)
Definition sensible (l : line) : Prop :=
  ln_afi l = 0 \/
  exists q, ln_pfx l = Some q /\ wf_pfx q /\ fam_afi (ln_afi l) (x_fam q).
(** different prefixes delegated in the same instance and family do not overlap *)
Definition no_overlap (ls : list line) : Prop :=
  forall iid afi q x q' x', listed ls (iid, afi, q, x) -> listed ls (iid, afi, q', x') -> q = q' \/ apart q q'.
