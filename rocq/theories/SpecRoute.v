(** * Specification: whom a Map-Notify or an Info-Reply is for *)
From Verif Require Import Base Afi Spec SpecEid Records Control Auth Tree SpecTree MapServer Etr Packet Daemon.

(** EID [e] belongs to ETR node [id] of the configuration *)
Definition belongs (cfg : instances) (e : addr) (id : nat) : Prop :=
  exists iid afi a q nd, eid_named e iid afi a /\ pfx_of a = Some q /\ g_resolve cfg iid afi q = Ok (Some nd) /\
    n_cls nd = NETR /\ n_id nd = id.
(** the lookup of EID [e] raises (it covers several configured prefixes: MoreSpecificsFoundError) *)
Definition lookup_raises (cfg : instances) (e : addr) : Prop :=
  exists iid afi a q x, eid_named e iid afi a /\ pfx_of a = Some q /\ g_resolve cfg iid afi q = Err x.
(** a record of the message is for ETR node [id], and no lookup before it raises *)
Definition reaches (cfg : instances) (l : list mrec) (id : nat) : Prop :=
  exists pre r post, l = pre ++ r :: post /\ belongs cfg (mr_eid r) id /\
    forall x, In x pre -> ~ lookup_raises cfg (mr_eid x).

(** [first_changed P f l l']: the first element with property [P] is changed by [f], everything else is as before *)
Inductive first_changed {A} (P : A -> Prop) (f : A -> A) : list A -> list A -> Prop :=
| fc_none l : (forall x, In x l -> ~ P x) -> first_changed P f l l
| fc_first l1 x l2 : (forall y, In y l1 -> ~ P y) -> P x -> first_changed P f (l1 ++ x :: l2) (l1 ++ f x :: l2).

(** Map-Register [o] is waiting for this Map-Notify: it went to the Map-Server the notify comes from, with the same nonce *)
Definition waits_notify (src : fam * Z) (n : mnot) (o : outreg) : Prop :=
  src = tr_ms (o_etrr o) /\ n_nonce n = g_nonce (o_reg o).
Definition got_notify (n : mnot) (o : outreg) : outreg := OutReg (o_etrr o) (o_reg o) (Some n).
(** the same for Info-Requests *)
Definition waits_info (src : fam * Z) (m : info) (o : outinfo) : Prop := src = tr_ms (oi_etrr o) /\ i_nonce m = oi_nonce o.
(** the reply is recorded, with the address the request was sent from as the private address of the ETR; a request that
    was not sent from any address does not count as answered *)
Definition got_info (m : info) (o : outinfo) : outinfo :=
  match oi_from o with
  | Some f =>
      OutInfo (oi_etrr o) (oi_nonce o) (Some f)
        (Some (match i_data m with
               | LNat mp ep g s _ l => Info (i_reply m) (i_rsv1 m) (i_nonce m) (i_key m) (i_authdata m) (i_ttl m) (i_rsv2 m) (i_eid m)
                                            (LNat mp ep g s (AIP (fst f) (snd f)) l)
               | _ => m
               end)) true
  | None => OutInfo (oi_etrr o) (oi_nonce o) None (Some m) (oi_event o)
  end.
