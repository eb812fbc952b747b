(** * Specification of the exchanges of a registration thread *)
From Verif Require Import Base Afi Records Control Auth Tree MapServer Etr Packet Daemon Exchange.

(** what happens during an exchange, in order: something is sent ([None]: no socket could send it), or a message is
    heard from [src] *)
Inductive hap (M : Type) := Sends (f : option (fam * Z)) | Hears (src : fam * Z) (m : M).
Arguments Sends {M}. Arguments Hears {M}.
Definition hears {M} (l : list ((fam * Z) * M)) : list (hap M) := map (fun x => Hears (fst x) (snd x)) l.
Definition during {M} (t : attempt M) : list (hap M) :=
  hears (a_before t) ++ match a_send t with Ok f => [Sends f] | Err _ => [] end ++ hears (a_in t).
Definition happened {M} (used : list (attempt M)) : list (hap M) := flat_map during used.
(** the address the last message was sent from *)
Inductive last_sent {M} : list (hap M) -> option (fam * Z) -> Prop :=
| ls_never h : (forall f, ~ In (Sends f) h) -> last_sent h None
| ls_last pre f post : (forall f, ~ In (Sends f) post) -> last_sent (pre ++ Sends f :: post) f.

(** [reasonable until used l]: of the attempts [l] that could be made, [used] were: at most three, and another one after each
    that sent, was not told to stop and had no answer ([until]) *)
Record reasonable {M} (until : list (hap M) -> Prop) (used l : list (attempt M)) : Prop := {
  at_most_three : (1 <= length used <= 3)%nat;
  in_order : exists rest, l = used ++ rest;
  no_more_than_needed : forall u t, (exists t' u', used = u ++ t :: t' :: u') ->
    a_stop t = false /\ (exists f, a_send t = Ok f) /\ ~ until (happened (u ++ [t])) }.

(** ** NAT detection *)
(** the Info-Reply [m] answers the request: it comes from the Map-Server and has the request's nonce *)
Definition reply_for (r : etrr) (nonce : bytes) (src : fam * Z) (m : info) : Prop := src = tr_ms r /\ i_nonce m = nonce.
(** the request is answered, after it was sent from an address *)
Definition answered (r : etrr) (nonce : bytes) (h : list (hap info)) : Prop :=
  exists pre src m post f, h = pre ++ Hears src m :: post /\ reply_for r nonce src m /\ last_sent pre (Some f).
(** the NAT information of Info-Reply [m]: with the address the request was sent from as the private address *)
Definition nat_data (m : info) (from : option (fam * Z)) (d : addr) : Prop :=
  exists mp ep g ms p rtrs, i_data m = LNat mp ep g ms p rtrs /\
    d = LNat mp ep g ms (match from with Some f => AIP (fst f) (snd f) | None => p end) rtrs.
(** the last answer tells [d] *)
Definition answer (r : etrr) (nonce : bytes) (h : list (hap info)) (d : addr) : Prop :=
  answered r nonce h /\
  exists pre src m post f, h = pre ++ Hears src m :: post /\ reply_for r nonce src m /\
    (forall s m', In (Hears s m') post -> ~ reply_for r nonce s m') /\ last_sent pre f /\ nat_data m f d.
(** the Map-Server sees another address than ours, or another port than 4342 (two LCAF addresses are never the same) *)
Definition plain (a : addr) : Prop := match a with ANone | AIP _ _ | ANet _ _ _ => True | _ => False end.
Definition nat_seen (d : addr) : Prop :=
  exists mp ep g ms p rtrs, d = LNat mp ep g ms p rtrs /\ (~ (g = p /\ plain g) \/ ep <> 4342).
(** the outcome of an exchange in which [h] happened, and which was not cut short *)
Inductive verdict (r : etrr) (nonce : bytes) (h : list (hap info)) : res (option addr) -> Prop :=
| vd_nat d : answer r nonce h d -> nat_seen d -> verdict r nonce h (Ok (Some d))
| vd_forced d f : answer r nonce h d -> last_sent h (Some f) -> tr_use_rtr r = Some true -> verdict r nonce h (Ok (Some d))
| vd_none f : last_sent h (Some f) -> (forall d, answer r nonce h d -> ~ nat_seen d /\ tr_use_rtr r <> Some true) ->
    verdict r nonce h (Ok None)
| vd_unsent : last_sent h None -> (forall d, answer r nonce h d -> ~ nat_seen d) -> verdict r nonce h (Err EType).

(** ** Map-Registers *)
Definition notify_for (r : etrr) (g : mreg) (src : fam * Z) (n : mnot) : Prop := src = tr_ms r /\ n_nonce n = g_nonce g.
Definition notified (r : etrr) (g : mreg) (h : list (hap mnot)) : Prop := exists src n, In (Hears src n) h /\ notify_for r g src n.
(** the last Map-Notify heard for the Map-Register *)
Definition last_notify (r : etrr) (g : mreg) (h : list (hap mnot)) (n : mnot) : Prop :=
  exists pre src post, h = pre ++ Hears src n :: post /\ notify_for r g src n /\
    forall s n', In (Hears s n') post -> ~ notify_for r g s n'.
