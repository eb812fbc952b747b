(** * Property C125: every message class decodes exactly the messages of its own type *)
From Coq Require Import String.
From Verif Require Import Base BaseLemmas Afi Records Control Packet Conform.
Local Open Scope string_scope.
Local Open Scope list_scope.
Local Open Scope Z_scope.

(** ** Specification *)
(** the type a datagram announces: its first four bits (RFC 6830 section 6.1) *)
Definition announced (d : bytes) (t : Z) : Prop := exists b rest, d = b :: rest /\ byte_val b / 16 = t.
(** what a caller gets from the [from_bytes] of the class with [message_type] t: a control message *)
Definition known (t : Z) : Prop := t = 1 \/ t = 2 \/ t = 3 \/ t = 4 \/ t = 6 \/ t = 7 \/ t = 8.
(** the class of a decoded message *)
Definition class_of (p : pkt) : option Z :=
  match p with
  | PCtl (CReq _) => Some 1 | PCtl (CRep _) => Some 2 | PCtl (CReg _) => Some 3 | PCtl (CNot _) => Some 4
  | PCtl (CRef _) => Some 6 | PCtl (CInfo _) => Some 7 | PECM _ _ _ _ _ _ => Some 8
  | _ => None
  end.

(** [MapRequestMessage.from_bytes] and so on, with the decoded message as a packet.
    map_request.py:186-300, map_reply.py:85-134, map_register.py:209-272, map_notify.py:147-200, map_referral.py:63-101,
    info_message.py:162-217, encapsulated_control_message.py:96-165 *)
Definition class_from_bytes (t : Z) (d : bytes) : res pkt :=
  if t =? 1 then let* m := mreq_from_bytes d in Ok (PCtl (CReq m))
  else if t =? 2 then let* m := mrep_from_bytes d in Ok (PCtl (CRep m))
  else if t =? 3 then let* m := mreg_from_bytes d in Ok (PCtl (CReg m))
  else if t =? 4 then let* m := mnot_from_bytes d in Ok (PCtl (CNot m))
  else if t =? 6 then let* m := mref_from_bytes d in Ok (PCtl (CRef m))
  else if t =? 7 then let* m := info_from_bytes d in Ok (PCtl (CInfo m))
  else rd_ecm (parse (length d)) (bits_of_bytes d).

(** ** Lemmas *)
Lemma nibble4 b r : rd_uint 4 (bits_of_bytes (b :: r)) = Ok (byte_val b / 16, skipn 4 (bits_of_bytes (b :: r))).
Proof. destruct b as [b7 b6 b5 b4 b3 b2 b1 b0]. destruct b7, b6, b5, b4, b3, b2, b1, b0; reflexivity. Qed.

Lemma starts t s out : w_uint 4 t = Ok s -> forall more, bytes_of_bits (s ++ more) = Ok out -> announced out t.
Proof.
  intros H more E. apply w_uint_ok in H. destruct H as [-> R]. apply bytes_of_bits_ok in E.
  destruct out as [|b r]; [discriminate|]. exists b, r. split; [reflexivity|].
  pose proof (nibble4 b r) as N. rewrite <- E in N. rewrite rd_uint_enc in N by exact R. apply Ok_inj in N. apply (f_equal fst) in N. symmetry. exact N.
Qed.

(** ** The theorems *)
(** Every class's decoder and the generic one give the same result, error included, on what announces the class's type, and
    the class's decoder gives a ValueError on everything else. *)
Theorem C125_classes t d : known t ->
  (announced d t -> class_from_bytes t d = pkt_from_bytes KCtl d) /\
  (forall t', announced d t' -> t' <> t -> class_from_bytes t d = Err EValue) /\
  (d = [] -> class_from_bytes t d = Err ERead).
Proof.
  intros K. repeat split.
  - intros (b & r & -> & E). unfold pkt_from_bytes. cbn [parse layer]. unfold rd_control. rewrite nibble4. cbn [bind]. rewrite E.
    unfold class_from_bytes, mreq_from_bytes, mrep_from_bytes, mreg_from_bytes, mnot_from_bytes, mref_from_bytes, info_from_bytes, from_bytes, rd_ctl.
    destruct K as [->|[->|[->|[->|[->|[->| ->]]]]]]; cbn [Z.eqb Pos.eqb bind]; try reflexivity;
      match goal with |- context [?f (bits_of_bytes (b :: r))] => destruct (f (bits_of_bytes (b :: r))) as [[]|]; reflexivity end.
  - intros t' (b & r & -> & E) D.
    assert (t' =? t = false) as N by lia.
    unfold class_from_bytes, mreq_from_bytes, mrep_from_bytes, mreg_from_bytes, mnot_from_bytes, mref_from_bytes, info_from_bytes, from_bytes,
      rd_mreq, rd_mrep, rd_mreg, rd_mnot, rd_mref, rd_info, rd_ecm.
    rewrite nibble4, E. destruct K as [->|[->|[->|[->|[->|[->| ->]]]]]]; cbn [Z.eqb Pos.eqb bind]; rewrite N; reflexivity.
  - intros ->. destruct K as [->|[->|[->|[->|[->|[->| ->]]]]]]; reflexivity.
Qed.

(** What the generic decoder makes of a datagram is a message of the type announced, and types nobody knows are refused. *)
Theorem C125_generic d :
  (forall p, pkt_from_bytes KCtl d = Ok p -> exists t, known t /\ announced d t /\ class_of p = Some t) /\
  (forall t, announced d t -> ~ known t -> pkt_from_bytes KCtl d = Err EValue) /\
  (d = [] -> pkt_from_bytes KCtl d = Err ERead).
Proof.
  unfold pkt_from_bytes. cbn [parse layer]. unfold rd_control. repeat split.
  - intros p H. destruct d as [|b r]; [discriminate|]. rewrite nibble4 in H. cbn [bind] in H.
    exists (byte_val b / 16). destruct (byte_val b / 16 =? 8) eqn:E8.
    + apply Z.eqb_eq in E8. rewrite E8. split; [unfold known; auto 10|]. split; [exists b, r; auto|].
      unfold rd_ecm in H. mon H. okinj H. reflexivity.
    + unfold rd_ctl in H.
      repeat match type of H with context [if ?x =? ?k then _ else _] => destruct (x =? k) eqn:?E end; try discriminate;
        (bo H [c s1] F0; okinj H; bo F0 [m s2] F1; apply Ok_inj in F0; injection F0 as <- _; clear F1); match goal with E : _ =? _ = true |- _ => apply Z.eqb_eq in E; rewrite E end;
        (split; [unfold known; auto 10|]; split; [exists b, r; auto|reflexivity]).
  - intros t (b & r & -> & <-) K. rewrite nibble4. cbn [bind]. unfold known in K.
    assert (byte_val b / 16 =? 8 = false) as -> by lia. unfold rd_ctl.
    repeat match goal with |- context [if ?x =? ?k then _ else _] => destruct (x =? k) eqn:?E; [exfalso; lia|] end. reflexivity.
  - intros ->. reflexivity.
Qed.

(** Hence no datagram is a message of two classes. *)
Theorem C125_one_class t t' d p p' : known t -> known t' -> class_from_bytes t d = Ok p -> class_from_bytes t' d = Ok p' -> t = t' /\ p = p' /\ class_of p = Some t.
Proof.
  intros K K' H H'.
  destruct d as [|b r]; [destruct (C125_classes t [] K) as (_ & _ & E); rewrite E in H by reflexivity; discriminate|].
  assert (announced (b :: r) (byte_val b / 16)) as A by (exists b, r; auto).
  destruct (C125_classes t (b :: r) K) as (S & D & _). destruct (C125_classes t' (b :: r) K') as (S' & D' & _).
  destruct (Z.eq_dec (byte_val b / 16) t) as [E|N]; [|rewrite (D _ A N) in H; discriminate].
  destruct (Z.eq_dec (byte_val b / 16) t') as [E'|N']; [|rewrite (D' _ A N') in H'; discriminate].
  split; [congruence|]. subst. rewrite S in H by exact A. rewrite S' in H' by exact A. split; [congruence|].
  destruct (C125_generic (b :: r)) as (G & _). destruct (G p H) as (t & _ & (b' & r' & X & Y) & Z). injection X as <- <-. rewrite Y in *. exact Z.
Qed.

(** Whatever the fields of a message, the datagram made of it announces the type of its class. *)
Theorem C125_written p t out : class_of p = Some t -> pkt_to_bytes p = Ok out -> announced out t.
Proof.
  intros C H. destruct p as [| | | | | | | | | |sec ddt rtr rel rsv p|c]; try discriminate.
  - cbn [pkt_to_bytes] in H. injection C as <-. unfold w_ecm in H. bo H [] E0. bo H s E1. bo H pb E2. bo H hb E3. okinj H.
    destruct (starts _ _ _ E1 _ E3) as (b & r & -> & E). exists b, (r ++ pb). auto.
  - cbn [pkt_to_bytes] in H. unfold to_bytes in H. bo H bs E.
    destruct c; injection C as <-; cbn [w_ctl] in E; unfold w_mreq, w_mrep, w_mreg, w_mnot, w_mref, w_info in E; bo E m' E1; bo E s E2;
      repeat match type of E with bind _ _ = _ => let y := fresh "y" in let F := fresh "F" in bo E y F end; okinj E;
      eapply starts; eassumption.
Qed.

(** ** Examples *)
(** a Map-Reply that looks like anything else to the other six classes *)
Definition reply : bytes := hex "2000000001020304050607080000000000000000".
Example C125_example :
  class_of (PCtl (CRep (match mrep_from_bytes reply with Ok m => m | Err _ => MRep false false false [] (B []) [] end))) = Some 2 /\
  announced reply 2 /\ is_ok (class_from_bytes 2 reply) = true /\ is_ok (pkt_from_bytes KCtl reply) = true /\
  class_from_bytes 3 reply = Err EValue /\ class_from_bytes 8 reply = Err EValue /\
  announced doc_ecm 8 /\ is_ok (class_from_bytes 8 doc_ecm) = true /\ class_from_bytes 1 doc_ecm = Err EValue /\
  pkt_from_bytes KCtl (hex "5000") = Err EValue.
Proof.
  repeat split; try (vm_compute; reflexivity); try (eexists _, _; split; [vm_compute; reflexivity|vm_compute; reflexivity]).
Qed.

Print Assumptions C125_classes.
Print Assumptions C125_generic.
Print Assumptions C125_one_class.
Print Assumptions C125_written.
Print Assumptions C125_example.
