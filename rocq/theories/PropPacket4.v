(** * Property C89: the LISP content of a UDP message *)
From Verif Require Import Base BaseLemmas Afi Spec Records Control SpecRec Packet SpecPkt.

(** RFC 6830: port 4341 is LISP data, port 4342 LISP control *)
Definition port (u : pkt) (n : Z) : Prop := exists s d ck p, u = PUDP s d ck p /\ (s = n \/ d = n).
Definition lisp_data (p : pkt) : Prop := exists d q, p = PData d q.
Definition lisp_control (p : pkt) : Prop := exists t, msg_type p t.
(** get_lisp_message, get_lisp_data_packet (only_data) and get_lisp_control_message (only_control) *)
Theorem C89_lisp_content : forall (only_data only_control : bool) (s d ck : Z) (p q : pkt), let u := PUDP s d ck p in
  get_lisp_message only_data only_control u = Ok q <->
  q = p /\ ~ (port u 4341 /\ port u 4342) /\
  (((port u 4341 \/ only_data = true) /\ lisp_data p) \/
   (~ port u 4341 /\ only_data = false /\ (port u 4342 \/ only_control = true) /\ lisp_control p)).
Proof.
  intros od oc s d ck p q u.
  assert (forall n, port u n <-> (s =? n) || (d =? n) = true) as Hp.
  { intros n. unfold port, u. rewrite orb_true_iff, !Z.eqb_eq. split; [intros (? & ? & ? & ? & [= <- <- <- <-] & H); exact H|intros H; do 4 eexists; split; [reflexivity|exact H]]. }
  assert (is_data p = true <-> lisp_data p) as Hd.
  { split; [destruct p; try discriminate; intros _; do 2 eexists; reflexivity|intros (? & ? & ->); reflexivity]. }
  assert (is_control p = true <-> lisp_control p) as Hc.
  { split; [|intros (t & Ht); destruct Ht; reflexivity]. destruct p; try discriminate; intros _; [eexists; constructor|]. destruct c; eexists; constructor. }
  rewrite !Hp, <- Hd, <- Hc. unfold u. cbn [get_lisp_message].
  destruct ((s =? 4341) || (d =? 4341)), ((s =? 4342) || (d =? 4342)), od, oc, (is_data p), (is_control p); cbn [andb negb orb guard bind];
    (split; [intros H; try discriminate H; injection H as <-; intuition congruence|intros (-> & H1 & H2); try reflexivity; exfalso; intuition congruence]).
Qed.
Print Assumptions C89_lisp_content.
(** Finding: get_lisp_control_message gives a data packet when a port is 4341. *)
Theorem C89_refuted : ~ (forall u q, get_lisp_message false true u = Ok q -> lisp_control q).
Proof.
  intros H. destruct (H (PUDP 4341 4341 0 (PData (DH false None None None None None) (PRaw []))) _ eq_refl) as (t & Ht). inversion Ht.
Qed.
Print Assumptions C89_refuted.
Example C89_example : get_lisp_message false true (PUDP 5 4342 0 (PCtl (CNot (MNot [] [] 0 [] [] 0 0)))) = Ok (PCtl (CNot (MNot [] [] 0 [] [] 0 0))).
Proof. apply C89_lisp_content. split; [reflexivity|]. split; [intros [(s & d & ck & p & [= <- <- <- <-] & [H|H]) _]; discriminate|].
  right. split; [intros (s & d & ck & p & [= <- <- <- <-] & [H|H]); discriminate|]. split; [reflexivity|]. split; [right; reflexivity|eexists; constructor]. Qed.
