(** * Property C82, continued: registrations without NAT, and registrations through an RTR that cannot be sent *)
From Verif Require Import Base BaseLemmas Afi AfiProofs Spec SpecLemmas Records Control SpecRec PropControl Packet PacketProofs PacketStack SpecPkt Auth SpecAuth PropAuth
  Tree MapServer SpecMs PropMs PropMs2 Net SpecNet Etr Daemon SpecDaemon PropLoop Main.

(** Without NAT the Map-Register goes to the Map-Server, port 4342, over the control-plane sockets; the receiver reads the same
    Map-Register, as authentic as before *)
Theorem C82_directly r g b : obj_mreg g -> mreg_to_bytes g = Ok b ->
  exists m g', send_register r None g = Ok (Some (OMsg m VControl [AIP (fst (tr_ms r)) (snd (tr_ms r))] 4342)) /\ pkt_to_bytes m = Ok b /\
    pkt_from_bytes KCtl b = Ok (PCtl (CReg g')) /\ arrives_mreg g g' /\ (forall hm key, authentic hm key g -> authentic hm key g').
Proof.
  intros O Hb. destruct (parse_back (AReg g) b O Hb) as ([g'| |] & S & P); cbn [a_san] in S; [|bo S x E; discriminate|bo S x E; discriminate].
  bo S g1 S1. okinj S. injection S as ->. specialize (P []). rewrite app_nil_r in P. cbn [kind a_from_bytes] in P. bo P g2 P1. okinj P. injection P as ->.
  assert (pkt_to_bytes (PCtl (CReg g)) = Ok b) as Hc by exact Hb.
  assert (pkt_from_bytes KCtl b = Ok (PCtl (CReg g'))) as Pc.
  { unfold mreg_from_bytes, from_bytes in P1. bo P1 [m s'] E. assert (m = g') as -> by congruence. apply (ctl_parse _ _ s' (CReg g') Hc). cbn [ctl_type]. unfold rd_ctl. cbn [Z.eqb Pos.eqb]. rewrite E. reflexivity. }
  exists (PCtl (CReg g)), g'. split; [reflexivity|]. split; [exact Hc|]. split; [exact Pc|]. split.
  - apply (a_san_arrives (AReg g) (AReg g')). cbn [a_san]. rewrite S1. reflexivity.
  - intros hm key. apply same_authentic. exact S1.
Qed.
Print Assumptions C82_directly.

Lemma create_no_data l c d : create_sockets false l = (c, d) -> d = [].
Proof. revert c d. induction l as [|a l IH]; intros c d; cbn; [intros [= <- <-]; reflexivity|]. destruct (create_sockets false l) as [c' d'] eqn:E. intros [= <- <-]. eapply IH, eq_refl. Qed.
(** Finding: a daemon that does not process data packets has no data-plane sockets, so a registration behind NAT is never sent; nor is it
    when the Info-Reply names no RTRs.  Nothing is reported: send_message ends normally *)
Theorem C82_unsent_refuted :
  (forall sc nf c w ctl data queues w', start sc nf (Some c) w = Serve ctl data queues w' -> cf_process_data c = false -> data = []) /\
  (forall ser net rtrs, Forall is_address rtrs -> send_message ser net 4342 0 [] rtrs = ([], Ok None)) /\
  (forall ser net socks, send_message ser net 4342 0 socks [] = ([], Ok None)).
Proof.
  split; [|split].
  - intros sc nf c w ctl data queues w' H P. unfold start in H. rewrite P in H. destruct sc; [discriminate|].
    destruct (create_sockets false (cf_listen c)) as [c' d'] eqn:E. apply create_no_data in E. cbn [andb] in H.
    destruct c'; [discriminate|]. injection H as _ <- _ _. exact E.
  - intros ser net rtrs H. generalize 0%nat. induction H as [|d l (v & z & S) _ IH]; intros n; [reflexivity|]. apply as_address_shown in S. cbn [send_message]. rewrite S. cbn. rewrite Nat.add_0_r, IH. reflexivity.
  - reflexivity.
Qed.
Print Assumptions C82_unsent_refuted.
