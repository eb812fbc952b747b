(** * Properties C16, C19-C23, C30, C31. *)
From Verif Require Import Base BaseLemmas Afi AfiProofs Spec SpecLemmas Records Control SpecRec
  RecordsProofs ControlProofs PropControl PropLayout Checksum ChecksumProofs Packet PacketProofs PacketStack SpecPkt PropPacket PropUdp PropPacket2.

(** ** C16: extension headers *)
Lemma pad8_spec k o : 0 <= k -> (blen (pad8 k o) + k) mod 8 = 0 -> zero_padded 8 (Z.to_nat k) o (pad8 k o).
Proof.
  intros Hk Hm. unfold zero_padded, pad8. eexists. split; [reflexivity|].
  pose proof (Z.mod_pos_bound (8 - (blen o + k) mod 8) 8 ltac:(lia)) as M. split; [lia|].
  fold (pad8 k o). apply Nat2Z.inj. rewrite Nat2Z.inj_mod, Nat2Z.inj_add, Z2Nat.id by exact Hk. change (Z.of_nat 8) with 8.
  rewrite Z.add_comm. exact Hm.
Qed.
Lemma pad8_round k o : 0 <= k -> blen (pad8 k o) + k = 8 * ((blen (pad8 k o) + k) / 8).
Proof. intros Hk. destruct (pad8_len k o Hk) as (_ & _ & M). pose proof (Z.div_mod (blen (pad8 k o) + k) 8 ltac:(lia)). lia. Qed.

Lemma opts_case (con : Z -> bytes -> pkt -> pkt) (k : kind) :
  (forall r d, layer r k d = rd_opts r con (bits_of_bytes d)) ->
  (forall nh o p nh' o' p', con nh o p = con nh' o' p' -> nh = nh' /\ o = o' /\ p = p') ->
  (forall nh o p, pkt_to_bytes (con nh o p) = w_opts nh o (pkt_to_bytes p)) ->
  forall nh o p out, pkt_to_bytes (con nh o p) = Ok out ->
  exists o' b, zero_padded 8 2 o o' /\ pkt_to_bytes p = Ok b /\
    layout out [(0, 8, nh); (8, 8, (Z.of_nat (2 + length o')%nat / 8 - 1)%Z)]%nat /\
    slice 2 (length o') out = o' /\ skipn (2 + length o') out = b /\ length out = (2 + length o' + length b)%nat /\
    forall q, payload_is nh b q <-> pkt_from_bytes k out = Ok (con nh o' q).
Proof.
  intros Hlay Hinj Hser nh o p out H. rewrite Hser in H. paybytes H p pb Ep.
  apply w_opts_inv in H. destruct H as (hb & -> & Hb & Hn & Hl & Hm).
  pose proof (wire_len _ _ _ Hb (opts_wire_len _ _)) as Lh. set (o' := pad8 2 o) in *.
  assert (bits_of_bytes (hb ++ pb) = opts_wire nh o' ++ bits_of_bytes pb) as Hw by (rewrite bits_of_bytes_app, Hb; reflexivity).
  exists o', pb. split; [apply (pad8_spec 2); [lia|exact Hm]|]. split; [reflexivity|].
  assert (length (hb ++ pb) = 2 + length o' + length pb)%nat as Lt by (rewrite app_length; lia).
  pose proof Hw as Hw'. unfold opts_wire in Hw'. flat Hw'.
  split.
  { unfold layout. unfold byte_ok in *. replace (Z.of_nat (2 + length o')) with (blen o' + 2) by (unfold blen; lia).
    set (x := (blen o' + 2) / 8 - 1) in *. clearbody x.
    repeat (apply Forall_cons; [split; [lia|]; fld Hw'; try (apply ub_enc; cbn; lia)|]). apply Forall_nil. }
  split. { eapply slice_bits with (p := enc 8 nh ++ enc 8 _); [rewrite <- app_assoc; exact Hw'|rewrite app_length, !enc_length; reflexivity|reflexivity]. }
  split; [apply skipn_app_len; exact Lh|]. split; [exact Lt|]. intros q.
  rewrite <- (decode_payload_is (hb ++ pb)) by lia. rewrite from_bytes_layer, Hlay, Hw. split.
  - intros Hq. apply rd_opts_run; assumption.
  - intros Hq. apply rd_opts_inv in Hq; [|rewrite <- Hw; exists (length (hb ++ pb)); apply bits_of_bytes_length].
    destruct Hq as (nh2 & o2 & pb2 & p2 & Hs & _ & _ & _ & Hd & Hq). apply Hinj in Hq. destruct Hq as (<- & <- & <-).
    apply app_inj_len in Hs; [|reflexivity]. destruct Hs as [_ Hs]. apply bits_of_bytes_inj in Hs. subst pb2. exact Hd.
Qed.
Theorem C16_hop_by_hop : forall (nh : Z) (o : bytes) (p : pkt) (out : bytes), pkt_to_bytes (PHop nh o p) = Ok out ->
  exists o' b, zero_padded 8 2 o o' /\ pkt_to_bytes p = Ok b /\
    layout out [(0, 8, nh); (8, 8, (Z.of_nat (2 + length o')%nat / 8 - 1)%Z)]%nat /\
    slice 2 (length o') out = o' /\ skipn (2 + length o') out = b /\ length out = (2 + length o' + length b)%nat /\
    forall q, payload_is nh b q <-> pkt_from_bytes KHop out = Ok (PHop nh o' q).
Proof. apply opts_case; [reflexivity| |reflexivity]. intros ? ? ? ? ? ? H. injection H as -> -> ->. auto. Qed.
Print Assumptions C16_hop_by_hop.
Theorem C16_destination_options : forall (nh : Z) (o : bytes) (p : pkt) (out : bytes), pkt_to_bytes (PDst nh o p) = Ok out ->
  exists o' b, zero_padded 8 2 o o' /\ pkt_to_bytes p = Ok b /\
    layout out [(0, 8, nh); (8, 8, (Z.of_nat (2 + length o')%nat / 8 - 1)%Z)]%nat /\
    slice 2 (length o') out = o' /\ skipn (2 + length o') out = b /\ length out = (2 + length o' + length b)%nat /\
    forall q, payload_is nh b q <-> pkt_from_bytes KDst out = Ok (PDst nh o' q).
Proof. apply opts_case; [reflexivity| |reflexivity]. intros ? ? ? ? ? ? H. injection H as -> -> ->. auto. Qed.
Print Assumptions C16_destination_options.
Theorem C16_routing : forall (nh rt sl : Z) (o : bytes) (p : pkt) (out : bytes), pkt_to_bytes (PRoute nh rt sl o p) = Ok out ->
  exists o' b, zero_padded 8 4 o o' /\ pkt_to_bytes p = Ok b /\
    layout out [(0, 8, nh); (8, 8, (Z.of_nat (4 + length o')%nat / 8 - 1)%Z); (16, 8, rt); (24, 8, sl)]%nat /\
    slice 4 (length o') out = o' /\ skipn (4 + length o') out = b /\ length out = (4 + length o' + length b)%nat /\
    forall q, payload_is nh b q <-> pkt_from_bytes KRoute out = Ok (PRoute nh rt sl o' q).
Proof.
  intros nh rt sl o p out H. cbn [pkt_to_bytes] in H. paybytes H p pb Ep.
  apply w_route_inv in H. destruct H as (hb & -> & Hb & Hn & Hrt & Hsl & Hl & Hm).
  pose proof (wire_len _ _ _ Hb (route_wire_len _ _ _ _)) as Lh. set (o' := pad8 4 o) in *.
  assert (bits_of_bytes (hb ++ pb) = route_wire nh rt sl o' ++ bits_of_bytes pb) as Hw by (rewrite bits_of_bytes_app, Hb; reflexivity).
  exists o', pb. split; [apply (pad8_spec 4); [lia|exact Hm]|]. split; [reflexivity|].
  assert (length (hb ++ pb) = 4 + length o' + length pb)%nat as Lt by (rewrite app_length; lia).
  pose proof Hw as Hw'. unfold route_wire in Hw'. flat Hw'.
  split.
  { unfold layout. unfold byte_ok in *. replace (Z.of_nat (4 + length o')) with (blen o' + 4) by (unfold blen; lia).
    set (x := (blen o' + 4) / 8 - 1) in *. clearbody x.
    repeat (apply Forall_cons; [split; [lia|]; fld Hw'; try (apply ub_enc; cbn; lia)|]). apply Forall_nil. }
  split. { eapply slice_bits with (p := enc 8 nh ++ enc 8 _ ++ enc 8 rt ++ enc 8 sl); [rewrite <- !app_assoc; exact Hw'|rewrite !app_length, !enc_length; reflexivity|reflexivity]. }
  split; [apply skipn_app_len; exact Lh|]. split; [exact Lt|]. intros q.
  rewrite <- (decode_payload_is (hb ++ pb)) by lia. rewrite from_bytes_layer. cbn [layer]. rewrite Hw. split.
  - intros Hq. apply rd_route_run; assumption.
  - intros Hq. apply rd_route_inv in Hq.
    destruct Hq as (nh2 & rt2 & sl2 & o2 & pb2 & p2 & Hs & _ & _ & _ & _ & _ & Hd & Hq). injection Hq as <- <- <- <- <-.
    apply app_inj_len in Hs; [|reflexivity]. destruct Hs as [_ Hs]. apply bits_of_bytes_inj in Hs. subst pb2. exact Hd.
Qed.
Print Assumptions C16_routing.
(** fragments keep their payload as bytes *)
Theorem C16_fragment : forall (nh off id : Z) (mf : bool) (p : pkt) (out : bytes), pkt_to_bytes (PFrag nh off mf id p) = Ok out ->
  exists b, pkt_to_bytes p = Ok b /\
    layout out [(0, 8, nh); (8, 8, 0%Z); (16, 13, off); (29, 2, 0%Z); (31, 1, Z.b2z mf); (32, 32, id)]%nat /\
    skipn 8 out = b /\ length out = (8 + length b)%nat /\
    pkt_from_bytes KFrag out = Ok (PFrag nh off mf id (PRaw b)).
Proof.
  intros nh off id mf p out H. cbn [pkt_to_bytes] in H. paybytes H p pb Ep.
  apply w_frag_inv in H. destruct H as (hb & -> & Hb & Hr). exists pb. split; [reflexivity|].
  assert (length (frag_wire nh off mf id) = (8 * 8)%nat) as Lw by (unfold frag_wire; rewrite !app_length, !enc_length, !zeros_length; cbn [length]; rewrite enc_length; reflexivity).
  pose proof (wire_len _ _ _ Hb Lw) as Lh.
  assert (bits_of_bytes (hb ++ pb) = frag_wire nh off mf id ++ bits_of_bytes pb) as Hw by (rewrite bits_of_bytes_app, Hb; reflexivity).
  assert (length (hb ++ pb) = 8 + length pb)%nat as Lt by (rewrite app_length; lia).
  pose proof Hr as (R1 & R2 & R3). unfold byte_ok in R1.
  pose proof Hw as Hw'. unfold frag_wire in Hw'. rewrite <- !enc_0 in Hw'. flat Hw'. split.
  { unfold layout. repeat (apply Forall_cons; [split; [lia|]; fld Hw'; try (apply ub_enc; cbn; lia); try (destruct mf; reflexivity)|]). apply Forall_nil. }
  split; [apply skipn_app_len; exact Lh|]. split; [exact Lt|]. rewrite from_bytes_layer. cbn [layer]. rewrite Hw. apply rd_frag_run. exact Hr.
Qed.
Print Assumptions C16_fragment.
Example C16_example :
  is_ok (pkt_to_bytes (PHop 253 (B [1; 2; 3]) (PRaw (B [9])))) = true /\ is_ok (pkt_to_bytes (PDst 17 (B []) (PRaw (B [9])))) = true /\
  is_ok (pkt_to_bytes (PRoute 6 0 1 (B [1; 2; 3; 4; 5]) (PRaw (B [9])))) = true /\ is_ok (pkt_to_bytes (PFrag 6 8191 true 4294967295 (PRaw (B [9])))) = true.
Proof. vm_compute. auto. Qed.

(** ** C19 is false of the code: extension headers emit whatever the caller stored *)
Theorem C19_next_header_as_stored : forall (p p' : pkt) (nh : Z) (out : bytes),
  ext p nh p' -> pkt_to_bytes p = Ok out -> field 0 8 out = nh.
Proof.
  intros p p' nh out He H. destruct He as [nh o q|nh o q|nh t s o q|nh o m i q].
  - destruct (C16_hop_by_hop _ _ _ _ H) as (? & ? & _ & _ & HL & _). exact (layout_at _ _ _ _ _ HL (or_introl eq_refl)).
  - destruct (C16_destination_options _ _ _ _ H) as (? & ? & _ & _ & HL & _). exact (layout_at _ _ _ _ _ HL (or_introl eq_refl)).
  - destruct (C16_routing _ _ _ _ _ _ H) as (? & ? & _ & _ & HL & _). exact (layout_at _ _ _ _ _ HL (or_introl eq_refl)).
  - destruct (C16_fragment _ _ _ _ _ _ H) as (? & _ & HL & _). exact (layout_at _ _ _ _ _ HL (or_introl eq_refl)).
Qed.
Print Assumptions C19_next_header_as_stored.
Theorem C19_refuted : exists (p p' : pkt) (nh n : Z) (out : bytes),
  ext p nh p' /\ proto_number p' n /\ pkt_to_bytes p = Ok out /\ field 0 8 out <> n.
Proof.
  exists (PHop 6 [] (PUDP 1 2 0 (PRaw []))), (PUDP 1 2 0 (PRaw [])), 6, 17. eexists.
  split; [constructor|]. split; [constructor|]. split; [vm_compute; reflexivity|]. vm_compute. discriminate.
Qed.
Print Assumptions C19_refuted.

(** ** C20: whole stacks *)
Lemma ordinary_reparsable p : ordinary p <-> reparsable p.
Proof.
  assert (forall e, is_net e = true <-> exists v z n, e = ANet v z n) as Hn.
  { intros e. split; [destruct e; try discriminate; eauto|]. intros (v & z & n & ->). reflexivity. }
  split.
  - induction 1; cbn [reparsable]; auto.
    + cbn [plain_ctl]. eapply Forall_impl; [|eassumption]. intros e He. apply Hn. exact He.
    + destruct c; cbn; auto. exfalso. eapply H. reflexivity.
  - induction p; cbn [reparsable]; intros Hr; try (constructor; solve [auto]).
    + destruct Hr. constructor; auto.
    + destruct c; try (constructor; discriminate). constructor. cbn in Hr. eapply Forall_impl; [|exact Hr]. intros e He. apply Hn. exact He.
Qed.
Theorem C20_stacks_stable : forall (k : kind) (d : bytes) (p : pkt) (out : bytes),
  pkt_from_bytes k d = Ok p -> ordinary p -> pkt_to_bytes p = Ok out -> pkt_from_bytes k out = Ok p.
Proof.
  intros k d p out H Ho Hb. apply ordinary_reparsable in Ho. unfold pkt_from_bytes in *.
  eapply stack_stable; eauto.
Qed.
Print Assumptions C20_stacks_stable.
(** the parser of the model never runs out of fuel: nesting depth is not bounded by the model *)
Theorem C20_no_depth_bound : forall (k : kind) (d : bytes) (fuel : nat),
  pkt_from_bytes k d <> Err EFuel /\ ((length d < fuel)%nat -> parse fuel k d = pkt_from_bytes k d).
Proof.
  intros k d f. split; [apply parse_nf; lia|]. intros L. apply parse_fuel; lia.
Qed.
Print Assumptions C20_no_depth_bound.
(** a Map-Request in an encapsulated control message over UDP over IPv6 with a hop-by-hop header,
    itself inside a LISP data packet *)
Definition ex_stack : pkt :=
  PData (DH false None None None None (Some 7))
    (PIPv6 (V6H 0 0 0 64 (AIP V6 1) (AIP V6 2))
      (PHop 17 (B [1; 4; 0; 0; 0; 0])
        (PUDP 4342 4342 0
          (PECM false true false false (zeros 26)
            (PIPv4 (V4H 0 0 true false 0 64 17 (AIP V4 1) (AIP V4 2) [])
              (PUDP 61000 4342 0 (PCtl (CReq ex_mreq)))))))).
Definition ex_stack_wire : bytes := match pkt_to_bytes ex_stack with Ok b => b | Err _ => [] end.
Example C20_example :
  is_ok (pkt_from_bytes (KData true) ex_stack_wire) = true /\
  match pkt_from_bytes (KData true) ex_stack_wire with Ok p => is_ok (pkt_to_bytes p) | Err _ => false end = true.
Proof. vm_compute. auto. Qed.
(** the exception for Map-Requests is needed: an LCAF EID for instance 0 comes back as a plain prefix *)

(** ** C21 *)
Lemma chain_final nh p n q hs : chain nh p hs n q -> v6_final nh p = (n, q).
Proof.
  induction 1 as [n q Hn|nh p m q hs n r He Hc IH].
  - destruct q; cbn; try reflexivity; exfalso; eapply Hn; constructor.
  - destruct He; exact IH.
Qed.
Lemma chain_exists p : forall nh, exists hs n q, chain nh p hs n q /\
  v6_fragmented p = existsb (fun h => match h with PFrag _ _ _ _ _ => true | _ => false end) hs.
Proof.
  induction p; intros n0; try (exists [], n0; eexists; split; [apply chain_end; intros m r He; inversion He|reflexivity]).
  - destruct (IHp nh) as (hs & n & q & Hc & Hf). exists (PHop nh opts p :: hs), n, q. split; [econstructor; [constructor|exact Hc]|exact Hf].
  - destruct (IHp nh) as (hs & n & q & Hc & Hf). exists (PDst nh opts p :: hs), n, q. split; [econstructor; [constructor|exact Hc]|exact Hf].
  - destruct (IHp nh) as (hs & n & q & Hc & Hf). exists (PRoute nh rtype segleft data p :: hs), n, q. split; [econstructor; [constructor|exact Hc]|exact Hf].
  - destruct (IHp nh) as (hs & n & q & Hc & Hf). exists (PFrag nh off mf id p :: hs), n, q. split; [econstructor; [constructor|exact Hc]|reflexivity].
Qed.
Lemma chain_det nh p hs n q hs' n' q' : chain nh p hs n q -> chain nh p hs' n' q' -> hs = hs' /\ n = n' /\ q = q'.
Proof.
  intros H. revert hs' n' q'. induction H as [n q Hn|nh p m q hs n r He Hc IH]; intros hs' n' q' H'.
  - inversion H' as [|? ? m r ? ? ? He Hc]; subst; [auto|]. exfalso. exact (Hn _ _ He).
  - inversion H' as [? ? Hn|? ? m2 q2 hs2 ? ? He2 Hc2]; subst; [exfalso; exact (Hn _ _ He)|].
    assert (m = m2 /\ q = q2) as [<- <-] by (destruct He; inversion He2; auto).
    destruct (IH _ _ _ Hc2) as (-> & -> & ->). auto.
Qed.
Lemma exists_frag hs : existsb (fun h => match h with PFrag _ _ _ _ _ => true | _ => false end) hs = true <-> Exists is_fragment_header hs.
Proof.
  rewrite existsb_exists, Exists_exists. split; intros (x & Hi & Hx); exists x; (split; [exact Hi|]).
  - destruct x; try discriminate. unfold is_fragment_header. eauto 10.
  - destruct Hx as (? & ? & ? & ? & ? & ->). reflexivity.
Qed.
Theorem C21_ipv6_inspection : forall (h : v6h) (p : pkt),
  exists hs n q frag, chain (x_nh h) p hs n q /\
    (forall hs' n' q', chain (x_nh h) p hs' n' q' -> hs' = hs /\ n' = n /\ q' = q) /\
    get_final_payload (PIPv6 h p) = Ok (n, q) /\
    is_fragmented (PIPv6 h p) = Ok frag /\ (frag = true <-> Exists is_fragment_header hs).
Proof.
  intros h p. destruct (chain_exists p (x_nh h)) as (hs & n & q & Hc & Hf). exists hs, n, q, (v6_fragmented p). split; [exact Hc|].
  split. { intros hs' n' q' H'. destruct (chain_det _ _ _ _ _ _ _ _ Hc H') as (-> & -> & ->). auto. }
  split; [cbn [get_final_payload]; rewrite (chain_final _ _ _ _ _ Hc); reflexivity|]. split; [reflexivity|].
  rewrite Hf. apply exists_frag.
Qed.
Print Assumptions C21_ipv6_inspection.
Theorem C21_ipv4_inspection : forall (h : v4h) (p : pkt),
  get_final_payload (PIPv4 h p) = Ok (h_proto h, p) /\
  exists frag, is_fragmented (PIPv4 h p) = Ok frag /\ (frag = true <-> h_mf h = true \/ h_off h <> 0).
Proof.
  intros h p. split; [reflexivity|]. eexists. split; [reflexivity|]. destruct (h_mf h); cbn; [tauto|].
  destruct (h_off h =? 0) eqn:E; cbn; [|intuition lia]. intuition (try discriminate; lia).
Qed.
Print Assumptions C21_ipv4_inspection.
(** [carries_udp p u]: [p] is an unfragmented IP packet whose content is the UDP message [u] *)
Inductive carries_udp : pkt -> pkt -> Prop :=
| cu_v4 h s d c q : h_proto h = 17 -> h_mf h = false -> h_off h = 0 -> carries_udp (PIPv4 h (PUDP s d c q)) (PUDP s d c q)
| cu_v6 h p hs s d c q : chain (x_nh h) p hs 17 (PUDP s d c q) -> ~ Exists is_fragment_header hs ->
    carries_udp (PIPv6 h p) (PUDP s d c q).
Theorem C21_get_udp : forall (sec ddt rtr rel : bool) (rsv : bits) (p u : pkt),
  get_udp (PECM sec ddt rtr rel rsv p) = Ok u <-> carries_udp p u.
Proof.
  intros. unfold get_udp. split.
  - destruct p; cbn [bind]; try discriminate.
    + destruct (C21_ipv4_inspection h p) as (Hg & frag & Hf & Hi). rewrite Hf, Hg. cbn [bind].
      intros H. bo H [] E. bo H [] E2. winv. destruct p; try discriminate. okinj H.
      assert (frag = false) as -> by (destruct frag; [discriminate|reflexivity]).
      constructor; [lia| |].
      * destruct (h_mf h) eqn:M; [|reflexivity]. discriminate (proj2 Hi (or_introl eq_refl)).
      * destruct (Z.eq_dec (h_off h) 0) as [|N]; [assumption|]. discriminate (proj2 Hi (or_intror N)).
    + destruct (C21_ipv6_inspection h p) as (hs & n & q & frag & Hc & _ & Hg & Hf & Hi). rewrite Hf, Hg. cbn [bind].
      intros H. bo H [] E. bo H [] E2. winv. destruct q; try discriminate. okinj H. assert (n = 17) as -> by lia.
      econstructor; [exact Hc|]. intros Hx. apply Hi in Hx. subst frag. discriminate.
  - intros H. inversion H as [h s d c q Hp Hm Ho|h p0 hs s d c q Hc Hn]; subst; cbn [bind].
    + cbn [is_fragmented get_final_payload bind]. rewrite Hp, Hm, Ho. reflexivity.
    + destruct (C21_ipv6_inspection h p0) as (hs' & n & q' & frag & _ & Hu & Hg & Hf & Hi). rewrite Hf, Hg. cbn [bind].
      destruct (Hu _ _ _ Hc) as (<- & <- & <-). destruct frag; [exfalso; apply Hn, Hi; reflexivity|]. reflexivity.
Qed.
Print Assumptions C21_get_udp.
Example C21_example :
  get_udp (PECM false false false false (zeros 26) (PIPv6 (V6H 0 0 0 64 (AIP V6 1) (AIP V6 2)) (PHop 17 [] (PUDP 1 2 3 (PRaw []))))) = Ok (PUDP 1 2 3 (PRaw [])) /\
  get_udp (PECM false false false false (zeros 26) (PIPv6 (V6H 0 0 44 64 (AIP V6 1) (AIP V6 2)) (PFrag 17 0 false 0 (PUDP 1 2 3 (PRaw []))))) = Err EValue.
Proof. vm_compute. auto. Qed.

(** the exception for Map-Requests in C20 is needed *)
Theorem C20_lcaf_request_not_stable : exists (d out out' : bytes) (p p' : pkt),
  pkt_from_bytes KCtl d = Ok p /\ pkt_to_bytes p = Ok out /\ pkt_from_bytes KCtl out = Ok p' /\
  pkt_to_bytes p' = Ok out' /\ out <> d /\ p <> p'.
Proof.
  pose (d := B [16; 0; 0; 1;  1; 2; 3; 4; 5; 6; 7; 8;  0; 0;  0; 1; 10; 0; 0; 1;
                0; 8; 64; 3; 0; 0; 2; 0; 0; 10; 0; 0; 0; 0; 0; 1; 10; 0; 0; 0]).
  exists d. do 4 eexists. split; [vm_compute; reflexivity|]. split; [vm_compute; reflexivity|]. split; [vm_compute; reflexivity|].
  split; [vm_compute; reflexivity|]. split; vm_compute; discriminate.
Qed.
Print Assumptions C20_lcaf_request_not_stable.

(** ** C22, C23: LISP data *)
Lemma ip_payload_spec (D : bytes) dec (b : bytes) q : (length b < length D)%nat ->
  decode_ip (parse (length D)) dec (bits_of_bytes b) = Ok q <-> ip_payload_is dec b q.
Proof.
  intros L. split.
  - intros H. apply decode_ip_inv in H. destruct H as [[-> ->]|(v & (r & Hv) & Rv & H)]; [constructor; reflexivity|].
    assert (0 < length b)%nat as Lb by (destruct b; [destruct (enc 4 v) eqn:E; [apply (f_equal (@length bool)) in E; rewrite enc_length in E; discriminate|discriminate]|cbn; lia]).
    assert (field 0 4 b = v) as Fv by (apply (field_enc 0 4 b [] v r); [exact Hv|reflexivity|cbn; lia]).
    rewrite !nested_fuel in H by exact L.
    destruct H as [[-> H]|[[-> H]|(H1 & H2 & ->)]]; [apply ip_v4|apply ip_v6|apply ip_other]; auto; congruence.
  - intros H.
    assert (b <> [] -> exists r, bits_of_bytes b = enc 4 (field 0 4 b) ++ r /\ 0 <= field 0 4 b < 16) as Hst.
    { intros Hb. destruct b as [|[b7 b6 b5 b4 b3 b2 b1 b0] b']; [congruence|]. exists ([b3; b2; b1; b0] ++ bits_of_bytes b').
      assert (field 0 4 (Byte b7 b6 b5 b4 b3 b2 b1 b0 :: b') = ub [b7; b6; b5; b4]) as ->
        by (apply (field_bits 0 4 _ [] _ ([b3; b2; b1; b0] ++ bits_of_bytes b')); reflexivity).
      split; [rewrite enc_ub_n by reflexivity; reflexivity|]. apply (ub_range [b7; b6; b5; b4]). }
    destruct H as [->|q Lb F H|q Lb F H|Lb F4 F6]; [reflexivity| | |];
      (destruct Hst as (r & Hr & Rr); [destruct b; [cbn in Lb; lia|discriminate]|]);
      eapply decode_ip_run; try exact Hr; try exact Rr; rewrite ?nested_fuel by exact L; rewrite ?F; auto 10.
Qed.
Lemma echo_spec d : with_echo d (d_echo d && negb (opt_none (d_nonce d))) = without_stray_echo d.
Proof. unfold with_echo, without_stray_echo. destruct (d_nonce d); cbn; rewrite ?andb_true_r, ?andb_false_r; reflexivity. Qed.
Lemma data_emitted d p out : pkt_to_bytes (PData d p) = Ok out ->
  exists hb pb, pkt_to_bytes p = Ok pb /\ out = hb ++ pb /\ bits_of_bytes hb = data_wire (without_stray_echo d) /\
    dh_fits (without_stray_echo d) /\ sanitize_dh (without_stray_echo d) = Ok (without_stray_echo d) /\ length hb = 8%nat.
Proof.
  cbn [pkt_to_bytes]. intros H. bo H d' E. pose proof (sanitize_dh_idem _ _ E) as Hid. apply sanitize_dh_ok in E. destruct E as [Hf ->].
  rewrite echo_spec in *. paybytes H p pb Ep. pose proof Hid as Hf'. apply sanitize_dh_ok in Hf'. destruct Hf' as [Hf' _].
  apply w_data_inv in H; [|exact Hf']. destruct H as (hb & -> & Hb). exists hb, pb. split; [reflexivity|]. split; [reflexivity|].
  split; [exact Hb|]. split; [exact Hf'|]. split; [exact Hid|]. exact (wire_len _ _ _ Hb (data_wire_len _ Hf')).
Qed.
Theorem C22_data_round_trip : forall (d : dh) (p : pkt) (out : bytes) (dec : bool),
  pkt_to_bytes (PData d p) = Ok out ->
  exists b, pkt_to_bytes p = Ok b /\ skipn 8 out = b /\
    forall q, ip_payload_is dec b q -> pkt_from_bytes (KData dec) out = Ok (PData (without_stray_echo d) q).
Proof.
  intros d p out dec H. destruct (data_emitted _ _ _ H) as (hb & pb & Hpb & -> & Hb & Hf & Hs & Lh).
  exists pb. split; [exact Hpb|]. split; [apply skipn_app_len; exact Lh|]. intros q Hq.
  rewrite from_bytes_layer. cbn [layer]. rewrite bits_of_bytes_app, Hb. apply rd_data_run; [exact Hs|].
  apply ip_payload_spec; [rewrite app_length; lia|exact Hq].
Qed.
Print Assumptions C22_data_round_trip.
Corollary C22_bytes_round_trip : forall (d : dh) (b out : bytes) (dec : bool),
  pkt_to_bytes (PData d (PRaw b)) = Ok out -> (b <> [] -> field 0 4 b <> 4 /\ field 0 4 b <> 6) ->
  pkt_from_bytes (KData dec) out = Ok (PData (without_stray_echo d) (PRaw b)).
Proof.
  intros d b out dec H Hb. destruct (C22_data_round_trip d (PRaw b) out dec H) as (b' & Eb & _ & G). cbn in Eb. okinj Eb. apply G.
  destruct b as [|x b]; [constructor; reflexivity|]. destruct Hb as [H4 H6]; [discriminate|]. apply ip_other; [cbn; lia|assumption..].
Qed.
Print Assumptions C22_bytes_round_trip.
Lemma ub_rev l : ub (rev l) = lsb_number l.
Proof.
  induction l as [|x l IH]; [reflexivity|]. cbn [rev lsb_number]. rewrite ub_app, IH. cbn [length]. rewrite ub_bit. change (2 ^ Z.of_nat 1) with 2. lia.
Qed.
Lemma data_layout D d r : bits_of_bytes D = data_wire d ++ r -> dh_fits d -> rfc6830_data D d.
Proof.
  intros H [F1 F2 F3 F4].
  assert (8 <= length D)%nat as L.
  { apply (f_equal (@length bool)) in H. rewrite app_length, data_wire_len, bits_of_bytes_length in H by (constructor; assumption). lia. }
  unfold data_wire in H. rewrite <- enc_0 in H.
  assert (length (nv_wire d) = 24%nat) as Lnv by (apply nv_wire_len; constructor; assumption).
  assert (length (lsb_wire d) = 32%nat) as Llw by (apply lsb_wire_len; constructor; assumption).
  assert (forall {A} (o : option A), Z.b2z (negb (opt_none o)) = present o) as Hpr by (destruct o; reflexivity).
  split; [|split].
  - assert (negb (opt_none (d_sver d) && opt_none (d_dver d)) = negb (opt_none (d_sver d))) as Ev
      by (destruct F2 as [[-> ->]|(s & t & -> & -> & _)]; reflexivity).
    pose proof H as H'. unfold data_flags in H'. rewrite Ev in H'. clear H F1 F2 F3 F4 Llw Ev. set (nv := nv_wire d) in *. set (lw := lsb_wire d) in *. clearbody nv lw.
    rewrite <- !Hpr. set (f0 := negb (opt_none (d_nonce d))) in *. set (f1 := negb (opt_none (d_lsb d))) in *. set (f2 := negb (opt_none (d_sver d))) in *.
    set (f3 := negb (opt_none (d_iid d))) in *. set (f4 := d_echo d) in *. clearbody f0 f1 f2 f3 f4. clear Hpr.
    rewrite <- !app_assoc in H'. cbn [app] in H'. unfold layout.
    repeat (apply Forall_cons; [split; [lia|]|]); [..|apply Forall_nil].
    + exact (field_bool 0 D [] _ _ H' eq_refl).
    + exact (field_bool 1 D [f0] _ _ H' eq_refl).
    + exact (field_bool 2 D [f0; f1] _ _ H' eq_refl).
    + exact (field_bool 3 D [f0; f1; f4] _ _ H' eq_refl).
    + exact (field_bool 4 D [f0; f1; f4; f2] _ _ H' eq_refl).
    + exact (field_bits 5 3 D [f0; f1; f4; f2; f3] (enc 3 0) (nv ++ lw ++ r) H' eq_refl eq_refl).
  - unfold nonce_or_versions.
    assert (bits_of_bytes D = (data_flags d ++ enc 3 0) ++ nv_wire d ++ (lsb_wire d ++ r)) as H2 by (rewrite H, <- !app_assoc; reflexivity).
    clear H. set (tl := lsb_wire d ++ r) in *. clearbody tl. assert (length (data_flags d ++ enc 3 0) = 8%nat) as Lf by reflexivity.
    set (fl := data_flags d ++ enc 3 0) in *. clearbody fl. unfold nv_wire in H2. clear Lnv.
    destruct (d_nonce d) as [n|] eqn:En.
    + destruct (F1 n eq_refl) as (Ln & _ & _). eapply slice_bits; [exact H2|exact Lf|exact Ln].
    + destruct F2 as [[S T]|(s & t & S & T & R1 & R2)]; rewrite S, ?T in *.
      * rewrite (field_bits 8 24 D fl _ _ H2 Lf (zeros_length 24)). apply ub_zeros.
      * rewrite <- app_assoc in H2. unfold layout. repeat (apply Forall_cons; [split; [lia|]|]); [..|apply Forall_nil].
        { exact (field_enc 8 12 D fl s _ H2 Lf R1). }
        { rewrite app_assoc in H2. eapply (field_enc 20 12 D _ t _ H2); [rewrite app_length, enc_length, Lf; reflexivity|exact R2]. }
  - assert (length ((data_flags d ++ enc 3 0) ++ nv_wire d) = 32%nat) as Lp by (rewrite !app_length, Lnv; reflexivity).
    assert (bits_of_bytes D = ((data_flags d ++ enc 3 0) ++ nv_wire d) ++ lsb_wire d ++ r) as H2 by (rewrite H, <- !app_assoc; reflexivity).
    clear H Llw. set (p := (data_flags d ++ enc 3 0) ++ nv_wire d) in *. clearbody p. unfold lsb_wire in H2.
    set (lb := match d_lsb d with Some l => rev l | None => zeros (if opt_none (d_iid d) then 32 else 8) end) in H2.
    assert (length lb = if opt_none (d_iid d) then 32 else 8)%nat as Llb
      by (unfold lb; destruct (d_lsb d) as [l|]; [rewrite rev_length; exact (F3 l eq_refl)|apply zeros_length]).
    assert (ub lb = match d_lsb d with Some l => lsb_number l | None => 0 end) as Hlb
      by (unfold lb; destruct (d_lsb d); [apply ub_rev|apply ub_zeros]).
    clearbody lb. rewrite <- Hlb. destruct (d_iid d) as [i|] eqn:Ei; cbn [opt_none] in Llb.
    + specialize (F4 i eq_refl). rewrite <- app_assoc in H2. split.
      * exact (field_enc 32 24 D p i _ H2 Lp F4).
      * rewrite app_assoc in H2. apply (field_bits 56 8 D _ lb r H2); [|exact Llb]. rewrite app_length, Lp, enc_length. reflexivity.
    + cbn [app] in H2. exact (field_bits 32 32 D p lb r H2 Lp Llb).
Qed.
Theorem C23_data_header_layout : forall (d : dh) (p : pkt) (out : bytes),
  pkt_to_bytes (PData d p) = Ok out ->
  (8 <= length out)%nat /\ rfc6830_data out (without_stray_echo d) /\
  ~ (field 0 1 out = 1 /\ field 3 1 out = 1) /\ (field 2 1 out = 1 -> field 0 1 out = 1) /\
  (d_sver d = None <-> d_dver d = None).
Proof.
  intros d p out H. destruct (data_emitted _ _ _ H) as (hb & pb & Hpb & -> & Hb & Hf & Hs & Lh).
  assert (bits_of_bytes (hb ++ pb) = data_wire (without_stray_echo d) ++ bits_of_bytes pb) as Hw by (rewrite bits_of_bytes_app, Hb; reflexivity).
  pose proof (data_layout _ _ _ Hw Hf) as HL. split; [rewrite app_length; lia|]. split; [exact HL|].
  destruct HL as (HL & _). destruct Hf as [F1 F2 F3 F4]. unfold without_stray_echo in *. cbn [d_echo d_nonce d_sver d_dver d_lsb d_iid] in *.
  rewrite (layout_at _ _ 0 1 _ HL (or_introl eq_refl)), (layout_at _ _ 3 1 _ HL ltac:(cbn; auto 10)), (layout_at _ _ 2 1 _ HL ltac:(cbn; auto 10)).
  split; [|split].
  - intros [A1 A2]. destruct (d_nonce d) as [n|]; [|discriminate]. destruct (F1 n eq_refl) as (_ & S & _). rewrite S in A2. discriminate.
  - destruct (d_nonce d); [reflexivity|discriminate].
  - destruct F2 as [[-> ->]|(s & t & -> & -> & _)]; [tauto|]. split; discriminate.
Qed.
Print Assumptions C23_data_header_layout.
Example C22_example :
  is_ok (pkt_to_bytes (PData (DH true (Some (B [1; 2; 3])) None None (Some (repeat true 8)) (Some 16777215)) (PRaw (B [16; 2])))) = true /\
  is_ok (pkt_to_bytes (PData (DH true None (Some 4095) (Some 0) (Some (repeat false 31 ++ [true])) None) (PRaw []))) = true /\
  is_ok (pkt_to_bytes (PData (DH true (Some (B [1; 2; 3])) (Some 1) (Some 1) None None) (PRaw []))) = false.
Proof. vm_compute. auto. Qed.

(** ** C30: encapsulated control messages *)
(** what the message object keeps in its reserved bits: 26 of them (encapsulated_control_message.py:33) *)
Theorem C30_ecm_round_trip_partial : forall (sec ddt rtr rel : bool) (rsv : bits) (p : pkt) (out : bytes),
  length rsv = 26%nat -> pkt_to_bytes (PECM sec ddt rtr rel rsv p) = Ok out ->
  sec = false /\ layout out [(0, 4, 8%Z); (4, 1, 0%Z); (5, 1, Z.b2z ddt)]%nat /\
  exists b, pkt_to_bytes p = Ok b /\ skipn 4 out = b /\
    forall q, ip_payload_is true b q -> pkt_from_bytes KCtl out = Ok (PECM sec ddt false false rsv q).
Proof.
  intros sec ddt rtr rel rsv p out Lr H. cbn [pkt_to_bytes] in H. paybytes H p pb Ep. apply w_ecm_inv in H.
  destruct H as (-> & hb & -> & Hb). split; [reflexivity|].
  assert (length (ecm_wire ddt rsv) = (8 * 4)%nat) as Lw
    by (unfold ecm_wire; rewrite app_length, enc_length; cbn [length]; rewrite Lr; reflexivity).
  pose proof (wire_len _ _ _ Hb Lw) as Lh.
  assert (bits_of_bytes (hb ++ pb) = ecm_wire ddt rsv ++ bits_of_bytes pb) as Hw by (rewrite bits_of_bytes_app, Hb; reflexivity).
  assert (length (hb ++ pb) = 4 + length pb)%nat as Lt by (rewrite app_length; lia).
  pose proof Hw as Hw'. unfold ecm_wire in Hw'. flat Hw'. split.
  { unfold layout. repeat (apply Forall_cons; [split; [lia|]; fld Hw'; rewrite ?ub_bit; try reflexivity|]). apply Forall_nil. }
  exists pb. split; [reflexivity|]. split; [apply skipn_app_len; exact Lh|]. intros q Hq.
  rewrite from_bytes_layer. cbn [layer]. rewrite Hw. unfold rd_control. unfold ecm_wire at 1. rewrite <- app_assoc.
  rewrite rd_uint_enc by (cbn; lia). cbn [bind Z.eqb Pos.eqb]. apply rd_ecm_run; [exact Lr|].
  apply ip_payload_spec; [lia|exact Hq].
Qed.
Print Assumptions C30_ecm_round_trip_partial.
(** the for_rtr and relayed_by_rtr flags are never on the wire *)
Theorem C30_rtr_flags_lost : forall (sec ddt rtr rel rtr' rel' : bool) (rsv : bits) (p : pkt),
  pkt_to_bytes (PECM sec ddt rtr rel rsv p) = pkt_to_bytes (PECM sec ddt rtr' rel' rsv p) /\
  forall d s' d' r' l' v' q, pkt_from_bytes KCtl d = Ok (PECM s' d' r' l' v' q) -> s' = false /\ r' = false /\ l' = false.
Proof.
  intros. split; [reflexivity|]. intros d s' d' r' l' v' q H. rewrite from_bytes_layer in H. cbn [layer] in H. unfold rd_control in H.
  bo H [t s1] E1. destruct (t =? 8).
  - apply rd_ecm_inv in H. destruct H as (? & ? & ? & ? & _ & _ & _ & E). injection E as -> -> -> -> -> ->. auto.
  - bo H [c s2] E2. discriminate.
Qed.
Print Assumptions C30_rtr_flags_lost.
Theorem C30_refuted : exists (p p' : pkt) (out : bytes),
  p = PECM false true true true (zeros 26) (PRaw []) /\ pkt_to_bytes p = Ok out /\ pkt_from_bytes KCtl out = Ok p' /\ p' <> p.
Proof. do 3 eexists. split; [reflexivity|]. split; [vm_compute; reflexivity|]. split; [vm_compute; reflexivity|]. discriminate. Qed.
Print Assumptions C30_refuted.

(** ** C31: dispatch *)
Lemma first_nibble d v r : bits_of_bytes d = enc 4 v ++ r -> 0 <= v < 16 -> field 0 4 d = v /\ d <> [].
Proof.
  intros H R. split; [apply (field_enc 0 4 d [] v r); [exact H|reflexivity|cbn; lia]|].
  intros ->. apply (f_equal (@length bool)) in H. rewrite app_length, enc_length in H. discriminate.
Qed.
Theorem C31_dispatch : forall (d : bytes) (q : pkt),
  pkt_from_bytes KCtl d = Ok q -> d <> [] /\ msg_type q (field 0 4 d).
Proof.
  intros d q H. rewrite from_bytes_layer in H. cbn [layer] in H. unfold rd_control in H. bo H [t s1] E1.
  apply rd_uint_ok in E1. destruct E1 as [E1 R1]. destruct (first_nibble _ _ _ E1 R1) as [-> Hne]. split; [exact Hne|].
  destruct (t =? 8) eqn:E8.
  - apply rd_ecm_inv in H. destruct H as (? & ? & ? & ? & _ & _ & _ & ->). assert (t = 8) as -> by lia. constructor.
  - bo H [c s2] E2. okinj H. apply rd_ctl_type in E2. rewrite <- E2. destruct c; constructor.
Qed.
Print Assumptions C31_dispatch.
Theorem C31_other_types_rejected : forall (d : bytes), d <> [] ->
  (forall q, ~ msg_type q (field 0 4 d)) -> pkt_from_bytes KCtl d = Err EValue.
Proof.
  intros d Hne Hn. destruct d as [|[b7 b6 b5 b4 b3 b2 b1 b0] d']; [congruence|]. set (d := Byte b7 b6 b5 b4 b3 b2 b1 b0 :: d') in *.
  assert (field 0 4 d = ub [b7; b6; b5; b4]) as Hf by (apply (field_bits 0 4 _ [] _ ([b3; b2; b1; b0] ++ bits_of_bytes d')); reflexivity).
  rewrite from_bytes_layer. cbn [layer]. unfold rd_control.
  assert (rd_uint 4 (bits_of_bytes d) = Ok (field 0 4 d, [b3; b2; b1; b0] ++ bits_of_bytes d')) as -> by (rewrite Hf; reflexivity).
  cbn [bind]. set (t := field 0 4 d) in *. clearbody t.
  assert (forall q, msg_type q 8 \/ msg_type q 1 \/ msg_type q 2 \/ msg_type q 3 \/ msg_type q 4 \/ msg_type q 6 \/ msg_type q 7 -> True) as _ by auto.
  destruct (t =? 8) eqn:E8; [exfalso; assert (t = 8) as -> by lia; exact (Hn (PECM false false false false [] (PRaw [])) ltac:(constructor))|].
  unfold rd_ctl.
  destruct (t =? 1) eqn:E1; [exfalso; assert (t = 1) as -> by lia; exact (Hn (PCtl (CReq ex_mreq)) ltac:(constructor))|].
  destruct (t =? 2) eqn:E2; [exfalso; assert (t = 2) as -> by lia; exact (Hn (PCtl (CRep ex_mrep)) ltac:(constructor))|].
  destruct (t =? 3) eqn:E3; [exfalso; assert (t = 3) as -> by lia; exact (Hn (PCtl (CReg ex_mreg)) ltac:(constructor))|].
  destruct (t =? 4) eqn:E4; [exfalso; assert (t = 4) as -> by lia; exact (Hn (PCtl (CNot ex_mnot)) ltac:(constructor))|].
  destruct (t =? 6) eqn:E6; [exfalso; assert (t = 6) as -> by lia; exact (Hn (PCtl (CRef ex_mref)) ltac:(constructor))|].
  destruct (t =? 7) eqn:E7; [exfalso; assert (t = 7) as -> by lia; exact (Hn (PCtl (CInfo ex_info)) ltac:(constructor))|].
  reflexivity.
Qed.
Print Assumptions C31_other_types_rejected.
Theorem C31_empty_rejected : pkt_from_bytes KCtl [] = Err ERead.
Proof. reflexivity. Qed.
Theorem C31_emitted_type : forall (q : pkt) (t : Z) (out : bytes),
  msg_type q t -> pkt_to_bytes q = Ok out -> out <> [] /\ field 0 4 out = t.
Proof.
  intros q t out Ht H.
  assert (forall c, q = PCtl c -> ctl_type c = t -> 0 <= t < 16 -> out <> [] /\ field 0 4 out = t) as G.
  { intros c -> Hc R. cbn [pkt_to_bytes] in H. apply to_bytes_ok in H. destruct (w_ctl_starts _ _ H) as [r Hs].
    rewrite Hc in Hs. destruct (first_nibble _ _ _ Hs R). auto. }
  destruct Ht; try (eapply G; [reflexivity|reflexivity|lia]).
  cbn [pkt_to_bytes] in H. paybytes H p pb Ep. apply w_ecm_inv in H. destruct H as (-> & hb & -> & Hb).
  destruct (first_nibble (hb ++ pb) 8 ((false :: b :: r) ++ bits_of_bytes pb)); auto; [|lia].
  rewrite bits_of_bytes_app, Hb. unfold ecm_wire. rewrite <- app_assoc. reflexivity.
Qed.
Print Assumptions C31_emitted_type.
Example C31_example : pkt_from_bytes KCtl (B [80; 0]) = Err EValue /\
  is_ok (pkt_from_bytes KCtl (B [16; 0; 0; 1;  1; 2; 3; 4; 5; 6; 7; 8;  0; 0;  0; 1; 10; 0; 0; 1; 0; 8; 0; 1; 10; 0; 0; 0])) = true.
Proof. vm_compute. auto. Qed.
