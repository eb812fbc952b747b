(** * Properties C82 and C88: control messages encapsulated by the ETR (NAT traversal) and by the query scripts *)
From Verif Require Import Base BaseLemmas Afi AfiProofs Spec SpecLemmas Records Control SpecRec RecordsProofs ControlProofs Checksum ChecksumProofs
  PropControl Packet PacketProofs PacketStack SpecPkt PropPacket PropUdp PropPacket2 PropPacket3 Auth SpecAuth PropAuth Tree SpecTree TreeProofs
  Dict MapServer SpecMs PropMs PropMs2 Net Ddt SpecDdt PropDdt2 Etr SpecEtr PropEtr Daemon SpecDaemon PropDaemon PropDaemon2 PropDaemon3
  SpecAccept PropAccept SpecSend PropSend.

(** ** Lemmas *)
(** an IP packet as the ETR and the scripts make it *)
Definition an_ip (v : fam) (ttl src dst : Z) (u : pkt) : pkt :=
  match v with
  | V4 => PIPv4 (V4H 0 0 false false 0 ttl 17 (AIP V4 src) (AIP V4 dst) []) u
  | V6 => PIPv6 (V6H 0 0 17 ttl (AIP V6 src) (AIP V6 dst)) u
  end.
Lemma an_ip_plain v ttl src dst u : plain_ip (an_ip v ttl src dst u) u.
Proof. destruct v; constructor; reflexivity. Qed.
Lemma zeros26 : length (repeat false 26) = 26%nat.
Proof. reflexivity. Qed.
Lemma ecm_arrives ddt v ttl src dst s d ck c c' b :
  pkt_to_bytes (PCtl c) = Ok b -> pkt_from_bytes KCtl b = Ok c' -> u16 s -> u16 d -> u16 ck -> 28 + blen b <= 65535 ->
  in_bits 8 ttl -> in_bits (wz v) src -> in_bits (wz v) dst -> s <> 4341 -> d = 4342 ->
  exists out, pkt_to_bytes (PECM false ddt false false (repeat false 26) (an_ip v ttl src dst (PUDP s d ck (PCtl c)))) = Ok out /\
    pkt_from_bytes KCtl out = Ok (PECM false ddt false false (repeat false 26) (an_ip v ttl src dst (PUDP s d ck c'))).
Proof.
  intros Hb Hp Rs Rd Rc Rl Rt Ra Rb Ns Nd. pose proof (blen_nonneg b) as B0.
  assert (sendable (PUDP s d ck (PCtl c)) (8 + blen b)) as SU by (constructor; [constructor; exact Hb|exact Rs|exact Rd|exact Rc|lia]).
  assert (exists n, sendable (PECM false ddt false false (repeat false 26) (an_ip v ttl src dst (PUDP s d ck (PCtl c)))) n) as (n & SE).
  { destruct v; cbn [an_ip]; eexists; constructor; econstructor; try exact SU; unfold in_bits; cbn [h_tos h_id h_off h_df h_ttl h_proto h_src h_dst h_opts x_tc x_flow x_hop x_nh x_src x_dst]; try (cbn; lia); try exact Rt;
      try (intros X; exfalso; exact (X _ (pn_udp _ _ _ _))); try (eexists; split; [reflexivity|assumption]); auto; lia. }
  apply C92_sendable in SE; [|destruct v; cbn; auto]. destruct SE as (out & Eo & _). exists out. split; [exact Eo|].
  destruct (C30_ecm_round_trip_partial _ _ _ _ _ _ _ zeros26 Eo) as (_ & _ & ib & Ei & _ & G). apply G.
  destruct (plain_parse _ _ 17 ib (an_ip_plain v ttl src dst _) (pn_udp _ _ _ _) Ei) as (ub & Eu & _ & P). apply P. clear G P.
  exists (PUDP s d ck c'). split.
  - apply payload_udp. destruct (C17_udp_round_trip _ _ _ _ _ Eu) as (_ & _ & b' & Eb & _ & U). apply U. assert (b' = b) as -> by congruence.
    apply up_control; [exact Ns|lia|right; exact Nd|exact Hp].
  - destruct v; reflexivity.
Qed.
Lemma starts_type b t r : bits_of_bytes b = enc 4 t ++ r -> 0 <= t < 16 -> rd_uint 4 (bits_of_bytes b) = Ok (t, r).
Proof. intros H R. rewrite H. apply rd_uint_enc. cbn; lia. Qed.
Lemma ctl_parse c b rest c' : pkt_to_bytes (PCtl c) = Ok b -> rd_ctl (ctl_type c) (bits_of_bytes b) = Ok (c', rest) ->
  pkt_from_bytes KCtl b = Ok (PCtl c').
Proof.
  intros H P. cbn [pkt_to_bytes] in H. apply to_bytes_ok in H. destruct (w_ctl_starts _ _ H) as [r Hs].
  rewrite from_bytes_layer. cbn [layer]. unfold rd_control. assert (0 <= ctl_type c < 16) as R by (destruct c; cbn; lia).
  rewrite (starts_type _ _ _ Hs R). cbn [bind]. assert (ctl_type c =? 8 = false) as -> by (destruct c; reflexivity). rewrite P. reflexivity.
Qed.


(** two UDP messages whose payloads have the same bytes have the same checksum *)
Lemma checksum_bytes s d ck p p' a b : pkt_to_bytes p = pkt_to_bytes p' ->
  snd (calculate_checksum (UDP s d ck p) a b) = snd (calculate_checksum (UDP s d ck p') a b).
Proof.
  intros H. unfold calculate_checksum, pseudo_header. cbn [u_payload]. rewrite <- H.
  assert (pkt_to_bytes (udp_pkt (set_uck (UDP s d ck p) 0)) = pkt_to_bytes (udp_pkt (set_uck (UDP s d ck p') 0))) as ->
    by (cbn [udp_pkt set_uck u_sport u_dport u_ck u_payload pkt_to_bytes]; rewrite H; reflexivity).
  destruct (let* pb := pkt_to_bytes p in _) as [ph|e]; [|reflexivity].
  destruct (pkt_to_bytes (udp_pkt (set_uck (UDP s d ck p') 0))); reflexivity.
Qed.
Lemma verifies s d p p' v a b ck : pkt_to_bytes p = pkt_to_bytes p' ->
  calculate_checksum (UDP s d 0 p) (AIP v a) (AIP v b) = (UDP s d 0 p, Ok ck) ->
  1 <= ck <= 65535 /\ verify_checksum (UDP s d ck p') (AIP v a) (AIP v b) = (UDP s d ck p', Ok true).
Proof.
  intros H E. pose proof (checksum_bytes s d 0 p p' (AIP v a) (AIP v b) H) as X. rewrite E in X. cbn [snd] in X.
  destruct (calculate_checksum (UDP s d 0 p') (AIP v a) (AIP v b)) as [u' r] eqn:E'. cbn [snd] in X. subst r.
  destruct (C10_computed_checksum_verifies _ _ _ _ _ E') as (-> & R & V). split; [exact R|exact V].
Qed.
Lemma checksum_total s d p b v a c : pkt_to_bytes p = Ok b -> u16 s -> u16 d -> 8 + blen b <= 65535 -> in_bits (wz v) a -> in_bits (wz v) c ->
  exists ck, calculate_checksum (UDP s d 0 p) (AIP v a) (AIP v c) = (UDP s d 0 p, Ok ck).
Proof.
  intros Hb Rs Rd Rl Ra Rc. pose proof (blen_nonneg b) as B0. unfold calculate_checksum, pseudo_header. cbn [u_payload]. rewrite Hb. cbn [bind].
  assert (exists m, pkt_to_bytes (udp_pkt (set_uck (UDP s d 0 p) 0)) = Ok m) as (m & Em).
  { cbn [udp_pkt set_uck u_sport u_dport u_ck u_payload pkt_to_bytes]. rewrite Hb. destruct (w_udp_run s d 0 b Rs Rd) as (hb & _ & E); [unfold u16; lia|unfold u16; lia|eauto]. }
  destruct v.
  - rewrite (w_uint_in 32 a), (w_uint_in 32 c), (w_uint_in 16 17), (w_uint_in 16 (8 + blen b)) by (unfold in_bits in *; change (2 ^ wz V4) with (2 ^ Z.of_nat 32) in *; change (2 ^ Z.of_nat 32) with 4294967296 in *; change (2 ^ Z.of_nat 16) with 65536 in *; lia). cbn [bind].
    destruct (bytes_of_bits_total (enc 32 a ++ enc 32 c ++ enc 16 17 ++ enc 16 (8 + blen b)) 12) as (ph & -> & _); [rewrite !app_length, !enc_length; reflexivity|].
    rewrite Em. eauto.
  - rewrite (w_uint_in 128 a), (w_uint_in 128 c), (w_uint_in 32 17), (w_uint_in 32 (8 + blen b)) by (unfold in_bits in *; change (2 ^ wz V6) with (2 ^ Z.of_nat 128) in *; change (2 ^ Z.of_nat 32) with 4294967296 in *; change (2 ^ Z.of_nat 16) with 65536 in *; lia). cbn [bind].
    destruct (bytes_of_bits_total (enc 128 a ++ enc 128 c ++ enc 32 (8 + blen b) ++ enc 32 17) 40) as (ph & -> & _); [rewrite !app_length, !enc_length; reflexivity|].
    rewrite Em. eauto.
Qed.

(** ** C88: the queries of map_resolve and ddt_query *)
(** An ECM, with the D bit exactly for ddt_query, around an IP packet from the unspecified address to the address asked for,
    with TTL or hop limit 64, around UDP to port 4342 with a checksum that verifies, around a Map-Request for the host
    prefix, with the given nonce and ITR-RLOC: the query can always be made and sent, every receiver reads that, and a
    daemon takes the Map-Request out of it. *)
Theorem C88_query ddt nonce vs zs v q sport : length nonce = 8%nat -> in_bits (wz vs) zs -> in_bits (wz v) q -> in_bits 16 sport -> sport <> 4341 ->
  exists m out ck, query_message ddt nonce (AIP vs zs) v q sport = Ok m /\ pkt_to_bytes m = Ok out /\
    let req := MReq false false false false false (repeat false 9) nonce (AIP v 0) [AIP vs zs] [ANet v q (wz v)] None in
    pkt_from_bytes KCtl out = Ok (PECM false ddt false false (repeat false 26) (an_ip v 64 0 q (PUDP sport 4342 ck (PCtl (CReq req))))) /\
    ck <> 0 /\ snd (verify_checksum (UDP sport 4342 ck (PCtl (CReq req))) (AIP v 0) (AIP v q)) = Ok true /\
    forall ctr, snd (received ctr (PECM false ddt false false (repeat false 26) (an_ip v 64 0 q (PUDP sport 4342 ck (PCtl (CReq req)))))) = Ok (Some (PCtl (CReq req))).
Proof.
  intros Ln Rs Rq Rp Np.
  set (req0 := MReq false false false false false (repeat false 9) nonce (AIP v 0) [AIP vs zs] [AIP v q] None).
  set (req := MReq false false false false false (repeat false 9) nonce (AIP v 0) [AIP vs zs] [ANet v q (wz v)] None).
  assert (obj_mreq req0) as O.
  { unfold obj_mreq, req0. cbn [q_rsv q_src q_eids q_reply]. split; [reflexivity|]. split; [reflexivity|]. split; [|exact I].
    cbn [forallb wf_addr wf_ip]. rewrite andb_true_r. unfold in_bits in Rq. unfold fits. apply andb_true_iff. split; [apply Z.leb_le; lia|apply Z.ltb_lt]. destruct v; apply Rq. }
  assert (exists b, mreq_to_bytes req0 = Ok b) as (b & Hb).
  { apply is_ok_iff. apply C91_map_request; [exact O|]. constructor; unfold req0; cbn [q_rlocs q_eids q_nonce q_src q_reply length].
    - split; [lia|]. constructor; [eauto|constructor].
    - split; [lia|]. constructor; [eexists; constructor|constructor].
    - exact Ln.
    - right. split; [constructor; unfold in_bits; destruct v; cbn; lia|]. exists v, 0. constructor. reflexivity.
    - exact I. }
  assert (mreq_from_bytes b = Ok req) as Pb.
  { destruct (C24_map_request_roundtrip _ _ O Hb) as (m' & A & P). specialize (P []). rewrite app_nil_r in P. rewrite P. f_equal.
    destruct A as [(F1 & F2 & F3 & F4 & F5 & F6) A2 A3 A4 A5 A6]. unfold req0 in *. cbn [q_auth q_probe q_smr q_pitr q_smri q_rsv q_nonce q_src q_rlocs q_eids q_reply] in *.
    destruct m' as [a1 a2 a3 a4 a5 a6 a7 a8 a9 a10 a11]. cbn [q_auth q_probe q_smr q_pitr q_smri q_rsv q_nonce q_src q_rlocs q_eids q_reply] in *. subst.
    inversion A5 as [|? ? ? ? X Y]; subst. inversion X; subst. inversion Y; subst. destruct a11; [destruct A6|]. reflexivity. }
  assert (pkt_to_bytes (PCtl (CReq req0)) = Ok b) as Hb1 by exact Hb.
  assert (pkt_from_bytes KCtl b = Ok (PCtl (CReq req))) as Pc.
  { unfold mreq_from_bytes, from_bytes in Pb. destruct (rd_mreq (bits_of_bytes b)) as [[m s']|] eqn:E; cbn [bind] in Pb; [|discriminate]. assert (m = req) as -> by congruence. apply (ctl_parse _ _ s' (CReq req) Hb1). cbn [ctl_type]. unfold rd_ctl. cbn [Z.eqb Pos.eqb]. rewrite E. reflexivity. }
  assert (pkt_to_bytes (PCtl (CReq req0)) = pkt_to_bytes (PCtl (CReq req))) as Eb.
  { cbn [pkt_to_bytes]. unfold req0, req, to_bytes. cbn [w_ctl]. unfold w_mreq, sanitize_mreq. cbn [q_auth q_probe q_smr q_pitr q_smri q_rsv q_nonce q_src q_rlocs q_eids q_reply].
    assert (blen nonce =? 8 = true) as -> by (unfold blen; rewrite Ln; reflexivity). destruct v, vs; reflexivity. }
  assert (blen b <= 100) as Lb.
  { apply to_bytes_ok in Hb. unfold w_mreq, sanitize_mreq in Hb. bo Hb m' E. bo E [] E1. bo E [] E2. bo E [] E3. bo E [] E4. bo E [] E5. bo E [] E6. bo E rep E7. okinj E.
    unfold req0 in *. cbn [q_auth q_probe q_smr q_pitr q_smri q_rsv q_nonce q_src q_rlocs q_eids q_reply] in *. okinj E7.
    bo Hb ty F1. bo Hb irc F2. bo Hb cnt F3. bo Hb sb F4. bo Hb rb F5. bo Hb eb F6. okinj Hb. winv.
    unfold concatM in F5, F6. cbn [mapM] in F5, F6. bo F5 r1 F5a. okinj F5. bo F6 e1 F6a. okinj F6. bo F5a x1 F5b. cbn [bind] in F5a. okinj F5a. bo F6a x2 F6b. cbn [bind] in F6a. okinj F6a. rename F5b into F5a, F6b into F6a. unfold w_eid in F6a. assert (ip_network (AIP v q) = Ok (ANet v q (wz v))) as N by (destruct v; reflexivity).
    rewrite N in F6a. cbn [bind prefixlen] in F6a. bo F6a a F6b. bo F6a c F6c. okinj F6a. winv. cbn [concat] in *.
    apply wire_size_spec in F4. apply wire_size_spec in F5a. apply wire_size_spec in F6c. cbn [wire_size] in *.
    match goal with H : _ = bits_of_bytes b |- _ => apply (f_equal (@length bool)) in H; repeat rewrite ?app_length, ?enc_length, ?zeros_length, ?bits_of_bytes_length in H; cbn [length] in H; rewrite ?app_length, ?bits_of_bytes_length in H; rewrite Ln in H; unfold blen; rename H into HL end.
    rewrite repeat_length in HL. destruct v, vs; lia. }
  assert (u16 sport) as Rp' by exact Rp.
  destruct (checksum_total sport 4342 _ b v 0 q Hb1 Rp' ltac:(unfold u16; lia) ltac:(lia) ltac:(unfold in_bits; destruct v; cbn; lia) Rq) as (ck & Ec).
  destruct (verifies _ _ _ _ _ _ _ _ Eb Ec) as (Rc & V).
  destruct (ecm_arrives ddt v 64 0 q sport 4342 ck (CReq req0) (PCtl (CReq req)) b Hb1 Pc Rp' ltac:(unfold u16; lia) ltac:(unfold u16; lia) ltac:(lia)
    ltac:(unfold in_bits; cbn; lia) ltac:(unfold in_bits; destruct v; cbn; lia) Rq Np eq_refl) as (out & Eo & Po).
  exists (PECM false ddt false false (repeat false 26) (an_ip v 64 0 q (PUDP sport 4342 ck (PCtl (CReq req0))))), out, ck.
  split. { unfold query_message. fold req0. rewrite Ec. cbn [bind]. destruct v; reflexivity. }
  split; [exact Eo|]. cbn zeta. split; [exact Po|]. split; [lia|]. split; [rewrite V; reflexivity|].
  intros ctr. unfold received. cbn [snd is_control negb]. unfold get_udp. assert (sport =? 4341 = false) as N by lia. destruct v; cbn; rewrite N; cbn; rewrite ?orb_true_r; reflexivity.
Qed.
Print Assumptions C88_query.

(** ** C82: a Map-Register through an RTR *)
Lemma same_authentic hm key g g' : sanitize_mreg g = Ok g' -> authentic hm key g -> authentic hm key g'.
Proof.
  intros S A. unfold authentic, verify, calculate in *. assert (a_san (AReg g) = Ok (AReg g')) as SA by (cbn [a_san]; rewrite S; reflexivity).
  destruct (a_san_same _ _ SA) as (K & Ed & _). rewrite K. destruct (a_key (AReg g) =? 0) eqn:E0.
  { cbn [snd bind] in *. rewrite Ed. exact A. }
  destruct (digest_len (a_key (AReg g))) as [n|]; [|discriminate].
  destruct (a_to_bytes (set_auth (AReg g) (repeat zero_byte n))) as [msg|e] eqn:Em; [|discriminate].
  destruct (san_of_bytes _ _ Em) as (m0 & S0 & B0). rewrite a_san_set, SA in S0. cbn [bind] in S0. assert (m0 = set_auth (AReg g') (repeat zero_byte n)) as -> by congruence. rewrite B0. cbn [snd bind] in *. rewrite a_auth_set in *. rewrite Ed. exact A.
Qed.
(** what the ETR gives to send_message when it is behind a NAT: on the wire it is an ECM around an IP packet from its private
    address to the Map-Server, around UDP between the control ports with a checksum that verifies, around the
    Map-Register; a receiver gets the same Map-Register, which is as authentic as before.  It goes to the RTRs, from the data
    port. *)
Theorem C82_through_rtr r v src dst rtrs g b : tr_ms r = (v, dst) -> in_bits (wz v) src -> in_bits (wz v) dst ->
  obj_mreg g -> mreg_to_bytes g = Ok b -> 28 + Z.of_nat (length b) <= 65535 ->
  exists m out ck g', send_register r (Some ((v, src), rtrs)) g = Ok (Some (OMsg m VData rtrs 4342)) /\ pkt_to_bytes m = Ok out /\
    arrives_mreg g g' /\ (forall hm key, authentic hm key g -> authentic hm key g') /\ mreg_to_bytes g' = Ok b /\
    pkt_from_bytes KCtl out = Ok (PECM false false false false (repeat false 26)
      (an_ip v (match v with V4 => 63 | V6 => 0 end) src dst (PUDP 4342 4342 ck (PCtl (CReg g'))))) /\
    ck <> 0 /\ snd (verify_checksum (UDP 4342 4342 ck (PCtl (CReg g'))) (AIP v src) (AIP v dst)) = Ok true.
Proof.
  intros Ems Rs Rd O Hb Lb. fold (blen b) in Lb. pose proof (blen_nonneg b) as B0.
  destruct (parse_back (AReg g) b O Hb) as ([g'| |] & S & P); cbn [a_san] in S; [|bo S x E; discriminate|bo S x E; discriminate].
  bo S g1 S1. okinj S. injection S as ->. specialize (P []). rewrite app_nil_r in P. cbn [kind a_from_bytes] in P. bo P g2 P1. okinj P. injection P as ->.
  destruct (san_of_bytes (AReg g) b Hb) as (m' & S' & Hb'). cbn [a_san] in S'. rewrite S1 in S'. cbn [bind] in S'. injection S' as <-. cbn [a_to_bytes] in Hb'.
  assert (pkt_to_bytes (PCtl (CReg g)) = Ok b) as Hc by exact Hb.
  assert (pkt_to_bytes (PCtl (CReg g')) = Ok b) as Hc' by exact Hb'.
  assert (pkt_from_bytes KCtl b = Ok (PCtl (CReg g'))) as Pc.
  { unfold mreg_from_bytes, from_bytes in P1. bo P1 [m s'] E. assert (m = g') as -> by congruence. apply (ctl_parse _ _ s' (CReg g') Hc). cbn [ctl_type]. unfold rd_ctl. cbn [Z.eqb Pos.eqb]. rewrite E. reflexivity. }
  assert (u16 4342) as R4 by (unfold u16; lia).
  destruct (checksum_total 4342 4342 _ b v src dst Hc R4 R4 ltac:(lia) Rs Rd) as (ck & Ec).
  destruct (verifies _ _ _ (PCtl (CReg g')) _ _ _ _ (eq_trans Hc (eq_sym Hc')) Ec) as (Rc & V).
  destruct (ecm_arrives false v (match v with V4 => 63 | V6 => 0 end) src dst 4342 4342 ck (CReg g) (PCtl (CReg g')) b Hc Pc R4 R4 ltac:(unfold u16; lia) Lb
    ltac:(unfold in_bits; destruct v; cbn; lia) Rs Rd ltac:(lia) eq_refl) as (out & Eo & Po).
  eexists _, out, ck, g'. split.
  { unfold send_register, natt_message. rewrite Ems. cbn [fst snd]. assert (fam_eqb v v = true) as -> by (destruct v; reflexivity). cbn [negb].
    rewrite Ec. cbn [bind]. reflexivity. }
  split. { etransitivity; [|exact Eo]. destruct v; reflexivity. }
  split. { apply (a_san_arrives (AReg g) (AReg g')). cbn [a_san]. rewrite S1. reflexivity. }
  split; [intros hm key; apply same_authentic; exact S1|]. split; [exact Hb'|]. split; [exact Po|]. split; [lia|]. rewrite V. reflexivity.
Qed.
Print Assumptions C82_through_rtr.
(** nothing at all is sent when the private address and the Map-Server are of different families; no error is reported *)
Theorem C82_other_family r v src w dst rtrs g : tr_ms r = (w, dst) -> v <> w -> send_register r (Some ((v, src), rtrs)) g = Ok None.
Proof. intros E N. unfold send_register, natt_message. rewrite E. cbn [fst snd]. assert (fam_eqb w v = false) as -> by (destruct w, v; try reflexivity; congruence). reflexivity. Qed.
Print Assumptions C82_other_family.
(** finding: over IPv6 the inner packet has hop limit 0 *)
Theorem C82_refuted : ~ (forall r v src dst rtrs g b m out, tr_ms r = (v, dst) -> in_bits (wz v) src -> in_bits (wz v) dst -> obj_mreg g -> mreg_to_bytes g = Ok b ->
  send_register r (Some ((v, src), rtrs)) g = Ok (Some (OMsg m VData rtrs 4342)) -> pkt_to_bytes m = Ok out ->
  exists ttl ck g', 0 < ttl /\ pkt_from_bytes KCtl out = Ok (PECM false false false false (repeat false 26) (an_ip v ttl src dst (PUDP 4342 4342 ck (PCtl (CReg g')))))).
Proof.
  intros H. pose (r := Etrr (V6, 5) 1 [] false None).
  assert (exists b, mreg_to_bytes open_register = Ok b /\ 28 + Z.of_nat (length b) <= 65535) as (b & Hb & Lb) by (eexists; split; [vm_compute; reflexivity|cbn; lia]).
  assert (forall z, 0 <= z < 10 -> in_bits (wz V6) z) as R by (intros z Hz; unfold in_bits; cbn; lia).
  destruct (C82_through_rtr r V6 7 5 [AIP V6 9] open_register b eq_refl (R 7 ltac:(lia)) (R 5 ltac:(lia)) open_register_obj Hb Lb) as (m & out & ck & g' & Es & Eo & _ & _ & _ & P & _).
  destruct (H r V6 7 5 [AIP V6 9] open_register b m out eq_refl (R 7 ltac:(lia)) (R 5 ltac:(lia)) open_register_obj Hb Es Eo) as (ttl & ck' & g2 & T & P').
  rewrite P in P'. cbn [an_ip] in P'. injection P' as <- _ _. lia.
Qed.
Print Assumptions C82_refuted.
Example C88_example : exists m out, query_message true (B [1;2;3;4;5;6;7;8]) (AIP V6 77) V4 167772161 30007 = Ok m /\ pkt_to_bytes m = Ok out /\ length out = 76%nat.
Proof. do 2 eexists. split; [vm_compute; reflexivity|]. split; vm_compute; reflexivity. Qed.
