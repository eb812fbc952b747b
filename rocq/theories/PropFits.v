(** * Property C137: everything lispd sends fits into a datagram *)
From Verif Require Import Base BaseLemmas Afi AfiProofs Spec SpecLemmas SpecEid PropEid Records Control SpecRec RecordsProofs ControlProofs
  Packet PacketProofs PacketStack SpecPkt Auth SpecAuth PropAuth Tree SpecTree TreeProofs PropTree PropTree2
  Dict MapServer SpecMs PropMs PropMs2 Net Ddt SpecDdt PropDdt PropDdt2 Etr SpecEtr PropEtr InfoReq Daemon SpecDaemon PropDaemon PropDaemon2 PropDaemon3 PropPacket2
  SpecAccept PropAccept SpecSend PropSend PropAmpl SpecDepth.

(** ** records *)
Lemma total_bound (l : list loc) : Forall loc_ip l -> total (map loc_size l) <= 24 * zlen l.
Proof.
  induction 1 as [|x l (v & z & E) Hl IH]; [cbn; lia|]. change (total (map loc_size (x :: l))) with (loc_size x + total (map loc_size l)).
  assert (loc_size x <= 24) by (unfold loc_size; rewrite E; destruct v; cbn [wire_size]; lia). cbn [length]. lia.
Qed.
Lemma w_mrec_bound r b : w_mrec r = Ok b -> rec_size r <= 6130 + wire_size (mr_eid r).
Proof.
  unfold w_mrec. intros H. bo H r' E. pose proof (sanitize_mrec_inv _ _ E) as (_ & _ & _ & _ & Hl & Hs & _).
  destruct (sort_locs_ok _ _ Hl Hs) as [Hip _]. destruct (sort_locs_idem _ _ Hl Hs) as [_ Hp].
  unfold enc_mrec in H. bo H a E1. bo H n E2. winv. clear H. unfold lenZ in *. apply Permutation.Permutation_length in Hp.
  apply total_bound in Hip. change (2 ^ Z.of_nat 8) with 256 in *. unfold rec_size. lia.
Qed.
Lemma mreg_len g b : obj_mreg g -> mreg_to_bytes g = Ok b ->
  zlen b <= 40 + zlen (g_authdata g) + total (map rec_size (g_records g)) /\
  Forall (fun r => rec_size r <= 6130 + wire_size (mr_eid r)) (g_records g).
Proof.
  intros (O0 & O1 & O1' & O2) H. unfold mreg_to_bytes, to_bytes in H. bo H s E. apply bytes_l in H. unfold w_mreg, sanitize_mreg in E.
  bo E m' E0. bo E0 [] E1. bo E0 [] E2. bo E0 [] E3. bo E0 rs E4. okinj E0.
  cbn [g_proxy g_rtr g_notify g_rsv1 g_rsv2 g_nonce g_key g_authdata g_records g_xtr g_site] in E.
  bo E ty E5. bo E cnt E6. bo E au E7. bo E rb E8. bo E xs E9. okinj E. pose proof E8 as E8'.
  pose proof (mapM_Forall _ _ _ _ sanitize_mrec_wf O2 E4) as O2'. apply w_mrecs_size in E8; [|exact O2']. rewrite (mapM_size _ _ E4) in E8.
  assert (zlen xs <= 8 * 24) as X.
  { unfold w_xtr in E9. destruct (g_has_xtr _); [mon E9; winv; okinj E9; len; lia|okinj E9; cbn; lia]. }
  split.
  - unfold w_authdata in E7. bo E7 k E10. bo E7 l E11. okinj E7. unfold blen in *. winv. len. lia.
  - apply concatM_ok in E8'. destruct E8' as (bs & F & _). clear - F E4.
    revert bs rs F E4. induction (g_records g) as [|r l IH]; intros bs rs F E4; [constructor|]. cbn [mapM] in E4. bo E4 y E1. bo E4 ys E2. okinj E4.
    inversion F as [|? w ? bs' Hw F']; subst. constructor; [|apply (IH _ _ F' E2)].
    assert (w_mrec r = Ok w) as W by (unfold w_mrec in *; rewrite E1; rewrite (sanitize_mrec_idem _ _ E1) in Hw; exact Hw). apply w_mrec_bound in W. exact W.
Qed.

(** ** what [insert_authentication_data] leaves *)
Lemma after_one r : exists r', after_mrecs [r] = [r'] /\ rec_size r' = rec_size r /\ mr_eid r' = mr_eid r /\ (obj_mrec r -> obj_mrec r').
Proof.
  cbn [after_mrecs]. unfold after_mrec. destruct (sanitize_mrec r) as [r'|e] eqn:E.
  - exists r'. split; [reflexivity|]. split; [apply sanitize_size, E|]. split; [apply (am_eid _ _ (sanitize_mrec_arrives _ _ E))|].
    intros O. eapply sanitize_mrec_wf; eassumption.
  - destruct (_ && _); eexists; (split; [reflexivity|]); (split; [reflexivity|]); (split; [reflexivity|]); auto.
Qed.
Lemma auth_size_bound k : (auth_size k <= 32)%nat.
Proof. unfold auth_size, digest_len. destruct (k =? 1); [lia|]. destruct (k =? 2); lia. Qed.
Lemma calc_len hm a key a' c : digests hm -> calculate hm a key = (a', Ok c) -> (length c <= 32)%nat.
Proof.
  intros HD. unfold calculate. destruct (Z.eqb_spec (a_key a) 0); [intros [= _ <-]; cbn; lia|].
  destruct (digest_len (a_key a)) as [n0|] eqn:E; [|discriminate]. destruct (a_to_bytes _); [|discriminate]. intros [= _ <-].
  pose proof (auth_size_bound (a_key a)) as B. unfold auth_size in B. rewrite E in B.
  rewrite (HD (a_key a) n0); [exact B|]. unfold digest_len in E. unfold digest_size.
  destruct (Z.eqb_spec (a_key a) 1); [injection E as <-; auto|]. destruct (Z.eqb_spec (a_key a) 2); [injection E as <-; auto|discriminate].
Qed.
Lemma insert_sizes hm m rec key g u : digests hm -> g_records m = [rec] -> insert hm (AReg m) key = (AReg g, Ok u) ->
  zlen (g_authdata g) <= 32 /\ (exists r', g_records g = [r'] /\ rec_size r' = rec_size rec /\ mr_eid r' = mr_eid rec /\ (obj_mrec rec -> obj_mrec r')) /\
  (obj_mreg m -> obj_mreg g).
Proof.
  intros HD Hr H. unfold insert in H. destruct (calculate hm (AReg m) key) as [a' [c|]] eqn:E; [|discriminate].
  pose proof (calc_len _ _ _ _ _ HD E) as L. injection H as H _.
  assert (exists x rs, a' = AReg (MReg (g_proxy m) (g_rtr m) (g_notify m) (g_rsv1 m) (g_rsv2 m) (g_nonce m) (g_key m) x rs (g_xtr m) (g_site m)) /\
    exists r', rs = [r'] /\ rec_size r' = rec_size rec /\ mr_eid r' = mr_eid rec /\ (obj_mrec rec -> obj_mrec r')) as (x & rs & -> & r' & -> & R).
  { unfold calculate in E. destruct (a_key (AReg m) =? 0).
    - injection E as <- _. exists (g_authdata m), [rec]. split; [rewrite <- Hr; destruct m; reflexivity|]. exists rec. split; [reflexivity|]. split; [reflexivity|]. split; [reflexivity|]. exact (fun o => o).
    - destruct (digest_len _) as [n|]; [|discriminate]. destruct (a_to_bytes _); [|discriminate]. injection E as <- _.
      cbn [set_auth after g_xtr g_site g_key g_records a_auth].
      destruct (_ && _); cbn [set_auth g_proxy g_rtr g_notify g_rsv1 g_rsv2 g_nonce g_key g_authdata g_records g_xtr g_site].
      + destruct (after_one rec) as (r' & Ea & R). exists (g_authdata m), (after_mrecs [rec]). rewrite Hr. split; [reflexivity|]. exists r'. split; [exact Ea|exact R].
      + exists (g_authdata m), [rec]. rewrite Hr. split; [reflexivity|]. exists rec. split; [reflexivity|]. split; [reflexivity|]. split; [reflexivity|]. exact (fun o => o). }
  cbn [set_auth] in H. injection H as <-. cbn [g_authdata g_records]. split; [lia|]. split; [exists r'; auto|].
  unfold obj_mreg. cbn [g_rsv1 g_rsv2 g_nonce g_records]. rewrite Hr. intros (O1 & O2 & O3 & O4). inversion O4; subst. repeat split; auto. constructor; [apply R; assumption|constructor].
Qed.

(** ** The registrations: a Map-Register of an ETR, sent directly or through an RTR *)
Lemma register_size hm p r ls rtrs want nonce xtr site g u b : digests hm -> wf_pfx p -> Forall obj_loc ls -> length nonce = 8%nat ->
  insert hm (AReg (new_register p r ls rtrs want nonce xtr site)) (tr_key r) = (AReg g, Ok u) -> mreg_to_bytes g = Ok b -> zlen b <= 6220.
Proof.
  intros HD W O N EI Eb. destruct (insert_sizes hm (new_register p r ls rtrs want nonce xtr site) (new_mrec 0 p ls) _ _ _ HD eq_refl EI) as (L & (r' & Er & _ & Ee & _) & Og).
  assert (obj_mreg g) as Og'.
  { apply Og. repeat split; auto. constructor; [|constructor]. split; [reflexivity|]. split; [apply wf_pfx_addr, W|exact O]. }
  destruct (mreg_len _ _ Og' Eb) as [LB F]. rewrite Er in *. inversion F as [|? ? F1 _]; subst. rewrite Ee in F1. cbn [new_mrec mr_eid] in F1.
  change (total (map rec_size [r'])) with (rec_size r' + 0) in LB. cbn [wire_size] in F1. destruct (x_fam p); lia.
Qed.
Lemma announce_obj socks rtrs : forall locs included acc ls, Forall obj_loc acc -> announce socks rtrs locs included acc = Ok ls -> Forall obj_loc ls.
Proof.
  induction locs as [|l locs IH]; intros included acc ls Ha H; cbn [announce] in H; [okinj H; exact Ha|].
  destruct (l_addr l) as [|v z| | | | | | |]; try discriminate. destruct (z =? 0); [eapply IH; eauto|].
  destruct (_ && _).
  - destruct included; [eapply IH; eauto|]. eapply IH; [|exact H]. apply fold_add_all; [|exact Ha]. apply Forall_forall. intros a _. reflexivity.
  - eapply IH; [|exact H]. apply set_add_all; [reflexivity|exact Ha].
Qed.
Theorem C137_register : forall hm p r locs stored socks tentative ls rtrs want nonce xtr site g u nat m v to port b,
  digests hm -> wf_pfx p -> length nonce = 8%nat -> get_etr_locators locs stored socks tentative = Ok ls ->
  insert hm (AReg (new_register p r ls rtrs want nonce xtr site)) (tr_key r) = (AReg g, Ok u) ->
  send_register r nat g = Ok (Some (OMsg m v to port)) -> pkt_to_bytes m = Ok b ->
  Z.of_nat (length b) <= 6272.
Proof.
  intros hm p r locs stored socks tentative ls rtrs want nonce xtr site g u nat m v to port b HD W N El EI Es Eb.
  assert (Forall obj_loc ls) as O by (unfold get_etr_locators in El; bo El rt Er; eapply announce_obj; [constructor|exact El]).
  pose proof (fun b => register_size _ _ _ _ _ _ _ _ _ _ _ b HD W O N EI) as R.
  unfold send_register in Es. destruct nat as [[private rs]|].
  2: { injection Es as <- _ _ _. cbn [pkt_to_bytes] in Eb. change (to_bytes w_ctl (CReg g)) with (mreg_to_bytes g) in Eb. apply R in Eb. lia. }
  bo Es o Eo. destruct o as [m0|]; [|discriminate]. injection Es as <- _ _ _. unfold natt_message in Eo. destruct (negb _); [discriminate|].
  destruct (calculate_checksum _ _ _) as [u0 c0] eqn:Ec. bo Eo c Ec'. injection Eo as <-.
  assert (u_payload u0 = PCtl (CReg g)) as U.
  { unfold calculate_checksum in Ec. destruct (pseudo_header _ _ _); [|injection Ec as <- _; reflexivity]. destruct (pkt_to_bytes _); injection Ec as <- _; reflexivity. }
  assert (sendable (PECM false false false false (repeat false 26) (natt_ip private (tr_ms r) (udp_pkt (set_uck u0 c)))) (zlen b)) as S.
  { apply C92_sendable; [|eauto]. cbn [obj_pkt]. split; [apply repeat_length|]. unfold natt_ip. destruct (fst (tr_ms r)); cbn [obj_pkt udp_pkt set_uck u_payload]; rewrite U; exact Logic.I. }
  assert (forall n, sendable (udp_pkt (set_uck u0 c)) n -> n <= 6228) as SU.
  { intros n S'. unfold udp_pkt, set_uck in S'. cbn [u_payload u_sport u_dport u_ck] in S'. rewrite U in S'. remember (PCtl (CReg g)) as pc eqn:Epc. inversion S'; subst.
    match goal with H : sendable (PCtl _) _ |- _ => inversion H; subst end.
    match goal with H : pkt_to_bytes (PCtl _) = Ok _ |- _ => apply R in H; unfold blen; clear - H; lia end. }
  remember (udp_pkt (set_uck u0 c)) as pu eqn:Epu. clear Eb Ec.
  remember (natt_ip private (tr_ms r) pu) as ip eqn:Eip. remember (zlen b) as zb eqn:Ezb.
  inversion S; subst rtr rel rsv p0 ddt. clear S. match goal with H : sendable ip ?n |- _ => assert (n <= 6268) as X; [|lia]; clear - H Eip SU Epu; rename H into S1 end.
  subst ip. unfold natt_ip in S1. destruct (fst (tr_ms r)); inversion S1; subst h p.
  - match goal with H : sendable pu _ |- _ => apply SU in H end. cbn [h_opts] in *. change (round_up 4 (blen [])) with 0 in *. lia.
  - match goal with H : sendable pu _ |- _ => apply SU in H end. lia.
Qed.
(** ** The Info-Requests *)
Theorem C137_info_request : forall hm p r nonce m u b, digests hm -> length nonce = 8%nat ->
  make_info_request hm p r nonce = (AInfo m, Ok u) -> info_to_bytes m = Ok b -> Z.of_nat (length b) <= 74.
Proof.
  intros hm p r nonce m u b HD N EI Eb. unfold make_info_request, insert in EI.
  destruct (calculate hm (AInfo (new_info_request p r nonce)) (tr_key r)) as [a' [c|]] eqn:E; [|discriminate].
  pose proof (calc_len _ _ _ _ _ HD E) as L. injection EI as EI _.
  assert (m = Info false (repeat false 27) nonce (tr_keyid r) c 1440 (repeat false 8) (ANet (x_fam p) (x_net p) (x_len p)) ANone) as ->.
  { unfold calculate in E. destruct (_ =? 0); [injection E as <- _; injection EI as <-; reflexivity|].
    destruct (digest_len _); [|discriminate]. destruct (a_to_bytes _); [|discriminate]. injection E as <- _. injection EI as <-. reflexivity. }
  unfold info_to_bytes, to_bytes in Eb. bo Eb s Es. apply bytes_l in Eb. unfold w_info in Es. bo Es m' E0.
  assert (m' = Info false (repeat false 27) nonce (tr_keyid r) c 1440 (repeat false 8) (ANet (x_fam p) (x_net p) (x_len p)) ANone) as -> by (unfold sanitize_info in E0; mon E0; okinj E0; reflexivity).
  clear E0. cbn [i_reply i_rsv1 i_nonce i_key i_authdata i_ttl i_rsv2 i_eid i_data] in Es.
  bo Es t E1. bo Es au E2. bo Es ttl E3. bo Es n E4. bo Es ml E5. bo Es e E6. bo Es d E7. okinj Es.
  apply wire_size_spec in E6. apply wire_size_spec in E7. cbn [wire_size] in E6, E7.
  unfold w_authdata in E2. bo E2 k E10. bo E2 l E11. okinj E2. unfold blen in *. winv. len. rewrite !repeat_length in *. destruct (x_fam p); lia.
Qed.

(** ** The answers *)
Lemma mrep_bound a b c nonce r out : mrep_to_bytes (MRep a b c (repeat false 17) nonce [r]) = Ok out -> rec_size r <= 6130 + wire_size (mr_eid r).
Proof.
  intros H. unfold mrep_to_bytes, to_bytes in H. bo H s E. clear H. unfold w_mrep, sanitize_mrep in E.
  cbn [p_probe p_enlra p_security p_rsv p_nonce p_records mapM] in E. bo E m' E0. bo E0 [] E1. bo E0 [] E2. bo E0 rs E3. okinj E0.
  bo E3 r' E4. cbn [bind] in E3. okinj E3. cbn [p_probe p_enlra p_security p_rsv p_nonce p_records] in E.
  bo E ty E5. bo E cnt E6. bo E rb E7. clear E. apply concatM_ok in E7. destruct E7 as (bs & E7 & ->).
  inversion E7 as [|? w ? ? E9 E7']; subst. apply (w_mrec_bound r w). unfold w_mrec in *. rewrite E4. rewrite (sanitize_mrec_idem _ _ E4) in E9. exact E9.
Qed.
Lemma reply_bound cfg w socks m dest port s b : handle_map_request cfg w socks m dest port = Ok (Some s) -> mrep_to_bytes (s_msg s) = Ok b -> zlen b <= 6160.
Proof.
  intros H Hb. unfold handle_map_request in H. destruct (q_eids m) as [|eid []]; try discriminate. destruct (determine eid) as [[[iid afi] a]|]; [|discriminate].
  destruct (root_of cfg iid afi); [|discriminate]. destruct (pfx_of a); [|discriminate]. bo H l E. destruct l as [|x l]; [discriminate|].
  destruct (n_cls x); try discriminate. bo H s' E'. injection H as <-. unfold etr_map_request in E'. bo E' ls El. injection E' as <-.
  assert (Forall obj_loc ls) as O by (unfold get_etr_locators in El; bo El rt Er; eapply announce_obj; [constructor|exact El]).
  cbn [s_msg] in Hb. pose proof (mrep_bound _ _ _ _ _ _ Hb) as B.
  destruct ls as [|y ls].
  - apply mrep_size in Hb; [|reflexivity|constructor]. cbn [new_mrec mr_eid wire_size] in B. destruct (x_fam (n_pfx x)); lia.
  - apply mrep_size in Hb; [|reflexivity|].
    2: { cbn [mr_locs new_mrec]. rewrite Forall_map. eapply Forall_impl; [|exact O]. intros z Hz. exact Hz. }
    cbn [new_mrec mr_eid wire_size] in B. destruct (x_fam (n_pfx x)); lia.
Qed.
Theorem C137_reply : forall hm cfg socks st e r v to port b,
  In (OMsg (PCtl (CRep r)) v to port) (snd (step hm cfg socks st e)) -> pkt_to_bytes (PCtl (CRep r)) = Ok b -> Z.of_nat (length b) <= 6160.
Proof.
  intros hm cfg socks st e r v to port b Hin Hb.
  assert ((exists ar d clock, e = AtControl ar d clock \/ e = AtData ar d clock) \/ exists petr d, e = Queued petr d \/ snd (step hm cfg socks st e) = []) as [(ar & d & clock & He)|(petr & d & He)].
  { destruct e as [ar d clock|ar d clock|petr d|j now|j x o]; [left; eauto 6|left; eauto 6|right; eauto|right; exists None, []; auto|right; exists None, []; auto]. }
  2: { destruct He as [->|He]; [|rewrite He in Hin; destruct Hin]. exfalso. cbn [step snd] in Hin. unfold queued_packet in Hin. destruct petr as [x|]; [|destruct Hin].
       destruct d as [|b0 d]; [destruct Hin|]. destruct (if _ =? 4 then _ else _); [|destruct Hin]. destruct Hin as [Hin|[]]. discriminate. }
  destruct (answer_comes _ _ _ _ _ _ _ _ _ _ _ _ He Hin) as (p & inner & st' & B & Er & Ee & Hin'). clear Hin. rename Hin' into Hin.
  unfold handle_message in Hin. destruct p as [| | | | | | | | | |sec ddt rtr rel rsv p|c]; try destruct Hin.
  - destruct inner as [i|]; [|destruct Hin]. destruct i as [| | | | | | | | | | |c]; try destruct Hin. destruct c; try destruct Hin.
    destruct ddt; [|destruct Hin]. cbn [snd] in Hin.
    match type of Hin with context[handle_ddt ?a ?b ?c ?d ?e] => destruct (handle_ddt a b c d e) as [[s|]|] eqn:E end; [|destruct Hin|destruct Hin].
    destruct Hin as [Hin|[]]. discriminate.
  - destruct c as [q|r'|g|n|f|i]; cbn [snd] in Hin; try destruct Hin.
    + match type of Hin with context[handle_map_request ?a ?b ?c ?d ?e ?f] => destruct (handle_map_request a b c d e f) as [[s|]|] eqn:E end; [|destruct Hin|destruct Hin].
      destruct Hin as [Hin|[]]. injection Hin as <- _ _ _. cbn [pkt_to_bytes] in Hb. exact (reply_bound _ _ _ _ _ _ _ _ E Hb).
    + match type of Hin with context[handle_map_register ?a ?b ?c ?d ?e ?f] => destruct (handle_map_register a b c d e f) as [[w' m'] [[s|]|]] eqn:E end; cbn [snd] in Hin; [|destruct Hin|destruct Hin].
      destruct Hin as [Hin|[]]. discriminate.
Qed.
Theorem C137_answers : forall hm cfg socks P st e ar d clock m v to port b,
  digests hm -> good_cfg cfg P -> e = AtControl ar d clock \/ e = AtData ar d clock -> Z.of_nat (length d) <= max_datagram ->
  In (OMsg m v to port) (snd (step hm cfg socks st e)) -> pkt_to_bytes m = Ok b -> Z.of_nat (length b) <= max_datagram.
Proof.
  intros hm cfg socks P st e ar d clock m v to port b HD G He Hd Hin Hb.
  assert ((exists r, m = PCtl (CRep r)) \/ forall r, m <> PCtl (CRep r)) as [[r ->]|N].
  { destruct m; try (right; intros; discriminate). destruct c; try (right; intros; discriminate). left. eauto. }
  - pose proof (C137_reply _ _ _ _ _ _ _ _ _ _ Hin Hb). unfold max_datagram. lia.
  - pose proof (C122_no_amplification _ _ _ _ _ _ _ _ _ _ _ _ _ _ HD G He Hin N Hb). lia.
Qed.
(** ** The packets taken from the queue: eight bytes more than they had, whatever they had *)
Theorem C137_queued : forall hm cfg socks st petr d m v to port b,
  In (OMsg m v to port) (snd (step hm cfg socks st (Queued petr d))) -> pkt_to_bytes m = Ok b -> Z.of_nat (length b) = Z.of_nat (length d) + 8.
Proof.
  intros hm cfg socks st petr d m v to port b Hin Hb. cbn [step snd] in Hin.
  destruct (C87_encapsulation hm cfg socks st petr d) as (data & Ed & -> & _).
  unfold queued_packet in Hin. destruct petr as [x|]; [|destruct Hin].
  destruct d as [|b0 d]; [destruct Hin|]. destruct (if _ =? 4 then _ else _); [|destruct Hin]. destruct Hin as [Hin|[]]. injection Hin as <- _ _ _.
  rewrite Ed in Hb. apply Ok_inj in Hb. rewrite <- Hb, app_length, repeat_length. lia.
Qed.
(** ... so a packet can be too long *)
Lemma long_packets n : 0 <= n <= 65535 -> exists d, Z.of_nat (length d) = 40 + n /\ ip_packet d.
Proof.
  intros Hn. set (b := repeat zero_byte (Z.to_nat n)). assert (blen b = n) as Lb by (unfold blen, b; rewrite repeat_length; lia). clearbody b.
  assert (sendable (PIPv6 (V6H 0 0 59 64 (AIP V6 1) (AIP V6 2)) (PRaw b)) (40 + n)) as S.
  { rewrite <- Lb. apply sn_v6; cbn [x_tc x_flow x_hop x_nh x_src x_dst].
    - apply sn_raw.
    - unfold in_bits; cbn; lia.
    - unfold in_bits; cbn; lia.
    - unfold in_bits; cbn; lia.
    - intros _. unfold in_bits; cbn; lia.
    - unfold ipv6_address; eexists; split; [reflexivity|]; unfold in_bits; cbn; lia.
    - unfold ipv6_address; eexists; split; [reflexivity|]; unfold in_bits; cbn; lia.
    - lia. }
  apply C92_sendable in S; [|exact Logic.I]. destruct S as (out & E & L). exists out. split; [exact L|].
  destruct (C15_ipv6_round_trip _ _ _ E) as (P & R & _). right. split; [|rewrite P; reflexivity]. destruct R as [R _]. unfold layout in R. apply Forall_inv in R. exact (proj2 R).
Qed.
Theorem C137_refuted : ~ (forall hm cfg socks st petr d m v to port b, Z.of_nat (length d) <= 65535 ->
  In (OMsg m v to port) (snd (step hm cfg socks st (Queued petr d))) -> pkt_to_bytes m = Ok b -> Z.of_nat (length b) <= max_datagram).
Proof.
  intros C. destruct (long_packets 65480 ltac:(lia)) as (d & L & I).
  destruct (C87_encapsulation toy_hm [] [] start (Some (V4, 1)) d) as (data & Ed & _ & Es & _). specialize (Es _ eq_refl I).
  specialize (C toy_hm [] [] start (Some (V4, 1)) d). rewrite Es in C. specialize (C _ _ _ _ data ltac:(lia) (or_introl eq_refl) Ed).
  assert (Z.of_nat (length data) = Z.of_nat (length d) + 8) as X; [|unfold max_datagram in C; lia].
  apply (C137_queued toy_hm [] [] start (Some (V4, 1)) d (PData no_flags (PRaw d)) VData [AIP V4 1] 4341 data); [rewrite Es; left; reflexivity|exact Ed].
Qed.

(** ** Example: a Map-Register with its authentication data; every locator takes 24 bytes *)
Definition some_locators (n : nat) : list loc := map (fun k => Loc 1 1 1 1 (repeat false 13) true false true (AIP V6 (2 ^ 125 + Z.of_nat k))) (seq 1 n).
Definition register_of (n : nat) : Z :=
  match insert toy_hm (AReg (new_register (Pfx V4 167772160 8) (Etrr (V4, 1) 1 (B [7]) false None) (some_locators n) [] true (repeat zero_byte 8) 5 0)) (B [7]) with
  | (AReg g, Ok _) => match mreg_to_bytes g with Ok b => Z.of_nat (length b) | _ => -1 end | _ => -1 end.
Example C137_example : register_of 1 = 100 /\ register_of 3 = 148.
Proof. vm_compute. split; reflexivity. Qed.
Print Assumptions C137_register.
Print Assumptions C137_info_request.
Print Assumptions C137_reply.
Print Assumptions C137_answers.
Print Assumptions C137_queued.
Print Assumptions C137_refuted.
