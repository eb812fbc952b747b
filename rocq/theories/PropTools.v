(** * Properties C102 and C103: the command line tools against a pylisp daemon *)
From Verif Require Import Base BaseLemmas Afi AfiProofs Spec SpecLemmas SpecEid PropEid Records Control SpecRec RecordsProofs ControlProofs
  PropControl Packet PacketProofs PacketStack SpecPkt PropPacket PropPacket3 Auth SpecAuth PropAuth Tree SpecTree TreeProofs PropTree PropTree2
  Dict MapServer SpecMs PropMs PropMs2 Net Ddt SpecDdt PropDdt PropDdt2 Etr SpecEtr PropEtr PropEtr2 Daemon SpecDaemon PropDaemon PropDaemon2
  SpecRoute PropRoute SpecAccept PropAccept PropLoop PropLoop2 Tools.

(** ** C102: queries *)
Lemma ref_parse f fb f' : mref_to_bytes f = Ok fb -> mref_from_bytes fb = Ok f' -> pkt_from_bytes KCtl fb = Ok (PCtl (CRef f')).
Proof.
  intros H P. unfold mref_from_bytes, from_bytes in P. bo P [m s'] E. assert (m = f') as -> by congruence.
  apply (ctl_parse (CRef f) _ s' (CRef f') H). cbn [ctl_type]. unfold rd_ctl. cbn [Z.eqb Pos.eqb]. rewrite E. reflexivity.
Qed.
(** what the daemon makes of a query *)
Lemma query_step hm cfg socks clock ar st ddt nonce vs zs v q sport : length nonce = 8%nat -> in_bits (wz vs) zs -> in_bits (wz v) q ->
  in_bits 16 sport -> sport <> 4341 ->
  let req := MReq false false false false false (repeat false 9) nonce (AIP v 0) [AIP vs zs] [ANet v q (wz v)] None in
  exists m out ctr, query_message ddt nonce (AIP vs zs) v q sport = Ok m /\ pkt_to_bytes m = Ok out /\
    step hm cfg socks st (AtControl ar out clock) =
      (Dm (dm_ms st) (dm_etr st) (dm_out st) ctr,
       if ddt then match handle_ddt cfg false req (ar_src ar) (ar_port ar) with
                   | Ok (Some s) => [OMsg (PCtl (CRef (s_msg s))) VThis (s_to s) (s_port s)]
                   | _ => []
                   end
       else []).
Proof.
  intros Ln Rs Rq Rp Np req. destruct (C88_query ddt nonce vs zs v q sport Ln Rs Rq Rp Np) as (m & out & ck & Em & Eo & P & _ & _ & R).
  fold req in P, R. specialize (R (dm_ctr st)). exists m, out, (fst (received (dm_ctr st) (PECM false ddt false false (repeat false 26) (an_ip v 64 0 q (PUDP sport 4342 ck (PCtl (CReq req))))))).
  split; [exact Em|]. split; [exact Eo|]. cbn [step]. unfold control_datagram. rewrite P. unfold handle_control_message.
  destruct (received (dm_ctr st) _) as [ctr r]. cbn [fst snd] in *. subst r. cbn [handle_message dm_ms dm_etr dm_out dm_ctr]. destruct ddt; reflexivity.
Qed.
Lemma asks_query nonce v q rlocs : asks (MReq false false false false false (repeat false 9) nonce (AIP v 0) rlocs [ANet v q (wz v)] None)
  0 (match v with V4 => 1 | V6 => 2 end) (host v q).
Proof. exists (ANet v q (wz v)), [], (ANet v q (wz v)). split; [reflexivity|]. split; [apply eid_named_spec; destruct v; reflexivity|reflexivity]. Qed.

(** ddt_query: the query of address [q] of family [v], sent from (vs, zs), arrives at a daemon that has a node for [q] other
    than a Map-Server node or a referral.  The daemon answers once, to where the query came from; the tool reads a
    Map-Referral with the nonce it chose that says NOT-AUTHORITATIVE for the address asked for. *)
Theorem C102_ddt_query_partial hm cfg socks clock ar st nonce v q n x : length nonce = 8%nat ->
  in_bits (wz (fst (ar_src ar))) (snd (ar_src ar)) -> in_bits (wz v) q -> ar_port ar = 4342 ->
  tree_for cfg 0 (match v with V4 => 1 | V6 => 2 end) n -> tidy n -> in_pfx (n_pfx n) v q ->
  most_specific n (host v q) x -> n_cls x <> NMapServer -> (forall d, n_cls x <> NReferral d) ->
  exists m out st' f fb f' r,
    query_message true nonce (AIP (fst (ar_src ar)) (snd (ar_src ar))) v q 4342 = Ok m /\ pkt_to_bytes m = Ok out /\
    step hm cfg socks st (AtControl ar out clock) = (st', [OMsg (PCtl (CRef f)) VThis [AIP (fst (ar_src ar)) (snd (ar_src ar))] 4342]) /\
    dm_ms st' = dm_ms st /\ dm_etr st' = dm_etr st /\ dm_out st' = dm_out st /\
    pkt_to_bytes (PCtl (CRef f)) = Ok fb /\ pkt_from_bytes KCtl fb = Ok (PCtl (CRef f')) /\
    f_nonce f' = nonce /\ f_records f' = [r] /\ rr_action r = 5 /\ rr_locs r = [] /\ rr_eid r = LInst 0 (ANet v q (wz v)) 32.
Proof.
  intros Ln Rs Rq Ep Ht T Hin Hm N1 N2.
  destruct (query_step hm cfg socks clock ar st true nonce (fst (ar_src ar)) (snd (ar_src ar)) v q 4342 Ln Rs Rq ltac:(unfold in_bits; lia) ltac:(lia)) as (m & out & ctr & Em & Eo & Es).
  set (req := MReq false false false false false (repeat false 9) nonce (AIP v 0) [AIP (fst (ar_src ar)) (snd (ar_src ar))] [ANet v q (wz v)] None) in *.
  assert (0 <= q < 2 ^ wz v) as Rz by exact Rq. pose proof (host_wf v q Rz) as Wh.
  pose proof (asks_query nonce v q [AIP (fst (ar_src ar)) (snd (ar_src ar))]) as Ha. fold req in Ha.
  pose proof (proj2 (inside_host v q (n_pfx n)) Hin) as Hi.
  pose proof (host_not_crowded n v q T Rz) as NC.
  assert (wf_ip (ANet v q (wz v)) = true) as Wa by exact (wf_pfx_addr _ Wh).
  destruct (C55_answer_arrives cfg req (ar_src ar) (ar_port ar) 0 _ (host v q) n x (ANet v q (wz v)) [] Ht T Ha Wh Hi NC Hm N1 N2 eq_refl) as (fb & Ew & f' & r & P & A1 & A2 & A3 & A4 & A5 & A6 & A7 & _ & _ & A8 & A9).
  - exact Wa.
  - destruct v; unfold w_afi; cbn; rewrite w_uint_in by exact Rq; reflexivity.
  - cbn [req q_nonce]. unfold blen. rewrite Ln. reflexivity.
  - unfold ddt_wire in Ew. bo Ew o Eh. rewrite Eh in Es. destruct o as [s|]; [|discriminate]. bo Ew b Eb. injection Ew as ->.
    assert (exists e' l, q_eids req = e' :: l /\ not_auth_answer req e' (ar_src ar) (ar_port ar) s) as (e' & l & Eq & N).
    { apply (C55_only_not_authoritative cfg false); [exact Eh|]. rewrite Eb. reflexivity. }
    destruct N as (_ & _ & Et & Epo). rewrite Et, Epo, Ep in Es.
    exists m, out, (Dm (dm_ms st) (dm_etr st) (dm_out st) ctr), (s_msg s), fb, f', r.
    split; [exact Em|]. split; [exact Eo|]. split; [exact Es|]. split; [reflexivity|]. split; [reflexivity|]. split; [reflexivity|].
    split; [exact Eb|]. specialize (P []). rewrite app_nil_r in P. split; [exact (ref_parse _ _ _ Eb P)|]. split; [exact A1|]. split; [exact A2|]. split; [exact A3|]. split; [exact A5|exact (A8 v q (wz v) eq_refl)].
Qed.
(** if the node is a Map-Server or a referral with addresses, or the family is not configured, there is no answer; ddt_query waits for ever *)
Theorem C102_ddt_query_unanswered hm cfg socks clock ar st nonce v q : length nonce = 8%nat ->
  in_bits (wz (fst (ar_src ar))) (snd (ar_src ar)) -> in_bits (wz v) q ->
  ((forall n, ~ tree_for cfg 0 (match v with V4 => 1 | V6 => 2 end) n) \/
   exists n x, tree_for cfg 0 (match v with V4 => 1 | V6 => 2 end) n /\ tidy n /\ in_pfx (n_pfx n) v q /\ most_specific n (host v q) x /\
     (n_cls x = NMapServer \/ exists d, n_cls x = NReferral d /\ d <> [])) ->
  exists m out st', query_message true nonce (AIP (fst (ar_src ar)) (snd (ar_src ar))) v q 4342 = Ok m /\ pkt_to_bytes m = Ok out /\
    step hm cfg socks st (AtControl ar out clock) = (st', []).
Proof.
  intros Ln Rs Rq H.
  destruct (query_step hm cfg socks clock ar st true nonce (fst (ar_src ar)) (snd (ar_src ar)) v q 4342 Ln Rs Rq ltac:(unfold in_bits; lia) ltac:(lia)) as (m & out & ctr & Em & Eo & Es).
  set (req := MReq false false false false false (repeat false 9) nonce (AIP v 0) [AIP (fst (ar_src ar)) (snd (ar_src ar))] [ANet v q (wz v)] None) in *.
  pose proof (asks_query nonce v q [AIP (fst (ar_src ar)) (snd (ar_src ar))]) as Ha. fold req in Ha.
  assert (0 <= q < 2 ^ wz v) as Rz by exact Rq.
  assert (exists e, handle_ddt cfg false req (ar_src ar) (ar_port ar) = Err e) as (e & Ee).
  { destruct H as [H|(n & x & Ht & T & Hin & Hm & Hx)].
    - eexists. eapply C55_unconfigured; eassumption.
    - destruct (C55_actual_partial cfg req (ar_src ar) (ar_port ar) 0 _ (host v q) n x Ht T Ha (host_wf v q Rz) (proj2 (inside_host v q (n_pfx n)) Hin) (host_not_crowded n v q T Rz) Hm) as (R1 & _ & R2 & _).
      destruct Hx as [Hx|(d & Hx & Hd)]; eauto. }
  rewrite Ee in Es. exists m, out. eexists. split; [exact Em|]. split; [exact Eo|]. exact Es.
Qed.
(** map_resolve: a pylisp daemon never answers its queries, whatever it is configured for *)
Theorem C102_map_resolve_unanswered hm cfg socks clock ar st nonce vs zs v q sport : length nonce = 8%nat -> in_bits (wz vs) zs -> in_bits (wz v) q ->
  30000 <= sport < 40000 ->
  exists m out st', query_message false nonce (AIP vs zs) v q sport = Ok m /\ pkt_to_bytes m = Ok out /\
    step hm cfg socks st (AtControl ar out clock) = (st', []).
Proof.
  intros Ln Rs Rq Rp. destruct (query_step hm cfg socks clock ar st false nonce vs zs v q sport Ln Rs Rq ltac:(unfold in_bits; lia) ltac:(lia)) as (m & out & ctr & Em & Eo & Es).
  exists m, out. eexists. eauto.
Qed.
Print Assumptions C102_ddt_query_partial.
Print Assumptions C102_ddt_query_unanswered.
Print Assumptions C102_map_resolve_unanswered.

(** a daemon with an ETR for 0.0.0.0/0 *)
Definition etr_root : node := Node 1 (Pfx V4 0 0) NETR [].
Definition etr_root_cfg : instances := [(0, [(1, etr_root)])].
Lemma etr_root_tidy : tidy etr_root.
Proof. constructor; [apply wf_zero|reflexivity|constructor| |]; intros ? []. Qed.
Lemma etr_root_specific z : 0 <= z < 2 ^ 32 -> most_specific etr_root (host V4 z) etr_root.
Proof. intros H. split; [constructor|]. split; [apply inside_zero; [apply host_wf; exact H|reflexivity]|intros ? []]. Qed.
Example C102_example : exists m out st' f fb f' r,
  query_message true (B [1;2;3;4;5;6;7;8]) (AIP V4 77) V4 167772161 4342 = Ok m /\ pkt_to_bytes m = Ok out /\
  step toy_hm etr_root_cfg [] start (AtControl (Arr (V4, 77) 4342 (V4, 5)) out (fun _ => 5)) = (st', [OMsg (PCtl (CRef f)) VThis [AIP V4 77] 4342]) /\
  pkt_to_bytes (PCtl (CRef f)) = Ok fb /\ pkt_from_bytes KCtl fb = Ok (PCtl (CRef f')) /\ f_nonce f' = B [1;2;3;4;5;6;7;8] /\ f_records f' = [r] /\ rr_action r = 5.
Proof.
  destruct (C102_ddt_query_partial toy_hm etr_root_cfg [] (fun _ => 5) (Arr (V4, 77) 4342 (V4, 5)) start (B [1;2;3;4;5;6;7;8]) V4 167772161 etr_root etr_root) as
    (m & out & st' & f & fb & f' & r & H1 & H2 & H3 & _ & _ & _ & H4 & H5 & H6 & H7 & H8 & _); try reflexivity; try (unfold in_bits; cbn; lia).
  - apply etr_root_tidy.
  - apply inside_host. apply (etr_root_specific 167772161). lia.
  - apply etr_root_specific; lia.
  - discriminate.
  - discriminate.
  - exists m, out, st', f, fb, f', r. auto 10.
Qed.
(** The property does not hold: a daemon with an ETR for the address does not answer map_resolve, and one with a referral does not answer
    ddt_query. *)
Theorem C102_refuted ddt : ~ (forall hm cfg socks clock ar st nonce v q n x m out, length nonce = 8%nat ->
  in_bits (wz (fst (ar_src ar))) (snd (ar_src ar)) -> in_bits (wz v) q -> 30000 <= ar_port ar < 40000 \/ ar_port ar = 4342 ->
  tree_for cfg 0 (match v with V4 => 1 | V6 => 2 end) n -> tidy n -> most_specific n (host v q) x ->
  (n_cls x = NETR \/ exists d, n_cls x = NReferral d /\ d <> []) ->
  query_message ddt nonce (AIP (fst (ar_src ar)) (snd (ar_src ar))) v q (ar_port ar) = Ok m -> pkt_to_bytes m = Ok out ->
  snd (step hm cfg socks st (AtControl ar out clock)) <> []).
Proof.
  intros H. set (c := if ddt then NReferral [AIP V4 9] else NETR). set (root := Node 1 (Pfx V4 0 0) c []).
  assert (tidy root) as T by (constructor; [apply wf_zero|reflexivity|constructor| |]; intros ? []).
  assert (most_specific root (host V4 5) root) as M.
  { split; [constructor|]. split; [apply inside_zero; [apply host_wf; change (0 <= 5 < 2 ^ 32); lia|reflexivity]|intros ? []]. }
  specialize (H toy_hm [(0, [(1, root)])] [] (fun _ => 5) (Arr (V4, 77) (if ddt then 4342 else 30007) (V4, 5)) start (B [1;2;3;4;5;6;7;8]) V4 5 root root).
  cbn [ar_src ar_port fst snd] in H. destruct ddt.
  - destruct (C102_ddt_query_unanswered toy_hm [(0, [(1, root)])] [] (fun _ => 5) (Arr (V4, 77) 4342 (V4, 5)) start (B [1;2;3;4;5;6;7;8]) V4 5) as (m & out & st' & E1 & E2 & E3);
      try reflexivity; try (unfold in_bits; cbn; lia).
    + right. exists root, root. split; [reflexivity|]. split; [exact T|]. split; [apply inside_host; apply M|]. split; [exact M|]. right. eexists. split; [reflexivity|discriminate].
    + apply (H m out); try reflexivity; try assumption; try (unfold in_bits; cbn; lia); [right; eexists; split; [reflexivity|discriminate]|]. rewrite E3. reflexivity.
  - destruct (C102_map_resolve_unanswered toy_hm [(0, [(1, root)])] [] (fun _ => 5) (Arr (V4, 77) 30007 (V4, 5)) start (B [1;2;3;4;5;6;7;8]) V4 77 V4 5 30007) as (m & out & st' & E1 & E2 & E3);
      try reflexivity; try (unfold in_bits; cbn; lia); try lia.
    apply (H m out); try reflexivity; try assumption; try (unfold in_bits; cbn; lia); [left; reflexivity|]. rewrite E3. reflexivity.
Qed.
Print Assumptions C102_refuted.

(** ** A Map-Register that does not ask for a Map-Notify (C81) *)
Theorem C81_unconfirmed hm p r locs nonce xtr site cfg socks st ar clock nd afi :
  digests hm -> wf_pfx p -> Forall (fun l => obj_loc l /\ good_locator l) locs -> (length locs <= 255)%nat ->
  length nonce = 8%nat -> in_bits 128 xtr -> in_bits 64 site -> known_key_id (tr_keyid r) ->
  afi = match x_fam p with V4 => 1 | V6 => 2 end -> g_resolve cfg 0 afi p = Ok (Some nd) -> n_cls nd = NMapServer ->
  wf_pfx (n_pfx nd) -> inside p (n_pfx nd) -> (p = n_pfx nd \/ ms_more (dm_ms st (n_id nd)) = true) ->
  ms_key (dm_ms st (n_id nd)) = tr_key r ->
  exists g out rec st',
    insert hm (AReg (new_register p r locs [] false nonce xtr site)) (tr_key r) = (AReg g, Ok tt) /\
    mreg_to_bytes g = Ok out /\
    step hm cfg socks st (AtControl ar out clock) = (st', []) /\
    registered (dm_ms st' (n_id nd)) p (if xtr =? 0 then SAddr (fst (ar_src ar)) (snd (ar_src ar)) else SXtr site xtr) =
      Some (Reg rec (tr_proxy r) (clock 0%nat + 180 * sec)) /\
    arrives_mrec (new_mrec 0 p locs) rec.
Proof.
  intros HD Wp HL Ln Lnon Rx Rs K -> HR HC Wn Hin Hmore Hkey.
  set (m := new_register p r locs [] false nonce xtr site).
  assert (obj_mrec (new_mrec 0 p locs)) as Orec.
  { split; [reflexivity|]. split; [apply wf_pfx_addr, Wp|]. cbn [new_mrec mr_locs]. eapply Forall_impl; [|exact HL]. intros l Hl; apply Hl. }
  assert (good_mrec (new_mrec 0 p locs)) as Grec.
  { constructor; cbn [new_mrec mr_ttl mr_action mr_ver mr_eid mr_locs]; [unfold in_bits; lia|lia|unfold in_bits; lia|eauto|exact Ln|]. eapply Forall_impl; [|exact HL]. intros l Hl; apply Hl. }
  assert (obj_mreg m) as Om.
  { unfold m, new_register, obj_mreg. cbn [g_rsv1 g_rsv2 g_nonce g_records]. repeat split; auto. }
  assert (exists out0, mreg_to_bytes m = Ok out0) as (out0 & H0).
  { apply is_ok_iff. apply C91_map_register; [exact Om|]. unfold m, new_register. constructor; cbn [g_xtr g_site g_key g_authdata g_records length]; [auto|split; [exact K|cbn; lia]|]. split; [lia|]. auto. }
  destruct (insert_reg hm m (tr_key r) out0 HD Om H0) as (g & out & g2 & EI & Eo & Ep & O2 & S2 & V2 & Fg & Fg2 & Mr & Rg).
  unfold m in Fg, Fg2, Mr, Rg. cbn [new_register g_proxy g_notify g_nonce g_key g_xtr g_site g_records] in Fg, Fg2, Mr, Rg.
  cbn [mapM] in Mr. bo Mr rec Er. cbn [bind] in Mr. injection Mr as Mr. pose proof (sanitize_mrec_arrives _ _ Er) as AR.
  injection Fg2 as G1 G2 G3 G4 G5 G6. injection Fg as G1' G2' G3' G4' G5' G6'. 
  assert (mr_eid rec = ANet (x_fam p) (x_net p) (x_len p)) as Eeid by (destruct AR as []; cbn [new_mrec mr_eid] in *; congruence).
  assert (determine (mr_eid rec) = Some (0, match x_fam p with V4 => 1 | V6 => 2 end, ANet (x_fam p) (x_net p) (x_len p))) as Ed by (rewrite Eeid; destruct (x_fam p); reflexivity).
  set (so := if xtr =? 0 then SAddr (fst (ar_src ar)) (snd (ar_src ar)) else SXtr site xtr).
  set (rg := Reg rec (tr_proxy r) (clock 0%nat + 180 * sec)).
  assert (acceptable hm (ms_key (dm_ms st (n_id nd))) (ms_more (dm_ms st (n_id nd))) (n_pfx nd) g2 0 (ar_src ar) (clock 0%nat) p so rg) as HA.
  { exists rec, rec. split; [unfold authentic; rewrite Hkey; exact V2|]. split; [rewrite <- Mr; reflexivity|]. split; [eexists _, _; apply eid_named_spec; exact Ed|].
    split; [exact Hin|]. split; [exact Hmore|]. split.
    - unfold sender, so. rewrite G5, G6. destruct (Z.eqb_spec xtr 0); auto.
    - split; [|unfold rg; rewrite G1; reflexivity]. destruct (Z.eq_dec (g_key g2) 0); [left; auto|right; split; [assumption|eapply sanitize_mrec_idem; eauto]]. }
  destruct (handle_record_spec hm (n_pfx nd) (dm_ms st (n_id nd)) g2 0 (ar_src ar) (clock 0%nat) Wn O2) as (m' & ho & s' & EH & HO & HM).
  destruct HO as [(-> & q & so' & rg' & HA' & ->)|(_ & _ & NA)]; [|destruct (NA _ _ _ HA)].
  destruct (acceptable_fun _ _ _ _ _ _ _ _ _ _ _ _ _ _ HA HA') as (<- & <- & <-). clear HA'.
  assert (m' = g2) as ->. { destruct HM as [[_ ->]|[_ HM]]; [discriminate|reflexivity|congruence]. }
  exists g, out, rec. eexists. split; [exact EI|]. split; [exact Eo|]. split.
  { cbn [step]. unfold control_datagram. rewrite Ep. unfold handle_control_message, received. cbn [is_control negb handle_message dm_ms dm_etr dm_out dm_ctr].
    unfold handle_map_register. rewrite <- Mr at 1. cbn [length reg_loop]. rewrite <- Mr at 1. cbn [nth_error]. rewrite Ed. cbn [pfx_of].
    replace (Pfx (x_fam p) (x_net p) (x_len p)) with p by (destruct p; reflexivity). rewrite HR, HC, EH.
    cbn [app reg_loop]. rewrite G2. reflexivity. }
  cbn [dm_ms]. split; [|exact AR].
  unfold set_ms. rewrite Nat.eqb_refl. unfold registered. cbn [ms_regs set_regs]. fold (look (store (ms_regs (dm_ms st (n_id nd))) p so rg) p so).
  rewrite look_store. rewrite (proj2 (pfx_eqb_spec p p) eq_refl), (proj2 (source_eqb_ok so so) eq_refl). reflexivity.
Qed.
Print Assumptions C81_unconfirmed.

(** ** C103: map_register *)
(** The registration can always be made; a daemon whose Map-Server node is responsible for the prefix, has the key and accepts
    the prefix stores it for 180 seconds under the address it came from, with the tool's locator and proxy Map-Replies asked
    for; and nothing is sent back. *)
Theorem C103_map_register hm p key nonce cfg socks st ar clock nd : digests hm -> wf_pfx p -> length nonce = 8%nat ->
  g_resolve cfg 0 (match x_fam p with V4 => 1 | V6 => 2 end) p = Ok (Some nd) -> n_cls nd = NMapServer ->
  wf_pfx (n_pfx nd) -> inside p (n_pfx nd) -> (p = n_pfx nd \/ ms_more (dm_ms st (n_id nd)) = true) ->
  ms_key (dm_ms st (n_id nd)) = key ->
  exists out st' rec, tool_register_bytes hm p key nonce = Ok out /\
    step hm cfg socks st (AtControl ar out clock) = (st', []) /\
    registered (dm_ms st' (n_id nd)) p (SAddr (fst (ar_src ar)) (snd (ar_src ar))) = Some (Reg rec true (clock 0%nat + 180 * sec)) /\
    mr_eid rec = ANet (x_fam p) (x_net p) (x_len p) /\ mr_ttl rec = 1440 /\ mr_action rec = 0 /\ mr_auth rec = true /\
    mr_locs rec = [Loc 1 100 255 0 (repeat false 13) true false true (AIP V4 2130706433)].
Proof.
  intros HD Wp Ln HR HC Wn Hin Hm Hk.
  assert (Forall (fun l => obj_loc l /\ good_locator l) [tool_locator]) as HL.
  { constructor; [|constructor]. split; [reflexivity|]. constructor; [unfold octet; cbn; lia|exists V4, (127 * 2 ^ 24 + 1); split; [reflexivity|split; [vm_compute; congruence|vm_compute; reflexivity]]|].
    intros F. inversion F as [E|z P E|z P E|z P E]. unfold in_prefix in P. vm_compute in P. intuition congruence. }
  destruct (C81_unconfirmed hm p (Etrr (V4, 0) 1 key true None) [tool_locator] nonce 0 0 cfg socks st ar clock nd _ HD Wp HL ltac:(cbn; lia) Ln ltac:(unfold in_bits; lia) ltac:(unfold in_bits; lia)
    ltac:(unfold known_key_id; cbn; lia) eq_refl HR HC Wn Hin Hm Hk) as (g & out & rec & st' & EI & Eo & Es & Er & AR).
  cbn [tr_key] in EI. exists out, st', rec. split; [unfold tool_register_bytes; change (tool_register p nonce) with (new_register p (Etrr (V4, 0) 1 key true None) [tool_locator] [] false nonce 0 0); rewrite EI; exact Eo|].
  split; [exact Es|]. split; [exact Er|]. destruct AR. cbn [new_mrec mr_eid mr_ttl mr_action mr_auth mr_locs] in *.
  split; [assumption|]. split; [assumption|]. split; [apply am_action_pos; discriminate|]. split; [assumption|].
  destruct am_locs as [am_locs _]. apply Permutation.Permutation_length_1_inv in am_locs. exact am_locs.
Qed.
Print Assumptions C103_map_register.
(** the script's own prefix and key, at a Map-Server for 0.0.0.0/0 that accepts more specifics *)
Example C103_example : exists out st' rec,
  tool_register_bytes toy_hm (Pfx V4 (37 * 2 ^ 24 + 77 * 2 ^ 16 + 62 * 2 ^ 8) 24) (B [116; 101; 115; 116; 106; 101]) (B [1;2;3;4;5;6;7;8]) = Ok out /\
  step toy_hm [(0, [(1, Node 1 (Pfx V4 0 0) NMapServer [])])] [] (Dm (fun _ => new_ms (B [116; 101; 115; 116; 106; 101]) true) (fun _ => Etr [] [] []) (fun _ => NOut [] []) 0)
    (AtControl there out (fun _ => 5)) = (st', []) /\
  registered (dm_ms st' 1%nat) (Pfx V4 (37 * 2 ^ 24 + 77 * 2 ^ 16 + 62 * 2 ^ 8) 24) (SAddr V4 77) = Some (Reg rec true (5 + 180 * sec)).
Proof.
  destruct (C103_map_register toy_hm (Pfx V4 (37 * 2 ^ 24 + 77 * 2 ^ 16 + 62 * 2 ^ 8) 24) (B [116; 101; 115; 116; 106; 101]) (B [1;2;3;4;5;6;7;8])
    [(0, [(1, Node 1 (Pfx V4 0 0) NMapServer [])])] [] (Dm (fun _ => new_ms (B [116; 101; 115; 116; 106; 101]) true) (fun _ => Etr [] [] []) (fun _ => NOut [] []) 0) there (fun _ => 5)
    (Node 1 (Pfx V4 0 0) NMapServer [])) as (out & st' & rec & H1 & H2 & H3 & _); try reflexivity.
  - exact (proj1 C41_example).
  - repeat split; vm_compute; congruence.
  - apply wf_zero.
  - apply inside_zero; [repeat split; vm_compute; congruence|reflexivity].
  - right. reflexivity.
  - exists out, st', rec. split; [exact H1|]. split; [exact H2|exact H3].
Qed.
