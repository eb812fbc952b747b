(** * Property C81: a registration, from the ETR to the Map-Server and back *)
From Coq Require Import Permutation.
From Verif Require Import Base BaseLemmas Afi AfiProofs Spec SpecLemmas SpecEid PropEid Records Control SpecRec RecordsProofs ControlProofs
  PropControl Packet PacketProofs PacketStack SpecPkt PropPacket PropPacket3 PropPacket Auth SpecAuth PropAuth Tree SpecTree TreeProofs PropTree PropTree2
  Dict MapServer SpecMs PropMs PropMs2 Net Etr SpecEtr PropEtr PropEtr2 Daemon SpecDaemon PropDaemon PropDaemon2 SpecRoute PropRoute SpecAccept PropAccept PropLoop.

(** a message to which authentication data was added, and what is read from its bytes *)
Lemma insert_full hm m key out0 : digests hm -> obj_a m -> a_to_bytes m = Ok out0 ->
  exists m1 out m2, insert hm m key = (m1, Ok tt) /\ obj_a m1 /\ a_to_bytes m1 = Ok out /\ a_san m1 = Ok m2 /\
    a_from_bytes (kind m) out = Ok m2 /\ snd (verify hm m2 key) = Ok true /\
    (forall a, set_auth m1 a = set_auth m a \/ exists m', a_san m = Ok m' /\ set_auth m1 a = set_auth m' a).
Proof.
  intros HD O H. destruct (C41_inserted_verifies hm m key out0 HD O H) as (m1 & EI & _ & out & m2 & Eo & P & V).
  destruct (san_of_bytes _ _ H) as (m' & S & _).
  assert (obj_a m1 /\ kind m1 = kind m /\ forall a, set_auth m1 a = set_auth m a \/ exists m', a_san m = Ok m' /\ set_auth m1 a = set_auth m' a) as (O1 & K1 & F).
  { unfold insert in EI. destruct (key_known _ _ H) as [K|[n D]].
    - unfold calculate in EI. rewrite K, Z.eqb_refl in EI. injection EI as <-. split; [apply obj_set; exact O|]. split; [apply kind_set|]. intros a. left. apply set_auth_set.
    - destruct (calculate_known hm m key _ n m' O H D S) as (z & HZ & HC). rewrite HC in EI. injection EI as <-. split; [apply obj_set; eapply a_san_obj; eauto|].
      split; [rewrite kind_set; apply (a_san_same _ _ S)|]. intros a. right. exists m'. split; [exact S|]. apply set_auth_set. }
  destruct (parse_back m1 out O1 Eo) as (m2' & S2 & P2). specialize (P []). specialize (P2 []). rewrite app_nil_r in *. rewrite K1 in P2.
  assert (m2' = m2) as -> by congruence. exists m1, out, m2. auto 10.
Qed.

(** the parsed form, as a control packet *)
Lemma reg_packet g out g2 : mreg_to_bytes g = Ok out -> a_from_bytes KReg out = Ok (AReg g2) -> pkt_from_bytes KCtl out = Ok (PCtl (CReg g2)).
Proof.
  intros H P. cbn [a_from_bytes] in P. bo P x E. assert (x = g2) as -> by congruence. clear P. apply from_bytes_ok in E. destruct E as [t E].
  apply (ctl_parse (CReg g) out t (CReg g2) H). cbn [ctl_type]. unfold rd_ctl. cbn [Z.eqb Pos.eqb]. rewrite E. reflexivity.
Qed.
Lemma not_packet g out g2 : mnot_to_bytes g = Ok out -> a_from_bytes KNot out = Ok (ANot g2) ->
  pkt_from_bytes KCtl out = Ok (PCtl (CNot g2)) /\ mnot_from_bytes out = Ok g2.
Proof.
  intros H P. cbn [a_from_bytes] in P. bo P x E. assert (x = g2) as -> by congruence. clear P. split; [|exact E]. apply from_bytes_ok in E. destruct E as [t E].
  apply (ctl_parse (CNot g) out t (CNot g2) H). cbn [ctl_type]. unfold rd_ctl. cbn [Z.eqb Pos.eqb]. rewrite E. reflexivity.
Qed.
(** fields of a Map-Register or Map-Notify that authentication data is added to *)
Lemma insert_reg hm m key out0 : digests hm -> obj_mreg m -> mreg_to_bytes m = Ok out0 ->
  exists m1 out m2, insert hm (AReg m) key = (AReg m1, Ok tt) /\ mreg_to_bytes m1 = Ok out /\ pkt_from_bytes KCtl out = Ok (PCtl (CReg m2)) /\
    obj_mreg m2 /\ sanitize_mreg m2 = Ok m2 /\ snd (verify hm (AReg m2) key) = Ok true /\
    (g_proxy m1, g_notify m1, g_nonce m1, g_key m1, g_xtr m1, g_site m1) = (g_proxy m, g_notify m, g_nonce m, g_key m, g_xtr m, g_site m) /\
    (g_proxy m2, g_notify m2, g_nonce m2, g_key m2, g_xtr m2, g_site m2) = (g_proxy m, g_notify m, g_nonce m, g_key m, g_xtr m, g_site m) /\
    mapM sanitize_mrec (g_records m) = Ok (g_records m2) /\ (g_records m1 = g_records m \/ g_records m1 = g_records m2).
Proof.
  intros HD O H. destruct (insert_full hm (AReg m) key out0 HD O H) as (a1 & out & a2 & EI & O1 & Eo & S & P & V & F). cbn [kind] in P.
  destruct a2 as [m2|m2|m2]; cbn [a_from_bytes] in P; try (bo P x E; discriminate).
  destruct a1 as [m1|m1|m1]; cbn [a_san] in S; try (bo S x E; discriminate).
  exists m1, out, m2. split; [exact EI|]. split; [exact Eo|]. split; [apply (reg_packet m1); [exact Eo|exact P]|].
  bo S x E. assert (x = m2) as -> by congruence. clear S.
  destruct (mreg_san_same _ _ E) as (A1 & A2 & A3 & A4 & A5 & A6 & A7).
  split; [apply (a_san_obj (AReg m1) (AReg m2)); [exact O1|cbn [a_san]; rewrite E; reflexivity]|]. split; [eapply sanitize_mreg_idem; eauto|]. split; [exact V|].
  destruct (F []) as [F1|(m' & S & F1)].
  - assert ((g_proxy m1, g_notify m1, g_nonce m1, g_key m1, g_xtr m1, g_site m1) = (g_proxy m, g_notify m, g_nonce m, g_key m, g_xtr m, g_site m) /\ g_records m1 = g_records m) as [X Y].
    { cbn [set_auth] in F1. injection F1. intros. subst. split; congruence. }
    split; [exact X|]. split; [congruence|]. split; [congruence|left; exact Y].
  - cbn [a_san] in S. bo S y S1. injection S as <-. destruct (mreg_san_same _ _ S1) as (B1 & B2 & B3 & B4 & B5 & B6 & B7).
    assert ((g_proxy m1, g_notify m1, g_nonce m1, g_key m1, g_xtr m1, g_site m1) = (g_proxy y, g_notify y, g_nonce y, g_key y, g_xtr y, g_site y) /\ g_records m1 = g_records y) as [X Y].
    { cbn [set_auth] in F1. injection F1. intros. subst. split; congruence. }
    split; [congruence|]. split; [congruence|]. rewrite Y in A7. rewrite (mapM_idem _ _ _ sanitize_mrec_idem B7) in A7. injection A7 as A7. rewrite <- A7. auto.
Qed.
Lemma insert_not hm m key out0 : digests hm -> obj_mnot m -> mnot_to_bytes m = Ok out0 ->
  exists m1 out m2, insert hm (ANot m) key = (ANot m1, Ok tt) /\ mnot_to_bytes m1 = Ok out /\ pkt_from_bytes KCtl out = Ok (PCtl (CNot m2)) /\
    mnot_from_bytes out = Ok m2 /\ snd (verify hm (ANot m2) key) = Ok true /\
    (n_nonce m2, n_key m2, n_xtr m2, n_site m2) = (n_nonce m, n_key m, n_xtr m, n_site m) /\
    mapM sanitize_mrec (n_records m) = Ok (n_records m2).
Proof.
  intros HD O H. destruct (insert_full hm (ANot m) key out0 HD O H) as (a1 & out & a2 & EI & O1 & Eo & S & P & V & F). cbn [kind] in P.
  destruct a2 as [m2|m2|m2]; cbn [a_from_bytes] in P; try (bo P x E; discriminate).
  destruct a1 as [m1|m1|m1]; cbn [a_san] in S; try (bo S x E; discriminate).
  exists m1, out, m2. destruct (not_packet m1 out m2 Eo P) as [P1 P2]. split; [exact EI|]. split; [exact Eo|]. split; [exact P1|]. split; [exact P2|]. split; [exact V|].
  bo S x E. assert (x = m2) as -> by congruence. clear S.
  assert (forall a b, sanitize_mnot a = Ok b -> (n_nonce b, n_key b, n_xtr b, n_site b) = (n_nonce a, n_key a, n_xtr a, n_site a) /\ mapM sanitize_mrec (n_records a) = Ok (n_records b)) as N.
  { intros a b Ha. unfold sanitize_mnot in Ha. bo Ha u1 E1. bo Ha u2 E2. bo Ha u3 E3. bo Ha u4 E4. bo Ha rs E5. okinj Ha. cbn [n_nonce n_key n_xtr n_site n_records]. auto. }
  destruct (N _ _ E) as [A1 A2]. destruct (F []) as [F1|(m' & S & F1)].
  - assert ((n_nonce m1, n_key m1, n_xtr m1, n_site m1) = (n_nonce m, n_key m, n_xtr m, n_site m) /\ n_records m1 = n_records m) as [X Y].
    { cbn [set_auth] in F1. injection F1. intros. subst. split; congruence. }
    split; congruence.
  - cbn [a_san] in S. bo S y S1. injection S as <-. destruct (N _ _ S1) as [B1 B2].
    assert ((n_nonce m1, n_key m1, n_xtr m1, n_site m1) = (n_nonce y, n_key y, n_xtr y, n_site y) /\ n_records m1 = n_records y) as [X Y].
    { cbn [set_auth] in F1. injection F1. intros. subst. split; congruence. }
    split; [congruence|]. rewrite Y in A2. rewrite (mapM_idem _ _ _ sanitize_mrec_idem B2) in A2. congruence.
Qed.

(** ** C81 *)
(** An ETR registers prefix [p]: the Map-Register it makes can always be authenticated and sent.  A daemon that is the
    Map-Server for the prefix with the same key, receiving these bytes from [src], stores the record for 180 seconds under
    the sender, and answers with one Map-Notify to the sender.  The bytes of that Map-Notify make the ETR take the
    registration as confirmed. *)
Theorem C81_confirmed hm p r locs rtrs nonce xtr site cfg socks st ar clock nd afi :
  digests hm -> wf_pfx p -> Forall (fun l => obj_loc l /\ good_locator l) locs -> (length locs <= 255)%nat ->
  length nonce = 8%nat -> in_bits 128 xtr -> in_bits 64 site -> known_key_id (tr_keyid r) ->
  afi = match x_fam p with V4 => 1 | V6 => 2 end -> g_resolve cfg 0 afi p = Ok (Some nd) -> n_cls nd = NMapServer ->
  wf_pfx (n_pfx nd) -> inside p (n_pfx nd) -> (p = n_pfx nd \/ ms_more (dm_ms st (n_id nd)) = true) ->
  ms_key (dm_ms st (n_id nd)) = tr_key r ->
  exists g out n nb n' rec st',
    insert hm (AReg (new_register p r locs rtrs true nonce xtr site)) (tr_key r) = (AReg g, Ok tt) /\
    mreg_to_bytes g = Ok out /\
    step hm cfg socks st (AtControl ar out clock) = (st', [OMsg (PCtl (CNot n)) VThis [AIP (fst (ar_src ar)) (snd (ar_src ar))] 4342]) /\
    registered (dm_ms st' (n_id nd)) p (if xtr =? 0 then SAddr (fst (ar_src ar)) (snd (ar_src ar)) else SXtr site xtr) =
      Some (Reg rec (tr_proxy r) (clock 0%nat + 180 * sec)) /\
    arrives_mrec (new_mrec 0 p locs) rec /\
    pkt_to_bytes (PCtl (CNot n)) = Ok nb /\ pkt_from_bytes KCtl nb = Ok (PCtl (CNot n')) /\
    n_records n' = [rec] /\
    notify_content_ok hm (tr_key r) g (Some n') = Ok true.
Proof.
  intros HD Wp HL Ln Lnon Rx Rs K -> HR HC Wn Hin Hmore Hkey.
  set (m := new_register p r locs rtrs true nonce xtr site).
  assert (obj_mrec (new_mrec 0 p locs)) as Orec.
  { split; [reflexivity|]. split; [apply wf_pfx_addr, Wp|]. cbn [new_mrec mr_locs]. eapply Forall_impl; [|exact HL]. intros l Hl; apply Hl. }
  assert (good_mrec (new_mrec 0 p locs)) as Grec.
  { constructor; cbn [new_mrec mr_ttl mr_action mr_ver mr_eid mr_locs]; [unfold in_bits; lia|lia|unfold in_bits; lia|eauto|exact Ln|]. eapply Forall_impl; [|exact HL]. intros l Hl; apply Hl. }
  assert (obj_mreg m) as Om.
  { unfold m, new_register, obj_mreg. cbn [g_rsv1 g_rsv2 g_nonce g_records]. repeat split; auto. }
  assert (exists out0, mreg_to_bytes m = Ok out0) as (out0 & H0).
  { apply is_ok_iff. apply C91_map_register; [exact Om|]. unfold m, new_register. constructor; cbn [g_xtr g_site g_key g_authdata g_records length]; [auto|split; [exact K|cbn; lia]|]. split; [lia|]. auto. }
  destruct (insert_reg hm m (tr_key r) out0 HD Om H0) as (g & out & g2 & EI & Eo & Ep & O2 & S2 & V2 & Fg & Fg2 & Mr & Rg).
  unfold m in Fg, Fg2, Mr, Rg. cbn [new_register g_proxy g_notify g_nonce g_key g_xtr g_site g_records] in Fg, Fg2, Mr, Rg.
  cbn [mapM] in Mr. bo Mr rec Er. cbn [bind] in Mr. injection Mr as Mr. pose proof (sanitize_mrec_arrives _ _ Er) as AR.
  injection Fg2 as G1 G2 G3 G4 G5 G6. injection Fg as G1' G2' G3' G4' G5' G6'. 
  assert (mr_eid rec = ANet (x_fam p) (x_net p) (x_len p)) as Eeid by (destruct AR as []; cbn [new_mrec mr_eid] in *; congruence).
  assert (determine (mr_eid rec) = Some (0, match x_fam p with V4 => 1 | V6 => 2 end, ANet (x_fam p) (x_net p) (x_len p))) as Ed by (rewrite Eeid; destruct (x_fam p); reflexivity).
  set (so := if xtr =? 0 then SAddr (fst (ar_src ar)) (snd (ar_src ar)) else SXtr site xtr).
  set (rg := Reg rec (tr_proxy r) (clock 0%nat + 180 * sec)).
  assert (acceptable hm (ms_key (dm_ms st (n_id nd))) (ms_more (dm_ms st (n_id nd))) (n_pfx nd) g2 0 (ar_src ar) (clock 0%nat) p so rg) as HA.
  { exists rec, rec. split; [unfold authentic; rewrite Hkey; exact V2|]. split; [rewrite <- Mr; reflexivity|]. split; [eexists _, _; apply eid_named_spec; exact Ed|].
    split; [exact Hin|]. split; [exact Hmore|]. split.
    - unfold sender, so. rewrite G5, G6. destruct (Z.eqb_spec xtr 0); auto.
    - split; [|unfold rg; rewrite G1; reflexivity]. destruct (Z.eq_dec (g_key g2) 0); [left; auto|right; split; [assumption|eapply sanitize_mrec_idem; eauto]]. }
  destruct (handle_record_spec hm (n_pfx nd) (dm_ms st (n_id nd)) g2 0 (ar_src ar) (clock 0%nat) Wn O2) as (m' & ho & s' & EH & HO & HM).
  destruct HO as [(-> & q & so' & rg' & HA' & ->)|(_ & _ & NA)]; [|destruct (NA _ _ _ HA)].
  destruct (acceptable_fun _ _ _ _ _ _ _ _ _ _ _ _ _ _ HA HA') as (<- & <- & <-). clear HA'.
  assert (m' = g2) as ->. { destruct HM as [[_ ->]|[_ HM]]; [discriminate|reflexivity|congruence]. }
  set (n0 := MNot (repeat false 19) nonce (tr_keyid r) [] [rec] xtr site).
  pose proof (sanitize_mrec_wf _ _ Orec Er) as Orec'.
  assert (obj_mnot n0) as On by (split; [reflexivity|constructor; [exact Orec'|constructor]]).
  assert (good_mrec rec) as Grec'.
  { pose proof (sanitize_mrec_idem _ _ Er) as Ei. apply sanitize_mrec_inv in Er. destruct AR. cbn [new_mrec mr_ttl mr_action mr_ver mr_eid mr_locs] in *.
    assert (Permutation locs (mr_locs rec)) as HP by (apply am_locs). 
    constructor; rewrite ?am_ttl, ?am_ver, ?am_eid; [unfold in_bits; lia| |unfold in_bits; lia|eauto| |].
    - intros El. rewrite El in HP. apply Permutation_sym, Permutation_nil in HP. rewrite (am_action_neg HP). lia.
    - rewrite <- (Permutation_length HP). exact Ln.
    - eapply Permutation_Forall; [exact HP|]. eapply Forall_impl; [|exact HL]. intros l Hl; apply Hl. }
  assert (exists b, mnot_to_bytes n0 = Ok b) as (b0 & Hb0).
  { apply is_ok_iff. apply C91_map_notify; [exact On|]. constructor; cbn [n0 n_xtr n_site n_key n_authdata n_records n_nonce length]; [auto|exact Lnon|split; [exact K|cbn; lia]|]. split; [lia|]. auto. }
  destruct (insert_not hm n0 (tr_key r) b0 HD On Hb0) as (n & nb & n' & EN & Enb & Pn & Pn' & Vn & Fn & Mn).
  cbn [n0 n_records mapM] in Mn. rewrite (sanitize_mrec_idem _ _ Er) in Mn. cbn [bind] in Mn. injection Mn as Mn.
  cbn [n0 n_nonce n_key n_xtr n_site] in Fn. injection Fn as N1 N2 N3 N4.
  exists g, out, n, nb, n', rec. eexists. split; [exact EI|]. split; [exact Eo|]. split.
  { cbn [step]. unfold control_datagram. rewrite Ep. unfold handle_control_message, received. cbn [is_control negb handle_message dm_ms dm_etr dm_out dm_ctr].
    unfold handle_map_register. rewrite <- Mr at 1. cbn [length reg_loop]. rewrite <- Mr at 1. cbn [nth_error]. rewrite Ed. cbn [pfx_of].
    replace (Pfx (x_fam p) (x_net p) (x_len p)) with p by (destruct p; reflexivity). rewrite HR, HC, EH.
    cbn [app reg_loop]. rewrite G2. cbn [andb nonempty flat_map nth_error]. rewrite <- Mr. cbn [nth_error app]. rewrite G3, G4, G5, G6.
    cbn [ms_key set_regs]. fold n0. rewrite Hkey, EN. reflexivity. }
  cbn [dm_ms]. split.
  { unfold set_ms. rewrite Nat.eqb_refl. unfold registered. cbn [ms_regs set_regs]. fold (look (store (ms_regs (dm_ms st (n_id nd))) p so rg) p so).
    rewrite look_store. rewrite (proj2 (pfx_eqb_spec p p) eq_refl), (proj2 (source_eqb_ok so so) eq_refl). reflexivity. }
  split; [exact AR|]. split; [exact Enb|]. split; [exact Pn|]. split; [congruence|].
  apply (C59_accepts_partial _ _ _ _ _ Pn'). split; [exact Vn|]. split; [congruence|]. split; [congruence|]. split; [right; congruence|]. split; [right; congruence|].
  assert (same_header rec (new_mrec 0 p locs)) as SH.
  { destruct AR. unfold same_header. repeat split; try assumption.
    - destruct locs; [apply am_action_neg; reflexivity|apply am_action_pos; discriminate].
    - symmetry. apply Permutation_length, am_locs. }
  destruct Rg as [Rg|Rg]; rewrite Rg.
  - split; [rewrite <- Mn; reflexivity|]. intros x [<-|[]]. exists rec. split; [rewrite <- Mn; left; reflexivity|exact SH].
  - rewrite <- Mr. split; [rewrite <- Mn; reflexivity|]. intros x [<-|[]]. exists rec. split; [rewrite <- Mn; left; reflexivity|]. repeat split.
Qed.

Lemma notify_read d n : pkt_from_bytes KCtl d = Ok (PCtl (CNot n)) -> mnot_from_bytes d = Ok n.
Proof.
  rewrite from_bytes_layer. cbn [layer]. unfold rd_control. intros H. bo H [t s] E. destruct (t =? 8).
  - exfalso. unfold rd_ecm in H. bo H [t1 s1] X1. bo H u1 X2. bo H [b1 s2] X3. bo H [b2 s3] X4. bo H [r1 s4] X5. bo H u2 X6. bo H q X7. discriminate.
  - bo H [c rest] E2. assert (c = CNot n) as -> by congruence. unfold rd_ctl in E2.
    repeat match type of E2 with (if ?b then _ else _) = _ => destruct b eqn:?; [bo E2 [m0 s0] E3; try discriminate|] end; [|discriminate].
    assert (m0 = n) as -> by congruence. unfold mnot_from_bytes, from_bytes. rewrite E3. reflexivity.
Qed.

(** ... and when these bytes arrive at the ETR's daemon from the Map-Server, with the Map-Register outstanding at the ETR
    node of the prefix, they are recorded with it: the registration thread finds a Map-Notify it accepts *)
Theorem C81_recorded hm cfg socks st ar clock r g n nb n' key rec id :
  pkt_to_bytes (PCtl (CNot n)) = Ok nb -> pkt_from_bytes KCtl nb = Ok (PCtl (CNot n')) -> n_records n' = [rec] ->
  notify_content_ok hm key g (Some n') = Ok true ->
  belongs cfg (mr_eid rec) id -> ar_src ar = tr_ms r -> no_regs (dm_out st id) = [OutReg r g None] ->
  exists st', step hm cfg socks st (AtControl ar nb clock) = (st', []) /\ no_regs (dm_out st' id) = [OutReg r g (Some n')].
Proof.
  intros Hn Pn Rn Hok Hb Hs Hout.
  assert (brings (AtControl ar nb clock) (PCtl (CNot n')) ar clock) as B by (constructor; exact Pn).
  assert (n_nonce n' = g_nonce g) as Enon.
  { unfold notify_content_ok in Hok. destruct (verify hm (ANot n') key) as [a v] eqn:EV. bo Hok ok Ev. destruct ok; cbn [negb] in Hok; [|discriminate].
    assert (mnot_from_bytes nb = Ok n') as Hd by (apply notify_read, Pn).
    destruct (verify_parsed hm nb n' key Hd) as (b & V). rewrite V in EV. injection EV as <- _.
    destruct (bytes_eqb (n_nonce n') (g_nonce g)) eqn:E; [|discriminate]. apply bytes_eqb_spec. exact E. }
  destruct (step hm cfg socks st (AtControl ar nb clock)) as [st' outs] eqn:E.
  destruct (C79_notify _ _ _ _ _ _ _ _ _ _ B E) as (-> & _ & _ & H). exists st'. split; [reflexivity|]. destruct (H id) as (_ & HR & _).
  assert (reaches cfg (n_records n') id) as R.
  { rewrite Rn. exists [], rec, []. split; [reflexivity|]. split; [exact Hb|]. intros x []. }
  specialize (HR R). rewrite Hout in HR. inversion HR as [l Hno El|l1 x l2 Hl1 Hx El El']; subst.
  - destruct (Hno (OutReg r g None)); [left; reflexivity|]. split; [exact Hs|exact Enon].
  - destruct l1 as [|y l1]; [|destruct l1; discriminate]. cbn [app] in *. injection El as -> ->. reflexivity.
Qed.

(** a Map-Server for 10.0.0.0/8 accepting more specific prefixes, an ETR registering 10.5.0.0/16 with HMAC-SHA1 *)
Example C81_example : forall socks,
  let r := Etrr (V4, 3221225985) 1 (B [1;2]) true None in
  exists g out n nb n' rec st',
    insert toy_hm (AReg (new_register p16 r [new_loc (Loc 1 100 255 0 (repeat false 13) true false true (AIP V4 3405803777)) true (AIP V4 3405803777)] [] true (repeat zero_byte 8) 9 3)) (B [1;2]) = (AReg g, Ok tt) /\
    mreg_to_bytes g = Ok out /\
    step toy_hm ms_cfg socks (Dm (fun _ => new_ms (B [1;2]) true) (fun _ => Etr [] [] []) (fun _ => NOut [] []) 0) (AtControl (Arr (V4, 3405803777) 4342 (V4, 10)) out (fun _ => 5)) =
      (st', [OMsg (PCtl (CNot n)) VThis [AIP V4 3405803777] 4342]) /\
    registered (dm_ms st' 7%nat) p16 (SXtr 3 9) = Some (Reg rec true (5 + 180 * sec)) /\
    pkt_to_bytes (PCtl (CNot n)) = Ok nb /\ pkt_from_bytes KCtl nb = Ok (PCtl (CNot n')) /\
    notify_content_ok toy_hm (B [1;2]) g (Some n') = Ok true.
Proof.
  intros socks r. set (l := new_loc _ _ _).
  destruct (C81_confirmed toy_hm p16 r [l] [] (repeat zero_byte 8) 9 3 ms_cfg socks (Dm (fun _ => new_ms (B [1;2]) true) (fun _ => Etr [] [] []) (fun _ => NOut [] []) 0)
    (Arr (V4, 3405803777) 4342 (V4, 10)) (fun _ => 5) ms_node 1) as (g & out & n & nb & n' & rec & st' & H1 & H2 & H3 & H4 & H5 & H6 & H7 & H8 & H9); try reflexivity.
  - apply toy_digests.
  - repeat split; vm_compute; congruence.
  - constructor; [|constructor]. split; [reflexivity|]. constructor.
    + unfold octet, l. cbn. lia.
    + exists V4, 3405803777. split; [reflexivity|]. unfold in_bits. cbn. lia.
    + intros F. inversion F as [|z F1| |]; subst. unfold in_prefix in F1. vm_compute in F1. discriminate F1.
  - cbn. lia.
  - unfold in_bits; lia.
  - unfold in_bits; lia.
  - right. left. reflexivity.
  - apply p8_wf.
  - apply inside_interval; [exact p16_wf|exact p8_wf|]. vm_compute. repeat split; congruence.
  - right. reflexivity.
  - exists g, out, n, nb, n', rec, st'. auto 10.
Qed.
Print Assumptions C81_confirmed.
Print Assumptions C81_recorded.
