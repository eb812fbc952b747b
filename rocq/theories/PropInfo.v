(** * Property C101: NAT detection, from the Info-Request of the ETR to the verdict *)
From Verif Require Import Base BaseLemmas Afi AfiProofs Spec SpecLemmas SpecEid PropEid Records Control SpecRec RecordsProofs ControlProofs
  PropControl Packet PacketProofs PacketStack SpecPkt Auth SpecAuth PropAuth Tree SpecTree TreeProofs Net SpecNet PropNet
  MapServer Etr SpecEtr Daemon SpecDaemon PropDaemon Exchange SpecExch PropExch SpecRoute PropRoute SpecAccept PropAccept PropLoop PropLoop2 PropEtr InfoReq.

Lemma info_packet g out : obj_info g -> info_to_bytes g = Ok out -> pkt_from_bytes KCtl out = Ok (PCtl (CInfo g)).
Proof.
  intros O H. pose proof (C29_info_roundtrip g out O H []) as P. rewrite app_nil_r in P. apply from_bytes_ok in P. destruct P as [t E].
  apply (ctl_parse (CInfo g) out t (CInfo g) H). cbn [ctl_type]. unfold rd_ctl. cbn [Z.eqb Pos.eqb]. rewrite E. reflexivity.
Qed.

(** The Info-Request of an ETR for any prefix can be authenticated and sent.  Every call of sendto is for the Map-Server, port 4342, over
    a socket of its family, with the same bytes; whoever receives them reads an Info-Request with the nonce, the prefix and a TTL of a day,
    which is authentic under the registration's key; and a pylisp daemon that gets it changes nothing and sends nothing. *)
Theorem C101_request hm p r nonce : digests hm -> wf_pfx p -> known_key_id (tr_keyid r) -> length nonce = 8%nat ->
  exists m out,
    make_info_request hm p r nonce = (AInfo m, Ok tt) /\ info_to_bytes m = Ok out /\
    (forall net socks a, In a (fst (send_info_request m r net socks)) ->
       at_to a = tr_ms r /\ at_port a = 4342 /\ at_data a = out /\ In (at_sock a) socks /\ k_fam (at_sock a) = fst (tr_ms r)) /\
    pkt_from_bytes KCtl out = Ok (PCtl (CInfo m)) /\
    i_reply m = false /\ i_nonce m = nonce /\ i_key m = tr_keyid r /\ i_ttl m = 1440 /\
    i_eid m = ANet (x_fam p) (x_net p) (x_len p) /\ i_data m = ANone /\
    snd (verify hm (AInfo m) (tr_key r)) = Ok true /\
    (forall cfg socks st ar clock, exists st', step hm cfg socks st (AtControl ar out clock) = (st', []) /\
       dm_ms st' = dm_ms st /\ dm_etr st' = dm_etr st /\ forall id, dm_out st' id = dm_out st id).
Proof.
  intros HD Wp K Ln. set (m0 := new_info_request p r nonce).
  assert (obj_info m0) as O.
  { unfold m0, new_info_request, obj_info. cbn [i_rsv1 i_rsv2 i_eid i_data]. repeat split. apply wf_pfx_addr, Wp. }
  assert (exists out0, info_to_bytes m0 = Ok out0) as (out0 & H0).
  { apply is_ok_iff. apply C91_info; [exact O|]. unfold m0, new_info_request. constructor; cbn [i_nonce i_key i_authdata i_ttl i_eid i_reply i_data];
      [exact Ln|split; [exact K|cbn; lia]|unfold in_bits; lia|eauto|reflexivity]. }
  destruct (insert_full hm (AInfo m0) (tr_key r) out0 HD O H0) as (a1 & out & a2 & EI & O1 & Eo & S & P & V & F). cbn [kind] in P.
  destruct a2 as [m2|m2|m2]; cbn [a_from_bytes] in P; try (bo P x E; discriminate).
  destruct a1 as [m1|m1|m1]; cbn [a_san] in S; try (bo S x E; discriminate).
  bo S x E. injection S as <-. pose proof (sanitize_info_id _ _ E) as ->.
  assert ((i_reply m1, i_nonce m1, i_key m1, i_ttl m1, i_eid m1, i_data m1) = (i_reply m0, i_nonce m0, i_key m0, i_ttl m0, i_eid m0, i_data m0)) as X.
  { destruct (F []) as [F1|(m' & S & F1)].
    - cbn [set_auth] in F1. injection F1. intros. congruence.
    - cbn [a_san] in S. bo S y S1. injection S as <-. pose proof (sanitize_info_id _ _ S1) as ->. cbn [set_auth] in F1. injection F1. intros. congruence. }
  injection X as X1 X2 X3 X4 X5 X6. pose proof (info_packet m1 out O1 Eo) as Pk.
  exists m1, out. split; [exact EI|]. split; [exact Eo|]. split.
  { intros net socks a Ha. unfold send_info_request in Ha. destruct (send_message _ _ _ _ _ _) as [atts rr] eqn:ES. cbn [fst] in Ha.
    assert (Forall is_address [AIP (fst (tr_ms r)) (snd (tr_ms r))]) as IA by (constructor; [eexists; eexists; reflexivity|constructor]).
    destruct (C62_attempts_in_order _ _ _ _ _ _ _ IA ES) as (_ & A & _). destruct (A a Ha) as [A1 A2].
    destruct (C62_right_family _ _ _ _ _ _ _ ES a Ha) as (B1 & B2 & d & [B3|[]] & B4). subst d. cbn [a_to_bytes] in Eo. rewrite Eo in A2. injection A2 as A2. cbn [shown] in B4.
    assert (at_to a = tr_ms r) as T by (destruct (at_to a), (tr_ms r); cbn in *; congruence).
    rewrite T in *. auto. }
  split; [exact Pk|]. split; [exact X1|]. split; [exact X2|]. split; [exact X3|]. split; [exact X4|]. split; [exact X5|]. split; [exact X6|]. split; [exact V|].
  intros cfg socks st ar clock. destruct (step hm cfg socks st (AtControl ar out clock)) as [st' outs] eqn:ES.
  destruct (C80_info_reply hm cfg socks st _ m1 ar clock st' outs (br_control ar out clock _ Pk) ES) as (-> & Y1 & Y2 & Y3).
  exists st'. split; [reflexivity|]. split; [exact Y1|]. split; [exact Y2|]. intros id. destruct (Y3 id) as (Z1 & _ & Z2).
  specialize (Z2 (or_introl X1)). destruct (dm_out st' id), (dm_out st id). cbn in Z1, Z2. congruence.
Qed.

(** The Map-Server's Info-Reply, with any contents a message can have: it can be sent, and when the daemon of the ETR gets its bytes from
    the Map-Server, the Info-Request that waits for it is answered, with its own address as the private one.  The thread then finds NAT
    exactly if the Map-Server saw another address or port (or RTRs are forced), and gets the RTRs of the reply. *)
Theorem C101_verdict hm cfg socks st r m mp ep g s pr rtrs f ar clock id l1 l2 rest :
  obj_info m -> good_info m -> i_reply m = true -> i_data m = LNat mp ep g s pr rtrs -> belongs cfg (i_eid m) id -> ar_src ar = tr_ms r ->
  no_infos (dm_out st id) = l1 ++ OutInfo r (i_nonce m) (Some f) None false :: l2 ->
  (forall o, In o l1 -> ~ waits_info (tr_ms r) m o) -> tr_use_rtr r <> Some false -> (2 <= length rest)%nat ->
  exists out st' o',
    info_to_bytes m = Ok out /\ step hm cfg socks st (AtControl ar out clock) = (st', []) /\
    no_infos (dm_out st' id) = l1 ++ o' :: l2 /\ oi_event o' = true /\
    (exists m', oi_reply o' = Some m' /\ i_data m' = LNat mp ep g s (AIP (fst f) (snd f)) rtrs) /\
    (forall v used out', get_nat_info r (i_nonce m) (Att [] (Ok (Some f)) [(ar_src ar, m)] false :: rest) [] = (v, used, out') ->
       used = [Att [] (Ok (Some f)) [(ar_src ar, m)] false] /\ out' = false /\
       (v = Ok (Some (LNat mp ep g s (AIP (fst f) (snd f)) rtrs)) <-> (g <> AIP (fst f) (snd f) \/ ep <> 4342 \/ tr_use_rtr r = Some true)) /\
       (v = Ok None <-> ~ (g <> AIP (fst f) (snd f) \/ ep <> 4342 \/ tr_use_rtr r = Some true))).
Proof.
  intros O G Ir Id B As Hl N1 U Lr.
  assert (exists out, info_to_bytes m = Ok out) as (out & Ho) by (apply is_ok_iff, C91_info; auto).
  pose proof (info_packet m out O Ho) as Pk. destruct (step hm cfg socks st (AtControl ar out clock)) as [st' outs] eqn:ES.
  destruct (C80_info_reply hm cfg socks st _ m ar clock st' outs (br_control ar out clock _ Pk) ES) as (-> & _ & _ & Y).
  destruct (Y id) as (_ & Y1 & _). specialize (Y1 Ir B). clear Y. set (o := OutInfo r (i_nonce m) (Some f) None false) in *.
  assert (waits_info (ar_src ar) m o) as Wo by (split; [exact As|reflexivity]).
  assert (no_infos (dm_out st' id) = l1 ++ got_info m o :: l2) as Hn.
  { rewrite As in *. rewrite Hl in Y1. clear - Y1 N1 Wo. revert Y1. generalize (no_infos (dm_out st' id)). intros l' Y.
    inversion Y as [l N E1 E2|k1 x k2 Nk Px E1 E2]; subst.
    - exfalso. apply (N o); [apply in_app_iff; right; left; reflexivity|exact Wo].
    - clear Y. assert (k1 = l1 /\ x = o /\ k2 = l2) as (-> & -> & ->); [|reflexivity].
      revert l1 N1 E1. induction k1 as [|y k1 IH]; intros [|z l1] N1 E1; cbn in E1.
      + injection E1 as -> ->. auto.
      + injection E1 as -> _. exfalso. apply (N1 z); [left; reflexivity|exact Px].
      + injection E1 as -> _. exfalso. apply (Nk o); [left; reflexivity|exact Wo].
      + injection E1 as -> E1. destruct (IH (fun y Hy => Nk y (or_intror Hy)) l1 (fun y Hy => N1 y (or_intror Hy)) E1) as (-> & -> & ->). auto. }
  exists out, st', (got_info m o). split; [exact Ho|]. split; [exact ES|]. split; [exact Hn|]. split; [reflexivity|]. split.
  { eexists. split; [unfold got_info, o; cbn [oi_from oi_reply oi_etrr oi_nonce]; reflexivity|]. rewrite Id. reflexivity. }
  intros v used out' Hg. set (t := Att [] (Ok (Some f)) [(ar_src ar, m)] false) in *.
  assert (firstn 3 (t :: rest) = t :: firstn 2 rest) as Ef by reflexivity. unfold get_nat_info in Hg. rewrite Ef in Hg. cbn [attempts] in Hg.
  assert (set_reply_if_matches (ar_src ar) m (info_sent (Some f) (new_info r (i_nonce m))) =
          Some (OutInfo r (i_nonce m) (Some f) (Some (set_private m f)) true, Ok tt)) as Em.
  { unfold set_reply_if_matches. cbn [oi_etrr oi_nonce oi_from info_sent new_info]. rewrite As.
    assert (addr_same (AIP (fst (tr_ms r)) (snd (tr_ms r))) (AIP (fst (tr_ms r)) (snd (tr_ms r))) = true) as -> by (cbn; rewrite fam_eqb_refl, Z.eqb_refl; reflexivity).
    assert (bytes_eqb (i_nonce m) (i_nonce m) = true) as -> by (apply bytes_eqb_spec; reflexivity). reflexivity. }
  assert (arrive info_arrives (a_in t) (info_sent (Some f) (arrive info_arrives (a_before t) (new_info r (i_nonce m)))) =
          OutInfo r (i_nonce m) (Some f) (Some (set_private m f)) true) as Ea.
  { unfold t, arrive. cbn [a_in a_before fold_left]. unfold info_arrives. cbn [fst snd]. rewrite Em. reflexivity. }
  cbn [a_send t] in Hg. fold t in Hg. rewrite Ea in Hg. cbn [a_stop t oi_event arrive fold_left] in Hg. fold t in Hg.
  cbn [oi_reply oi_event oi_from] in Hg. unfold set_private in Hg. rewrite Id in Hg. cbn [i_data] in Hg.
  assert (addr_same g (AIP (fst f) (snd f)) = true <-> g = AIP (fst f) (snd f)) as As'.
  { destruct g; cbn; try (split; [discriminate|discriminate]). rewrite andb_true_iff, fam_eqb_spec, Z.eqb_eq. split; [intros [-> ->]; reflexivity|intros [= -> ->]; auto]. }
  set (d := LNat mp ep g s (AIP (fst f) (snd f)) rtrs) in *.
  assert (used = [t] /\ out' = false /\ v = if negb (addr_same g (AIP (fst f) (snd f))) || negb (ep =? 4342) then Ok (Some d) else
            match tr_use_rtr r with Some true => Ok (Some d) | _ => Ok None end) as (-> & -> & ->).
  { destruct (tr_use_rtr r) as [[|]|]; [| congruence |]; injection Hg as <- <- <-; repeat split. }
  split; [reflexivity|]. split; [reflexivity|].
  assert ((negb (addr_same g (AIP (fst f) (snd f))) || negb (ep =? 4342) = true) <-> (g <> AIP (fst f) (snd f) \/ ep <> 4342)) as Dn.
  { rewrite orb_true_iff, !negb_true_iff, Z.eqb_neq. rewrite <- not_true_iff_false, As'. tauto. }
  destruct (negb (addr_same g (AIP (fst f) (snd f))) || negb (ep =? 4342)) eqn:Eb.
  - assert (g <> AIP (fst f) (snd f) \/ ep <> 4342) as X by (apply Dn; reflexivity). split; split; try discriminate; try reflexivity; tauto.
  - assert (~ (g <> AIP (fst f) (snd f) \/ ep <> 4342)) as Nn by (intros X; apply Dn in X; discriminate).
    destruct (tr_use_rtr r) as [[|]|]; [|congruence|].
    + split; split; try discriminate; try reflexivity; try tauto.
    + split; [split; [discriminate|intros [X|[X|X]]; [tauto|tauto|discriminate]]|split; [intros _ [X|[X|X]]; [tauto|tauto|discriminate]|reflexivity]].
Qed.

(** ** Cases: the hypotheses are met *)
Example C101_request_ex : digests toy_hm /\ wf_pfx (Pfx V4 (10 * 2 ^ 24) 8) /\ known_key_id (tr_keyid (nat_r None)) /\ length nat_nonce = 8%nat /\
  snd (make_info_request toy_hm (Pfx V4 (10 * 2 ^ 24) 8) (nat_r None) nat_nonce) = Ok tt.
Proof.
  split; [exact (proj1 C41_example)|]. split; [vm_compute; repeat split; discriminate|]. split; [right; left; reflexivity|]. split; [reflexivity|]. vm_compute. reflexivity.
Qed.
Example C101_verdict_ex : obj_info ex_reply /\ good_info ex_reply /\ belongs ex_etr_cfg (i_eid ex_reply) 1 /\ ar_src from_ms = tr_ms (nat_r None) /\
  no_infos (dm_out (waiting ex_o) 1%nat) = [] ++ OutInfo (nat_r None) (i_nonce ex_reply) (Some (V4, 10)) None false :: [] /\
  (* seen as another address: NAT *)
  get_nat_info (nat_r None) nat_nonce (Att [] (Ok (Some (V4, 10))) [(ar_src from_ms, ex_reply)] false :: repeat (Att [] (Ok None) [] false) 2) [] =
    (Ok (Some (LNat 4342 4342 (AIP V4 99) (AIP V4 3221225985) (AIP V4 10) [AIP V4 7])), [Att [] (Ok (Some (V4, 10))) [(ar_src from_ms, ex_reply)] false], false).
Proof.
  assert (obj_info ex_reply) as O by (repeat split). split; [exact O|]. split; [apply C91_info; [exact O|vm_compute; reflexivity]|].
  split; [|split; [reflexivity|split; [reflexivity|vm_compute; reflexivity]]].
  pose proof (etr_for_spec ex_etr_cfg (i_eid ex_reply)) as S. assert (etr_for ex_etr_cfg (i_eid ex_reply) = Ok (Some 1%nat)) as E by (vm_compute; reflexivity).
  rewrite E in S. exact S.
Qed.
Print Assumptions C101_request.
Print Assumptions C101_verdict.
