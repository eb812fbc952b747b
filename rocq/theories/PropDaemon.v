(** * Properties C73-C75, C79, C80: what the daemon does with a datagram *)
From Verif Require Import Base BaseLemmas Afi AfiProofs Spec SpecLemmas Records Control SpecRec RecordsProofs ControlProofs Checksum ChecksumProofs
  PropControl Packet PacketProofs PacketStack SpecPkt PropPacket PropUdp PropPacket2 PropPacket3 Auth SpecAuth PropAuth Tree SpecTree TreeProofs
  Dict MapServer SpecMs PropMs PropMs2 Net Ddt SpecDdt PropDdt2 Etr SpecEtr PropEtr Daemon SpecDaemon.

(** ** Lemmas: the Map-Notify of a Map-Register, whatever the configuration *)
Lemma after_mrec_length l : length (after_mrecs l) = length l.
Proof. induction l as [|r l IH]; [reflexivity|]. cbn [after_mrecs]. destruct (sanitize_mrec r); cbn [length]; congruence. Qed.
Definition reg_same (m m' : mreg) : Prop :=
  g_nonce m' = g_nonce m /\ g_notify m' = g_notify m /\ length (g_records m') = length (g_records m).
Lemma verify_reg_same hm m key a r : verify hm (AReg m) key = (a, r) -> exists m', a = AReg m' /\ reg_same m m'.
Proof.
  assert (forall z, exists m', after (AReg (MReg (g_proxy m) (g_rtr m) (g_notify m) (g_rsv1 m) (g_rsv2 m) (g_nonce m) (g_key m) z (g_records m) (g_xtr m) (g_site m))) = AReg m' /\ reg_same m m') as A.
  { intros z. cbn [after]. destruct (_ && _); eexists; (split; [reflexivity|]); repeat split; cbn [g_records]; try apply after_mrec_length; reflexivity. }
  unfold verify. destruct (calculate hm (AReg m) key) as [c rc] eqn:E. intros H. injection H as <- _. unfold calculate in E.
  destruct (_ =? 0); [injection E as <- _; exists m; repeat split|]. destruct (digest_len _) as [n|]; [|injection E as <- _; exists m; repeat split].
  destruct (A (repeat zero_byte n)) as (m' & Em & Hs). cbn [set_auth] in E. rewrite Em in E.
  destruct (a_to_bytes _); injection E as <- _; eexists; (split; [reflexivity|]); exact Hs.
Qed.
Lemma record_reg_same hm p s m i src now s' m' o : handle_record hm p s m i src now = (s', m', o) -> reg_same m m'.
Proof.
  unfold handle_record. destruct (verify hm (AReg m) (ms_key s)) as [a ok] eqn:E. destruct (verify_reg_same _ _ _ _ _ E) as (m1 & -> & Hs).
  intros H. assert (m' = m1) as ->; [|exact Hs]. destruct ok as [[]|]; [|congruence|congruence].
  destruct (nth_error _ i); [|congruence]. destruct (determine _) as [[[? ?] []]|]; try congruence.
  destruct (_ || _); [congruence|]. destruct (_ && _); congruence.
Qed.
Lemma reg_same_trans a b c : reg_same a b -> reg_same b c -> reg_same a c.
Proof. unfold reg_same. intuition congruence. Qed.
Lemma loop_reg_same hm cfg src clock : forall k i w m done key w' m' out, (forall j, In j done -> (j < length (g_records m))%nat) ->
  reg_loop hm cfg src clock k i w m done key = (w', m', out) ->
  reg_same m m' /\ forall done' key', out = Ok (done', key') -> forall j, In j done' -> (j < length (g_records m'))%nat.
Proof.
  assert (forall m, reg_same m m) as R by (intros; repeat split).
  induction k as [|k IH]; intros i w m done key w' m' out D H; cbn [reg_loop] in H.
  - injection H as <- <- <-. split; [apply R|]. intros ? ? [= <- _]. exact D.
  - destruct (nth_error (g_records m) i) as [r|] eqn:En; [|injection H as <- <- <-; split; [apply R|]; intros ? ? [= <- _]; exact D].
    destruct (determine _) as [[[iid afi] a]|]; [|eauto]. destruct (pfx_of a) as [q|]; [|injection H as <- <- <-; split; [apply R|discriminate]].
    destruct (g_resolve _ _ _ _) as [[nd|]|]; [|eauto|injection H as <- <- <-; split; [apply R|discriminate]].
    destruct (n_cls nd); eauto. destruct (handle_record _ _ _ _ _ _ _) as [[s1 m1] o] eqn:EH. pose proof (record_reg_same _ _ _ _ _ _ _ _ _ _ EH) as S1.
    assert (forall j, In j done -> (j < length (g_records m1))%nat) as D1 by (destruct S1 as (_ & _ & ->); exact D).
    destruct o.
    + assert (forall j, In j (done ++ [i]) -> (j < length (g_records m1))%nat) as D2.
      { intros j Hj. apply in_app_iff in Hj. destruct Hj as [Hj|[<-|[]]]; [exact (D1 _ Hj)|]. destruct S1 as (_ & _ & ->). apply nth_error_Some. congruence. }
      destruct (IH _ _ _ _ _ _ _ _ D2 H) as [S2 X].
      split; [eapply reg_same_trans; eassumption|exact X].
    + destruct (IH _ _ _ _ _ _ _ _ D1 H) as [S2 X]. split; [eapply reg_same_trans; eassumption|exact X].
    + injection H as <- <- <-. split; [exact S1|discriminate].
Qed.
Lemma notify_shape hm cfg w m src clock w' m' s : handle_map_register hm cfg w m src clock = (w', m', Ok (Some s)) ->
  n_nonce (s_msg s) = g_nonce m /\ g_notify m = true /\ n_records (s_msg s) <> [] /\ s_to s = [AIP (fst src) (snd src)] /\ s_port s = 4342.
Proof.
  unfold handle_map_register. destruct (reg_loop _ _ _ _ _ _ _ _ _ _) as [[w1 m1] out] eqn:EL. intros H.
  assert (forall j, In j (@nil nat) -> (j < length (g_records m))%nat) as D0 by (intros j []).
  destruct (loop_reg_same _ _ _ _ _ _ _ _ _ _ _ _ _ D0 EL) as ((S1 & S2 & S3) & D).
  destruct out as [[done key]|]; [|discriminate]. specialize (D _ _ eq_refl). destruct (g_notify m1 && nonempty done) eqn:Eb; [|discriminate].
  apply andb_prop in Eb. destruct Eb as [Eg En]. set (rs := flat_map _ done) in H.
  assert (rs <> []) as Hrs.
  { unfold rs. destruct done as [|j done]; [discriminate|]. cbn [flat_map]. specialize (D j (or_introl eq_refl)). apply nth_error_Some in D.
    destruct (nth_error (g_records m1) j); [discriminate|congruence]. }
  clearbody rs. destruct (insert hm _ key) as [a r] eqn:EI.
  assert (exists n, a = ANot n /\ n_nonce n = g_nonce m1 /\ length (n_records n) = length rs) as (n & -> & N1 & N2).
  { assert (forall z, exists n, after (ANot (MNot (repeat false 19) (g_nonce m1) (g_key m1) z rs (g_xtr m1) (g_site m1))) = ANot n /\ n_nonce n = g_nonce m1 /\ length (n_records n) = length rs) as A.
    { intros z. cbn [after]. destruct (_ && _); eexists; (split; [reflexivity|]); split; cbn [n_records]; try apply after_mrec_length; reflexivity. }
    unfold insert in EI. destruct (calculate hm _ key) as [c rc] eqn:EC. unfold calculate in EC.
    assert (exists n, c = ANot n /\ n_nonce n = g_nonce m1 /\ length (n_records n) = length rs) as (n & -> & N1 & N2).
    { destruct (_ =? 0); [injection EC as <- _; eexists; repeat split; reflexivity|]. destruct (digest_len _) as [k|]; [|injection EC as <- _; eexists; repeat split; reflexivity].
      destruct (A (repeat zero_byte k)) as (n & E1 & E2 & E3). cbn [set_auth n_rsv n_nonce n_key n_records n_xtr n_site] in EC. rewrite E1 in EC.
      destruct (a_to_bytes _); injection EC as <- _; eexists; (split; [reflexivity|]); auto. }
    destruct rc; injection EI as <- _; eexists; (split; [reflexivity|]); auto. }
  destruct r; [|discriminate]. injection H as <- <- <-. cbn [s_msg s_to s_port]. split; [congruence|]. split; [congruence|].
  split; [destruct (n_records n); [destruct rs; [congruence|discriminate]|discriminate]|auto].
Qed.

(** ** Lemmas: ReceivedMessage *)
Lemma is_control_spec m : is_control m = true <-> control_message m.
Proof.
  unfold control_message. split.
  - intros H. destruct m; try discriminate; [eexists; constructor|]. destruct c; eexists; constructor.
  - intros (t & H). destruct H; reflexivity.
Qed.
Lemma upper_final p n q : upper p n q <-> get_final_payload p = Ok (n, q).
Proof.
  split.
  - intros [h q0|h p0 hs n0 q0 C]; [reflexivity|]. cbn [get_final_payload]. rewrite (chain_final _ _ _ _ _ C). reflexivity.
  - destruct p; try discriminate; cbn [get_final_payload]; intros H.
    + injection H as <- <-. constructor.
    + destruct (chain_exists p (x_nh h)) as (hs & n0 & q0 & C & _). rewrite (chain_final _ _ _ _ _ C) in H. injection H as <- <-. econstructor; exact C.
Qed.
Lemma carries_spec p u : carries_udp p u <-> unfragmented p /\ upper p 17 u /\ exists s d c q, u = PUDP s d c q.
Proof.
  split.
  - intros [h s d c q Hp Hm Ho|h p0 hs s d c q C Hn].
    + split; [split; assumption|]. split; [rewrite <- Hp; constructor|eauto].
    + split; [|split; [econstructor; exact C|eauto]]. intros hs' n r C'. destruct (chain_det _ _ _ _ _ _ _ _ C C') as (<- & _). exact Hn.
  - intros (Hu & U & s & d & c & q & ->). inversion U; subst; [constructor; [congruence|apply Hu|apply Hu]|]. econstructor; [eassumption|]. eapply Hu; eassumption.
Qed.
Lemma received_spec ctr m r : snd (received ctr m) = Ok r <->
  control_message m /\ match r with
                       | Some i => exists a b c d rsv p, m = PECM a b c d rsv p /\ encapsulates p i
                       | None => forall a b c d rsv p, m <> PECM a b c d rsv p
                       end.
Proof.
  unfold received. cbn [snd]. destruct (is_control m) eqn:Ec; cbn [negb].
  2: { split; [discriminate|]. intros [H _]. apply is_control_spec in H. congruence. }
  assert (control_message m) as Hc by (apply is_control_spec; exact Ec).
  destruct m as [| | | | | | | | | |sec ddt rtr rel rsv p|c]; try discriminate Ec.
  2: { split; [intros H; injection H as <-; split; [exact Hc|discriminate]|]. destruct r; [intros (_ & ? & ? & ? & ? & ? & ? & ? & _); discriminate|reflexivity]. }
  destruct (get_udp (PECM sec ddt rtr rel rsv p)) as [u|e] eqn:Eu; cbn [bind].
  - apply C21_get_udp, carries_spec in Eu. destruct Eu as (Hf & U & s & d & ck & q & ->). cbn [get_lisp_message].
    split.
    + intros H. split; [exact Hc|].
      destruct (guard (negb _) EValue) as [[]|] eqn:EG; cbn [bind] in H; [|discriminate].
      destruct r as [i|].
      2: { destruct (_ || false); [destruct (is_data q); cbn [bind] in H; [destruct (d =? 4342)|]; discriminate|].
           destruct (_ || true); [destruct (is_control q); cbn [bind] in H; [destruct (d =? 4342)|]; discriminate|discriminate]. }
      exists sec, ddt, rtr, rel, rsv, p. split; [reflexivity|]. split; [exact Hf|]. rewrite orb_true_r, orb_false_r in H.
      destruct (Z.eqb_spec d 4342) as [->|Nd].
      * replace (4342 =? 4341) with false in * by reflexivity. rewrite orb_false_r in H, EG. replace (4342 =? 4342) with true in EG by reflexivity. rewrite orb_true_r, andb_true_r in EG.
        destruct (Z.eqb_spec s 4341); [discriminate EG|]. destruct (is_control q) eqn:Eq; cbn [bind] in H; [|discriminate]. injection H as <-.
        split; [apply is_control_spec; exact Eq|]. exists s, ck. auto.
      * apply Z.eqb_neq in Nd. destruct (_ || _); [destruct (is_data q)|destruct (is_control q)]; cbn [bind] in H; try rewrite Nd in H; discriminate.
    + intros (_ & H). destruct r as [i|]; [|exfalso; eapply H; reflexivity]. destruct H as (? & ? & ? & ? & ? & ? & [= <- <- <- <- <- <-] & _ & Hi & s' & ck' & Hs & U').
      apply upper_final in U, U'. rewrite U in U'. injection U' as <- -> <- <-. apply is_control_spec in Hi. rewrite Hi.
      replace (4342 =? 4341) with false by reflexivity. replace (4342 =? 4342) with true by reflexivity. rewrite orb_false_r. apply Z.eqb_neq in Hs. rewrite Hs, !orb_true_r. reflexivity.
  - split; [discriminate|]. intros (_ & H). destruct r as [i|]; [|exfalso; eapply H; reflexivity].
    destruct H as (? & ? & ? & ? & ? & ? & [= <- <- <- <- <- <-] & Hf & Hi & s & ck & Hs & U).
    assert (get_udp (PECM sec ddt rtr rel rsv p) = Ok (PUDP s 4342 ck i)) as X by (apply C21_get_udp, carries_spec; eauto 10). congruence.
Qed.
Lemma received_ctr ctr m : fst (received ctr m) = fst (take_nr ctr None).
Proof. reflexivity. Qed.

(** ** C73: one datagram, at most one answer *)
Section D.
Variable hm : Z -> bytes -> bytes -> bytes.
Variable cfg : instances.
Variable socks : list (fam * Z).

(** what handling a control message amounts to *)
Lemma handled clock ar m st st' outs : handle_control_message hm cfg socks clock ar m st = (st', outs) ->
  (outs = [] \/ exists o, outs = [o] /\ answers ar m o) /\
  dm_etr st' = dm_etr st /\ dm_ctr st' = fst (take_nr (dm_ctr st) None) /\
  ((forall g, m <> PCtl (CReg g)) -> dm_ms st' = dm_ms st) /\
  ((forall n, m <> PCtl (CNot n)) -> (forall i, m <> PCtl (CInfo i)) -> dm_out st' = dm_out st).
Proof.
  unfold handle_control_message. destruct (received (dm_ctr st) m) as [ctr r] eqn:ER.
  assert (ctr = fst (take_nr (dm_ctr st) None)) as -> by (rewrite <- (received_ctr (dm_ctr st) m), ER; reflexivity).
  set (st1 := Dm (dm_ms st) (dm_etr st) (dm_out st) (fst (take_nr (dm_ctr st) None))).
  destruct r as [inner|e]; [|intros H; injection H as <- <-; cbn; auto 10].
  assert (snd (received (dm_ctr st) m) = Ok inner) as ER2 by (rewrite ER; reflexivity). apply received_spec in ER2. destruct ER2 as [Hc Hi].
  intros H. unfold handle_message in H. destruct m as [| | | | | | | | | |sec ddt rtr rel rsv p|c]; try (injection H as <- <-; cbn; auto 10; fail).
  - destruct inner as [i|]; [|exfalso; eapply Hi; reflexivity]. destruct Hi as (? & ? & ? & ? & ? & ? & [= <- <- <- <- <- <-] & Hen).
    destruct i as [| | | | | | | | | | |[q| | | | |]]; try (injection H as <- <-; cbn; auto 10; fail).
    destruct ddt; [|injection H as <- <-; cbn; auto 10]. injection H as <- <-. split; [|cbn; auto 10].
    destruct (handle_ddt cfg sec q (ar_src ar) (ar_port ar)) as [[s|]|e] eqn:Ed; [|auto|auto]. right. eexists. split; [reflexivity|].
    assert (sec = false /\ exists rc, s = send_answer q (ar_src ar) (ar_port ar) rc) as [-> (rc & ->)].
    { unfold handle_ddt in Ed. destruct sec; [discriminate|]. split; [reflexivity|]. destruct (q_eids q); [discriminate|].
      bo Ed path Ep. destruct path; [|discriminate]. destruct (scan None (rev _)) as [auth [h|]]; [|injection Ed as <-; eauto].
      destruct (n_cls h); try (destruct auth; injection Ed as <-; eauto; fail).
      - bo Ed r Er. injection Ed as <-. eauto.
      - bo Ed ot Eo. bo Ed r Er. injection Ed as <-. eauto. }
    cbn [send_answer s_msg s_to s_port]. econstructor; [exact Hen| |]; reflexivity.
  - destruct c as [q|q|g|n|f|i].
    + injection H as <- <-. split; [|cbn; auto 10]. change (dm_etr st1) with (dm_etr st).
      destruct (handle_map_request cfg (dm_etr st) socks q (ar_at ar) (ar_port ar)) as [[s|]|e] eqn:Eq; [|auto|auto].
      right. eexists. split; [reflexivity|]. destruct (C58_reply _ _ _ _ _ _ _ Eq) as (? & ? & ? & ? & ? & ? & ? & ? & ? & ? & _ & _ & _ & _ & _ & _ & E1 & E2 & E3 & E4 & E5 & _).
      rewrite E3, E4. constructor; [exact E2|exact E1|rewrite E5; reflexivity].
    + injection H as <- <-. cbn. auto 10.
    + change (dm_ms st1) with (dm_ms st) in H. destruct (handle_map_register hm cfg (dm_ms st) g (ar_src ar) clock) as [[w m'] r] eqn:Eg.
      injection H as <- <-. split; [|cbn; repeat split; auto; intros X; exfalso; eapply X; reflexivity].
      destruct r as [[s|]|e]; [|auto|auto]. right. eexists. split; [reflexivity|].
      destruct (notify_shape _ _ _ _ _ _ _ _ _ Eg) as (E1 & E2 & E3 & -> & ->). constructor; assumption.
    + injection H as <- <-. split; [auto|]. cbn. repeat split; auto. intros X. exfalso. eapply X; reflexivity.
    + injection H as <- <-. cbn. auto 10.
    + injection H as <- <-. split; [auto|]. cbn. repeat split; auto. intros _ X. exfalso. eapply X; reflexivity.
Qed.

(** a message that is not a control message, or an ECM without proper content, is dropped *)
Lemma not_deliverable clock ar m st : ~ deliverable m ->
  handle_control_message hm cfg socks clock ar m st = (Dm (dm_ms st) (dm_etr st) (dm_out st) (fst (take_nr (dm_ctr st) None)), []).
Proof.
  intros H. unfold handle_control_message. destruct (received (dm_ctr st) m) as [ctr r] eqn:ER.
  assert (ctr = fst (take_nr (dm_ctr st) None)) as -> by (rewrite <- (received_ctr (dm_ctr st) m), ER; reflexivity).
  destruct r as [inner|]; [|reflexivity]. exfalso. assert (snd (received (dm_ctr st) m) = Ok inner) as E by (rewrite ER; reflexivity).
  apply received_spec in E. destruct E as [Hc Hi]. apply H. split; [exact Hc|]. intros a b c d rsv p ->. destruct inner as [i|].
  - destruct Hi as (? & ? & ? & ? & ? & ? & [= <- <- <- <- <- <-] & Hi). eauto.
  - exfalso. eapply Hi. reflexivity.
Qed.

Theorem C73_control_datagram clock ar d st st' outs : control_datagram hm cfg socks clock ar d st = (st', outs) ->
  (outs = [] \/ exists m o, pkt_from_bytes KCtl d = Ok m /\ outs = [o] /\ answers ar m o) /\
  dm_etr st' = dm_etr st /\
  ((forall g, pkt_from_bytes KCtl d <> Ok (PCtl (CReg g))) -> dm_ms st' = dm_ms st) /\
  ((forall n, pkt_from_bytes KCtl d <> Ok (PCtl (CNot n))) -> (forall i, pkt_from_bytes KCtl d <> Ok (PCtl (CInfo i))) ->
     dm_out st' = dm_out st) /\
  (is_ok (pkt_from_bytes KCtl d) = false -> st' = st).
Proof.
  unfold control_datagram. destruct (pkt_from_bytes KCtl d) as [m|e] eqn:E.
  - intros H. destruct (handled _ _ _ _ _ _ H) as (H1 & H2 & _ & H3 & H4). split.
    + destruct H1 as [->|(o & -> & Ha)]; [auto|]. right. exists m, o. auto.
    + split; [exact H2|]. split; [intros X; apply H3; intros g ->; eapply X; reflexivity|]. split; [|discriminate].
      intros X Y. apply H4; [intros n ->; eapply X; reflexivity|intros i ->; eapply Y; reflexivity].
  - intros H. injection H as <- <-. auto 10.
Qed.

(** A datagram at the data port: what it brings is handled like a control datagram, or one packet is forwarded, and
    then nothing changes. *)
Theorem C73_data_datagram clock ar d st st' outs : data_datagram hm cfg socks clock ar d st = (st', outs) ->
  (st' = st /\ (outs = [] \/ exists v a data, outs = [ORaw v a data])) \/
  exists m, brings (AtData ar d clock) m ar clock /\ handle_control_message hm cfg socks clock ar m st = (st', outs) /\
    (outs = [] \/ exists o, outs = [o] /\ answers ar m o).
Proof.
  unfold data_datagram. destruct (pkt_from_bytes (KData true) d) as [[]|] eqn:E; try (intros H; injection H as <- <-; auto 10; fail).
  destruct (match d_iid d0 with Some i => i =? 16777215 | None => false end) eqn:Ei.
  - destruct (get_final_payload p) as [[n u]|] eqn:Ef; [|intros H; injection H as <- <-; auto 10].
    destruct u as [| | | | | | | |s dp ck q| | |]; try (intros H; injection H as <- <-; auto 10; fail).
    destruct (Z.eqb_spec dp 4342) as [->|]; [|intros H; injection H as <- <-; auto 10].
    intros H. right. exists q. split; [|split; [exact H|apply (handled _ _ _ _ _ _ H)]].
    econstructor; [exact E| |apply upper_final; exact Ef]. destruct (d_iid d0); [|discriminate]. apply Z.eqb_eq in Ei. rewrite Ei. reflexivity.
  - intros H. left. injection H as <- <-. split; [reflexivity|]. destruct p; auto;
    match goal with |- _ \/ exists _ _ _, match ?x with _ => _ end = _ => destruct x end; auto; right; do 3 eexists; reflexivity.
Qed.

(** Whatever happens: an ETR node is as its own threads left it, no datagram and no other node's thread changes it; what it
    waits for is what its threads wait for, unless a Map-Notify or Info-Message arrived since. *)
Lemma step_etr st e id : (forall x o, e <> EtrThread id x o) ->
  dm_etr (fst (step hm cfg socks st e)) id = dm_etr st id /\
  ((forall m ar clock n i, brings e m ar clock -> m <> PCtl (CNot n) /\ m <> PCtl (CInfo i)) ->
     dm_out (fst (step hm cfg socks st e)) id = dm_out st id).
Proof.
  intros N. destruct e as [ar d clock|ar d clock|petr d|j now|j x o]; cbn [step].
  - destruct (control_datagram hm cfg socks clock ar d st) as [st' outs] eqn:E. cbn [fst].
    destruct (C73_control_datagram _ _ _ _ _ _ E) as (_ & Ee & _ & Eo & _). split; [rewrite Ee; reflexivity|]. intros H. rewrite Eo; [reflexivity| |].
    + intros n Hn. destruct (H _ _ _ n (Info false [] [] 0 [] 0 [] ANone ANone) (br_control ar d clock _ Hn)) as [X _]. congruence.
    + intros i Hi. destruct (H _ _ _ (MNot [] [] 0 [] [] 0 0) i (br_control ar d clock _ Hi)) as [_ X]. congruence.
  - destruct (data_datagram hm cfg socks clock ar d st) as [st' outs] eqn:E. cbn [fst].
    destruct (C73_data_datagram _ _ _ _ _ _ E) as [[-> _]|(m & B & Hm & _)]; [auto|].
    destruct (handled _ _ _ _ _ _ Hm) as (_ & Ee & _ & _ & Eo). split; [rewrite Ee; reflexivity|]. intros H. rewrite Eo; [reflexivity| |].
    + intros n ->. destruct (H _ _ _ n (Info false [] [] 0 [] 0 [] ANone ANone) B) as [X _]. congruence.
    + intros i ->. destruct (H _ _ _ (MNot [] [] 0 [] [] 0 0) i B) as [_ X]. congruence.
  - cbn [fst]. auto.
  - cbn [fst dm_etr dm_out]. auto.
  - cbn [fst dm_etr dm_out]. destruct (Nat.eqb_spec id j) as [->|Nj]; [destruct (N x o eq_refl)|]. split; [reflexivity|].
    intros _. unfold set_out. destruct (Nat.eqb_spec id j); [congruence|reflexivity].
Qed.
Definition left_alone (h : list event) : Prop := forall e m ar clock n i, In e h -> brings e m ar clock -> m <> PCtl (CNot n) /\ m <> PCtl (CInfo i).
Theorem C73_etr_nodes st h id : let st' := fst (run hm cfg socks st h) in
  (forall h1 x o h2, h = h1 ++ EtrThread id x o :: h2 -> (forall x' o', ~ In (EtrThread id x' o') h2) ->
     dm_etr st' id = x /\ (left_alone h2 -> dm_out st' id = o)) /\
  ((forall x o, ~ In (EtrThread id x o) h) -> dm_etr st' id = dm_etr st id /\ (left_alone h -> dm_out st' id = dm_out st id)).
Proof.
  cbn zeta. assert (forall h st, (forall x o, ~ In (EtrThread id x o) h) ->
    dm_etr (fst (run hm cfg socks st h)) id = dm_etr st id /\ (left_alone h -> dm_out (fst (run hm cfg socks st h)) id = dm_out st id)) as K.
  { clear h st. induction h as [|e h IH]; intros st N; [auto|]. cbn [run]. destruct (step hm cfg socks st e) as [s1 o1] eqn:E.
    destruct (run hm cfg socks s1 h) as [s2 o2] eqn:E2. cbn [fst].
    destruct (IH s1 (fun x o I => N x o (or_intror I))) as [A B]. rewrite E2 in A, B. cbn [fst] in A, B.
    destruct (step_etr st e id (fun x o X => N x o (or_introl X))) as [A1 B1]. rewrite E in A1, B1. cbn [fst] in A1, B1.
    split; [congruence|]. intros L. rewrite B by (intros e' m ar clock n i I; exact (L e' m ar clock n i (or_intror I))).
    apply B1. intros m ar clock n i. apply (L e m ar clock n i). left. reflexivity. }
  split; [|apply K]. intros h1 x o h2 -> N. revert st. induction h1 as [|e h1 IH]; intros st.
  - cbn [app run step]. destruct (K h2 (Dm (dm_ms st) (fun j => if Nat.eqb j id then x else dm_etr st j) (set_out (dm_out st) id o) (dm_ctr st)) N) as [A B].
    destruct (run hm cfg socks _ h2) as [s2 o2]. cbn [fst dm_etr dm_out] in *. rewrite Nat.eqb_refl in A. unfold set_out in B. rewrite Nat.eqb_refl in B. auto.
  - cbn [app run]. destruct (step hm cfg socks st e) as [s1 o1]. specialize (IH s1). destruct (run hm cfg socks s1 (h1 ++ EtrThread id x o :: h2)) as [s2 o2].
    cbn [fst] in *. exact IH.
Qed.
End D.
Print Assumptions C73_etr_nodes.
Print Assumptions C73_control_datagram.
Print Assumptions C73_data_datagram.
