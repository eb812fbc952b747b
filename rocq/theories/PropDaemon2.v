(** * Property C74: registrations of the daemon, end to end *)
From Verif Require Import Base BaseLemmas Afi AfiProofs Spec SpecLemmas SpecEid PropEid Records Control SpecRec RecordsProofs ControlProofs
  Packet PacketProofs PacketStack SpecPkt Auth SpecAuth PropAuth Tree SpecTree TreeProofs PropTree PropTree2
  Dict MapServer SpecMs PropMs PropMs2 Net Ddt Etr Daemon SpecDaemon PropDaemon.

(** ** Map-Registers read from the wire are proper objects, however deep they are nested *)
Fixpoint regs_ok (p : pkt) : Prop :=
  match p with
  | PCtl (CReg m) => obj_mreg m
  | PIPv4 _ q | PIPv6 _ q | PHop _ _ q | PDst _ _ q | PRoute _ _ _ _ q | PFrag _ _ _ _ q | PNoNext q
  | PUDP _ _ _ q | PData _ q | PECM _ _ _ _ _ q => regs_ok q
  | _ => True
  end.
Lemma layer_regs rec k d p : (forall k d p, rec k d = Ok p -> regs_ok p) -> layer rec k d = Ok p -> regs_ok p.
Proof.
  intros R. assert (forall dec nh b q, decode rec dec nh b = Ok q -> regs_ok q) as Rd.
  { intros dec nh b q. unfold decode. destruct dec; [|intros H; okinj H; exact I]. destruct (registry nh); [apply R|intros H; okinj H; exact I]. }
  assert (forall dec s q, decode_ip rec dec s = Ok q -> regs_ok q) as Ri.
  { intros dec s q. unfold decode_ip. destruct s; [intros H; okinj H; exact I|]. intros H. bo H [v s'] E1. bo H b' E2.
    destruct (v =? 4); [eapply R; eassumption|]. destruct (v =? 6); [eapply R; eassumption|]. okinj H. exact I. }
  unfold layer. destruct k; intros H.
  - unfold rd_v4 in H. mon H. okinj H. cbn [regs_ok]. eauto.
  - unfold rd_v6 in H. mon H. okinj H. cbn [regs_ok]. eauto.
  - unfold rd_opts in H. mon H. okinj H. cbn [regs_ok]. eauto.
  - unfold rd_opts in H. mon H. okinj H. cbn [regs_ok]. eauto.
  - unfold rd_route in H. mon H. okinj H. cbn [regs_ok]. eauto.
  - unfold rd_frag in H. mon H. okinj H. exact I.
  - okinj H. exact I.
  - unfold rd_udp in H. bo H [sp s1] E1. bo H [dp s2] E2. bo H [l s3] E3. bo H [] E4. bo H [ck s5] E5. bo H [pb s6] E6. bo H q E7.
    bo H [] E8. bo H [] E9. bo H [] E10. okinj H. cbn. destruct (_ || _); [eauto|]. destruct (_ || _); [eauto|]. okinj E7. exact I.
  - unfold rd_data in H. bo H [n s1] E1. bo H [l s2] E2. bo H [e s3] E3. bo H [v s4] E4. bo H [i s5] E5. bo H [u s6] E6.
    bo H [[[a b] c] s7] E7. bo H [iid s8] E8. bo H [x s9] E9. bo H q E10. bo H dh E11. okinj H. cbn. eauto.
  - unfold rd_control in H. bo H [t s1] E1. destruct (t =? 8).
    + unfold rd_ecm in H. bo H [t' s2] E2. bo H [] E3. bo H [sec s4] E4. bo H [ddt s5] E5. bo H [rsv s6] E6. bo H [] E7. bo H q E8. okinj H. cbn. eauto.
    + bo H [c s2] E2. okinj H. unfold rd_ctl in E2. repeat (destruct (_ =? _); [bo E2 [m s3] E3; okinj E2; cbn; try exact I; eapply rd_mreg_stable; eassumption|]). discriminate.
Qed.
Lemma parse_regs f : forall k d p, parse f k d = Ok p -> regs_ok p.
Proof. induction f as [|f IH]; intros k d p H; [discriminate|]. cbn [parse] in H. eapply layer_regs; [exact IH|exact H]. Qed.
Lemma chain_regs n p hs m q : chain n p hs m q -> regs_ok p -> regs_ok q.
Proof. induction 1 as [|nh p m0 q0 hs n0 r E C IH]; auto. intros H. apply IH. destruct E; exact H. Qed.
Lemma brings_obj e m ar clock : brings e (PCtl (CReg m)) ar clock -> obj_mreg m.
Proof.
  intros H. inversion H as [? ? ? ? E|? ? ? ? ? ? ? ? ? E _ U]; subst.
  - apply (parse_regs _ _ _ _ E).
  - apply parse_regs in E. cbn in E. inversion U; subst; [exact E|]. match goal with C : chain _ _ _ _ _ |- _ => exact (chain_regs _ _ _ _ _ C E) end.
Qed.

(** ** One Map-Register *)
Lemma verify_err hm m k k' e : snd (verify hm (AReg m) k) = Err e -> snd (verify hm (AReg m) k') = Err e.
Proof.
  unfold verify, calculate. destruct (_ =? 0); [discriminate|]. destruct (digest_len _); [|auto]. destruct (a_to_bytes _); [discriminate|auto].
Qed.
Lemma authentic_norm hm key m0 m : norm m0 m -> authentic hm key m <-> authentic hm key m0.
Proof. intros [->|[_ S]]; [tauto|]. unfold authentic. rewrite (verify_again hm _ _ key S). tauto. Qed.

Section One.
Variable hm : Z -> bytes -> bytes -> bytes.
Variable cfg : instances.
Variable P : nat -> pfx.
Variable w0 : mss.
Let keys id := ms_key (w0 id).
Let mores id := ms_more (w0 id).

(** good, counting from record [i] *)
Definition good_from (i0 : nat) (m : mreg) src (clock : nat -> Z) (i id : nat) q so rg : Prop :=
  exists nd, lands cfg m i nd /\ n_id nd = id /\ (forall j, (i0 <= j < i)%nat -> ~ blocks hm cfg keys m j) /\
    acceptable hm (keys id) (mores id) (n_pfx nd) m i src (clock i) q so rg.

Lemma loop_exact src clock m0 : good_cfg cfg P -> obj_mreg m0 ->
  forall k i w m done key w' m' out, norm m0 m -> conf_same w0 w -> (length (g_records m0) = i + k)%nat ->
  reg_loop hm cfg src clock k i w m done key = (w', m', out) ->
  conf_same w0 w' /\ ((forall id, dict_ok (ms_regs (w id))) -> forall id, dict_ok (ms_regs (w' id))) /\
  forall id q so,
  (exists j rg, (i <= j)%nat /\ good_from i m0 src clock j id q so rg /\
     (forall j' rg', (j < j')%nat -> ~ good_from i m0 src clock j' id q so rg') /\ registered (w' id) q so = Some rg) \/
  ((forall j rg, (i <= j)%nat -> ~ good_from i m0 src clock j id q so rg) /\ registered (w' id) q so = registered (w id) q so).
Proof.
  intros G Ho. induction k as [|k IH]; intros i w m done key w' m' out N C Hl H.
  - cbn in H. injection H as <- <- <-. split; [exact C|]. split; [auto|]. intros id q so. right. split; [|reflexivity].
    intros j rg Hj (nd & (r & _ & _ & _ & _ & Hr & _) & _). assert (nth_error (g_records m0) j <> None) as X by congruence. apply nth_error_Some in X. lia.
  - assert (exists r0, nth_error (g_records m0) i = Some r0) as (r0 & Hr0).
    { destruct (nth_error (g_records m0) i) eqn:E; [eauto|]. apply nth_error_None in E. lia. }
    pose proof (norm_record _ _ i N) as R. rewrite Hr0 in R. destruct (nth_error (g_records m) i) as [r|] eqn:Hr; [|contradiction].
    destruct R as [_ Re].
    (* the loop stops here: nothing later counts *)
    assert (blocks hm cfg keys m0 i -> forall j id q so rg, (i < j)%nat -> ~ good_from i m0 src clock j id q so rg) as Hb.
    { intros B j id q so rg Hj (nd & _ & _ & Hn & _). apply (Hn i); [lia|exact B]. }
    (* the loop goes on *)
    assert (~ blocks hm cfg keys m0 i -> forall j id q so rg, (i < j)%nat -> good_from i m0 src clock j id q so rg <-> good_from (S i) m0 src clock j id q so rg) as Hc.
    { intros B j id q so rg Hj. split; intros (nd & H1 & H2 & H3 & H4); exists nd; repeat (split; [assumption|]); (split; [|assumption]).
      - intros j' Hj'. apply H3. lia.
      - intros j' Hj'. destruct (Nat.eq_dec j' i) as [->|]; [exact B|]. apply H3. lia. }
    destruct (loop_step hm cfg src clock k i w m done key r Hr) as [(nd & L & E)|(NL & E)].
    + rewrite E in H. clear E. pose proof (proj1 (norm_lands _ _ _ _ _ N) L) as L0.
      destruct (lands_good _ _ _ _ _ G L0) as [Wp EP].
      destruct (handle_record_spec hm (n_pfx nd) (w (n_id nd)) m i src (clock i) Wp (norm_obj _ _ Ho N)) as (m1 & o & s1 & EH & HA & HM).
      rewrite EH in H. destruct (C (n_id nd)) as [Ck Cm]. rewrite Ck, Cm in HA.
      assert (forall q so rg, acceptable hm (keys (n_id nd)) (mores (n_id nd)) (n_pfx nd) m i src (clock i) q so rg <-> good_from i m0 src clock i (n_id nd) q so rg) as Hg.
      { intros q so rg. rewrite (norm_acceptable _ _ _ _ _ _ _ _ _ _ _ _ N). split.
        - intros A. exists nd. split; [exact L0|]. split; [reflexivity|]. split; [intros; lia|exact A].
        - intros (nd' & L' & _ & _ & A). rewrite (lands_fun _ _ _ _ _ L' L0) in A. exact A. }
      assert (forall id q so rg, id <> n_id nd -> ~ good_from i m0 src clock i id q so rg) as Hother.
      { intros id q so rg Hne (nd' & L' & E' & _). rewrite (lands_fun _ _ _ _ _ L' L0) in E'. congruence. }
      set (w1 := set_ms w (n_id nd) s1) in *.
      destruct HA as [(-> & q1 & so1 & rg1 & A1 & ->)|(Ho1 & -> & NA)].
      * (* accepted *)
        assert (conf_same w0 w1) as C1.
        { intros id. unfold w1, set_ms. destruct (Nat.eqb_spec id (n_id nd)) as [->|]; [cbn; auto|apply C]. }
        assert (~ blocks hm cfg keys m0 i) as NB.
        { apply Hg in A1. destruct A1 as (nd' & _ & _ & _ & (r2 & ? & _ & Hr2 & He & _)). intros (r3 & iid & afi & a & Hr3 & Hd & HB).
          assert (r2 = r3) as -> by congruence. destruct L0 as (r4 & iid' & afi' & a' & q' & Hr4 & Hd' & Hp & Hres & _). assert (r4 = r3) as -> by congruence.
          apply eid_named_spec in Hd, Hd'. rewrite Hd in Hd'. injection Hd' as <- <- <-. destruct HB as [HB|[(q2 & e2 & HB1 & HB2)|(nd2 & _ & _ & HB)]]; [congruence|congruence|exact (HB _ He)]. }
        specialize (Hc NB).
        destruct (IH (S i) _ _ _ _ _ _ _ (norm_step _ _ _ N (HM ltac:(discriminate))) C1 ltac:(lia) H) as (C2 & D2 & X).
        split; [exact C2|]. split.
        { intros Hd. apply D2. intros id. unfold w1, set_ms. destruct (Nat.eqb_spec id (n_id nd)) as [->|]; [|apply Hd]. cbn [ms_regs set_regs]. apply store_ok, Hd. }
        intros id q so. destruct (X id q so) as [(j & rg & Hj & Gj & Lj & Rj)|(Nj & Rj)].
        -- left. exists j, rg. split; [lia|]. split; [apply Hc; [lia|exact Gj]|]. split; [|exact Rj].
           intros j' rg' Hj' Gj'. apply Hc in Gj'; [|lia]. exact (Lj _ _ Hj' Gj').
        -- destruct (Nat.eq_dec id (n_id nd)) as [->|Hne].
           ++ unfold w1 in Rj. rewrite set_ms_id, Nat.eqb_refl in Rj.
              change (registered (set_regs (w (n_id nd)) (store (ms_regs (w (n_id nd))) q1 so1 rg1)) q so) with (look (store (ms_regs (w (n_id nd))) q1 so1 rg1) q so) in Rj.
              rewrite look_store in Rj. destruct (pfx_eqb q1 q && source_eqb so1 so) eqn:Eq.
              ** apply andb_true_iff in Eq. destruct Eq as [Eq1 Eq2]. apply pfx_eqb_spec in Eq1. apply source_eqb_ok in Eq2. subst q1 so1.
                 left. exists i, rg1. split; [lia|]. split; [apply Hg, A1|]. split; [|exact Rj].
                 intros j' rg' Hj' Gj'. apply Hc in Gj'; [|lia]. eapply Nj; [|exact Gj']. lia.
              ** right. split; [|exact Rj]. intros j rg Hj Gj. destruct (Nat.eq_dec j i) as [->|].
                 --- apply Hg in Gj. destruct (acceptable_fun _ _ _ _ _ _ _ _ _ _ _ _ _ _ A1 Gj) as (-> & -> & _).
                     rewrite (eqb_rf _ pfx_eqb_spec), (eqb_rf _ source_eqb_ok) in Eq. discriminate.
                 --- apply Hc in Gj; [|lia]. eapply Nj; [|exact Gj]. lia.
           ++ right. split.
              ** intros j rg Hj Gj. destruct (Nat.eq_dec j i) as [->|]; [exact (Hother _ _ _ _ Hne Gj)|]. apply Hc in Gj; [|lia]. eapply Nj; [|exact Gj]. lia.
              ** rewrite Rj. unfold w1. rewrite set_ms_id. apply Nat.eqb_neq in Hne. rewrite Hne. reflexivity.
      * assert (forall id, w1 id = w id) as Ew.
        { intros id. unfold w1. rewrite set_ms_id. destruct (Nat.eqb_spec id (n_id nd)) as [->|]; reflexivity. }
        assert (conf_same w0 w1) as C1 by (intros id; rewrite Ew; apply C).
        assert (forall id q so rg, ~ good_from i m0 src clock i id q so rg) as Ni.
        { intros id q so rg Gi. destruct (Nat.eq_dec id (n_id nd)) as [->|Hne]; [|exact (Hother _ _ _ _ Hne Gi)]. apply Hg in Gi. exact (NA _ _ _ Gi). }
        destruct o as [|e|e]; [congruence| |].
        -- (* refused *)
           assert (~ blocks hm cfg keys m0 i) as NB.
           { intros (r3 & iid & afi & a & Hr3 & Hd & HB).
             destruct L0 as (r4 & iid' & afi' & a' & q' & Hr4 & Hd' & Hp & Hres & _). assert (r4 = r3) as -> by congruence. assert (r0 = r3) as -> by congruence.
             apply eid_named_spec in Hd, Hd'. rewrite Hd in Hd'. injection Hd' as <- <- <-. destruct HB as [HB|[(q2 & e2 & HB1 & HB2)|(nd2 & L2 & Hau & HB)]]; [congruence|congruence|].
             assert (lands cfg m0 i nd) as L0 by (apply (norm_lands _ _ _ _ _ N); exact L). rewrite (lands_fun _ _ _ _ _ L2 L0) in Hau.
             apply (authentic_norm hm _ _ _ N) in Hau. unfold authentic in Hau. unfold keys in Hau. rewrite <- Ck in Hau.
             unfold handle_record in EH. destruct (verify hm (AReg m) (ms_key (w (n_id nd)))) as [aa ok] eqn:EV. cbn [snd] in Hau. subst ok.
             destruct (verify_reg hm m (ms_key (w (n_id nd)))) as (mm & Em & Hv). rewrite EV in Em, Hv. cbn [fst snd] in Em, Hv. subst aa. specialize (Hv _ eq_refl).
             destruct (nth_error (g_records mm) i) as [rr|] eqn:Enn; [|discriminate]. destruct (record_back _ _ _ _ Hv Enn) as (r5 & Hr5 & _ & Heid).
             assert (mr_eid rr = mr_eid r3) as Ee by congruence. rewrite Ee, Hd in EH.
             destruct a as [|v z|v z n| | | | | |]; try discriminate EH. apply (HB (Pfx v z n)). exists iid, afi. apply eid_named_spec; exact Hd. }
           specialize (Hc NB).
           destruct (IH (S i) _ _ _ _ _ _ _ (norm_step _ _ _ N (HM ltac:(discriminate))) C1 ltac:(lia) H) as (C2 & D2 & X).
           split; [exact C2|]. split; [intros Hd; apply D2; intros id; rewrite Ew; apply Hd|].
           intros id q so. destruct (X id q so) as [(j & rg & Hj & Gj & Lj & Rj)|(Nj & Rj)].
           ++ left. exists j, rg. split; [lia|]. split; [apply Hc; [lia|exact Gj]|]. split; [|exact Rj].
              intros j' rg' Hj' Gj'. apply Hc in Gj'; [|lia]. exact (Lj _ _ Hj' Gj').
           ++ right. rewrite <- Ew. split; [|exact Rj]. intros j rg Hj Gj. destruct (Nat.eq_dec j i) as [->|]; [exact (Ni _ _ _ _ Gj)|].
              apply Hc in Gj; [|lia]. eapply Nj; [|exact Gj]. lia.
        -- (* an exception *)
           injection H as <- <- <-. split; [exact C1|]. split; [intros Hd id; rewrite Ew; apply Hd|].
           intros id q so. right. rewrite Ew. split; [|reflexivity]. intros j rg Hj Gj.
           destruct (Nat.eq_dec j i) as [->|]; [exact (Ni _ _ _ _ Gj)|].
           unfold handle_record in EH. destruct (verify hm (AReg m) (ms_key (w (n_id nd)))) as [aa ok] eqn:EV.
           destruct (verify_reg hm m (ms_key (w (n_id nd)))) as (mm & Em & Hv). rewrite EV in Em, Hv. cbn [fst snd] in Em, Hv. subst aa.
           assert (snd (verify hm (AReg m0) (ms_key (w (n_id nd)))) = ok) as EV0.
           { destruct N as [->|[_ S]]; [rewrite EV; reflexivity|]. rewrite <- (verify_again hm _ _ _ S), EV. reflexivity. }
           destruct ok as [[]|e'].
           ++ apply (Hb) with (j := j) (id := id) (q := q) (so := so) (rg := rg); [|lia|exact Gj].
              specialize (Hv _ eq_refl). destruct (nth_error (g_records mm) i) as [rr|] eqn:Enn.
              2: { exfalso. destruct (record_fwd _ _ _ _ Hv Hr) as (? & ? & _). congruence. }
              destruct (record_back _ _ _ _ Hv Enn) as (r5 & Hr5 & _ & Heid). assert (mr_eid rr = mr_eid r0) as Ee by congruence. rewrite Ee in EH.
              pose proof L0 as (r4 & iid & afi & a & q' & Hr4 & Hd & Hp & Hres & _). assert (r4 = r0) as -> by congruence.
              exists r0, iid, afi, a. split; [exact Hr0|]. split; [exact Hd|]. right. right. exists nd. split; [exact L0|].
              split; [unfold authentic, keys; rewrite <- Ck; exact EV0|]. intros q2 (iid2 & afi2 & Hq2). apply eid_named_spec in Hq2; rewrite Hq2 in EH.
              destruct (_ || _); [discriminate|]. destruct (_ && _); discriminate.
           ++ discriminate.
           ++ destruct Gj as (nd2 & _ & _ & _ & (? & ? & Hau & _)). unfold authentic in Hau.
              rewrite (verify_err _ _ _ (keys id) _ EV0) in Hau. discriminate.
    + assert (forall nd, ~ lands cfg m0 i nd) as NL0 by (intros nd L; apply (NL nd), (norm_lands _ _ _ _ _ N), L).
      assert (forall id q so rg, ~ good_from i m0 src clock i id q so rg) as Ni by (intros id q so rg (nd & L & _); exact (NL0 _ L)).
      clear E. cbn [reg_loop] in H. rewrite Hr, Re in H.
      assert (~ blocks hm cfg keys m0 i -> reg_loop hm cfg src clock k (S i) w m done key = (w', m', out) ->
        conf_same w0 w' /\ ((forall id, dict_ok (ms_regs (w id))) -> forall id, dict_ok (ms_regs (w' id))) /\
        forall id q so,
        (exists j rg, (i <= j)%nat /\ good_from i m0 src clock j id q so rg /\
           (forall j' rg', (j < j')%nat -> ~ good_from i m0 src clock j' id q so rg') /\ registered (w' id) q so = Some rg) \/
        ((forall j rg, (i <= j)%nat -> ~ good_from i m0 src clock j id q so rg) /\ registered (w' id) q so = registered (w id) q so)) as Go.
      { intros NB HH. specialize (Hc NB). destruct (IH (S i) _ _ _ _ _ _ _ N C ltac:(lia) HH) as (C2 & D2 & X).
        split; [exact C2|]. split; [exact D2|]. intros id q so. destruct (X id q so) as [(j & rg & Hj & Gj & Lj & Rj)|(Nj & Rj)].
        - left. exists j, rg. split; [lia|]. split; [apply Hc; [lia|exact Gj]|]. split; [|exact Rj].
          intros j' rg' Hj' Gj'. apply Hc in Gj'; [|lia]. exact (Lj _ _ Hj' Gj').
        - right. split; [|exact Rj]. intros j rg Hj Gj. destruct (Nat.eq_dec j i) as [->|]; [exact (Ni _ _ _ _ Gj)|].
          apply Hc in Gj; [|lia]. eapply Nj; [|exact Gj]. lia. }
      assert (blocks hm cfg keys m0 i -> w' = w ->
        conf_same w0 w' /\ ((forall id, dict_ok (ms_regs (w id))) -> forall id, dict_ok (ms_regs (w' id))) /\
        forall id q so,
        (exists j rg, (i <= j)%nat /\ good_from i m0 src clock j id q so rg /\
           (forall j' rg', (j < j')%nat -> ~ good_from i m0 src clock j' id q so rg') /\ registered (w' id) q so = Some rg) \/
        ((forall j rg, (i <= j)%nat -> ~ good_from i m0 src clock j id q so rg) /\ registered (w' id) q so = registered (w id) q so)) as Stop.
      { intros B ->. split; [exact C|]. split; [auto|]. intros id q so. right. split; [|reflexivity].
        intros j rg Hj Gj. destruct (Nat.eq_dec j i) as [->|]; [exact (Ni _ _ _ _ Gj)|]. eapply Hb; [exact B| |exact Gj]. lia. }
      assert (forall iid afi a q, determine (mr_eid r0) = Some (iid, afi, a) -> pfx_of a = Some q -> is_ok (g_resolve cfg iid afi q) = true -> ~ blocks hm cfg keys m0 i) as NB.
      { intros iid afi a q Hd Hp Hres (r3 & iid' & afi' & a' & Hr3 & Hd' & HB). assert (r3 = r0) as -> by congruence.
        apply eid_named_spec in Hd'. rewrite Hd in Hd'. injection Hd' as <- <- <-. destruct HB as [HB|[(q2 & e2 & HB1 & HB2)|(nd2 & L2 & _)]]; [congruence| |exact (NL0 _ L2)].
        assert (q2 = q) as -> by congruence. rewrite HB2 in Hres. discriminate. }
      destruct (determine (mr_eid r0)) as [[[iid afi] a]|] eqn:Ed.
      2: { apply Go; [|exact H]. intros (r3 & ? & ? & ? & Hr3 & Hd & _). apply eid_named_spec in Hd. congruence. }
      destruct (pfx_of a) as [q|] eqn:Ea.
      2: { injection H as <- _ _. apply Stop; [|reflexivity]. exists r0, iid, afi, a. split; [exact Hr0|]. split; [apply eid_named_spec; exact Ed|]. auto. }
      destruct (g_resolve cfg iid afi q) as [[nd|]|e] eqn:Eg.
      * assert (~ blocks hm cfg keys m0 i) as NB' by (eapply NB; [reflexivity|exact Ea|rewrite Eg; reflexivity]).
        destruct (n_cls nd) eqn:Ec; try (apply Go; [exact NB'|exact H]).
        exfalso. apply (NL0 nd). exists r0, iid, afi, a, q. split; [exact Hr0|]. split; [apply eid_named_spec; exact Ed|]. auto.
      * apply Go; [|exact H]. eapply NB; [reflexivity|exact Ea|rewrite Eg; reflexivity].
      * injection H as <- _ _. apply Stop; [|reflexivity]. exists r0, iid, afi, a. split; [exact Hr0|]. split; [apply eid_named_spec; exact Ed|]. right. left. eauto.
Qed.
End One.

(** ** The daemon *)
Lemma brings_fun e m ar clock m' ar' clock' : brings e m ar clock -> brings e m' ar' clock' -> m = m' /\ ar = ar' /\ clock = clock'.
Proof.
  intros H H'. inversion H as [? ? ? ? E|? ? ? ? ? ? ? ? ? E _ U]; subst.
  - inversion H' as [? ? ? ? E'|]; subst. rewrite E in E'. injection E' as <-. auto.
  - inversion H' as [|? ? ? ? ? ? ? ? ? E' _ U']; subst. rewrite E in E'. injection E' as <- <-.
    apply upper_final in U, U'. rewrite U in U'. injection U' as <- <- <- <-. auto.
Qed.
Lemma fst_run_snoc hm cfg socks e : forall h st, fst (run hm cfg socks st (h ++ [e])) = fst (step hm cfg socks (fst (run hm cfg socks st h)) e).
Proof.
  induction h as [|x h IH]; intros st; cbn [app run].
  - cbn [fst]. destruct (step hm cfg socks st e) as [st' o]. reflexivity.
  - destruct (step hm cfg socks st x) as [st' o]. specialize (IH st'). destruct (run hm cfg socks st' (h ++ [e])) as [s1 l1]. cbn [fst] in *.
    destruct (run hm cfg socks st' h) as [s2 l2]. exact IH.
Qed.
Lemma control_ms hm cfg socks clock ar m st : dm_ms (fst (handle_control_message hm cfg socks clock ar m st)) =
  match m with PCtl (CReg g) => fst (fst (handle_map_register hm cfg (dm_ms st) g (ar_src ar) clock)) | _ => dm_ms st end.
Proof.
  destruct (handle_control_message hm cfg socks clock ar m st) as [st' outs] eqn:E. pose proof (handled _ _ _ _ _ _ _ _ _ E) as (_ & _ & _ & H & _).
  cbn [fst]. destruct m as [| | | | | | | | | | |[]]; try (apply H; discriminate).
  unfold handle_control_message, received in E. cbn [is_control negb handle_message dm_ms] in E.
  destruct (handle_map_register hm cfg (dm_ms st) m (ar_src ar) clock) as [[w m'] r]. injection E as <- _. reflexivity.
Qed.
Lemma step_ms hm cfg socks st e :
  (exists m ar clock, brings e (PCtl (CReg m)) ar clock /\
     dm_ms (fst (step hm cfg socks st e)) = fst (fst (handle_map_register hm cfg (dm_ms st) m (ar_src ar) clock))) \/
  ((forall m ar clock, ~ brings e (PCtl (CReg m)) ar clock) /\
    dm_ms (fst (step hm cfg socks st e)) = match e with Cleanup id now => set_ms (dm_ms st) id (set_regs (dm_ms st id) (cleanup now (ms_regs (dm_ms st id)))) | _ => dm_ms st end).
Proof.
  assert (forall e m ar clock, brings e m ar clock -> (forall g, m <> PCtl (CReg g)) -> forall g ar' clock', ~ brings e (PCtl (CReg g)) ar' clock') as NB.
  { intros e0 m ar clock H N g ar' clock' H'. destruct (brings_fun _ _ _ _ _ _ _ H H') as (-> & _). exact (N g eq_refl). }
  destruct e as [ar d clock|ar d clock|petr d|id now|id e o]; cbn [step].
  - unfold control_datagram. destruct (pkt_from_bytes KCtl d) as [m|] eqn:E.
    + pose proof (br_control ar d clock m E) as B. rewrite control_ms.
      destruct m as [| | | | | | | | | | |[]]; try (right; split; [eapply NB; [exact B|discriminate]|reflexivity]). left. eauto.
    + right. split; [|reflexivity]. intros m ar' clock' B. inversion B. congruence.
  - unfold data_datagram. destruct (pkt_from_bytes (KData true) d) as [x|] eqn:E.
    2: { right. split; [|reflexivity]. intros m ar' clock' B. inversion B. congruence. }
    destruct x as [| | | | | | | | |h p| |]; try (right; split; [|reflexivity]; intros m ar' clock' B; inversion B; congruence).
    destruct (match d_iid h with Some i => i =? 16777215 | None => false end) eqn:Ei.
    2: { right. split; [|reflexivity]. intros m ar' clock' B. inversion B as [|? ? ? ? ? ? ? ? ? E' Ei' _]; subst.
         assert (h0 = h) as -> by congruence. rewrite Ei' in Ei. discriminate. }
    assert (d_iid h = Some (2 ^ 24 - 1)) as Ei' by (destruct (d_iid h); [apply Z.eqb_eq in Ei; rewrite Ei; reflexivity|discriminate]).
    assert ((forall n s ck q, get_final_payload p <> Ok (n, PUDP s 4342 ck q)) -> forall g ar' clock', ~ brings (AtData ar d clock) (PCtl (CReg g)) ar' clock') as Nf.
    { intros X g ar' clock' B. inversion B as [|? ? ? ? ? ? ? ? ? E2 _ U]; subst. assert (p0 = p) as -> by congruence. apply upper_final in U. exact (X _ _ _ _ U). }
    destruct (get_final_payload p) as [[n u]|] eqn:Ef; [|right; split; [apply Nf; discriminate|reflexivity]].
    destruct u as [| | | | | | | |s dp ck q| | |]; try (right; split; [apply Nf; discriminate|reflexivity]).
    destruct (Z.eqb_spec dp 4342) as [->|Hne].
    2: { right. split; [|reflexivity]. apply Nf. intros ? ? ? ? [= _ _ X _ _]. congruence. }
    pose proof (br_data ar d clock h p n s ck q E Ei' (proj2 (upper_final _ _ _) Ef)) as B. rewrite control_ms.
    destruct q as [| | | | | | | | | | |[]]; try (right; split; [eapply NB; [exact B|discriminate]|reflexivity]). left. eauto.
  - right. split; [intros m ar clock B; inversion B|reflexivity].
  - right. split; [intros m ar clock B; inversion B|reflexivity].
  - right. split; [intros m ar clock B; inversion B|reflexivity].
Qed.

(** extending a history by one event *)
Lemma in_force_snoc hm cfg keys mores h e id q so rg : d_in_force hm cfg keys mores (h ++ [e]) id q so rg <->
  registers hm cfg keys mores e id q so rg \/
  ((forall rg', ~ registers hm cfg keys mores e id q so rg') /\ d_in_force hm cfg keys mores h id q so rg /\
   forall t, e = Cleanup id t -> t <= rg_deadline rg).
Proof.
  split.
  - intros (h1 & e1 & h2 & E & R & L & C). destruct h2 as [|e2 h2 _] using rev_ind.
    + apply app_inj_tail in E. destruct E as [_ ->]. auto.
    + rewrite app_comm_cons, app_assoc in E. apply app_inj_tail in E. destruct E as [-> <-]. right. split; [|split].
      * intros rg'. apply L. apply in_or_app. right. left. reflexivity.
      * exists h1, e1, h2. split; [reflexivity|]. split; [exact R|]. split; [intros; apply L, in_or_app; auto|intros; apply C, in_or_app; auto].
      * intros t ->. apply C. apply in_or_app. right. left. reflexivity.
  - intros [R|(N & (h1 & e1 & h2 & -> & R & L & C) & Ht)].
    + exists h, e, []. split; [reflexivity|]. split; [exact R|]. split; intros; contradiction.
    + exists h1, e1, (h2 ++ [e]). split; [rewrite <- app_assoc; reflexivity|]. split; [exact R|]. split.
      * intros e' rg' Hin. apply in_app_iff in Hin. destruct Hin as [Hin|[<-|[]]]; [auto|apply N].
      * intros t Hin. apply in_app_iff in Hin. destruct Hin as [Hin|[Hin|[]]]; [auto|apply Ht; exact Hin].
Qed.

Lemma daemon_invariant hm cfg socks P keys mores st h : good_cfg cfg P -> fresh_ms keys mores st ->
  let w := dm_ms (fst (run hm cfg socks st h)) in
  (forall id, ms_key (w id) = keys id /\ ms_more (w id) = mores id) /\ (forall id, dict_ok (ms_regs (w id))) /\
  forall id q so rg, registered (w id) q so = Some rg <-> d_in_force hm cfg keys mores h id q so rg.
Proof.
  intros G F. induction h as [|e h IH] using rev_ind.
  - cbn [run fst]. rewrite F. cbn. split; [auto|]. split; [intros _; split; [constructor|intros q i []]|].
    intros id q so rg. split; [discriminate|]. intros (h1 & e & h2 & E & _). destruct h1; discriminate.
  - rewrite fst_run_snoc. set (st1 := fst (run hm cfg socks st h)) in *. cbn zeta in *. destruct IH as (Hk & Hd & Hi).
    destruct (step_ms hm cfg socks st1 e) as [(m & ar & clock & B & E)|(NB & E)].
    + rewrite E. clear E. set (w := dm_ms st1) in *.
      destruct (handle_map_register hm cfg w m (ar_src ar) clock) as [[w' m'] o] eqn:EH. cbn [fst].
      destruct (reg_loop hm cfg (ar_src ar) clock (length (g_records m)) 0 w m [] []) as [[w1 m1] out] eqn:EL.
      assert (w' = w1) as ->.
      { unfold handle_map_register in EH. rewrite EL in EH. destruct out as [[done key]|]; [|congruence].
        destruct (_ && _); [|congruence]. destruct (insert _ _ _) as [[] []]; congruence. }
      destruct (loop_exact hm cfg P w (ar_src ar) clock m G (brings_obj _ _ _ _ B) _ 0 w m [] [] w1 m1 out (or_introl eq_refl) (fun _ => conj eq_refl eq_refl) eq_refl EL)
        as (C1 & D1 & X).
      split; [intros id; destruct (C1 id) as [-> ->]; apply Hk|]. split; [apply D1, Hd|].
      assert (forall j, blocks hm cfg (fun id => ms_key (w id)) m j <-> blocks hm cfg keys m j) as Hbl.
      { intros j. unfold blocks. split; intros (r & iid & afi & a & H1 & H2 & H3); exists r, iid, afi, a; (split; [exact H1|]); (split; [exact H2|]);
          (destruct H3 as [H3|[H3|(nd & L & A & H3)]]; [left; exact H3|right; left; exact H3|right; right; exists nd; split; [exact L|split; [|exact H3]]]).
        - destruct (Hk (n_id nd)) as [<- _]. exact A.
        - destruct (Hk (n_id nd)) as [-> _]. exact A. }
      assert (forall i id q so rg, good_from hm cfg w 0 m (ar_src ar) clock i id q so rg <-> good_record hm cfg keys mores m (ar_src ar) clock i id q so rg) as Hgr.
      { intros i id q so rg. unfold good_from, good_record. destruct (Hk id) as [-> ->].
        split; intros (nd & L & En & Hb & A); exists nd; (split; [exact L|]); (split; [exact En|]); (split; [|exact A]).
        - intros j Hj Bj. apply (Hb j); [lia|]. apply Hbl. exact Bj.
        - intros j Hj Bj. apply (Hb j); [lia|]. apply Hbl. exact Bj. }
      intros id q so rg. rewrite in_force_snoc, <- Hi.
      assert (forall t, e <> Cleanup id t) as Nc by (intros t ->; inversion B).
      destruct (X id q so) as [(j & rg1 & _ & Gj & Lj & Rj)|(Nj & Rj)].
      * rewrite Rj. assert (registers hm cfg keys mores e id q so rg1) as R1.
        { exists m, ar, clock, j. split; [exact B|]. split; [apply Hgr, Gj|]. intros i' rg' Hi' Gi'. apply Hgr in Gi'. exact (Lj _ _ Hi' Gi'). }
        split; [intros [= <-]; left; exact R1|]. intros [R2|(N & _)]; [|exfalso; exact (N _ R1)].
        destruct R2 as (m2 & ar2 & clock2 & i2 & B2 & G2 & L2). destruct (brings_fun _ _ _ _ _ _ _ B B2) as ([= <-] & <- & <-).
        apply Hgr in G2. destruct (Nat.lt_trichotomy i2 j) as [Hlt|[->|Hlt]].
        -- exfalso. eapply L2; [exact Hlt|]. apply Hgr. exact Gj.
        -- destruct Gj as (nd & La & _ & _ & A). destruct G2 as (nd2 & La2 & _ & _ & A2). rewrite (lands_fun _ _ _ _ _ La2 La) in A2.
           destruct (acceptable_fun _ _ _ _ _ _ _ _ _ _ _ _ _ _ A A2) as (_ & _ & ->). reflexivity.
        -- exfalso. eapply Lj; [exact Hlt|exact G2].
      * rewrite Rj. assert (forall rg', ~ registers hm cfg keys mores e id q so rg') as N.
        { intros rg' (m2 & ar2 & clock2 & i2 & B2 & G2 & L2). destruct (brings_fun _ _ _ _ _ _ _ B B2) as ([= <-] & <- & <-).
          apply Hgr in G2. eapply Nj; [|exact G2]. lia. }
        split; [intros R; right; split; [exact N|]; split; [exact R|intros t Et; exfalso; exact (Nc _ Et)]|].
        intros [R|(_ & R & _)]; [exfalso; exact (N _ R)|exact R].
    + assert (forall id q so rg, ~ registers hm cfg keys mores e id q so rg) as N by (intros id q so rg (m & ar & clock & i & B & _); exact (NB _ _ _ B)).
      rewrite E. assert (match e with Cleanup _ _ => True | _ => dm_ms (fst (step hm cfg socks st1 e)) = dm_ms st1 end) as E' by (destruct e; auto).
      destruct e as [ar d clock|ar d clock|petr d|id0 now|id0 e0 o];
        try (split; [exact Hk|]; split; [exact Hd|]; intros id q so rg; rewrite in_force_snoc, <- Hi; split;
             [intros R; right; split; [apply N|]; split; [exact R|discriminate]|intros [R|(_ & R & _)]; [exfalso; exact (N _ _ _ _ R)|exact R]]).
      split; [intros id; rewrite set_ms_id; destruct (Nat.eqb_spec id id0) as [->|]; apply Hk|].
      split; [intros id; rewrite set_ms_id; destruct (Nat.eqb_spec id id0) as [->|]; [cbn [ms_regs set_regs]; apply cleanup_ok, Hd|apply Hd]|].
      intros id q so rg. rewrite in_force_snoc, <- Hi, set_ms_id. destruct (Nat.eqb_spec id id0) as [->|Hne].
      * change (registered (set_regs (dm_ms st1 id0) (cleanup now (ms_regs (dm_ms st1 id0)))) q so) with (look (cleanup now (ms_regs (dm_ms st1 id0))) q so).
        rewrite look_cleanup by apply Hd. change (registered (dm_ms st1 id0) q so) with (look (ms_regs (dm_ms st1 id0)) q so).
        destruct (look (ms_regs (dm_ms st1 id0)) q so) as [r|].
        -- rewrite Z.gtb_ltb. destruct (Z.ltb_spec (rg_deadline r) now); split.
           ++ discriminate.
           ++ intros [R|(_ & [= <-] & H1)]; [exfalso; exact (N _ _ _ _ R)|]. specialize (H1 _ eq_refl). lia.
           ++ intros [= <-]. right. split; [apply N|]. split; [reflexivity|]. intros t [= <-]. lia.
           ++ intros [R|(_ & [= <-] & _)]; [exfalso; exact (N _ _ _ _ R)|reflexivity].
        -- split; [discriminate|]. intros [R|(_ & C & _)]; [exfalso; exact (N _ _ _ _ R)|discriminate].
      * split; [intros R; right; split; [apply N|]; split; [exact R|intros t [= <- _]; congruence]|].
        intros [R|(_ & R & _)]; [exfalso; exact (N _ _ _ _ R)|exact R].
Qed.

(** What the daemon has registered, after any history of datagrams at the control and data ports, queued packets, cleanup
    passes and registration threads, is exactly what is in force. *)
Theorem C74_registered_iff_in_force hm cfg socks P keys mores st h id q so rg : good_cfg cfg P -> fresh_ms keys mores st ->
  registered (dm_ms (fst (run hm cfg socks st h)) id) q so = Some rg <-> d_in_force hm cfg keys mores h id q so rg.
Proof. intros G F. destruct (daemon_invariant hm cfg socks P keys mores st h G F) as (_ & _ & H). apply H. Qed.
Print Assumptions C74_registered_iff_in_force.

(** ** Examples: a Map-Register at the control port, and the same one inside a data packet *)
Definition all_ones_iid : dh := DH false None None None None (Some 16777215).
Definition in_data (m : pkt) : res bytes :=
  pkt_to_bytes (PData all_ones_iid (PIPv4 (V4H 0 0 false false 0 64 17 (AIP V4 1) (AIP V4 2) []) (PUDP 4342 4342 0 m))).
Definition start : dm := Dm (fun _ => new_ms (B [1;2]) true) (fun _ => Etr [] [] []) (fun _ => NOut [] []) 0.
Definition there : arrival := Arr (V4, 77) 4000 (V4, 5).
Example C74_example : match mreg_to_bytes open_register, in_data (PCtl (CReg open_register)) with
  | Ok a, Ok b =>
      let run := run toy_hm ms_cfg [] start in
      (let '(st, outs) := run [AtControl there a (fun _ => 5)] in
       registered (dm_ms st 7%nat) p16 (SAddr V4 77) = Some (Reg open_record false (5 + 180 * sec)) /\ map (@length _) outs = [1%nat]) /\
      (let '(st, outs) := run [AtData there b (fun _ => 5)] in
       registered (dm_ms st 7%nat) p16 (SAddr V4 77) = Some (Reg open_record false (5 + 180 * sec)) /\ map (@length _) outs = [1%nat])
  | _, _ => False
  end.
Proof. vm_compute. repeat split; reflexivity. Qed.

(** ** Finding: a record whose prefix is too short to be looked up takes the other records of the message with it *)
Definition short_record := MRec 1440 0 true (repeat false 16) 0 (ANet V4 0 4) [].
Definition mixed_register :=
  MReg false false true [false] (repeat false 15) (repeat zero_byte 8) 0 [] [short_record; open_record] 0 0.
Definition p11 := Pfx V4 (11 * 2 ^ 24) 8.
Definition two_cfg : instances := [(0, [(1, Node 0 (Pfx V4 0 0) NContainer [ms_node; Node 8 p11 NMapServer []])])].
Lemma two_cfg_good : good_cfg two_cfg (fun id => if Nat.eqb id 7 then p8 else if Nat.eqb id 8 then p11 else Pfx V4 0 0).
Proof.
  assert (wf_pfx (Pfx V4 0 0)) as W0 by (repeat split; vm_compute; congruence).
  assert (wf_pfx p11) as W1 by (repeat split; vm_compute; congruence).
  intros iid afi n nd H Hin. unfold root_of, two_cfg in H. cbn [assoc] in H.
  destruct (Z.eqb _ _); [|discriminate]. cbn [assoc] in H. destruct (Z.eqb _ _); [|discriminate]. injection H as <-.
  inversion Hin as [|? c Hc Hin']; subst; [split; [exact W0|reflexivity]|].
  destruct Hc as [<-|[<-|[]]]; (inversion Hin' as [|? c' Hc' ?]; subst; [|destruct Hc']); (split; [|reflexivity]); [apply p8_wf|exact W1].
Qed.
Definition mixed_bytes : bytes := match mreg_to_bytes mixed_register with Ok d => d | Err _ => [] end.
Theorem C74_records_not_independent : ~ (forall hm cfg socks P keys mores st e m ar clock i nd q so rg,
  good_cfg cfg P -> fresh_ms keys mores st -> brings e (PCtl (CReg m)) ar clock -> lands cfg m i nd ->
  acceptable hm (keys (n_id nd)) (mores (n_id nd)) (n_pfx nd) m i (ar_src ar) (clock i) q so rg ->
  exists rg', registered (dm_ms (fst (run hm cfg socks st [e])) (n_id nd)) q so = Some rg').
Proof.
  intros H.
  destruct (H toy_hm two_cfg [] _ (fun _ => B [1;2]) (fun _ => true) start (AtControl there mixed_bytes (fun _ => 5)) mixed_register there (fun _ => 5) 1%nat
    ms_node p16 (SAddr V4 77) (Reg open_record false (5 + 180 * sec)) two_cfg_good eq_refl) as (rg' & R).
  - constructor. vm_compute. reflexivity.
  - exists open_record, 0, 1, (mr_eid open_record), p16. split; [reflexivity|]. split; [apply eid_named_spec; reflexivity|]. repeat split.
  - exists open_record, open_record. split; [reflexivity|]. split; [reflexivity|]. split; [exists 0, 1; apply eid_named_spec; reflexivity|].
    split; [apply inside_interval; [exact p16_wf|exact p8_wf|]; vm_compute; repeat split; congruence|]. split; [right; reflexivity|].
    split; [right; split; reflexivity|]. split; [left; split; reflexivity|reflexivity].
  - clear H. vm_compute in R. discriminate R.
Qed.
Print Assumptions C74_records_not_independent.
