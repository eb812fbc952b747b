(** * Properties C53 (refutation), C54 and the lifting of C51-C53 to the whole daemon *)
From Coq Require Import Sorted.
From Verif Require Import Base BaseLemmas Afi AfiProofs Spec SpecEid PropEid Records Control SpecRec RecordsProofs ControlProofs
  Auth SpecAuth PropAuth Tree SpecTree TreeProofs PropTree PropTree2 Dict MapServer SpecMs PropMs.

(** ** C53 is false: a Map-Register with key id 0 and empty authentication data is accepted for every
    prefix in scope, whatever the key of the Map-Server is *)
Theorem C53_anyone_can_register : forall hm key more p h m i src now r q,
  wf_pfx p -> objects h -> obj_mreg m ->
  g_key m = 0 -> g_authdata m = [] ->
  nth_error (g_records m) i = Some r -> eid_prefix r q -> inside q p -> (q = p \/ more = true) ->
  exists so, sender m src so /\
    registered (ms_run hm p (new_ms key more) (h ++ [EvReg m i src now])) q so
    = Some (Reg r (g_proxy m) (now + 180 * sec)).
Proof.
  intros hm key more p h m i src now r q Hp Ho Om K A Hr He Hi Hm.
  assert (exists so, sender m src so) as (so & Hs).
  { unfold sender. destruct (Z.eq_dec (g_xtr m) 0); eauto. }
  exists so. split; [exact Hs|]. apply C52_acceptable_is_registered; auto.
  exists r, r. split; [|split; [exact Hr|split; [exact He|split; [exact Hi|split; [exact Hm|split; [exact Hs|split; [left; auto|reflexivity]]]]]]].
  unfold authentic, verify, calculate. cbn [a_key]. rewrite K, Z.eqb_refl. cbn [snd bind a_auth]. rewrite A. reflexivity.
Qed.

Definition open_record := MRec 1440 0 true (repeat false 16) 0 (ANet V4 (10 * 2 ^ 24 + 5 * 2 ^ 16) 16) [].
Definition open_register :=
  MReg false false true [false] (repeat false 15) (repeat zero_byte 8) 0 [] [open_record] 0 0.
Lemma open_register_obj : obj_mreg open_register.
Proof. repeat split; try reflexivity. constructor; [|constructor]. repeat split; try reflexivity. constructor. Qed.
Example open_register_parses :
  match mreg_to_bytes open_register with Ok d => mreg_from_bytes d = Ok open_register | Err _ => False end.
Proof. vm_compute. reflexivity. Qed.

Lemma toy_digests : digests toy_hm.
Proof. apply C41_example. Qed.

Theorem C53_refuted : ~ (forall hm key more p h q so rg, digests hm -> wf_pfx p -> objects h ->
  registered (ms_run hm p (new_ms key more) h) q so = Some rg ->
  exists m i src now n out, In (EvReg m i src now) h /\ digest_size (g_key m) n /\
    a_to_bytes (AReg m) = Ok out /\ auth_field n out = hm (g_key m) key (zeroed n out)).
Proof.
  intros H.
  destruct (C53_anyone_can_register toy_hm [] true p8 [] open_register 0 (V4, 1) 0 open_record p16 p8_wf) as (so & _ & R).
  - intros m i src now [].
  - exact open_register_obj.
  - reflexivity.
  - reflexivity.
  - reflexivity.
  - exists 0, 1. (apply eid_named_spec; reflexivity).
  - apply inside_interval; [exact p16_wf|exact p8_wf|]. vm_compute. repeat split; congruence.
  - right. reflexivity.
  - assert (objects ([] ++ [EvReg open_register 0 (V4, 1) 0])) as O.
    { intros m i src now [Hin|[]]. injection Hin as <- _ _ _. exact open_register_obj. }
    destruct (H toy_hm [] true p8 _ _ _ _ toy_digests p8_wf O R) as (m & i & src & now & n & out & Hin & D & _).
    destruct Hin as [Hin|[]]. injection Hin as <- _ _ _. destruct D as [[D _]|[D _]]; discriminate.
Qed.

(** ** The handler *)
Lemma resolve_in_tree n q x : resolve n q = Ok x -> in_tree x n.
Proof.
  assert (forall l, resolve_path n q = Ok l -> forall y, In y l -> in_tree y n) as G.
  { clear x. induction n as [i p c ch IH] using node_ind'. intros l. rewrite resolve_path_eq. intros H y Hy.
    destruct (find_one (Node i p c ch) q) as [[d|]|e] eqn:E; cbn [bind] in H; try discriminate.
    - assert (In d ch) as Hd.
      { unfold find_one, find_all in E. cbn [n_pfx n_ch] in E. destruct (inside_test p q); [|discriminate]. cbn [guard bind] in E.
        destruct (filter _ ch) as [|u [|]] eqn:EF; try discriminate. destruct (_ && _); [|discriminate]. injection E as ->.
        apply filter_one in EF. apply EF. }
      destruct (is_container d).
      + destruct (resolve_path d q) as [l'|] eqn:E'; cbn [bind] in H; [|discriminate]. injection H as <-.
        apply in_app_iff in Hy. destruct Hy as [Hy|[<-|[]]]; [|apply it_self].
        eapply it_below; [exact Hd|]. eapply IH; eauto.
      + injection H as <-. destruct Hy as [<-|[<-|[]]]; [eapply it_below; [exact Hd|apply it_self]|apply it_self].
    - injection H as <-. destruct Hy as [<-|[]]. apply it_self. }
  unfold resolve. destruct (resolve_path n q) as [[|y l]|] eqn:E; cbn [bind]; try discriminate.
  intros [= <-]. eapply G; [reflexivity|left; reflexivity].
Qed.

(** nodes of the configured trees are network objects, and a node identity stands for one prefix *)
Definition good_cfg (cfg : instances) (P : nat -> pfx) : Prop :=
  forall iid afi n nd, root_of cfg iid afi = Some n -> in_tree nd n -> wf_pfx (n_pfx nd) /\ P (n_id nd) = n_pfx nd.

Lemma lands_good cfg P m i nd : good_cfg cfg P -> lands cfg m i nd -> wf_pfx (n_pfx nd) /\ P (n_id nd) = n_pfx nd.
Proof.
  intros G (r & iid & afi & a & q & _ & _ & _ & H & _). unfold g_resolve in H.
  destruct (root_of cfg iid afi) as [n|] eqn:E; [|discriminate]. destruct (resolve n q) as [x|] eqn:Er; cbn in H; [|discriminate].
  injection H as ->. eapply G; [exact E|]. eapply resolve_in_tree; eauto.
Qed.
Lemma lands_fun cfg m i nd nd' : lands cfg m i nd -> lands cfg m i nd' -> nd = nd'.
Proof.
  intros (r & iid & afi & a & q & H1 & H2 & H3 & H4 & _) (r' & iid' & afi' & a' & q' & H1' & H2' & H3' & H4' & _).
  assert (r' = r) as -> by congruence. apply eid_named_spec in H2, H2'. rewrite H2 in H2'. injection H2' as <- <- <-.
  rewrite H3 in H3'. injection H3' as <-. congruence.
Qed.

(** the message object while the records are handled: as received, or normalised *)
Definition norm (m0 m : mreg) : Prop := m = m0 \/ (g_key m0 <> 0 /\ sanitize_mreg m0 = Ok m).

Lemma norm_obj m0 m : obj_mreg m0 -> norm m0 m -> obj_mreg m.
Proof.
  intros Ho [->|[_ S]]; [exact Ho|]. apply (a_san_obj (AReg m0) (AReg m) Ho). cbn. rewrite S. reflexivity.
Qed.
Lemma norm_step m0 m m' : norm m0 m -> (g_key m = 0 /\ m' = m) \/ (g_key m <> 0 /\ sanitize_mreg m = Ok m') -> norm m0 m'.
Proof.
  intros [->|[K S]] [[K' ->]|[K' S']].
  - left; reflexivity.
  - right; auto.
  - right; auto.
  - right. split; [exact K|]. rewrite (sanitize_mreg_idem _ _ S) in S'. congruence.
Qed.
Lemma norm_cases m0 m : norm m0 m -> m = m0 \/ ((g_key m0 = 0 /\ m = m0) \/ (g_key m0 <> 0 /\ sanitize_mreg m0 = Ok m)).
Proof. unfold norm. tauto. Qed.
Lemma norm_fields m0 m : norm m0 m ->
  g_key m = g_key m0 /\ g_xtr m = g_xtr m0 /\ g_site m = g_site m0 /\ g_proxy m = g_proxy m0 /\
  g_notify m = g_notify m0 /\ g_nonce m = g_nonce m0.
Proof. intros [->|H]; [auto 10|]. apply same_fields. auto. Qed.
Lemma norm_record m0 m i : norm m0 m ->
  match nth_error (g_records m0) i, nth_error (g_records m) i with
  | Some r, Some r' => (r' = r \/ sanitize_mrec r = Ok r') /\ mr_eid r' = mr_eid r
  | None, None => True
  | _, _ => False
  end.
Proof.
  intros [->|[K S]].
  - destruct (nth_error _ i); auto.
  - pose proof (mreg_san_same _ _ S) as (_ & _ & _ & _ & _ & _ & M).
    destruct (nth_error (g_records m0) i) as [r|] eqn:E.
    + destruct (mapM_nth _ _ _ _ _ M E) as (r' & -> & Hs). split; [right; exact Hs|apply mrec_san_eid, Hs].
    + destruct (nth_error (g_records m) i) as [r'|] eqn:E'; [|exact I].
      destruct (mapM_nth_back _ _ _ _ _ M E') as (r & Hr & _). congruence.
Qed.
Lemma norm_lands cfg m0 m i nd : norm m0 m -> lands cfg m i nd <-> lands cfg m0 i nd.
Proof.
  intros N. pose proof (norm_record _ _ i N) as R. unfold lands.
  destruct (nth_error (g_records m0) i) as [r0|], (nth_error (g_records m) i) as [r1|]; try contradiction.
  - destruct R as [_ E]. split; intros (r & iid & afi & a & q & H1 & H); injection H1 as <-; [rewrite E in H|rewrite <- E in H]; eauto 10.
  - split; intros (r & iid & afi & a & q & H1 & H); discriminate.
Qed.
Lemma norm_acceptable hm key more p m0 m i src now q s rg : norm m0 m ->
  acceptable hm key more p m i src now q s rg <-> acceptable hm key more p m0 i src now q s rg.
Proof.
  intros [->|[K S]]; [tauto|]. pose proof (mreg_san_same _ _ S) as (EK & EX & ES & EP & _ & _ & M).
  unfold acceptable, authentic. rewrite (verify_again hm _ _ key S), EP. unfold sender, normal_record, eid_prefix. rewrite EK, EX, ES.
  split; intros (r & r' & A & Hr & He & Hi & Hm & Hs & Hn & ->).
  - destruct (mapM_nth_back _ _ _ _ _ M Hr) as (r0 & Hr0 & Hsan). pose proof (mrec_san_eid _ _ Hsan) as Ee.
    exists r0, r'. rewrite <- Ee. repeat (split; [assumption|]). split; [|reflexivity]. right. split; [exact K|].
    destruct Hn as [[C _]|[_ Hn]]; [contradiction|]. rewrite (sanitize_mrec_idem _ _ Hsan) in Hn. congruence.
  - destruct (mapM_nth _ _ _ _ _ M Hr) as (r1 & Hr1 & Hsan). pose proof (mrec_san_eid _ _ Hsan) as Ee.
    exists r1, r'. rewrite Ee. repeat (split; [assumption|]). split; [|reflexivity]. right. split; [exact K|].
    destruct Hn as [[C _]|[_ Hn]]; [contradiction|]. rewrite Hsan in Hn. injection Hn as <-. apply sanitize_mrec_idem in Hsan. exact Hsan.
Qed.

(** one iteration of the loop *)
Lemma loop_step hm cfg src clock k i w m done key r : nth_error (g_records m) i = Some r ->
  (exists nd, lands cfg m i nd /\
     reg_loop hm cfg src clock (S k) i w m done key =
     let '(s', m', out) := handle_record hm (n_pfx nd) (w (n_id nd)) m i src (clock i) in
     let w' := set_ms w (n_id nd) s' in
     match out with
     | Done => reg_loop hm cfg src clock k (S i) w' m' (done ++ [i]) (ms_key s')
     | Refused _ => reg_loop hm cfg src clock k (S i) w' m' done key
     | Raised e => (w', m', Err e)
     end) \/
  ((forall nd, ~ lands cfg m i nd) /\
     (reg_loop hm cfg src clock (S k) i w m done key = reg_loop hm cfg src clock k (S i) w m done key \/
      exists e, reg_loop hm cfg src clock (S k) i w m done key = (w, m, Err e))).
Proof.
  intros Hr. cbn [reg_loop]. rewrite Hr.
  assert (forall nd, lands cfg m i nd -> exists iid afi a q, determine (mr_eid r) = Some (iid, afi, a) /\ pfx_of a = Some q /\ g_resolve cfg iid afi q = Ok (Some nd) /\ n_cls nd = NMapServer) as L.
  { intros nd (r' & iid & afi & a & q & H1 & H2 & H3 & H4 & H5). assert (r' = r) as -> by congruence. apply eid_named_spec in H2. eauto 10. }
  destruct (determine (mr_eid r)) as [[[iid afi] a]|] eqn:Ed.
  2: { right. split; [|auto]. intros nd H. apply L in H. destruct H as (? & ? & ? & ? & C & _). discriminate. }
  destruct (pfx_of a) as [q|] eqn:Ea.
  2: { right. split; [|eauto]. intros nd H. apply L in H. destruct H as (? & ? & ? & ? & C & C' & _). injection C as <- <- <-. congruence. }
  destruct (g_resolve cfg iid afi q) as [[nd|]|e] eqn:Eg.
  - destruct (n_cls nd) eqn:Ec.
    4: { left. exists nd. split; [exists r, iid, afi, a, q; repeat (split; [assumption || (apply eid_named_spec; assumption)|]); assumption|]. reflexivity. }
    all: right; (split; [|auto]); intros nd' H; apply L in H; destruct H as (? & ? & ? & ? & C & C' & C'' & C3);
      injection C as <- <- <-; rewrite Ea in C'; injection C' as <-; congruence.
  - right; (split; [|auto]); intros nd' H; apply L in H; destruct H as (? & ? & ? & ? & C & C' & C'' & C3);
      injection C as <- <- <-; rewrite Ea in C'; injection C' as <-; congruence.
  - right; (split; [|eauto]); intros nd' H; apply L in H; destruct H as (? & ? & ? & ? & C & C' & C'' & C3);
      injection C as <- <- <-; rewrite Ea in C'; injection C' as <-; congruence.
Qed.

Definition conf_same (w0 w : mss) : Prop := forall id, ms_key (w id) = ms_key (w0 id) /\ ms_more (w id) = ms_more (w0 id).

Lemma loop_spec hm cfg P src clock m0 w0 : good_cfg cfg P -> obj_mreg m0 ->
  forall k i w m done key w' m' out,
  norm m0 m -> conf_same w0 w -> (length (g_records m0) = i + k)%nat ->
  reg_loop hm cfg src clock k i w m done key = (w', m', out) ->
  conf_same w0 w' /\ (forall dk, out = Ok dk -> norm m0 m') /\
  (exists evs : nat -> list ms_ev,
     (forall id, w' id = ms_run hm (P id) (w id) (evs id)) /\
     (forall id e, In e (evs id) -> exists j nd, e = EvReg m0 j src (clock j) /\ lands cfg m0 j nd /\ n_id nd = id) /\
     (forall dk, out = Ok dk -> forall j nd, (i <= j)%nat -> lands cfg m0 j nd -> In (EvReg m0 j src (clock j)) (evs (n_id nd)))) /\
  (forall done' key', out = Ok (done', key') -> exists l, done' = done ++ l /\
     (forall j, In j l <-> (i <= j)%nat /\ exists nd, accepted hm cfg w0 m0 src clock j nd) /\
     StronglySorted lt l /\
     ((l = [] /\ key' = key) \/
      exists l' j nd, l = l' ++ [j] /\ accepted hm cfg w0 m0 src clock j nd /\ key' = ms_key (w0 (n_id nd)))).
Proof.
  intros G Ho. induction k as [|k IH]; intros i w m done key w' m' out N C Hl H.
  - cbn in H. injection H as <- <- <-. split; [exact C|]. split; [auto|].
    assert (forall j nd, (i <= j)%nat -> ~ lands cfg m0 j nd) as Hno.
    { intros j nd Hj (r & _ & _ & _ & _ & Hr & _). assert (nth_error (g_records m0) j <> None) as X by congruence. apply nth_error_Some in X. lia. }
    split.
    + exists (fun _ => []). split; [reflexivity|]. split; [intros id e []|]. intros dk _ j nd Hj L. destruct (Hno j nd Hj L).
    + intros done' key' [= <- <-]. exists []. split; [symmetry; apply app_nil_r|]. split.
      * intros j. split; [intros []|]. intros (Hj & nd & L & _). destruct (Hno j nd Hj L).
      * split; [constructor|auto].
  - assert (exists r0, nth_error (g_records m0) i = Some r0) as (r0 & Hr0).
    { destruct (nth_error (g_records m0) i) eqn:E; [eauto|]. apply nth_error_None in E. lia. }
    pose proof (norm_record _ _ i N) as R. rewrite Hr0 in R. destruct (nth_error (g_records m) i) as [r|] eqn:Hr; [|contradiction].
    destruct (loop_step hm cfg src clock k i w m done key r Hr) as [(nd & L & E)|(NL & E)].
    + rewrite E in H. clear E. pose proof (proj1 (norm_lands _ _ _ _ _ N) L) as L0.
      destruct (lands_good _ _ _ _ _ G L0) as [Wp EP].
      destruct (handle_record_spec hm (n_pfx nd) (w (n_id nd)) m i src (clock i) Wp (norm_obj _ _ Ho N)) as (m1 & o & s1 & EH & HA & HM).
      rewrite EH in H. destruct (C (n_id nd)) as [Ck Cm].
      (* the same step as an event of the original message *)
      assert (s1 = ms_step hm (n_pfx nd) (w (n_id nd)) (EvReg m0 i src (clock i))) as ES.
      { cbn [ms_step]. destruct (handle_record_spec hm (n_pfx nd) (w (n_id nd)) m0 i src (clock i) Wp Ho) as (m2 & o2 & s2 & -> & HA2 & _).
        cbn [fst]. destruct HA as [(_ & q & so & rg & A & ->)|(_ & -> & NA)]; destruct HA2 as [(_ & q2 & so2 & rg2 & A2 & ->)|(_ & -> & NA2)].
        - apply (norm_acceptable _ _ _ _ _ _ _ _ _ _ _ _ N) in A. destruct (acceptable_fun _ _ _ _ _ _ _ _ _ _ _ _ _ _ A A2) as (-> & -> & ->). reflexivity.
        - exfalso. apply (norm_acceptable _ _ _ _ _ _ _ _ _ _ _ _ N) in A. exact (NA2 _ _ _ A).
        - exfalso. apply (norm_acceptable _ _ _ _ _ _ _ _ _ _ _ _ N) in A2. exact (NA _ _ _ A2).
        - reflexivity. }
      assert (ms_key s1 = ms_key (w (n_id nd)) /\ ms_more s1 = ms_more (w (n_id nd))) as [K1 M1].
      { rewrite ES. apply ms_step_conf; auto. intros ? ? ? ? [= <- _ _ _]. exact Ho. }
      assert (conf_same w0 (set_ms w (n_id nd) s1)) as C1.
      { intros id. unfold set_ms. destruct (Nat.eqb_spec id (n_id nd)); [subst; rewrite K1, M1; auto|apply C]. }
      assert (forall (evs : nat -> list ms_ev) id, ms_run hm (P id) (set_ms w (n_id nd) s1 id) (evs id) =
                ms_run hm (P id) (w id) ((if Nat.eqb id (n_id nd) then [EvReg m0 i src (clock i)] else []) ++ evs id)) as ER.
      { intros evs id. unfold set_ms. destruct (Nat.eqb_spec id (n_id nd)); [|reflexivity].
        subst id. unfold ms_run. cbn [app fold_left]. rewrite EP, <- ES. reflexivity. }
      destruct o as [|e|e].
      * destruct HA as [(_ & q & so & rg & A & _)|[NA _]]; [|congruence].
        assert (accepted hm cfg w0 m0 src clock i nd) as Ac.
        { split; [exact L0|]. exists q, so, rg. rewrite <- Ck, <- Cm. apply (norm_acceptable _ _ _ _ _ _ _ _ _ _ _ _ N), A. }
        destruct (IH (S i) _ _ _ _ _ _ _ (norm_step _ _ _ N (HM ltac:(discriminate))) C1 ltac:(lia) H) as (C2 & N2 & (evs & E1 & E2 & E3) & D).
        split; [exact C2|]. split; [exact N2|]. split.
        -- exists (fun id => (if Nat.eqb id (n_id nd) then [EvReg m0 i src (clock i)] else []) ++ evs id).
           split; [intros id; rewrite E1; apply ER|]. split.
           ++ intros id e Hin. apply in_app_iff in Hin. destruct Hin as [Hin|Hin]; [|eauto].
              destruct (Nat.eqb_spec id (n_id nd)); [|destruct Hin]. destruct Hin as [<-|[]]. exists i, nd. auto.
           ++ intros dk Edk j nd' Hj L'. apply in_or_app. destruct (Nat.eq_dec j i) as [->|Hne].
              ** rewrite (lands_fun _ _ _ _ _ L' L0), Nat.eqb_refl. left. left. reflexivity.
              ** right. eapply E3; [exact Edk|lia|exact L'].
        -- intros done' key' Eo. destruct (D _ _ Eo) as (l & -> & Hin & Hs & Hk). exists (i :: l).
           split; [rewrite <- app_assoc; reflexivity|]. split.
           ++ intros j. cbn. rewrite Hin. split.
              ** intros [<-|[Hj Ha]]; [split; [lia|eauto]|split; [lia|exact Ha]].
              ** intros [Hj Ha]. destruct (Nat.eq_dec j i); [auto|right; split; [lia|exact Ha]].
           ++ split.
              ** constructor; [exact Hs|]. rewrite Forall_forall. intros j Hj. apply Hin in Hj. lia.
              ** right. destruct Hk as [[-> ->]|(l' & j & nd' & -> & Ha & ->)].
                 --- exists [], i, nd. split; [reflexivity|]. split; [exact Ac|]. rewrite K1, Ck. reflexivity.
                 --- exists (i :: l'), j, nd'. auto.
      * destruct HA as [(? & _)|[_ [_ NA]]]; [discriminate|].
        destruct (IH (S i) _ _ _ _ _ _ _ (norm_step _ _ _ N (HM ltac:(discriminate))) C1 ltac:(lia) H) as (C2 & N2 & (evs & E1 & E2 & E3) & D).
        split; [exact C2|]. split; [exact N2|]. split.
        -- exists (fun id => (if Nat.eqb id (n_id nd) then [EvReg m0 i src (clock i)] else []) ++ evs id).
           split; [intros id; rewrite E1; apply ER|]. split.
           ++ intros id e' Hin. apply in_app_iff in Hin. destruct Hin as [Hin|Hin]; [|eauto].
              destruct (Nat.eqb_spec id (n_id nd)); [|destruct Hin]. destruct Hin as [<-|[]]. exists i, nd. auto.
           ++ intros dk Edk j nd' Hj L'. apply in_or_app. destruct (Nat.eq_dec j i) as [->|Hne].
              ** rewrite (lands_fun _ _ _ _ _ L' L0), Nat.eqb_refl. left. left. reflexivity.
              ** right. eapply E3; [exact Edk|lia|exact L'].
        -- intros done' key' Eo. destruct (D _ _ Eo) as (l & -> & Hin & Hs & Hk). exists l. split; [reflexivity|]. split; [|auto].
           intros j. rewrite Hin. split; [intros [Hj Ha]; split; [lia|exact Ha]|]. intros [Hj (nd' & Ha)].
           destruct (Nat.eq_dec j i) as [->|]; [exfalso|split; [lia|eauto]].
           destruct Ha as [L' (q & so & rg & A)]. rewrite (lands_fun _ _ _ _ _ L' L0) in A. rewrite <- Ck, <- Cm in A.
           apply (norm_acceptable _ _ _ _ _ _ _ _ _ _ _ _ N) in A. exact (NA _ _ _ A).
      * injection H as <- <- <-. split; [exact C1|]. split; [discriminate|]. split; [|discriminate].
        exists (fun id => if Nat.eqb id (n_id nd) then [EvReg m0 i src (clock i)] else []).
        split; [intros id; pose proof (ER (fun _ => []) id) as X; rewrite app_nil_r in X; exact X|].
        split; [|discriminate]. intros id e' Hin. destruct (Nat.eqb_spec id (n_id nd)); [|destruct Hin]. destruct Hin as [<-|[]]. exists i, nd. auto.
    + assert (forall nd, ~ lands cfg m0 i nd) as NL0 by (intros nd L; apply (NL nd), (norm_lands _ _ _ _ _ N), L).
      destruct E as [E|(e & E)]; rewrite E in H.
      * destruct (IH (S i) _ _ _ _ _ _ _ N C ltac:(lia) H) as (C2 & N2 & (evs & E1 & E2 & E3) & D).
        split; [exact C2|]. split; [exact N2|]. split.
        -- exists evs. split; [exact E1|]. split; [exact E2|]. intros dk Edk j nd Hj L.
           destruct (Nat.eq_dec j i) as [->|]; [destruct (NL0 _ L)|]. eapply E3; [exact Edk|lia|exact L].
        -- intros done' key' Eo. destruct (D _ _ Eo) as (l & -> & Hin & Hs & Hk). exists l. split; [reflexivity|]. split; [|auto].
           intros j. rewrite Hin. split; [intros [Hj Ha]; split; [lia|exact Ha]|]. intros [Hj (nd' & Ha)].
           destruct (Nat.eq_dec j i) as [->|]; [destruct (NL0 _ (proj1 Ha))|split; [lia|eauto]].
      * injection H as <- <- <-. split; [exact C|]. split; [discriminate|]. split; [|discriminate].
        exists (fun _ => []). split; [reflexivity|]. split; [intros id e' []|discriminate].
Qed.

(** ** C54: the Map-Notify *)
Lemma insert_not hm n key a : digests hm -> obj_mnot n -> insert hm (ANot n) key = (a, Ok tt) ->
  exists n', a = ANot n' /\ n_nonce n' = n_nonce n /\ n_key n' = n_key n /\ n_xtr n' = n_xtr n /\ n_site n' = n_site n /\
    (n_records n' = n_records n \/ mapM sanitize_mrec (n_records n) = Ok (n_records n')) /\
    snd (verify hm (ANot n') key) = Ok true.
Proof.
  intros HD Ho H. pose proof H as H0. unfold insert, calculate in H. cbn [a_key] in H. destruct (n_key n =? 0) eqn:E0.
  { injection H as <-. eexists. split; [reflexivity|]. cbn [n_nonce n_key n_xtr n_site n_records]. repeat (split; [reflexivity|]).
    split; [auto|]. unfold verify, calculate. cbn [a_key n_key]. rewrite E0. reflexivity. }
  destruct (digest_len (n_key n)) as [k|] eqn:Ek; [|discriminate].
  destruct (a_to_bytes (set_auth (ANot n) (repeat zero_byte k))) as [b|] eqn:Eb; [|discriminate].
  assert (snd (verify hm a key) = Ok true) as V.
  { destruct (san_of_bytes _ _ Eb) as (m1 & S & _). rewrite (a_san_after _ _ S) in H. injection H as <-.
    rewrite a_san_set in S. bo S m2 S2. okinj S. rewrite !set_auth_set.
    destruct (a_san_same _ _ S2) as (EK & _ & _). pose proof (a_san_idem _ _ S2) as SI.
    unfold verify, calculate.
    assert (forall x y, a_key (set_auth x y) = a_key x) as KS by (intros [] ?; reflexivity).
    assert (forall x y, a_auth (set_auth x y) = y) as AS by (intros [] ?; reflexivity).
    rewrite KS, EK. cbn [a_key]. rewrite E0, Ek, set_auth_set.
    assert (a_to_bytes (set_auth m2 (repeat zero_byte k)) = Ok b) as ->.
    { destruct (san_of_bytes _ _ Eb) as (m3 & S3 & B3). rewrite a_san_set, S2 in S3. cbn [bind] in S3. okinj S3. exact B3. }
    cbn [snd bind]. rewrite !AS. f_equal. apply bytes_eqb_spec. reflexivity. }
  destruct (san_of_bytes _ _ Eb) as (m1 & S & _). rewrite (a_san_after _ _ S) in H. injection H as Ha.
  rewrite a_san_set in S. cbn [a_san] in S. destruct (sanitize_mnot n) as [n1|] eqn:En; cbn [bind] in S; [|discriminate].
  okinj S. rewrite !set_auth_set in Ha. cbn [set_auth] in Ha. subst a. eexists. split; [reflexivity|].
  cbn [n_nonce n_key n_xtr n_site n_records]. unfold sanitize_mnot in En.
  bo En [] A1. bo En [] A2. bo En [] A3. bo En [] A4. bo En rs A5. okinj En. cbn [n_nonce n_key n_xtr n_site n_records].
  repeat (split; [reflexivity|]). split; [auto|exact V].
Qed.

Lemma picked_records m0 m l : norm m0 m -> (forall j, In j l -> nth_error (g_records m0) j <> None) ->
  Forall2 (fun j r' => exists r, nth_error (g_records m0) j = Some r /\ (r' = r \/ sanitize_mrec r = Ok r')) l
    (flat_map (fun i => match nth_error (g_records m) i with Some r => [r] | None => [] end) l).
Proof.
  intros N. induction l as [|j l IH]; intros Hl; cbn; [constructor|].
  pose proof (norm_record _ _ j N) as R. specialize (Hl j (or_introl eq_refl)) as Hj.
  destruct (nth_error (g_records m0) j) as [r|] eqn:E; [|congruence]. destruct (nth_error (g_records m) j) as [r'|]; [|contradiction].
  cbn. constructor; [exists r; split; [exact E|apply R]|]. apply IH. intros x Hx. apply Hl. right; exact Hx.
Qed.

Theorem C54_notify_content : forall hm cfg P w m src clock w' m' o,
  digests hm -> good_cfg cfg P -> obj_mreg m ->
  handle_map_register hm cfg w m src clock = (w', m', Ok o) ->
  exists js, StronglySorted lt js /\
    (forall j, In j js <-> exists nd, accepted hm cfg w m src clock j nd) /\
    match o with
    | None => g_notify m = false \/ js = []
    | Some n =>
        g_notify m = true /\ js <> [] /\
        s_to n = [AIP (fst src) (snd src)] /\ s_port n = 4342 /\
        n_nonce (s_msg n) = g_nonce m /\ n_key (s_msg n) = g_key m /\
        n_xtr (s_msg n) = g_xtr m /\ n_site (s_msg n) = g_site m /\
        Forall2 (fun j r' => exists r, nth_error (g_records m) j = Some r /\ (r' = r \/ arrives_mrec r r'))
          js (n_records (s_msg n)) /\
        exists js' j nd, js = js' ++ [j] /\ accepted hm cfg w m src clock j nd /\
          snd (verify hm (ANot (s_msg n)) (ms_key (w (n_id nd)))) = Ok true
    end.
Proof.
  intros hm cfg P w m src clock w' m' o HD G Ho H. unfold handle_map_register in H.
  destruct (reg_loop hm cfg src clock (length (g_records m)) 0 w m [] []) as [[w1 m1] out] eqn:EL.
  destruct (loop_spec hm cfg P src clock m w G Ho _ 0 w m [] [] w1 m1 out (or_introl eq_refl) (fun _ => conj eq_refl eq_refl) eq_refl EL)
    as (_ & N & _ & D).
  destruct out as [[done key]|e]; [|discriminate]. destruct (D _ _ eq_refl) as (js & Ejs & Hin & Hs & Hk). cbn in Ejs. subst done.
  specialize (N _ eq_refl). exists js. split; [exact Hs|].
  assert (forall j, In j js <-> exists nd, accepted hm cfg w m src clock j nd) as Hin'.
  { intros j. rewrite Hin. split; [tauto|]. intros Hx. split; [lia|exact Hx]. }
  split; [exact Hin'|].
  destruct (norm_fields _ _ N) as (FK & FX & FS & FP & FN & FC). rewrite FN in H.
  destruct (g_notify m && nonempty js) eqn:Eb.
  2: { injection H as <- <- <-. apply andb_false_iff in Eb. destruct Eb as [Eb|Eb]; [auto|]. right. destruct js; [reflexivity|discriminate]. }
  apply andb_true_iff in Eb. destruct Eb as [Eb1 Eb2].
  assert (forall j, In j js -> nth_error (g_records m) j <> None) as Hex.
  { intros j Hj. apply Hin' in Hj. destruct Hj as (nd & (r & ? & ? & ? & ? & Hr & _) & _). congruence. }
  pose proof (picked_records _ _ _ N Hex) as HP.
  match type of H with context[insert hm (ANot ?x) key] => set (n := x) in H end.
  destruct (insert hm (ANot n) key) as [a [[]|e]] eqn:EI; [|discriminate].
  assert (obj_mnot n) as On.
  { split; [reflexivity|]. cbn [n_records n]. rewrite Forall_forall. intros x Hx. apply in_flat_map in Hx. destruct Hx as (j & _ & Hx).
    destruct (nth_error (g_records m1) j) as [r|] eqn:Er; [|destruct Hx]. destruct Hx as [<-|[]].
    destruct (norm_obj _ _ Ho N) as (_ & _ & _ & F). rewrite Forall_forall in F. apply F. eapply nth_error_In; eauto. }
  destruct (insert_not hm n key a HD On EI) as (n' & -> & F1 & F2 & F3 & F4 & F5 & V). injection H as <- <- <-. cbn [s_to s_port s_msg].
  split; [exact Eb1|]. split; [intros ->; discriminate|]. split; [reflexivity|]. split; [reflexivity|].
  cbn [n_nonce n_key n_xtr n_site n] in F1, F2, F3, F4. repeat (split; [congruence|]). split.
  - change (flat_map _ js) with (n_records n) in HP. revert HP F5. generalize (n_records n) as rs, (n_records n') as rs'. clear.
    intros rs rs' HP F5.
    assert (forall r r1, r1 = r \/ sanitize_mrec r = Ok r1 -> r1 = r \/ arrives_mrec r r1) as A1
      by (intros r r1 [->|Hr]; [auto|right; apply sanitize_mrec_arrives, Hr]).
    assert (forall r r1 r2, r1 = r \/ sanitize_mrec r = Ok r1 -> sanitize_mrec r1 = Ok r2 -> r2 = r \/ arrives_mrec r r2) as A2.
    { intros r r1 r2 [->|Hr] Hr2; [right; apply sanitize_mrec_arrives, Hr2|]. rewrite (sanitize_mrec_idem _ _ Hr) in Hr2.
      injection Hr2 as <-. right. apply sanitize_mrec_arrives, Hr. }
    destruct F5 as [->|F5].
    + induction HP as [|j r' l l' (r & Hr & Hx) HP IH]; constructor; eauto.
    + revert rs' F5. induction HP as [|j r' l l' (r & Hr & Hx) HP IH]; intros rs' F5; cbn in F5.
      * okinj F5. constructor.
      * bo F5 y Ey. bo F5 ys Eys. okinj F5. constructor; [|auto]. exists r. split; [exact Hr|eauto].
  - destruct Hk as [[-> _]|(l' & j & nd & -> & Ha & ->)]; [discriminate|]. exists l', j, nd. auto.
Qed.
Print Assumptions C54_notify_content.

(** ** The whole daemon *)
Lemma set_ms_id w id s j : set_ms w id s j = if Nat.eqb j id then s else w j.
Proof. reflexivity. Qed.

(** Every daemon history acts on each Map-Server node as a history of single events of that node, in which
    every registration comes from a received Map-Register one of whose records is for that node: so
    C51, C52 and C53 hold of every node of the daemon. *)
Theorem C51_daemon : forall hm cfg P keys mores h, good_cfg cfg P ->
  (forall m src clock, In (DReg m src clock) h -> obj_mreg m) ->
  forall id, exists evs, objects evs /\
    d_run hm cfg (fun j => new_ms (keys j) (mores j)) h id = ms_run hm (P id) (new_ms (keys id) (mores id)) evs /\
    forall m i src now, In (EvReg m i src now) evs ->
      exists clock nd, In (DReg m src clock) h /\ now = clock i /\ lands cfg m i nd /\ n_id nd = id.
Proof.
  intros hm cfg P keys mores h G. induction h as [|e h IH] using rev_ind; intros Ho id.
  - exists []. split; [intros m i src now []|]. split; [reflexivity|]. intros m i src now [].
  - assert (forall m src clock, In (DReg m src clock) h -> obj_mreg m) as Ho' by (intros m src clock Hin; eapply Ho; apply in_or_app; left; exact Hin).
    destruct (IH Ho' id) as (evs & O & E & H). unfold d_run. rewrite fold_left_app. cbn [fold_left].
    change (fold_left (d_step hm cfg) h (fun j => new_ms (keys j) (mores j))) with (d_run hm cfg (fun j => new_ms (keys j) (mores j)) h).
    set (w := d_run hm cfg (fun j => new_ms (keys j) (mores j)) h) in *.
    assert (forall m src clock, In (DReg m src clock) h -> In (DReg m src clock) (h ++ [e])) as Hmono by (intros; apply in_or_app; auto).
    destruct e as [m src clock|j now]; cbn [d_step].
    + assert (obj_mreg m) as Om by (eapply Ho; apply in_or_app; right; left; reflexivity).
      destruct (handle_map_register hm cfg w m src clock) as [[w' m'] o] eqn:EH. cbn [fst].
      destruct (reg_loop hm cfg src clock (length (g_records m)) 0 w m [] []) as [[w1 m1] out] eqn:EL.
      assert (w' = w1) as ->.
      { unfold handle_map_register in EH. rewrite EL in EH. destruct out as [[done key]|]; [|congruence].
        destruct (_ && _); [|congruence]. destruct (insert _ _ _) as [[] []]; congruence. }
      destruct (loop_spec hm cfg P src clock m w G Om _ 0 w m [] [] w1 m1 out (or_introl eq_refl) (fun _ => conj eq_refl eq_refl) eq_refl EL)
        as (_ & _ & (evs1 & E1 & E2 & _) & _).
      exists (evs ++ evs1 id). split; [|split].
      * intros m2 i src2 now2 Hin. apply in_app_iff in Hin. destruct Hin as [Hin|Hin]; [eauto|].
        destruct (E2 _ _ Hin) as (j & nd & EE & _). injection EE as -> _ _ _. exact Om.
      * rewrite E1, E. unfold ms_run. rewrite fold_left_app. reflexivity.
      * intros m2 i src2 now2 Hin. apply in_app_iff in Hin. destruct Hin as [Hin|Hin].
        -- destruct (H _ _ _ _ Hin) as (c & nd & ? & ?). exists c, nd. auto.
        -- destruct (E2 _ _ Hin) as (j & nd & EE & L & Eid). injection EE as -> -> -> ->. exists clock, nd.
           split; [apply in_or_app; right; left; reflexivity|auto].
    + rewrite set_ms_id. destruct (Nat.eqb_spec id j) as [->|Hne].
      * exists (evs ++ [EvClean now]). split; [|split].
        -- intros m2 i src2 now2 Hin. apply in_app_iff in Hin. destruct Hin as [Hin|[Hin|[]]]; [eauto|discriminate].
        -- unfold ms_run. rewrite fold_left_app. cbn [fold_left ms_step]. fold (ms_run hm (P j) (new_ms (keys j) (mores j)) evs).
           rewrite <- E. reflexivity.
        -- intros m2 i src2 now2 Hin. apply in_app_iff in Hin. destruct Hin as [Hin|[Hin|[]]]; [|discriminate].
           destruct (H _ _ _ _ Hin) as (c & nd & ? & ?). exists c, nd. auto.
      * exists evs. split; [exact O|]. split; [exact E|]. intros m2 i src2 now2 Hin.
        destruct (H _ _ _ _ Hin) as (c & nd & ? & ?). exists c, nd. auto.
Qed.

(** ** Every locator of a decoded Map-Register, or of one whose authentication data was verified under key id 1 or 2,
    has a text (the log line map_server_node.py:167 does not raise) *)
Lemma san_prints r r' l : sanitize_mrec r = Ok r' -> In l (mr_locs r) \/ In l (mr_locs r') -> fmt_raises (l_addr l) = false.
Proof.
  unfold sanitize_mrec. intros H.
  repeat match type of H with
  | bind (checkM sanitize_loc _) _ = Ok _ => fail 1
  | bind ?x _ = Ok _ => destruct x as [?|]; cbn [bind] in H; [|discriminate]
  end.
  bo H [] E1. bo H ls E2. okinj H. cbn [mr_locs]. intros I.
  assert (Forall (fun x => sanitize_loc x = Ok tt) (mr_locs r)) as F.
  { apply checkM_ok in E1. apply E1. }
  destruct (sort_locs_ok _ _ F E2) as [Hi ->]. assert (In l (mr_locs r)) as I'.
  { destruct I as [I|I]; [exact I|]. apply in_map_iff in I. destruct I as (x & <- & Ix). apply in_isort_keyed in Ix. apply Ix. }
  rewrite Forall_forall in Hi. destruct (Hi l I') as (v & z & ->). reflexivity.
Qed.
Theorem C51_locators_print d m : mreg_from_bytes d = Ok m ->
  forall r l, In r (g_records m) -> In l (mr_locs r) -> fmt_raises (l_addr l) = false.
Proof.
  unfold mreg_from_bytes, from_bytes. intros H r l Hr Hl. bo H [m1 s1] E. okinj H. unfold rd_mreg in E.
  repeat match type of E with
  | bind ?x _ = Ok _ => let u := fresh "u" in let U := fresh "U" in destruct x as [u|] eqn:U; cbn [bind] in E; [|discriminate];
      try (destruct u as [u ?]); try (destruct u as [u ?])
  end.
  injection E as <- <-. match goal with U : sanitize_mreg _ = Ok _ |- _ => apply mreg_san_same in U; destruct U as (_ & _ & _ & _ & _ & _ & M) end.
  apply In_nth_error in Hr. destruct Hr as (i & Hi). destruct (mapM_nth_back _ _ _ _ _ M Hi) as (r0 & _ & S).
  eapply san_prints; [exact S|right; exact Hl].
Qed.
Theorem C51_verified_locators_print hm m key v : g_key m <> 0 -> snd (verify hm (AReg m) key) = Ok v ->
  forall r l, In r (g_records m) -> In l (mr_locs r) -> fmt_raises (l_addr l) = false.
Proof.
  intros K V r l Hr Hl. destruct (verify_reg hm m key) as (m' & _ & G). destruct (G v V) as [[C _]|[_ S]]; [contradiction|].
  apply mreg_san_same in S. destruct S as (_ & _ & _ & _ & _ & _ & M).
  apply In_nth_error in Hr. destruct Hr as (i & Hi). destruct (mapM_nth _ _ _ _ _ M Hi) as (r0 & _ & S).
  eapply san_prints; [exact S|left; exact Hl].
Qed.

(** ** Non-vacuity: the open register for 10.5.0.0/16 at a Map-Server for 10.0.0.0/8 *)
Example ms_node := Node 7 p8 NMapServer [].
Example ms_root := Node 0 (Pfx V4 0 0) NContainer [ms_node].
Example ms_cfg : instances := [(0, [(1, ms_root)])].
Example ms_handled :
  match handle_map_register toy_hm ms_cfg (fun _ => new_ms (B [1;2]) true) open_register (V4, 77) (fun _ => 5) with
  | (w, _, Ok (Some n)) =>
      registered (w 7%nat) p16 (SAddr V4 77) = Some (Reg open_record false (5 + 180 * sec)) /\
      n_records (s_msg n) = [open_record] /\
      registered (ms_run toy_hm p8 (new_ms (B [1;2]) true)
        [EvReg open_register 0 (V4, 77) 5; EvClean (5 + 180 * sec)]) p16 (SAddr V4 77) <> None /\
      registered (ms_run toy_hm p8 (new_ms (B [1;2]) true)
        [EvReg open_register 0 (V4, 77) 5; EvClean (6 + 180 * sec)]) p16 (SAddr V4 77) = None
  | _ => False
  end.
Proof. vm_compute. repeat split; discriminate. Qed.

(** the example's tree meets the hypothesis [good_cfg] *)
Example ms_cfg_good : good_cfg ms_cfg (fun id => if Nat.eqb id 7 then p8 else Pfx V4 0 0).
Proof.
  assert (wf_pfx (Pfx V4 0 0)) as W0 by (repeat split; vm_compute; congruence).
  intros iid afi n nd H Hin. unfold root_of, ms_cfg in H. cbn [assoc] in H.
  destruct (Z.eqb _ _); [|discriminate]. cbn [assoc] in H. destruct (Z.eqb _ _); [|discriminate]. injection H as <-.
  inversion Hin as [|? c Hc Hin']; subst.
  - split; [exact W0|reflexivity].
  - destruct Hc as [<-|[]]. inversion Hin' as [|? c' Hc' ?]; subst; [|destruct Hc'].
    split; [apply p8_wf|reflexivity].
Qed.
