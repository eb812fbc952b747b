(** * Properties C51-C54: the Map-Server *)
From Coq Require Import Sorted.
From Verif Require Import Base BaseLemmas Afi AfiProofs Spec SpecEid PropEid Records Control SpecRec RecordsProofs ControlProofs
  Auth SpecAuth PropAuth Tree SpecTree TreeProofs PropTree2 Dict MapServer SpecMs.

(** ** Dictionaries *)
Lemma source_eqb_ok a b : source_eqb a b = true <-> a = b.
Proof.
  destruct a, b; cbn; try (split; congruence).
  - rewrite andb_true_iff, !Z.eqb_eq. split; [intros [-> ->]; reflexivity|intros [= -> ->]; auto].
  - rewrite andb_true_iff, fam_eqb_spec, Z.eqb_eq. split; [intros [-> ->]; reflexivity|intros [= -> ->]; auto].
Qed.

Definition dict_ok (d : regs) : Prop :=
  NoDup (map fst d) /\ forall q i, In (q, i) d -> NoDup (map fst i) /\ i <> [].
Definition look (d : regs) (q : pfx) (s : source) : option reg :=
  match dget pfx_eqb q d with Some i => dget source_eqb s i | None => None end.

Lemma dput_nonempty {K V} (eqb : K -> K -> bool) k (v : V) d : dput eqb k v d <> [].
Proof. destruct d as [|[k' v'] d]; cbn; [discriminate|]. destruct (eqb k' k); discriminate. Qed.

Lemma store_ok d q s r : dict_ok d -> dict_ok (store d q s r).
Proof.
  intros [H1 H2]. unfold store. split; [apply (dput_nodup _ pfx_eqb_spec), H1|].
  intros q' i Hi. apply (in_dput _ pfx_eqb_spec) in Hi. destruct Hi as [[E1 E2]|Hi]; [|eauto].
  cbn in E1, E2. subst. split; [|apply dput_nonempty]. apply (dput_nodup _ source_eqb_ok).
  destruct (dget pfx_eqb q d) as [i|] eqn:E; [|constructor]. apply (dget_in _ pfx_eqb_spec) in E. apply H2 in E. apply E.
Qed.

Lemma look_store d q s r q' s' :
  look (store d q s r) q' s' = if pfx_eqb q q' && source_eqb s s' then Some r else look d q' s'.
Proof.
  unfold look, store. destruct (pfx_eqb q q') eqn:E; cbn [andb].
  - apply pfx_eqb_spec in E. subst q'. rewrite (dget_put_same _ pfx_eqb_spec).
    destruct (source_eqb s s') eqn:E2.
    + apply source_eqb_ok in E2. subst s'. apply (dget_put_same _ source_eqb_ok).
    + rewrite (dget_put_other _ source_eqb_ok).
      * destruct (dget pfx_eqb q d); reflexivity.
      * intros ->. rewrite (eqb_rf _ source_eqb_ok) in E2. discriminate.
  - rewrite (dget_put_other _ pfx_eqb_spec); [reflexivity|]. intros ->. rewrite (eqb_rf _ pfx_eqb_spec) in E. discriminate.
Qed.

Lemma cleanup_ok t d : dict_ok d -> dict_ok (cleanup t d).
Proof.
  intros [H1 H2]. unfold cleanup. split.
  - apply filter_keys_nodup. rewrite (map_snd_keys (fun i => filter (fun x => negb (t >? rg_deadline (snd x))) i)). exact H1.
  - intros q i Hi. apply filter_In in Hi. destruct Hi as [Hi Hn]. cbn [snd] in Hn. apply in_map_iff in Hi.
    destruct Hi as ([q' i'] & E & Hi). cbn [fst snd] in E. injection E as <- <-. split.
    + apply filter_keys_nodup. apply (H2 _ _ Hi).
    + intros C. rewrite C in Hn. discriminate.
Qed.

Lemma look_cleanup t d q s : dict_ok d ->
  look (cleanup t d) q s = match look d q s with
                           | Some r => if t >? rg_deadline r then None else Some r
                           | None => None
                           end.
Proof.
  intros [H1 H2]. unfold look, cleanup.
  rewrite (dget_filter _ pfx_eqb_spec) by (rewrite (map_snd_keys (fun i => filter (fun x => negb (t >? rg_deadline (snd x))) i)); exact H1).
  rewrite (dget_map_snd pfx_eqb (fun i => filter (fun x => negb (t >? rg_deadline (snd x))) i)).
  destruct (dget pfx_eqb q d) as [i|] eqn:E; cbn [option_map snd]; [|reflexivity].
  apply (dget_in _ pfx_eqb_spec) in E. destruct (H2 _ _ E) as [N _].
  assert (dget source_eqb s (filter (fun x => negb (t >? rg_deadline (snd x))) i) =
          match dget source_eqb s i with Some r => if t >? rg_deadline r then None else Some r | None => None end) as G.
  { rewrite (dget_filter _ source_eqb_ok) by exact N. destruct (dget source_eqb s i); [|reflexivity].
    cbn [snd]. destruct (t >? rg_deadline r); reflexivity. }
  destruct (filter _ i) as [|x l] eqn:EF; cbn [nonempty]; [rewrite <- G; reflexivity|exact G].
Qed.

(** ** Verification of a Map-Register *)
Lemma verify_reg hm m key : exists m', fst (verify hm (AReg m) key) = AReg m' /\
  forall v, snd (verify hm (AReg m) key) = Ok v ->
    (g_key m = 0 /\ m' = m) \/ (g_key m <> 0 /\ sanitize_mreg m = Ok m').
Proof.
  unfold verify, calculate. cbn [a_key]. destruct (g_key m =? 0) eqn:E0.
  { apply Z.eqb_eq in E0. cbn [fst snd]. exists m. split; [reflexivity|]. auto. }
  apply Z.eqb_neq in E0. destruct (digest_len (g_key m)) as [n|]; [|exists m; split; [reflexivity|discriminate]].
  destruct (a_to_bytes _) as [b|e] eqn:EB; cbn [fst snd bind].
  - destruct (san_of_bytes _ _ EB) as (m0 & S & _). rewrite (a_san_after _ _ S).
    rewrite a_san_set in S. cbn [a_san] in S. destruct (sanitize_mreg m) as [m1|e] eqn:E1; cbn [bind] in S; [|discriminate].
    okinj S. rewrite set_auth_set. cbn [a_auth set_auth]. eexists. split; [reflexivity|]. intros _ _. right. split; [exact E0|].
    f_equal. unfold sanitize_mreg in E1. bo E1 [] A1. bo E1 [] A2. bo E1 [] A3. bo E1 rs A4. okinj E1. reflexivity.
  - cbn [after set_auth]. destruct (_ && _); eexists; (split; [reflexivity|discriminate]).
Qed.

Lemma mreg_san_same m m' : sanitize_mreg m = Ok m' ->
  g_key m' = g_key m /\ g_xtr m' = g_xtr m /\ g_site m' = g_site m /\ g_proxy m' = g_proxy m /\
  g_notify m' = g_notify m /\ g_nonce m' = g_nonce m /\ mapM sanitize_mrec (g_records m) = Ok (g_records m').
Proof. unfold sanitize_mreg. intros E1. bo E1 [] A1. bo E1 [] A2. bo E1 [] A3. bo E1 rs A4. okinj E1. cbn. auto 10. Qed.

Lemma mapM_nth {A B} (f : A -> res B) l l' i x : mapM f l = Ok l' -> nth_error l i = Some x ->
  exists y, nth_error l' i = Some y /\ f x = Ok y.
Proof.
  revert l' i. induction l as [|a l IH]; intros l' i H Hn; [destruct i; discriminate|].
  cbn in H. bo H y E. bo H ys E2. okinj H. destruct i as [|i]; cbn in *; [injection Hn as ->; eauto|eauto].
Qed.
Lemma mapM_nth_back {A B} (f : A -> res B) l l' i y : mapM f l = Ok l' -> nth_error l' i = Some y ->
  exists x, nth_error l i = Some x /\ f x = Ok y.
Proof.
  revert l' i. induction l as [|a l IH]; intros l' i H Hn; cbn in H; [okinj H; destruct i; discriminate|].
  bo H y0 E. bo H ys E2. okinj H. destruct i as [|i]; cbn in *; [injection Hn as ->; eauto|eauto].
Qed.
Lemma mrec_san_eid r r' : sanitize_mrec r = Ok r' -> mr_eid r' = mr_eid r.
Proof. intros H. apply sanitize_mrec_arrives in H. apply H. Qed.

(** a message verified once verifies again with the same outcome under every key *)
Lemma verify_again hm m m' key : sanitize_mreg m = Ok m' ->
  snd (verify hm (AReg m') key) = snd (verify hm (AReg m) key).
Proof.
  intros S. pose proof (mreg_san_same _ _ S) as (EK & _).
  assert (a_san (AReg m) = Ok (AReg m')) as S' by (cbn; rewrite S; reflexivity).
  pose proof (a_san_idem _ _ S') as SI. destruct (a_san_same _ _ S') as (_ & EA & _).
  unfold verify, calculate. cbn [a_key]. rewrite EK. destruct (g_key m =? 0); [cbn [snd bind]; rewrite EA; reflexivity|].
  destruct (digest_len (g_key m)) as [n|]; [|reflexivity].
  set (z := repeat zero_byte n).
  assert (a_to_bytes (set_auth (AReg m') z) = a_to_bytes (set_auth (AReg m) z)) as ->.
  { assert (forall x, a_san (set_auth (AReg m) z) = Ok x -> a_to_bytes (set_auth (AReg m) z) = a_to_bytes x) as G.
    { intros x Hx. pose proof (a_san_idem _ _ Hx) as Hxx. destruct x as [y| |]; cbn [a_san set_auth] in Hx, Hxx;
        [|bo Hx u U; discriminate|bo Hx u U; discriminate].
      bo Hx u U. assert (u = y) as -> by congruence. bo Hxx u' U'. assert (u' = y) as -> by congruence.
      cbn [a_to_bytes set_auth]. unfold mreg_to_bytes, to_bytes, w_mreg. rewrite U, U'. reflexivity. }
    symmetry. apply G. rewrite a_san_set, S'. reflexivity. }
  destruct (a_to_bytes (set_auth (AReg m) z)) as [b|e] eqn:EB; [|reflexivity]. cbn [snd bind].
  destruct (san_of_bytes _ _ EB) as (m0 & S0 & _).
  rewrite (a_san_after _ _ S0).
  assert (a_san (set_auth (AReg m') z) = Ok m0) as S1 by (rewrite a_san_set, SI; rewrite a_san_set, S' in S0; exact S0).
  rewrite (a_san_after _ _ S1). destruct m0; cbn [a_auth set_auth]; cbn [a_auth] in EA; rewrite EA; reflexivity.
Qed.

(** ** Handling one record *)
Lemma get_addresses_wf a : wf_addr a = true -> Forall (fun x => wf_addr x = true) (get_addresses a).
Proof.
  induction a using addr_ind'; cbn [wf_addr get_addresses]; intros Hw; auto.
  - induction l as [|x l IHl]; cbn in *; [constructor|]. apply andb_true_iff in Hw. inversion H; subst.
    apply Forall_app. split; [apply H2, Hw|]. apply IHl; [assumption|apply Hw].
  - rewrite !andb_true_iff in Hw. rewrite Forall_forall. destruct Hw as [_ Hw]. rewrite forallb_forall in Hw. exact Hw.
Qed.

Lemma wf_net_pfx v z n : wf_addr (ANet v z n) = true -> wf_pfx (Pfx v z n).
Proof.
  cbn [wf_addr wf_ip]. unfold fits. rewrite !andb_true_iff, !Z.leb_le, Z.ltb_lt, Z.eqb_eq. intros [[[[A1 A2] A3] A4] A5].
  unfold wf_pfx. cbn [x_fam x_len x_net]. split; [lia|]. split; [unfold wz; lia|].
  unfold aligned. unfold mask_to in A5. rewrite <- A5. apply Z.mod_mul.
  assert (0 < 2 ^ (wz v - n)); [|lia]. apply Z.pow_pos_nonneg; lia.
Qed.

Lemma determine_wf a iid afi x : wf_addr a = true -> determine a = Some (iid, afi, x) -> wf_addr x = true.
Proof.
  intros Hw. unfold determine.
  assert (forall y, (if is_lcaf a then match get_addresses a with [y] => Some y | _ => None end else Some a) = Some y -> wf_addr y = true) as G.
  { intros y. destruct (is_lcaf a); [|congruence]. pose proof (get_addresses_wf a Hw) as F.
    destruct (get_addresses a) as [|u [|]]; try discriminate. intros [= <-]. inversion F; auto. }
  destruct (if is_lcaf a then _ else _) as [y|]; [|discriminate]. specialize (G y eq_refl).
  destruct y as [|[]|[]| | | | | |]; intros [= <- <- <-]; exact G.
Qed.

Lemma eid_prefix_wf r q : obj_mrec r -> eid_prefix r q -> wf_pfx q.
Proof.
  intros (_ & Hw & _) (iid & afi & H). destruct q as [v z n]. apply wf_net_pfx. eapply determine_wf; [exact Hw|apply eid_named_spec; exact H].
Qed.
Lemma eid_prefix_fun r q q' : eid_prefix r q -> eid_prefix r q' -> q = q'.
Proof. intros (i & a & H) (i' & a' & H'). apply eid_named_spec in H, H'. rewrite H in H'. destruct q, q'; cbn in H'. congruence. Qed.

Lemma acceptable_fun hm key more p m i src now q s rg q' s' rg' :
  acceptable hm key more p m i src now q s rg -> acceptable hm key more p m i src now q' s' rg' ->
  q = q' /\ s = s' /\ rg = rg'.
Proof.
  intros (r & r' & _ & Hr & He & _ & _ & Hs & Hn & ->) (r1 & r1' & _ & Hr1 & He1 & _ & _ & Hs1 & Hn1 & ->).
  assert (r1 = r) as -> by congruence. split; [eapply eid_prefix_fun; eauto|]. split.
  - destruct Hs as [[A ->]|[A ->]], Hs1 as [[B ->]|[B ->]]; congruence.
  - destruct Hn as [[A ->]|[A E]], Hn1 as [[B ->]|[B E']]; congruence.
Qed.

Lemma record_back m m' i r' : (g_key m = 0 /\ m' = m) \/ (g_key m <> 0 /\ sanitize_mreg m = Ok m') ->
  nth_error (g_records m') i = Some r' ->
  exists r, nth_error (g_records m) i = Some r /\ normal_record m r r' /\ mr_eid r' = mr_eid r.
Proof.
  intros [[K ->]|[K S]] H; [exists r'; repeat split; auto; left; auto|].
  apply mreg_san_same in S. destruct S as (_ & _ & _ & _ & _ & _ & M).
  destruct (mapM_nth_back _ _ _ _ _ M H) as (r & Hr & Hs). exists r. split; [exact Hr|]. split; [right; auto|].
  apply mrec_san_eid, Hs.
Qed.
Lemma record_fwd m m' i r : (g_key m = 0 /\ m' = m) \/ (g_key m <> 0 /\ sanitize_mreg m = Ok m') ->
  nth_error (g_records m) i = Some r ->
  exists r', nth_error (g_records m') i = Some r' /\ normal_record m r r' /\ mr_eid r' = mr_eid r.
Proof.
  intros [[K ->]|[K S]] H; [exists r; repeat split; auto; left; auto|].
  apply mreg_san_same in S. destruct S as (_ & _ & _ & _ & _ & _ & M).
  destruct (mapM_nth _ _ _ _ _ M H) as (r' & Hr & Hs). exists r'. split; [exact Hr|]. split; [right; auto|].
  apply mrec_san_eid, Hs.
Qed.
Lemma same_fields m m' : (g_key m = 0 /\ m' = m) \/ (g_key m <> 0 /\ sanitize_mreg m = Ok m') ->
  g_key m' = g_key m /\ g_xtr m' = g_xtr m /\ g_site m' = g_site m /\ g_proxy m' = g_proxy m /\
  g_notify m' = g_notify m /\ g_nonce m' = g_nonce m.
Proof. intros [[K ->]|[K S]]; [auto 10|]. apply mreg_san_same in S. intuition. Qed.

(** the code accepts exactly what it must, and then stores it *)
Lemma handle_record_spec hm p s m i src now : wf_pfx p -> obj_mreg m ->
  exists m' out s', handle_record hm p s m i src now = (s', m', out) /\
  ((out = Done /\ exists q so rg, acceptable hm (ms_key s) (ms_more s) p m i src now q so rg /\
      s' = set_regs s (store (ms_regs s) q so rg)) \/
   (out <> Done /\ s' = s /\
      forall q so rg, ~ acceptable hm (ms_key s) (ms_more s) p m i src now q so rg)) /\
  ((forall e, out <> Raised e) -> (g_key m = 0 /\ m' = m) \/ (g_key m <> 0 /\ sanitize_mreg m = Ok m')).
Proof.
  intros Hp Ho. unfold handle_record. destruct (verify_reg hm m (ms_key s)) as (m' & E1 & Hv).
  destruct (verify hm (AReg m) (ms_key s)) as [a ok] eqn:EV. cbn [fst snd] in *. subst a.
  assert (forall q so rg, ok <> Ok true -> ~ acceptable hm (ms_key s) (ms_more s) p m i src now q so rg) as Hna.
  { intros q so rg N (r & r' & A & _). unfold authentic in A. rewrite EV in A. cbn in A. congruence. }
  destruct ok as [[]|e].
  - specialize (Hv true eq_refl). destruct (nth_error (g_records m') i) as [r'|] eqn:En.
    2: { do 3 eexists. split; [reflexivity|]. split; [right|intros _; exact Hv].
         split; [discriminate|]. split; [reflexivity|]. intros q so rg (r & r'' & _ & Hr & _).
         destruct (record_fwd _ _ _ _ Hv Hr) as (x & Hx & _). congruence. }
    destruct (record_back _ _ _ _ Hv En) as (r & Hr & Hn & He).
    assert (obj_mrec r) as Hor.
    { destruct Ho as (_ & _ & _ & F). rewrite Forall_forall in F. apply F. eapply nth_error_In; eauto. }
    destruct (same_fields _ _ Hv) as (Fk & Fx & Fs & Fp & _).
    assert ((exists q, eid_prefix r q) \/ (forall q, ~ eid_prefix r q)) as Hdec.
    { unfold eid_prefix. destruct (determine (mr_eid r)) as [[[iid afi] [|v z|v z n| | | | | |]]|] eqn:Edet;
        try (right; intros q (? & ? & C); apply eid_named_spec in C; rewrite Edet in C; discriminate). left. exists (Pfx v z n), iid, afi. apply eid_named_spec. exact Edet. }
    destruct Hdec as [(q & Hq)|Hq].
    2: { assert (match determine (mr_eid r') with Some (_, _, ANet _ _ _) => False | _ => True end) as G.
         { rewrite He. destruct (determine (mr_eid r)) as [[[iid afi] [|v z|v z n| | | | | |]]|] eqn:Ed; auto.
           apply (Hq (Pfx v z n)). exists iid, afi. apply eid_named_spec. exact Ed. }
         exists m', (Raised EAttr), s. split.
         { destruct (determine (mr_eid r')) as [[[iid afi] [|v z|v z n| | | | | |]]|]; try reflexivity. destruct G. }
         split; [right|intros _; exact Hv].
         split; [discriminate|]. split; [reflexivity|]. intros q so rg (r1 & r'' & _ & Hr1 & Hq1 & _).
         assert (r1 = r) as -> by congruence. exact (Hq q Hq1). }
    pose proof (eid_prefix_wf _ _ Hor Hq) as Wq. destruct Hq as (iid & afi & Ed). apply eid_named_spec in Ed. rewrite He, Ed.
    destruct q as [v z n]. cbn [x_fam x_net x_len] in *. set (q := Pfx v z n) in *.
    change n with (x_len q) at 1 2.
    assert (forall q' so rg, acceptable hm (ms_key s) (ms_more s) p m i src now q' so rg -> q' = q /\ inside q p /\ (q = p \/ ms_more s = true)) as Hq'.
    { intros q' so rg (r1 & r'' & _ & Hr1 & Hq1 & Hi & Hm & _). assert (r1 = r) as -> by congruence.
      assert (q' = q) as -> by (eapply eid_prefix_fun; [exact Hq1|]; exists iid, afi; apply eid_named_spec; exact Ed). auto. }
    destruct (negb (overlaps q p) || (x_len q <? x_len p)) eqn:Es.
    { do 3 eexists. split; [reflexivity|]. split; [right|intros _; exact Hv].
      split; [discriminate|]. split; [reflexivity|]. intros q' so rg A. apply Hq' in A. destruct A as (_ & Hi & _).
      apply orb_true_iff in Es. destruct Es as [Es|Es].
      - apply negb_true_iff in Es. assert (overlaps q p = true); [|congruence]. apply overlaps_spec; auto. apply inside_not_apart; auto.
      - apply Z.ltb_lt in Es. pose proof (inside_len _ _ Wq Hp Hi). lia. }
    apply orb_false_iff in Es. destruct Es as [Es1 Es2]. apply negb_false_iff in Es1. apply Z.ltb_ge in Es2.
    apply overlaps_spec in Es1; auto. assert (inside q p) as Hi by (apply longer_inside; auto).
    destruct ((x_len q >? x_len p) && negb (ms_more s)) eqn:Em.
    { do 3 eexists. split; [reflexivity|]. split; [right|intros _; exact Hv].
      split; [discriminate|]. split; [reflexivity|]. intros q' so rg A. apply Hq' in A. destruct A as (_ & _ & Hm).
      apply andb_true_iff in Em. destruct Em as [Em1 Em2]. rewrite Z.gtb_lt in Em1. destruct Hm as [Hm|Hm]; [rewrite Hm in Em1; lia|].
      rewrite Hm in Em2. discriminate. }
    do 3 eexists. split; [reflexivity|]. split; [left|intros _; exact Hv].
    split; [reflexivity|]. eexists q, _, _. split; [|reflexivity].
    exists r, r'. split; [unfold authentic; rewrite EV; reflexivity|]. split; [exact Hr|].
    split; [exists iid, afi; apply eid_named_spec; exact Ed|]. split; [exact Hi|]. split.
    { apply andb_false_iff in Em. destruct Em as [Em|Em]; [|right; apply negb_false_iff in Em; exact Em].
      left. rewrite Z.gtb_ltb, Z.ltb_ge in Em. apply inside_eq; auto. }
    split.
    { unfold sender. rewrite Fx, Fs. destruct (g_xtr m =? 0) eqn:E0; cbn [negb].
      - right. apply Z.eqb_eq in E0. auto.
      - left. apply Z.eqb_neq in E0. auto. }
    split; [exact Hn|]. unfold new_reg. rewrite Fp. reflexivity.
  - do 3 eexists. split; [reflexivity|]. split; [right|intros _; apply (Hv false eq_refl)].
    split; [discriminate|]. split; [reflexivity|]. intros. apply Hna. discriminate.
  - do 3 eexists. split; [reflexivity|]. split; [right|intros C; exfalso; exact (C e eq_refl)].
    split; [discriminate|]. split; [reflexivity|]. intros. apply Hna. discriminate.
Qed.

(** ** C51: the store refines a keyed store with expiry *)
Lemma ms_step_conf hm p s e : wf_pfx p -> (forall m i src now, e = EvReg m i src now -> obj_mreg m) ->
  ms_key (ms_step hm p s e) = ms_key s /\ ms_more (ms_step hm p s e) = ms_more s.
Proof.
  intros Hp Ho. destruct e as [m i src now|now]; cbn; [|auto].
  destruct (handle_record_spec hm p s m i src now Hp (Ho _ _ _ _ eq_refl)) as (m' & out & s' & -> & [(_ & q & so & rg & _ & ->)|(_ & -> & _)] & _); auto.
Qed.

Lemma in_force_snoc_clean hm key more p h t q s rg :
  in_force hm key more p (h ++ [EvClean t]) q s rg <-> in_force hm key more p h q s rg /\ t <= rg_deadline rg.
Proof.
  split.
  - intros (h1 & m & i & src & now & h2 & E & A & L & C).
    destruct h2 as [|e h2 _] using rev_ind.
    + apply app_inj_tail in E. destruct E as [_ E]. discriminate.
    + rewrite app_comm_cons, app_assoc in E. apply app_inj_tail in E. destruct E as [-> <-]. split.
      * exists h1, m, i, src, now, h2. split; [reflexivity|]. split; [exact A|]. split.
        -- intros. eapply L. apply in_or_app. left. eauto.
        -- intros u Hu. apply C. apply in_or_app. auto.
      * destruct A as (r & r' & _ & _ & _ & _ & _ & _ & _ & ->). cbn. apply C. apply in_or_app. right. left. reflexivity.
  - intros [(h1 & m & i & src & now & h2 & -> & A & L & C) Ht].
    exists h1, m, i, src, now, (h2 ++ [EvClean t]). split; [rewrite <- app_assoc; reflexivity|]. split; [exact A|]. split.
    + intros m' i' src' now' Hin. apply in_app_iff in Hin. destruct Hin as [Hin|[Hin|[]]]; [eauto|discriminate].
    + intros u Hu. apply in_app_iff in Hu. destruct Hu as [Hu|[Hu|[]]]; [auto|]. injection Hu as <-.
      destruct A as (r & r' & _ & _ & _ & _ & _ & _ & _ & ->). exact Ht.
Qed.

Lemma in_force_snoc_reg hm key more p h m i src now q s rg :
  in_force hm key more p (h ++ [EvReg m i src now]) q s rg <->
  acceptable hm key more p m i src now q s rg \/
  ((forall rg', ~ acceptable hm key more p m i src now q s rg') /\ in_force hm key more p h q s rg).
Proof.
  split.
  - intros (h1 & m1 & i1 & src1 & now1 & h2 & E & A & L & C).
    destruct h2 as [|e h2 _] using rev_ind.
    + apply app_inj_tail in E. destruct E as [_ E]. injection E as -> -> -> ->. auto.
    + rewrite app_comm_cons, app_assoc in E. apply app_inj_tail in E. destruct E as [-> <-]. right. split.
      * eapply L. apply in_or_app. right. left. reflexivity.
      * exists h1, m1, i1, src1, now1, h2. split; [reflexivity|]. split; [exact A|]. split.
        -- intros. eapply L. apply in_or_app. left. eauto.
        -- intros u Hu. apply C. apply in_or_app. auto.
  - intros [A|[N (h1 & m1 & i1 & src1 & now1 & h2 & -> & A & L & C)]].
    + exists h, m, i, src, now, []. split; [reflexivity|]. split; [exact A|]. split; intros; contradiction.
    + exists h1, m1, i1, src1, now1, (h2 ++ [EvReg m i src now]). split; [rewrite <- app_assoc; reflexivity|]. split; [exact A|]. split.
      * intros m' i' src' now' Hin. apply in_app_iff in Hin. destruct Hin as [Hin|[Hin|[]]]; [eauto|]. injection Hin as <- <- <- <-. exact N.
      * intros u Hu. apply in_app_iff in Hu. destruct Hu as [Hu|[Hu|[]]]; [auto|discriminate].
Qed.

Lemma run_invariant hm key more p h : wf_pfx p -> objects h ->
  let s := ms_run hm p (new_ms key more) h in
  ms_key s = key /\ ms_more s = more /\ dict_ok (ms_regs s) /\
  forall q so rg, registered s q so = Some rg <-> in_force hm key more p h q so rg.
Proof.
  intros Hp. induction h as [|e h IH] using rev_ind; intros Ho.
  - cbn. split; [reflexivity|]. split; [reflexivity|]. split; [split; [constructor|intros q i []]|].
    intros q so rg. split; [discriminate|]. intros (h1 & ? & ? & ? & ? & h2 & E & _). destruct h1; discriminate.
  - assert (objects h) as Ho' by (intros m i src now Hin; eapply Ho; apply in_or_app; left; exact Hin).
    specialize (IH Ho'). unfold ms_run in *. rewrite fold_left_app. cbn [fold_left].
    set (s := fold_left (ms_step hm p) h (new_ms key more)) in *. destruct IH as (Ek & Em & Hd & Hi).
    assert (forall m i src now, e = EvReg m i src now -> obj_mreg m) as He
      by (intros m i src now ->; eapply Ho; apply in_or_app; right; left; reflexivity).
    destruct (ms_step_conf hm p s e Hp He) as [Ck Cm]. split; [congruence|]. split; [congruence|].
    destruct e as [m i src now|t].
    + destruct (handle_record_spec hm p s m i src now Hp (He _ _ _ _ eq_refl)) as (m' & out & s' & E & H & _).
      cbn [ms_step]. rewrite E. cbn [fst]. rewrite Ek, Em in H. destruct H as [(_ & q & so & rg & A & ->)|(_ & -> & N)].
      * cbn [ms_regs set_regs]. split; [apply store_ok, Hd|]. intros q' so' rg'.
        change (registered (set_regs s (store (ms_regs s) q so rg)) q' so') with (look (store (ms_regs s) q so rg) q' so').
        rewrite look_store, in_force_snoc_reg. destruct (pfx_eqb q q' && source_eqb so so') eqn:Eq.
        -- apply andb_true_iff in Eq. destruct Eq as [Eq1 Eq2]. apply pfx_eqb_spec in Eq1. apply source_eqb_ok in Eq2. subst q' so'.
           split; [intros [= <-]; left; exact A|]. intros [A'|[N _]]; [|exfalso; exact (N rg A)].
           destruct (acceptable_fun _ _ _ _ _ _ _ _ _ _ _ _ _ _ A A') as (_ & _ & ->). reflexivity.
        -- assert (forall rg'', ~ acceptable hm key more p m i src now q' so' rg'') as N.
           { intros rg'' A'. destruct (acceptable_fun _ _ _ _ _ _ _ _ _ _ _ _ _ _ A A') as (-> & -> & _).
             rewrite (eqb_rf _ pfx_eqb_spec), (eqb_rf _ source_eqb_ok) in Eq. discriminate. }
           change (look (ms_regs s) q' so') with (registered s q' so'). rewrite Hi. split; [auto|].
           intros [A'|[_ F]]; [exfalso; exact (N rg' A')|exact F].
      * split; [exact Hd|]. intros q' so' rg'. rewrite in_force_snoc_reg, Hi. split; [intros F; right; split; [intros rg''; apply N|exact F]|].
        intros [A'|[_ F]]; [exfalso; exact (N _ _ _ A')|exact F].
    + cbn [ms_step ms_regs set_regs]. split; [apply cleanup_ok, Hd|]. intros q so rg.
      change (registered (set_regs s (cleanup t (ms_regs s))) q so) with (look (cleanup t (ms_regs s)) q so).
      rewrite look_cleanup by exact Hd. rewrite in_force_snoc_clean, <- Hi.
      change (registered s q so) with (look (ms_regs s) q so). destruct (look (ms_regs s) q so) as [r|].
      * rewrite Z.gtb_ltb. destruct (Z.ltb_spec (rg_deadline r) t); split.
        -- discriminate.
        -- intros [[= <-] H1]. lia.
        -- intros [= <-]. split; [reflexivity|lia].
        -- intros [[= <-] _]. reflexivity.
      * split; [discriminate|]. intros [C _]. discriminate.
Qed.

Theorem C51_store_refines hm key more p h q so rg : wf_pfx p -> objects h ->
  registered (ms_run hm p (new_ms key more) h) q so = Some rg <-> in_force hm key more p h q so rg.
Proof. intros Hp Ho. apply run_invariant; auto. Qed.

(** no empty entries remain, nothing is registered twice *)
Theorem C51_no_empty_entries hm key more p h : wf_pfx p -> objects h ->
  let d := ms_regs (ms_run hm p (new_ms key more) h) in
  NoDup (map fst d) /\ forall q i, In (q, i) d -> i <> [] /\ NoDup (map fst i).
Proof.
  intros Hp Ho d. destruct (run_invariant hm key more p h Hp Ho) as (_ & _ & [H1 H2] & _). split; [exact H1|].
  intros q i Hi. destruct (H2 q i Hi). auto.
Qed.

(** ** C52: only prefixes in scope *)
Theorem C52_in_scope hm key more p h q so rg : wf_pfx p -> objects h ->
  registered (ms_run hm p (new_ms key more) h) q so = Some rg ->
  inside q p /\ (q = p \/ more = true).
Proof.
  intros Hp Ho H. apply C51_store_refines in H; auto. destruct H as (h1 & m & i & src & now & h2 & _ & A & _).
  destruct A as (r & r' & _ & _ & _ & Hi & Hm & _). auto.
Qed.

(** ... and every acceptable record in the history is registered under its prefix right away *)
Theorem C52_acceptable_is_registered hm key more p h m i src now q so rg : wf_pfx p -> objects h -> obj_mreg m ->
  acceptable hm key more p m i src now q so rg ->
  registered (ms_run hm p (new_ms key more) (h ++ [EvReg m i src now])) q so = Some rg.
Proof.
  intros Hp Ho Hm A. apply C51_store_refines; auto.
  - intros m1 i1 src1 now1 Hin. apply in_app_iff in Hin. destruct Hin as [Hin|[Hin|[]]]; [eauto|]. injection Hin as <- <- <- <-. exact Hm.
  - apply in_force_snoc_reg. left. exact A.
Qed.

(** ** C53: key holders only.  With key id 1 or 2 the claim holds: the authentication data of the message
    on the wire is the MAC under the node's key of the message with that field zeroed. *)
Theorem C53_key_holders_partial hm key more p h q so rg : digests hm -> wf_pfx p -> objects h ->
  (forall m i src now, In (EvReg m i src now) h -> g_key m <> 0) ->
  registered (ms_run hm p (new_ms key more) h) q so = Some rg ->
  exists m i src now n out, In (EvReg m i src now) h /\ digest_size (g_key m) n /\
    a_to_bytes (AReg m) = Ok out /\ auth_field n out = hm (g_key m) key (zeroed n out).
Proof.
  intros HD Hp Ho Hk H. apply C51_store_refines in H; auto. destruct H as (h1 & m & i & src & now & h2 & -> & A & _).
  destruct A as (r & r' & Ha & _). assert (In (EvReg m i src now) (h1 ++ EvReg m i src now :: h2)) as Hin by (apply in_or_app; right; left; reflexivity).
  pose proof (Hk _ _ _ _ Hin) as K. pose proof (Ho _ _ _ _ Hin) as O.
  unfold authentic, verify, calculate in Ha. cbn [a_key] in Ha. rewrite (proj2 (Z.eqb_neq _ _) K) in Ha.
  unfold digest_len in Ha.
  assert (exists n, digest_size (g_key m) n /\ exists b, a_to_bytes (set_auth (AReg m) (repeat zero_byte n)) = Ok b) as (n & Dn & b & Eb).
  { destruct (g_key m =? 1) eqn:E1; [|destruct (g_key m =? 2) eqn:E2; [|discriminate]].
    - exists 20%nat. split; [left; apply Z.eqb_eq in E1; auto|]. destruct (a_to_bytes _) as [b|e]; [eauto|discriminate].
    - exists 32%nat. split; [right; apply Z.eqb_eq in E2; auto|]. destruct (a_to_bytes _) as [b|e]; [eauto|discriminate]. }
  assert (obj_a (set_auth (AReg m) (repeat zero_byte n))) as Oz by exact O.
  destruct (a_bytes_split _ _ Oz Eb) as (pre & post & LP & HS).
  assert (length (g_authdata m) = n) as LA.
  { assert (snd (verify hm (AReg m) key) = Ok true) as V by (unfold verify, calculate, digest_len; cbn [a_key]; rewrite (proj2 (Z.eqb_neq _ _) K); exact Ha).
    unfold verify, calculate, digest_len in V. cbn [a_key] in V. rewrite (proj2 (Z.eqb_neq _ _) K) in V.
    assert ((if g_key m =? 1 then Some 20%nat else if g_key m =? 2 then Some 32%nat else None) = Some n) as En.
    { destruct Dn as [[-> ->]|[-> ->]]; reflexivity. }
    rewrite En, Eb in V. cbn [snd bind] in V.
    assert (a_auth (set_auth (after (set_auth (AReg m) (repeat zero_byte n))) (a_auth (AReg m))) = g_authdata m) as EA.
    { destruct (after _); reflexivity. }
    rewrite EA in V. injection V as V. apply bytes_eqb_spec in V. rewrite V. apply HD. exact Dn. }
  specialize (HS (g_authdata m)). rewrite set_auth_set in HS. pose proof (set_auth_id (AReg m)) as SI. cbn [a_auth] in SI. rewrite SI in HS.
  assert (blen (g_authdata m) < 65536) as LB by (unfold blen; destruct Dn as [[_ ->]|[_ ->]]; lia).
  specialize (HS ltac:(solve [exact LB | lia])).
  eexists m, i, src, now, n, _. split; [exact Hin|]. split; [exact Dn|]. split; [exact HS|].
  destruct (C42_verify_iff_mac hm (AReg m) key _ HD O HS) as (v & V & _ & I).
  assert (v = true) as ->.
  { unfold verify, calculate, digest_len in V. cbn [a_key] in V. rewrite (proj2 (Z.eqb_neq _ _) K) in V. rewrite Ha in V. congruence. }
  apply (proj1 (I n Dn)). reflexivity.
Qed.
