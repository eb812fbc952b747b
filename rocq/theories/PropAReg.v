(** * Property C100: all automatic addresses follow their interfaces *)
From Verif Require Import Base BaseLemmas Afi AfiProofs Net SpecNet PropNet AutoReg SpecAReg.

(** ** Lists *)
Lemma set_obj_length k a l : length (set_obj k a l) = length l.
Proof. revert k. induction l as [|b l IH]; intros [|k]; cbn; auto. Qed.
Lemma set_obj_same k a l : (k < length l)%nat -> nth_error (set_obj k a l) k = Some a.
Proof. revert k. induction l as [|b l IH]; intros [|k] H; cbn in *; try lia; [reflexivity|]. apply IH. lia. Qed.
Lemma set_obj_other k a l j : j <> k -> nth_error (set_obj k a l) j = nth_error l j.
Proof.
  revert k j. induction l as [|b l IH]; intros [|k] [|j] H; cbn; try reflexivity; try congruence. apply IH. congruence.
Qed.

Section P.
Variable hash : Z -> Z.
Notation run := (a_run hash).
Notation step := (a_step hash).

(** ** update_addresses *)
(** the object after a poll *)
Definition polled (env : ifaces) (a : aobj) : aobj := AObj (ao_fam a) (ao_if a) (fst (update_address (ao_fam a) (env (ao_fam a) (ao_if a)) (ao_auto a))).
Definition told (env : ifaces) (a : aobj) : list nat := snd (update_address (ao_fam a) (env (ao_fam a) (ao_if a)) (ao_auto a)).
Lemma update_one_spec env i w a : nth_error (objs w) i = Some a ->
  update_one env i w = (AReg (set_obj i (polled env a) (objs w)) (reg w) (cache w), map (fun t => (i, t)) (told env a)).
Proof. intros H. unfold update_one, polled, told. rewrite H. destruct (update_address _ _ _). reflexivity. Qed.
Lemma update_list_spec env l w : NoDup l -> (forall i, In i l -> (i < length (objs w))%nat) ->
  let w' := fst (update_list env l w) in
  reg w' = reg w /\ cache w' = cache w /\ length (objs w') = length (objs w) /\
  (forall i, ~ In i l -> nth_error (objs w') i = nth_error (objs w) i) /\
  (forall i a, In i l -> nth_error (objs w) i = Some a -> nth_error (objs w') i = Some (polled env a)) /\
  (forall i t, In (i, t) (snd (update_list env l w)) <-> exists a, In i l /\ nth_error (objs w) i = Some a /\ In t (told env a)).
Proof.
  revert w. induction l as [|i l IH]; intros w ND R; cbn [update_list].
  - cbn. repeat split; auto; try contradiction. intros (a & [] & _).
  - inversion ND as [|? ? Ni ND']. subst. assert (i < length (objs w))%nat as Hi by (apply R; left; reflexivity).
    destruct (nth_error (objs w) i) as [a|] eqn:Ea; [|apply nth_error_None in Ea; lia].
    rewrite (update_one_spec env i w a Ea). set (w1 := AReg _ _ _).
    assert (forall j, In j l -> (j < length (objs w1))%nat) as R1 by (intros j Hj; unfold w1; cbn [objs]; rewrite set_obj_length; apply R; right; exact Hj).
    specialize (IH w1 ND' R1). destruct (update_list env l w1) as [w2 c2] eqn:E2. cbn [fst snd] in *.
    destruct IH as (H1 & H2 & H3 & H4 & H5 & H6). split; [exact H1|]. split; [exact H2|]. split; [rewrite H3; unfold w1; cbn [objs]; apply set_obj_length|].
    split; [|split].
    + intros j Hj. rewrite H4 by (intros X; apply Hj; right; exact X). unfold w1. cbn [objs]. apply set_obj_other. intros ->. apply Hj. left. reflexivity.
    + intros j b [->|Hj] Hb.
      * rewrite H4 by exact Ni. unfold w1. cbn [objs]. rewrite set_obj_same by exact Hi. congruence.
      * apply H5; [exact Hj|]. unfold w1. cbn [objs]. rewrite set_obj_other; [exact Hb|]. intros ->. contradiction.
    + intros j t. rewrite in_app_iff, H6, in_map_iff. split.
      * intros [(u & E & Hu)|(b & Hj & Hb & Ht)].
        -- injection E as <- <-. exists a. split; [left; reflexivity|]. split; [exact Ea|exact Hu].
        -- exists b. split; [right; exact Hj|]. split; [|exact Ht]. unfold w1 in Hb. cbn [objs] in Hb. rewrite set_obj_other in Hb; [exact Hb|].
           intros ->. contradiction.
      * intros (b & [<-|Hj] & Hb & Ht).
        -- left. exists t. split; [reflexivity|]. congruence.
        -- right. exists b. split; [exact Hj|]. split; [|exact Ht]. unfold w1. cbn [objs]. rewrite set_obj_other; [exact Hb|]. intros ->. contradiction.
Qed.
Lemma update_list_nodup env l w : NoDup l -> (forall i, In i l -> (i < length (objs w))%nat) ->
  (forall i a, nth_error (objs w) i = Some a -> NoDup (au_targets (ao_auto a))) -> NoDup (snd (update_list env l w)).
Proof.
  revert w. induction l as [|i l IH]; intros w ND R T; cbn [update_list]; [constructor|].
  inversion ND as [|? ? Ni ND']. subst. assert (i < length (objs w))%nat as Hi by (apply R; left; reflexivity).
  destruct (nth_error (objs w) i) as [a|] eqn:Ea; [|apply nth_error_None in Ea; lia].
  rewrite (update_one_spec env i w a Ea). set (w1 := AReg _ _ _).
  assert (forall j, In j l -> (j < length (objs w1))%nat) as R1 by (intros j Hj; unfold w1; cbn [objs]; rewrite set_obj_length; apply R; right; exact Hj).
  assert (NoDup (snd (update_list env l w1))) as N.
  { apply IH; [exact ND'|exact R1|]. intros j b Hb. unfold w1 in Hb. cbn [objs] in Hb. destruct (Nat.eq_dec j i) as [->|Hj].
    - rewrite set_obj_same in Hb by exact Hi. injection Hb as <-. unfold polled. cbn [ao_auto]. specialize (T i a Ea).
      unfold update_address. destruct (_ =? _); exact T.
    - rewrite set_obj_other in Hb by exact Hj. exact (T j b Hb). }
  pose proof (update_list_spec env l w1 ND' R1) as (_ & _ & _ & _ & _ & H6). destruct (update_list env l w1) as [w2 c2]. cbn [fst snd] in *.
  specialize (T i a Ea).
  assert (NoDup (told env a)) as Nt by (unfold told, update_address; destruct (_ =? _); [constructor|exact T]).
  assert (NoDup (map (fun t => (i, t)) (told env a))) as Nm.
  { revert Nt. generalize (told env a). intros m. induction m as [|t m IHm]; intros Nm; cbn; [constructor|]. inversion Nm. subst. constructor; [|auto].
    rewrite in_map_iff. intros (u & Eu & Hu). injection Eu as ->. contradiction. }
  revert Nm. generalize (told env a). intros m Nm. induction m as [|t m IHm]; cbn; [exact N|]. inversion Nm. subst. constructor; [|auto].
  rewrite in_app_iff. intros [X|X]; [contradiction|]. apply H6 in X. destruct X as (b & Hj & _). contradiction.
Qed.
Lemma polled_address env a : interface_address (ao_fam a) (env (ao_fam a) (ao_if a)) (ao_ip (polled env a)).
Proof.
  unfold polled, ao_ip. cbn [ao_auto ao_fam ao_if]. unfold update_address. destruct (Z.eqb_spec (au_ip (ao_auto a)) (new_ip (ao_fam a) (env (ao_fam a) (ao_if a)))) as [E|E]; cbn [fst au_ip].
  - rewrite E. apply new_ip_spec.
  - apply new_ip_spec.
Qed.
Lemma told_spec env a t : In t (told env a) <-> In t (au_targets (ao_auto a)) /\ ao_ip a <> ao_ip (polled env a).
Proof.
  unfold told, polled, ao_ip. cbn [ao_auto]. unfold update_address. destruct (Z.eqb_spec (au_ip (ao_auto a)) (new_ip (ao_fam a) (env (ao_fam a) (ao_if a)))) as [E|E]; cbn [fst snd au_ip].
  - split; [intros []|tauto].
  - tauto.
Qed.

(** ** Every history *)
Record good (w : areg) : Prop := {
  g_nodup : NoDup (reg w);
  g_range : forall i, In i (reg w) -> (i < length (objs w))%nat;
  g_targets : forall i a, nth_error (objs w) i = Some a -> NoDup (au_targets (ao_auto a));
  g_cache : forall v n i, In (v, n, i) (cache w) -> is_for w i v n }.
Lemma nth_snoc {A} (l : list A) x i a : nth_error (l ++ [x]) i = Some a -> nth_error l i = Some a \/ i = length l /\ a = x.
Proof.
  intros H. destruct (Nat.lt_ge_cases i (length l)) as [L|L]; [left; rewrite nth_error_app1 in H; auto|].
  right. rewrite nth_error_app2 in H by exact L. destruct (i - length l)%nat as [|k] eqn:Ek; cbn in H; [|destruct k; discriminate].
  injection H as <-. split; [lia|reflexivity].
Qed.
Lemma is_for_snoc w x r c i v n : is_for w i v n -> is_for (AReg (objs w ++ [x]) r c) i v n.
Proof. intros (a & Ha & H). exists a. split; [|exact H]. cbn [objs]. rewrite nth_error_app1; [exact Ha|]. apply nth_error_Some. congruence. Qed.
Lemma targets_update v i a : NoDup (au_targets a) -> NoDup (au_targets (fst (update_address v i a))).
Proof. intros H. unfold update_address. destruct (_ =? _); exact H. Qed.
Lemma good_construct env v n w : good w -> good (fst (construct hash env v n w)).
Proof.
  intros G. unfold construct. cbn [fst]. split; cbn [reg objs cache].
  - destruct (registered _ _ _); [apply G|].
    rewrite <- (rev_involutive (reg w ++ _)). apply NoDup_rev. rewrite rev_app_distr. cbn. constructor; [|apply NoDup_rev, G].
    rewrite <- in_rev. intros X. apply (g_range w G) in X. lia.
  - intros i Hi. rewrite app_length. cbn. destruct (registered _ _ _); [apply (g_range w G) in Hi; lia|].
    apply in_app_iff in Hi. destruct Hi as [Hi|[<-|[]]]; [apply (g_range w G) in Hi; lia|lia].
  - intros i a Ha. apply nth_snoc in Ha. destruct Ha as [Ha|[_ ->]]; [exact (g_targets w G i a Ha)|]. cbn [ao_auto]. apply targets_update. constructor.
  - intros v' n' i Hi. apply is_for_snoc, (g_cache w G), Hi.
Qed.
Lemma good_step w e : good w -> good (step w e).
Proof.
  intros G. destruct e as [v n env|v n env|i t|env|i]; cbn [a_step].
  - apply good_construct, G.
  - unfold get_address. destruct (cached v n w); [exact G|]. pose proof (good_construct env v n w G) as G'. unfold construct in *. cbn [fst] in *.
    destruct G' as [G1 G2 G3 G4]. split; cbn [reg objs cache] in *; auto. intros v' n' i Hi. apply in_app_iff in Hi. destruct Hi as [Hi|[E|[]]].
    + apply (G4 v' n' i Hi).
    + injection E as <- <- <-. eexists. cbn [objs]. rewrite nth_error_app2, Nat.sub_diag by lia. split; [reflexivity|]. split; reflexivity.
  - unfold listen. destruct (nth_error (objs w) i) as [a|] eqn:Ea; [|exact G].
    assert (i < length (objs w))%nat as Hi by (apply nth_error_Some; congruence). split; cbn [reg objs cache].
    + apply G.
    + intros j Hj. rewrite set_obj_length. apply (g_range w G), Hj.
    + intros j b Hb. destruct (Nat.eq_dec j i) as [->|Hj].
      * rewrite set_obj_same in Hb by exact Hi. injection Hb as <-. cbn [ao_auto]. pose proof (g_targets w G i a Ea) as T. unfold add_target. cbn [au_targets].
        destruct (existsb _ _) eqn:E; [exact T|]. constructor; [|exact T]. intros X. assert (existsb (Nat.eqb t) (au_targets (ao_auto a)) = true) as C; [|congruence].
        apply existsb_exists. exists t. split; [exact X|apply Nat.eqb_refl].
      * rewrite set_obj_other in Hb by exact Hj. exact (g_targets w G j b Hb).
    + intros v n j Hj. destruct (g_cache w G v n j Hj) as (b & Hb & E1 & E2). destruct (Nat.eq_dec j i) as [->|Hne].
      * exists (AObj (ao_fam a) (ao_if a) (add_target t (ao_auto a))). cbn [objs]. rewrite set_obj_same by exact Hi. split; [reflexivity|].
        cbn. split; congruence.
      * exists b. cbn [objs]. rewrite set_obj_other by exact Hne. auto.
  - unfold update_addresses. pose proof (update_list_spec env (reg w) w (g_nodup w G) (g_range w G)) as (H1 & H2 & H3 & H4 & H5 & _).
    set (w' := fst (update_list env (reg w) w)) in *.
    assert (forall j b, nth_error (objs w') j = Some b -> exists a, nth_error (objs w) j = Some a /\ (b = a \/ b = polled env a)) as B.
    { intros j b Hb. destruct (in_dec Nat.eq_dec j (reg w)) as [I|I].
      - pose proof (g_range w G j I) as L. destruct (nth_error (objs w) j) as [a|] eqn:Ea; [|apply nth_error_None in Ea; lia]. exists a. split; [reflexivity|].
        right. rewrite (H5 j a I Ea) in Hb. congruence.
      - rewrite (H4 j I) in Hb. exists b. auto. }
    split.
    + rewrite H1. apply G.
    + intros j Hj. rewrite H1 in Hj. rewrite H3. apply (g_range w G), Hj.
    + intros j b Hb. destruct (B j b Hb) as (a & Ha & [->| ->]); [exact (g_targets w G j a Ha)|]. apply targets_update, (g_targets w G j a Ha).
    + intros v n j Hj. rewrite H2 in Hj. destruct (g_cache w G v n j Hj) as (a & Ha & E1 & E2).
      destruct (in_dec Nat.eq_dec j (reg w)) as [I|I].
      * exists (polled env a). split; [apply H5; auto|]. split; [exact E1|exact E2].
      * exists a. rewrite (H4 j I). auto.
  - unfold collect. destruct (existsb _ _); [exact G|]. split; cbn [reg objs cache].
    + apply NoDup_filter, G.
    + intros j Hj. apply filter_In in Hj. apply (g_range w G), Hj.
    + apply G.
    + intros v n j Hj. apply (g_cache w G) in Hj. exact Hj.
Qed.
Lemma good_run h : good (run h).
Proof.
  unfold a_run. induction h as [|e h IH] using rev_ind.
  - split; cbn; [constructor|contradiction| |contradiction]. intros [|i] a; discriminate.
  - rewrite fold_left_app. cbn [fold_left]. apply good_step, IH.
Qed.
Lemma run_snoc h e : run (h ++ [e]) = step (run h) e.
Proof. unfold a_run. rewrite fold_left_app. reflexivity. Qed.
(** a registered object has the address of its interface after a poll, and its listeners are told of a change *)
Lemma followed h env i a : In i (reg (run h)) -> nth_error (objs (run h)) i = Some a ->
  let w := run h in let w' := fst (update_addresses env w) in let calls := snd (update_addresses env w) in
  exists z, address_of w' i z /\ interface_address (ao_fam a) (env (ao_fam a) (ao_if a)) z /\
            (forall t, In (i, t) calls <-> listens w i t /\ ~ address_of w i z).
Proof.
  intros I Ha. pose proof (good_run h) as G. unfold update_addresses.
  pose proof (update_list_spec env (reg (run h)) (run h) (g_nodup _ G) (g_range _ G)) as (_ & _ & _ & _ & H5 & H6). cbn zeta.
  exists (ao_ip (polled env a)). split; [exists (polled env a); split; [apply H5; auto|reflexivity]|]. split; [apply polled_address|].
  intros t. rewrite H6. split.
  - intros (b & _ & Hb & Ht). rewrite Ha in Hb. injection Hb as <-. apply told_spec in Ht. destruct Ht as [Ht Hc]. split; [exists a; auto|].
    intros (c & Hc1 & Hc2). rewrite Ha in Hc1. injection Hc1 as <-. contradiction.
  - intros [(b & Hb & Ht) Hc]. rewrite Ha in Hb. injection Hb as <-. exists a. split; [exact I|]. split; [exact Ha|]. apply told_spec. split; [exact Ht|].
    intros X. apply Hc. exists a. auto.
Qed.

(** ** The cache *)
Lemma cached_in v n w i : cached v n w = Some i -> In (v, n, i) (cache w).
Proof.
  unfold cached. destruct (find _ _) as [[[v' n'] j]|] eqn:F; cbn; [|discriminate]. intros [= ->]. apply find_some in F. destruct F as [F1 F2]. cbn in F2.
  apply andb_true_iff in F2. destruct F2 as [F2 F3]. apply fam_eqb_spec in F2. apply Z.eqb_eq in F3. subst. exact F1.
Qed.
Lemma cached_none v n w : cached v n w = None -> forall i, ~ In (v, n, i) (cache w).
Proof.
  unfold cached. destruct (find _ _) as [[[v' n'] j]|] eqn:F; cbn; [discriminate|]. intros _ i H. apply (find_none _ _ F) in H. cbn in H.
  rewrite fam_eqb_refl, Z.eqb_refl in H. discriminate H.
Qed.
Lemma find_app {A} f (l m : list A) : find f (l ++ m) = match find f l with Some x => Some x | None => find f m end.
Proof. induction l as [|x l IH]; cbn; [reflexivity|]. destruct (f x); auto. Qed.
Lemma cached_keeps w e v n i : cached v n w = Some i -> cached v n (step w e) = Some i.
Proof.
  intros H. destruct e as [v' n' env|v' n' env|j t|env|j]; cbn [a_step].
  - exact H.
  - unfold get_address. destruct (cached v' n' w); [exact H|]. unfold construct. cbn [fst]. unfold cached in *. cbn [cache]. rewrite find_app.
    destruct (find _ (cache w)); [exact H|discriminate].
  - unfold listen. destruct (nth_error _ _); exact H.
  - unfold update_addresses. assert (forall l u, cache (fst (update_list env l u)) = cache u) as C; [|unfold cached in *; rewrite C; exact H].
    induction l as [|k l IH]; intros u; cbn [update_list]; [reflexivity|]. unfold update_one. destruct (nth_error (objs u) k) as [a|].
    + destruct (update_address _ _ _). match goal with |- context [update_list env l ?x] => specialize (IH x); destruct (update_list env l x) end. exact IH.
    + specialize (IH u). destruct (update_list env l u). exact IH.
  - unfold collect. destruct (existsb _ _); exact H.
Qed.
Lemma get_cached env v n w : cached v n (fst (get_address hash env v n w)) = Some (snd (get_address hash env v n w)).
Proof.
  unfold get_address. destruct (cached v n w) as [i|] eqn:C; [exact C|]. unfold construct. cbn [fst snd]. unfold cached in *. cbn [cache]. rewrite find_app.
  destruct (find _ (cache w)); [discriminate|]. cbn. rewrite fam_eqb_refl, Z.eqb_refl. reflexivity.
Qed.
Lemma cached_run h2 v n i : forall w, cached v n w = Some i -> cached v n (fold_left step h2 w) = Some i.
Proof. induction h2 as [|e h IH]; intros w H; cbn [fold_left]; [exact H|]. apply IH, cached_keeps, H. Qed.

(** Two calls for the same interface and family give the same object, whatever happens in between *)
Theorem C100_same_object : forall h1 v n env h2 env',
  snd (get_address hash env' v n (run (h1 ++ AGet v n env :: h2))) = snd (get_address hash env v n (run h1)).
Proof.
  intros h1 v n env h2 env'. unfold a_run. rewrite fold_left_app. cbn [fold_left].
  pose proof (cached_run h2 v n _ _ (get_cached env v n (run h1))) as C. unfold get_address at 1. change (a_step hash (fold_left (a_step hash) h1 areg0) (AGet v n env)) with (fst (get_address hash env v n (run h1))).
  rewrite C. reflexivity.
Qed.

(** ** Programs that use the functions only *)
Record gets (h : list aev) (w : areg) : Prop := {
  k_all : forall i, (i < length (objs w))%nat -> In i (reg w) /\ exists v n, In (v, n, i) (cache w);
  k_hist : forall v n i, In (v, n, i) (cache w) -> exists env, In (AGet v n env) h;
  k_found : forall v n env, In (AGet v n env) h -> exists i, cached v n w = Some i }.
Lemma gets_run h : only_gets h -> no_collision hash h -> gets h (run h).
Proof.
  induction h as [|e h IH] using rev_ind; intros O N.
  - split; cbn; [lia|contradiction|contradiction].
  - assert (gets h (run h)) as K.
    { apply IH.
      - intros v n env X. apply (O v n env), in_app_iff. auto.
      - intros v1 n1 e1 v2 n2 e2 X1 X2. apply (N v1 n1 e1 v2 n2 e2); apply in_app_iff; auto. }
    pose proof (good_run h) as G. rewrite run_snoc. clear IH. set (w := run h) in *.
    assert (forall v n env0, In (AGet v n env0) h -> exists i, cached v n (step w e) = Some i) as F0.
    { intros v n env0 Hx. destruct (k_found h w K v n env0 Hx) as [i Hi]. exists i. apply cached_keeps, Hi. }
    destruct e as [v n env|v n env|j t|env|j].
    + exfalso. apply (O v n env), in_app_iff. right. left. reflexivity.
    + assert (forall v' n' env0, In (AGet v' n' env0) (h ++ [AGet v n env]) -> exists i, cached v' n' (step w (AGet v n env)) = Some i) as F1.
      { intros v' n' env0 Hx. apply in_app_iff in Hx. destruct Hx as [Hx|[E|[]]]; [exact (F0 _ _ _ Hx)|]. injection E as <- <- <-.
        exists (snd (get_address hash env v n w)). apply get_cached. }
      clear F0. cbn [a_step] in *. unfold get_address in *. destruct (cached v n w) as [i|] eqn:C.
      * cbn [fst] in *. split; [apply K| |exact F1]. intros v' n' i' H. destruct (k_hist h w K v' n' i' H) as [e1 H1]. exists e1. apply in_app_iff. auto.
      * assert (registered hash w (AObj v n (Auto 0 [])) = false) as R.
        { destruct (registered hash w _) eqn:R; [|reflexivity]. exfalso. unfold registered in R. apply existsb_exists in R. destruct R as (j & Hj & Hk).
          destruct (nth_error (objs w) j) as [b|] eqn:Eb; [|discriminate]. unfold same_key, a_eqb, a_hash in Hk. cbn [ao_if ao_fam] in Hk.
          apply andb_true_iff in Hk. destruct Hk as [Hh Hk]. apply andb_true_iff in Hk. destruct Hk as [Hf _]. apply Z.eqb_eq in Hh. apply fam_eqb_spec in Hf.
          destruct (k_all h w K j) as (_ & v' & n' & Hc); [apply (g_range w G), Hj|]. destruct (g_cache w G v' n' j Hc) as (b' & Hb' & E1 & E2).
          rewrite Eb in Hb'. injection Hb' as <-. destruct (k_hist h w K v' n' j Hc) as [e1 H1].
          assert (n' = n) as En.
          { apply (N v' n' e1 v n env); [apply in_app_iff; auto|apply in_app_iff; right; left; reflexivity|congruence]. }
          apply (cached_none v n w C j). congruence. }
        unfold construct in *. rewrite R in *. cbn [fst] in *. split; cbn [reg objs cache] in *.
        -- intros i Hi. rewrite app_length in Hi. cbn in Hi. destruct (Nat.eq_dec i (length (objs w))) as [->|Hne].
           ++ split; [apply in_app_iff; right; left; reflexivity|]. exists v, n. apply in_app_iff. right. left. reflexivity.
           ++ destruct (k_all h w K i) as (A & v' & n' & B); [lia|]. split; [apply in_app_iff; auto|]. exists v', n'. apply in_app_iff. auto.
        -- intros v' n' i H. apply in_app_iff in H. destruct H as [H|[E|[]]].
           ++ destruct (k_hist h w K v' n' i H) as [e1 H1]. exists e1. apply in_app_iff. auto.
           ++ injection E as <- <- <-. exists env. apply in_app_iff. right. left. reflexivity.
        -- exact F1.
    + assert (forall v n env0, In (AGet v n env0) (h ++ [AListen j t]) -> In (AGet v n env0) h) as D by (intros v n env0 H; apply in_app_iff in H; destruct H as [H|[H|[]]]; [exact H|discriminate]).
      cbn [a_step] in *. unfold listen in *. destruct (nth_error (objs w) j) as [a|]; split; cbn [reg objs cache] in *; rewrite ?set_obj_length; try apply K;
        try (intros v n i H; destruct (k_hist h w K v n i H) as [e1 H1]; exists e1; apply in_app_iff; auto); intros v n env0 H; apply D in H; exact (F0 v n env0 H).
    + assert (forall v n env0, In (AGet v n env0) (h ++ [AUpdate env]) -> In (AGet v n env0) h) as D by (intros v n env0 H; apply in_app_iff in H; destruct H as [H|[H|[]]]; [exact H|discriminate]).
      cbn [a_step] in *. unfold update_addresses in *. pose proof (update_list_spec env (reg w) w (g_nodup w G) (g_range w G)) as (H1 & H2 & H3 & _).
      split.
      * rewrite H1, H2, H3. apply K.
      * rewrite H2. intros v n i H. destruct (k_hist h w K v n i H) as [e1 He]. exists e1. apply in_app_iff. auto.
      * intros v n env0 H. apply D in H. exact (F0 v n env0 H).
    + assert (forall v n env0, In (AGet v n env0) (h ++ [ACollect j]) -> In (AGet v n env0) h) as D by (intros v n env0 H; apply in_app_iff in H; destruct H as [H|[H|[]]]; [exact H|discriminate]).
      cbn [a_step] in *. unfold collect in *. destruct (existsb _ _) eqn:X.
      * split; [apply K| |]. 
        -- intros v n i H. destruct (k_hist h w K v n i H) as [e1 He]. exists e1. apply in_app_iff. auto.
        -- intros v n env0 H. apply D in H. exact (F0 v n env0 H).
      * split; cbn [reg objs cache].
        -- intros i Hi. destruct (k_all h w K i Hi) as (A & v & n & B). split; [|eauto]. apply filter_In. split; [exact A|].
           destruct (Nat.eqb_spec i j) as [->|]; [|reflexivity]. exfalso. rewrite <- not_true_iff_false in X. apply X, existsb_exists. exists (v, n, j). split; [exact B|apply Nat.eqb_refl].
        -- intros v n i H. destruct (k_hist h w K v n i H) as [e1 He]. exists e1. apply in_app_iff. auto.
        -- intros v n env0 H. apply D in H. exact (F0 v n env0 H).
Qed.

(** C100: a program that gets its addresses with get_ipv4_address and get_ipv6_address: after update_addresses() the address got for any
    interface is the interface's current address, and the listeners of exactly the addresses that changed have been told, once each *)
Theorem C100_followed : forall h env, only_gets h -> no_collision hash h ->
  let w := run h in let w' := fst (update_addresses env w) in let calls := snd (update_addresses env w) in
  NoDup calls /\
  forall v n env0, In (AGet v n env0) h -> exists i z,
    (forall env', snd (get_address hash env' v n w) = i) /\ is_for w i v n /\
    address_of w' i z /\ interface_address v (env v n) z /\
    (forall t, In (i, t) calls <-> listens w i t /\ ~ address_of w i z).
Proof.
  intros h env O N. cbn zeta. pose proof (good_run h) as G. pose proof (gets_run h O N) as K. split.
  { apply update_list_nodup; apply G. }
  intros v n env0 H. destruct (k_found _ _ K v n env0 H) as [i Hi]. pose proof (cached_in _ _ _ _ Hi) as Hc.
  destruct (g_cache _ G v n i Hc) as (a & Ha & E1 & E2). assert (i < length (objs (run h)))%nat as L by (apply nth_error_Some; congruence).
  destruct (k_all _ _ K i L) as [R _]. destruct (followed h env i a R Ha) as (z & Z1 & Z2 & Z3). exists i, z.
  split; [intros env'; unfold get_address; rewrite Hi; reflexivity|]. split; [exists a; auto|]. split; [exact Z1|]. split; [rewrite <- E1, <- E2; exact Z2|exact Z3].
Qed.

(** ** Objects made with the constructors *)
Lemma step_keeps w e i v n : good w -> is_for w i v n -> is_for (step w e) i v n.
Proof.
  intros G (a & Ha & E1 & E2). assert (i < length (objs w))%nat as L by (apply nth_error_Some; congruence). destruct e as [v' n' env|v' n' env|j t|env|j]; cbn [a_step].
  - apply is_for_snoc. exists a. auto.
  - unfold get_address. destruct (cached _ _ _); [exists a; auto|]. unfold construct. cbn [fst]. apply is_for_snoc. exists a. auto.
  - unfold listen. destruct (nth_error (objs w) j) as [b|] eqn:Eb; [|exists a; auto]. destruct (Nat.eq_dec i j) as [->|Hne].
    + rewrite Ha in Eb. injection Eb as <-. eexists. cbn [objs]. rewrite set_obj_same by exact L. split; [reflexivity|]. auto.
    + exists a. cbn [objs]. rewrite set_obj_other by exact Hne. auto.
  - unfold update_addresses. pose proof (update_list_spec env (reg w) w (g_nodup w G) (g_range w G)) as (_ & _ & _ & H4 & H5 & _).
    destruct (in_dec Nat.eq_dec i (reg w)) as [I|I]; [exists (polled env a)|exists a].
    + split; [apply H5; auto|]. auto.
    + rewrite (H4 i I). auto.
  - unfold collect. destruct (existsb _ _); exists a; auto.
Qed.
Lemma reg_keeps w e i : good w -> In i (reg w) -> e <> ACollect i -> In i (reg (step w e)).
Proof.
  intros G H N. destruct e as [v' n' env|v' n' env|j t|env|j]; cbn [a_step].
  - unfold construct. cbn [fst reg]. destruct (registered _ _ _); [exact H|apply in_app_iff; auto].
  - unfold get_address. destruct (cached _ _ _); [exact H|]. unfold construct. cbn [fst reg]. destruct (registered _ _ _); [exact H|apply in_app_iff; auto].
  - unfold listen. destruct (nth_error _ _); exact H.
  - unfold update_addresses. pose proof (update_list_spec env (reg w) w (g_nodup w G) (g_range w G)) as (H1 & _). rewrite H1. exact H.
  - unfold collect. destruct (existsb _ _); [exact H|]. cbn [reg]. apply filter_In. split; [exact H|]. destruct (Nat.eqb_spec i j) as [->|]; [congruence|reflexivity].
Qed.
Lemma run_app h1 h2 : run (h1 ++ h2) = fold_left step h2 (run h1).
Proof. unfold a_run. apply fold_left_app. Qed.
(** An object made with the constructor follows its interface as long as somebody holds it, if no live object of the same class and
    interface was without an address when it was made *)
Theorem C100_constructed_partial : forall h1 v n env1 h2 env,
  let i := length (objs (run h1)) in
  (forall j b, In j (reg (run h1)) -> nth_error (objs (run h1)) j = Some b -> ao_fam b = v -> hash (ao_if b) = hash n -> ao_ip b <> 0) ->
  ~ In (ACollect i) h2 ->
  let w := run (h1 ++ ANew v n env1 :: h2) in
  exists z, address_of (fst (update_addresses env w)) i z /\ interface_address v (env v n) z /\
    (forall t, In (i, t) (snd (update_addresses env w)) <-> listens w i t /\ ~ address_of w i z).
Proof.
  intros h1 v n env1 h2 env i F NC. cbn zeta.
  assert (In i (reg (run (h1 ++ ANew v n env1 :: h2))) /\ is_for (run (h1 ++ ANew v n env1 :: h2)) i v n) as [I (a & Ha & E1 & E2)].
  { induction h2 as [|e h2 IH] using rev_ind.
    - rewrite run_snoc. cbn [a_step]. unfold construct. cbn [fst]. assert (registered hash (run h1) (AObj v n (Auto 0 [])) = false) as R.
      { destruct (registered hash (run h1) _) eqn:R; [|reflexivity]. exfalso. unfold registered in R. apply existsb_exists in R. destruct R as (j & Hj & Hk).
        destruct (nth_error (objs (run h1)) j) as [b|] eqn:Eb; [|discriminate]. unfold same_key, a_eqb, a_hash in Hk. cbn [ao_if ao_fam] in Hk.
        apply andb_true_iff in Hk. destruct Hk as [Hh Hk]. apply andb_true_iff in Hk. destruct Hk as [Hf Hz]. apply Z.eqb_eq in Hh, Hz. apply fam_eqb_spec in Hf.
        apply (F j b Hj Eb Hf Hh). exact Hz. }
      rewrite R. cbn [reg objs]. split; [apply in_app_iff; right; left; reflexivity|]. eexists. cbn [objs]. rewrite nth_error_app2, Nat.sub_diag by (unfold i; lia). split; [reflexivity|]. auto.
    - rewrite app_comm_cons, app_assoc, run_snoc. destruct IH as [I1 I2]; [intros X; apply NC, in_app_iff; auto|]. split.
      + apply reg_keeps; [apply good_run|exact I1|]. intros ->. apply NC, in_app_iff. right. left. reflexivity.
      + apply step_keeps; [apply good_run|exact I2]. }
  destruct (followed (h1 ++ ANew v n env1 :: h2) env i a I Ha) as (z & Z1 & Z2 & Z3). exists z. split; [exact Z1|]. split; [rewrite <- E1, <- E2; exact Z2|exact Z3].
Qed.
End P.

(** ** What fails *)
(** a history where the addresses are made with the constructors: two objects for the same interface while it has no address *)
Definition no_addr : ifaces := fun _ _ => None.
Definition has_addr : ifaces := fun v n => match v with V4 => Some [Some (ip4 192 0 2 1)] | V6 => None end.
(** The second object never gets an address: after any number of updates it is 0, although the interface has 192.0.2.1, and the first
    object has it *)
Theorem C100_constructed_refuted : forall hash n k,
  let w := a_run hash ([ANew V4 n no_addr; ANew V4 n no_addr; AListen 0 7; AListen 1 8] ++ repeat (AUpdate has_addr) (S k)) in
  address_of w 0 (ip4 192 0 2 1) /\ address_of w 1 0 /\ interface_address V4 (has_addr V4 n) (ip4 192 0 2 1) /\
  ~ exists h, In (1%nat, 8%nat) (snd (update_addresses h w)).
Proof.
  intros hash n k. cbn zeta. unfold a_run. rewrite fold_left_app.
  assert (fold_left (a_step hash) [ANew V4 n no_addr; ANew V4 n no_addr; AListen 0 7; AListen 1 8] areg0 =
          AReg [AObj V4 n (Auto 0 [7%nat]); AObj V4 n (Auto 0 [8%nat])] [0%nat] []) as ->.
  { cbn. unfold registered, same_key, a_hash, a_eqb. cbn. rewrite Z.eqb_refl. reflexivity. }
  assert (fold_left (a_step hash) (repeat (AUpdate has_addr) (S k)) (AReg [AObj V4 n (Auto 0 [7%nat]); AObj V4 n (Auto 0 [8%nat])] [0%nat] []) =
          AReg [AObj V4 n (Auto (ip4 192 0 2 1) [7%nat]); AObj V4 n (Auto 0 [8%nat])] [0%nat] []) as ->.
  { cbn [repeat fold_left]. replace (a_step hash _ (AUpdate has_addr)) with
      (AReg [AObj V4 n (Auto (ip4 192 0 2 1) [7%nat]); AObj V4 n (Auto 0 [8%nat])] [0%nat] []) by (vm_compute; reflexivity).
    induction k as [|k IH]; [reflexivity|]. cbn [repeat fold_left]. replace (a_step hash _ (AUpdate has_addr)) with
      (AReg [AObj V4 n (Auto (ip4 192 0 2 1) [7%nat]); AObj V4 n (Auto 0 [8%nat])] [0%nat] []) by (vm_compute; reflexivity). exact IH. }
  split; [eexists; split; reflexivity|]. split; [eexists; split; reflexivity|]. split.
  - apply (new_ip_spec V4 (has_addr V4 n)).
  - intros [e H]. unfold update_addresses in H. cbn [reg update_list] in H. unfold update_one in H. cbn [objs nth_error] in H.
    destruct (update_address _ _ _) as [u c]. cbn [snd] in H. rewrite app_nil_r in H. apply in_map_iff in H. destruct H as (t & E & _). discriminate E.
Qed.
(** equal addresses with different hashes: a set or dictionary of addresses finds neither the other *)
Theorem C100_hash_refuted : forall hash n m env, hash n <> hash m ->
  (forall k, env V4 k = Some [Some (ip4 192 0 2 1)]) ->
  exists a b, nth_error (objs (a_run hash [ANew V4 n env; ANew V4 m env])) 0 = Some a /\ nth_error (objs (a_run hash [ANew V4 n env; ANew V4 m env])) 1 = Some b /\
              a_eqb a b = true /\ a_hash hash a <> a_hash hash b.
Proof.
  intros hash n m env N E. eexists. eexists. split; [reflexivity|]. split; [reflexivity|]. rewrite !E. split; [vm_compute; reflexivity|exact N].
Qed.
(** ** A case: two interfaces, both families, an interface that comes up late *)
Example C100_ex :
  let h := [AGet V4 1 no_addr; AGet V6 1 no_addr; AGet V4 2 has_addr; AListen 0 5; AListen 2 6; AGet V4 1 has_addr] in
  only_gets h /\ no_collision (fun n => n) h /\
  snd (update_addresses has_addr (a_run (fun n => n) h)) = [(0%nat, 5%nat)] /\
  map ao_ip (objs (fst (update_addresses has_addr (a_run (fun n => n) h)))) = [ip4 192 0 2 1; 0; ip4 192 0 2 1].
Proof.
  cbn zeta. split.
  { intros v n env H. cbn in H. repeat (destruct H as [H|H]; [discriminate H|]). exact H. }
  split; [intros v1 n1 e1 v2 n2 e2 _ _ H; exact H|]. split; vm_compute; reflexivity.
Qed.
(** the hypotheses of [C100_constructed_partial]: a second object while the first has an address *)
Example C100_constructed_ex : forall j b, In j (reg (a_run (fun n => n) [ANew V4 1 has_addr])) ->
  nth_error (objs (a_run (fun n => n) [ANew V4 1 has_addr])) j = Some b -> ao_fam b = V4 -> ao_if b = 1 -> ao_ip b <> 0.
Proof. intros j b [<-|[]] H _ _. vm_compute in H. injection H as <-. discriminate. Qed.

Print Assumptions C100_same_object.
Print Assumptions C100_followed.
Print Assumptions C100_constructed_partial.
Print Assumptions C100_constructed_refuted.
Print Assumptions C100_hash_refuted.
