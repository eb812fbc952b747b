(** * Property C100, continued: programs that also use the constructors *)
From Verif Require Import Base BaseLemmas Afi AfiProofs Net SpecNet PropNet AutoReg SpecAReg PropAReg.

Section P.
Variable hash : Z -> Z.
Notation run := (a_run hash).
Notation step := (a_step hash).

(** ** Where objects come from *)
Lemma cache_update env w : cache (fst (update_addresses env w)) = cache w.
Proof.
  unfold update_addresses. generalize (reg w) at 1. intros l. revert w. induction l as [|k l IH]; intros u; cbn [update_list]; [reflexivity|].
  unfold update_one. destruct (nth_error (objs u) k) as [a|].
  - destruct (update_address _ _ _). match goal with |- context [update_list env l ?x] => specialize (IH x); destruct (update_list env l x) end. exact IH.
  - specialize (IH u). destruct (update_list env l u). exact IH.
Qed.
Lemma cache_hist h v n i : In (v, n, i) (cache (run h)) -> exists env, In (AGet v n env) h.
Proof.
  induction h as [|e h IH] using rev_ind; [contradiction|]. rewrite run_snoc.
  assert (In (v, n, i) (cache (run h)) -> exists env, In (AGet v n env) (h ++ [e])) as K.
  { intros X. destruct (IH X) as [env Y]. exists env. apply in_app_iff. auto. }
  destruct e as [v' n' env|v' n' env|j t|env|j]; cbn [a_step].
  - exact K.
  - unfold get_address. destruct (cached _ _ _); [exact K|]. cbn. intros X. apply in_app_iff in X. destruct X as [X|[E|[]]]; [exact (K X)|].
    injection E as <- <- <-. exists env. apply in_app_iff. right. left. reflexivity.
  - unfold listen. destruct (nth_error _ _); exact K.
  - rewrite cache_update. exact K.
  - unfold collect. destruct (existsb _ _); exact K.
Qed.
Lemma cache_keeps w e x : In x (cache w) -> In x (cache (step w e)).
Proof.
  intros H. destruct e as [v' n' env|v' n' env|j t|env|j]; cbn [a_step].
  - exact H.
  - unfold get_address. destruct (cached _ _ _); [exact H|]. cbn. apply in_app_iff. auto.
  - unfold listen. destruct (nth_error _ _); exact H.
  - rewrite cache_update. exact H.
  - unfold collect. destruct (existsb _ _); exact H.
Qed.
(** every object was made by a constructor called by the program, or is in the cache *)
Definition origin h (w : areg) j : Prop :=
  (exists v n env, In (ANew v n env) h /\ is_for w j v n) \/ (exists v n, In (v, n, j) (cache w)).
Lemma origin_mono h e w j : good w -> origin h w j -> origin (h ++ [e]) (step w e) j.
Proof.
  intros G [(v & n & env & H & F)|(v & n & H)].
  - left. exists v, n, env. split; [apply in_app_iff; auto|]. apply step_keeps; assumption.
  - right. exists v, n. apply cache_keeps, H.
Qed.
Lemma objs_origin h j : (j < length (objs (run h)))%nat -> origin h (run h) j.
Proof.
  revert j. induction h as [|e h IH] using rev_ind; intros j; [cbn; lia|]. rewrite run_snoc. pose proof (good_run hash h) as G.
  assert ((j < length (objs (run h)))%nat -> origin (h ++ [e]) (step (run h) e) j) as K by (intros L; apply origin_mono, IH; assumption).
  intros L. destruct (Nat.lt_ge_cases j (length (objs (run h)))) as [B|B]; [exact (K B)|]. clear K IH.
  destruct e as [v n env|v n env|i t|env|i]; cbn [a_step] in *.
  - unfold construct in L. cbn [fst objs] in L. rewrite app_length in L. cbn in L. assert (j = length (objs (run h))) as -> by lia.
    left. exists v, n, env. split; [apply in_app_iff; right; left; reflexivity|]. unfold construct. cbn [fst]. eexists. cbn [objs].
    rewrite nth_error_app2, Nat.sub_diag by lia. split; [reflexivity|]. auto.
  - unfold get_address in *. destruct (cached v n (run h)); [cbn [fst] in L; lia|]. unfold construct in *. cbn [fst objs] in L. rewrite app_length in L. cbn in L.
    assert (j = length (objs (run h))) as -> by lia. right. exists v, n. cbn. apply in_app_iff. right. left. reflexivity.
  - unfold listen in L. destruct (nth_error _ _); [cbn [objs] in L; rewrite set_obj_length in L|]; lia.
  - unfold update_addresses in L. pose proof (update_list_spec env (reg (run h)) (run h) (g_nodup _ G) (g_range _ G)) as (_ & _ & H3 & _). rewrite H3 in L. lia.
  - unfold collect in L. destruct (existsb _ _); cbn [objs] in L; lia.
Qed.

(** ** The first call of get_ipv4_address or get_ipv6_address for an interface *)
Lemma first_get h1 v n env1 h2 : cached v n (run h1) = None ->
  (forall j b, In j (reg (run h1)) -> nth_error (objs (run h1)) j = Some b -> ao_fam b = v -> hash (ao_if b) = hash n -> ao_ip b <> 0) ->
  let i := length (objs (run h1)) in let w := run (h1 ++ AGet v n env1 :: h2) in
  cached v n w = Some i /\ In i (reg w) /\ is_for w i v n.
Proof.
  intros C F. cbn zeta. set (i := length (objs (run h1))). induction h2 as [|e h2 IH] using rev_ind.
  - rewrite run_snoc. cbn [a_step]. pose proof (get_cached hash env1 v n (run h1)) as GC. unfold get_address in *. rewrite C in *.
    assert (registered hash (run h1) (AObj v n (Auto 0 [])) = false) as R.
    { destruct (registered hash (run h1) _) eqn:R; [|reflexivity]. exfalso. unfold registered in R. apply existsb_exists in R. destruct R as (j & Hj & Hk).
      destruct (nth_error (objs (run h1)) j) as [b|] eqn:Eb; [|discriminate]. unfold same_key, a_eqb, a_hash in Hk. cbn [ao_if ao_fam] in Hk.
      apply andb_true_iff in Hk. destruct Hk as [Hh Hk]. apply andb_true_iff in Hk. destruct Hk as [Hf Hz]. apply Z.eqb_eq in Hh, Hz. apply fam_eqb_spec in Hf.
      apply (F j b Hj Eb Hf Hh). exact Hz. }
    unfold construct in *. rewrite R in *. cbn [fst snd] in *. split; [exact GC|]. cbn [reg objs]. split; [apply in_app_iff; right; left; reflexivity|].
    eexists. cbn [objs]. rewrite nth_error_app2, Nat.sub_diag by (unfold i; lia). split; [reflexivity|]. auto.
  - rewrite app_comm_cons, app_assoc, run_snoc. destruct IH as (I1 & I2 & I3). set (w := run (h1 ++ AGet v n env1 :: h2)) in *.
    assert (good w) as G by apply good_run. split; [apply cached_keeps, I1|]. split; [|apply step_keeps; assumption].
    destruct e as [v' n' env|v' n' env|j t|env|j]; try (apply reg_keeps; [exact G|exact I2|discriminate]).
    destruct (Nat.eq_dec j i) as [->|Hne]; [|apply reg_keeps; [exact G|exact I2|congruence]].
    cbn [a_step]. unfold collect. replace (existsb _ _) with true; [exact I2|]. symmetry. apply existsb_exists. exists (v, n, i).
    split; [apply cached_in, I1|apply Nat.eqb_refl].
Qed.
Lemma first_split v n env0 h : In (AGet v n env0) h -> exists h1 env1 h2, h = h1 ++ AGet v n env1 :: h2 /\ forall env, ~ In (AGet v n env) h1.
Proof.
  induction h as [|e h IH]; [contradiction|]. intros H.
  assert ((exists env1, e = AGet v n env1) \/ (forall env1, e <> AGet v n env1)) as [[env1 ->]|Ne].
  { destruct e as [v' n' env|v' n' env|j t|env|j]; try (right; discriminate).
    destruct (fam_eqb v' v) eqn:Ev; [apply fam_eqb_spec in Ev; subst|right; intros env1 [= -> ? ?]; rewrite fam_eqb_refl in Ev; discriminate].
    destruct (Z.eq_dec n' n) as [->|En]; [left; eauto|right; congruence]. }
  - exists [], env1, h. split; [reflexivity|]. intros env [].
  - destruct H as [->|H]; [destruct (Ne env0 eq_refl)|]. destruct (IH H) as (h1 & env1 & h2 & -> & F). exists (e :: h1), env1, h2. split; [reflexivity|].
    intros env [->|X]; [exact (Ne env eq_refl)|exact (F env X)].
Qed.
Lemma no_get_uncached v n h : (forall env, ~ In (AGet v n env) h) -> cached v n (run h) = None.
Proof.
  intros F. destruct (cached v n (run h)) as [i|] eqn:C; [|reflexivity]. exfalso. apply cached_in in C. apply cache_hist in C. destruct C as [env X]. exact (F env X).
Qed.

(** A program may use the constructors, for other interfaces: an address got with get_ipv4_address or get_ipv6_address is registered from
    the first call on *)
Lemma got_registered h v n env0 : In (AGet v n env0) h -> no_collision hash h ->
  (forall n' env, In (ANew v n' env) h -> hash n' <> hash n) ->
  exists i, cached v n (run h) = Some i /\ In i (reg (run h)) /\ is_for (run h) i v n.
Proof.
  intros H N A. destruct (first_split v n env0 h H) as (h1 & env1 & h2 & E & F). exists (length (objs (run h1))). rewrite E. apply first_get.
  - apply no_get_uncached, F.
  - intros j b Hj Hb Hf Hh. exfalso. pose proof (good_run hash h1) as G. assert (j < length (objs (run h1)))%nat as L by (apply (g_range _ G), Hj).
    destruct (objs_origin h1 j L) as [(v' & n' & env & H1 & b' & Hb' & F1 & F2)|(v' & n' & H1)].
    + rewrite Hb in Hb'. injection Hb' as <-. subst v' n'. apply (A (ao_if b) env); [|exact Hh]. rewrite E. apply in_app_iff. left. rewrite <- Hf. exact H1.
    + destruct (g_cache _ G _ _ _ H1) as (b' & Hb' & F1 & F2). rewrite Hb in Hb'. injection Hb' as <-. destruct (cache_hist _ _ _ _ H1) as [env X].
      assert (n' = n) as ->.
      { apply (N v' n' env v n env1); [rewrite E; apply in_app_iff; auto|rewrite E; apply in_app_iff; right; left; reflexivity|congruence]. }
      apply (F env). congruence.
Qed.
(** C100: the address got for an interface follows it also in programs that use the constructors for other interfaces *)
Theorem C100_followed_mixed : forall h env v n env0, In (AGet v n env0) h -> no_collision hash h ->
  (forall n' env', In (ANew v n' env') h -> hash n' <> hash n) ->
  let w := run h in exists i z,
    (forall env', snd (get_address hash env' v n w) = i) /\ is_for w i v n /\
    address_of (fst (update_addresses env w)) i z /\ interface_address v (env v n) z /\
    (forall t, In (i, t) (snd (update_addresses env w)) <-> listens w i t /\ ~ address_of w i z).
Proof.
  intros h env v n env0 H N A. cbn zeta. destruct (got_registered h v n env0 H N A) as (i & C & R & a & Ha & E1 & E2).
  destruct (followed hash h env i a R Ha) as (z & Z1 & Z2 & Z3). exists i, z.
  split; [intros env'; unfold get_address; rewrite C; reflexivity|]. split; [exists a; auto|]. split; [exact Z1|]. split; [rewrite <- E1, <- E2; exact Z2|exact Z3].
Qed.
End P.
(** a case: the program makes an address for interface 1 itself and gets the one of interface 2 *)
Example C100_mixed_ex :
  let h := [ANew V4 1 no_addr; AGet V4 2 no_addr; AListen 1 5] in
  In (AGet V4 2 no_addr) h /\ no_collision (fun n => n) h /\ (forall n' env', In (ANew V4 n' env') h -> n' <> 2) /\
  snd (update_addresses has_addr (a_run (fun n => n) h)) = [(1%nat, 5%nat)].
Proof.
  cbn zeta. split; [right; left; reflexivity|]. split; [intros v1 n1 e1 v2 n2 e2 _ _ E; exact E|]. split; [|vm_compute; reflexivity].
  intros n' env' [E|[E|[E|[]]]]; try discriminate E. injection E as <- _. discriminate.
Qed.
Print Assumptions C100_followed_mixed.
