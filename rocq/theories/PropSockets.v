(** * Property C104: the sockets of the daemon follow the interfaces *)
From Verif Require Import Base BaseLemmas Afi AfiProofs Net SpecNet PropNet AutoReg SpecAReg PropAReg PropAReg2 Sockets SpecSockets.

(** ** Lists *)
Lemma at_nth_length {A} k (f : A -> A) l : length (at_nth k f l) = length l.
Proof. revert k. induction l as [|x l IH]; intros [|k]; cbn; auto. Qed.
Lemma at_nth_same {A} k (f : A -> A) l x : nth_error l k = Some x -> nth_error (at_nth k f l) k = Some (f x).
Proof. revert k. induction l as [|y l IH]; intros [|k] H; cbn in *; try discriminate; [congruence|auto]. Qed.
Lemma at_nth_other {A} k (f : A -> A) l j : j <> k -> nth_error (at_nth k f l) j = nth_error l j.
Proof. revert k j. induction l as [|y l IH]; intros [|k] [|j] H; cbn; try reflexivity; try congruence. apply IH. congruence. Qed.

Lemma nth_snoc' {A} (l : list A) x i a : nth_error (l ++ [x]) i = Some a -> nth_error l i = Some a \/ i = length l /\ a = x.
Proof. exact (nth_snoc (fun z => z) l x i a). Qed.

(** ** Sockets and their addresses *)
(** the state of a socket whose address is z *)
Definition sync (ok : Prop) (v : fam) (z : Z) (s : asock) : Prop :=
  (exists id, as_sock s = Some id /\ as_bound s = z /\ usable v z = true) \/
  (as_sock s = None /\ as_bound s = 0 /\ (ok -> usable v z = false)).
Lemma rebind_sync (ok ok' : Prop) v z0 z o s : sync ok' v z0 s -> (ok -> ok') -> (ok -> exists id, o = BindOk id) ->
  sync ok v z (fst (fst (rebind v z o s))).
Proof.
  intros S K B. unfold rebind. destruct (Z.eqb_spec z (as_bound s)) as [E|E]; cbn [fst].
  - destruct S as [(id & S1 & S2 & S3)|(S1 & S2 & S3)].
    + left. exists id. split; [exact S1|]. split; [congruence|]. congruence.
    + right. split; [exact S1|]. split; [exact S2|]. intros _. rewrite E, S2. apply zero_not_usable.
  - destruct (usable v z) eqn:U.
    + destruct o as [id| |id]; cbn [fst]; [left; exists id; auto| |]; right; (split; [reflexivity|split; [reflexivity|]]); intros k; destruct (B k) as [j X]; discriminate.
    + cbn [fst]. right. auto.
Qed.
Lemma sync0 (ok : Prop) v : sync ok v 0 asock0.
Proof. right. split; [reflexivity|]. split; [reflexivity|]. intros _. apply zero_not_usable. Qed.

Record inv (ok : Prop) (p : proc) : Prop := {
  i_good : good (p_reg p);
  i_ip : forall i a, nth_error (objs (p_reg p)) i = Some a -> ao_ip a = 0 \/ takeable (ao_fam a) (ao_ip a);
  i_targets : forall i a t, nth_error (objs (p_reg p)) i = Some a ->
    (In t (au_targets (ao_auto a)) <-> exists s, nth_error (p_socks p) t = Some s /\ us_addr s = UAuto i);
  i_sync : forall k s, nth_error (p_socks p) k = Some s -> exists v z, value (p_reg p) (us_addr s) = Some (v, z) /\ sync ok v z (us_sock s) }.

Lemma new_ip_ok v i : new_ip v i = 0 \/ takeable v (new_ip v i).
Proof. destruct (new_ip_spec v i) as [(l1 & l2 & _ & H & _)|[H _]]; [right; exact H|left; exact H]. Qed.
Lemma update_ip v i a : au_ip (fst (update_address v i a)) = new_ip v i.
Proof. unfold update_address. destruct (Z.eqb_spec (au_ip a) (new_ip v i)) as [E|E]; [exact E|reflexivity]. Qed.
Lemma update_targets v i a : au_targets (fst (update_address v i a)) = au_targets a.
Proof. unfold update_address. destruct (_ =? _); reflexivity. Qed.

Lemma fold_on_change outs ts : NoDup ts -> forall p,
  p_reg (fold_left (on_change outs) ts p) = p_reg p /\
  (forall k, nth_error (p_socks (fold_left (on_change outs) ts p)) k =
     if in_dec Nat.eq_dec k ts then option_map (us_rebind (p_reg p) (outs k)) (nth_error (p_socks p) k) else nth_error (p_socks p) k).
Proof.
  induction ts as [|t ts IH]; intros ND p; cbn [fold_left]; [auto|]. inversion ND as [|? ? Nt ND']. subst.
  destruct (IH ND' (on_change outs p t)) as [H1 H2]. split; [rewrite H1; reflexivity|]. intros k. rewrite H2. cbn [p_reg p_socks on_change].
  destruct (Nat.eq_dec k t) as [->|Hne].
  - destruct (in_dec Nat.eq_dec t ts) as [X|_]; [contradiction|]. destruct (in_dec Nat.eq_dec t (t :: ts)) as [_|X]; [|destruct X; left; reflexivity].
    destruct (nth_error (p_socks p) t) as [s|] eqn:E; cbn [option_map].
    + apply at_nth_same, E.
    + apply nth_error_None. rewrite at_nth_length. apply nth_error_None, E.
  - rewrite (at_nth_other t _ _ k Hne). destruct (in_dec Nat.eq_dec k ts) as [X|X]; destruct (in_dec Nat.eq_dec k (t :: ts)) as [Y|Y]; try reflexivity.
    + destruct Y. right. exact X.
    + destruct Y as [->|Y]; contradiction.
Qed.

Section P.
Variable hash : Z -> Z.
Notation step := (p_step hash).
Notation run := (p_run hash).

(** ** What happens to the automatic addresses *)
(** one event in terms of AutoReg.v *)
Definition aev_of (p : proc) (e : pev) : list aev :=
  match e with
  | PGet v n env => [AGet v n env]
  | PNew v n env => [ANew v n env]
  | PSocket (UAuto i) _ _ => match nth_error (objs (p_reg p)) i with Some _ => [AListen i (length (p_socks p))] | None => [] end
  | PSocket (UFixed _ _) _ _ => []
  | PHup env _ => [AUpdate env]
  end.
Lemma hup_one_reg env outs p i : p_reg (hup_one env outs p i) = fst (update_one env i (p_reg p)).
Proof.
  unfold hup_one. destruct (update_one env i (p_reg p)) as [w c]. cbn [fst]. generalize (map snd c). intros l.
  assert (forall q, p_reg (fold_left (on_change outs) l q) = p_reg q) as K; [|apply K].
  induction l as [|t l IH]; intros q; cbn [fold_left]; [reflexivity|]. rewrite IH. reflexivity.
Qed.
Lemma hup_reg env outs p : p_reg (hup env outs p) = fst (update_addresses env (p_reg p)).
Proof.
  unfold hup, update_addresses. generalize (reg (p_reg p)) at 1 2. intros l. revert p. induction l as [|i l IH]; intros p; cbn [fold_left update_list]; [reflexivity|].
  rewrite IH, hup_one_reg. destruct (update_one env i (p_reg p)) as [w1 c1]. cbn [fst]. destruct (update_list env l w1). reflexivity.
Qed.
Lemma step_reg p e : p_reg (step p e) = fold_left (a_step hash) (aev_of p e) (p_reg p).
Proof.
  destruct e as [v n env|v n env|[v z|i] port o|env outs]; cbn [p_step aev_of fold_left a_step p_reg]; try reflexivity.
  - unfold new_socket. cbn [value]. destruct (nth_error (objs (p_reg p)) i); reflexivity.
  - apply hup_reg.
Qed.

(** ** The invariant *)
Lemma value_snoc w x r c a u : value w a = Some u -> value (AReg (objs w ++ [x]) r c) a = Some u.
Proof.
  destruct a as [v z|i]; cbn; [auto|]. destruct (nth_error (objs w) i) as [b|] eqn:E; [|discriminate]. intros H.
  rewrite nth_error_app1; [rewrite E; exact H|]. apply nth_error_Some. congruence.
Qed.
Lemma inv_construct (ok : Prop) env v n p c' : inv ok p -> good (AReg (objs (fst (construct hash env v n (p_reg p)))) (reg (fst (construct hash env v n (p_reg p)))) c') ->
  inv ok (Proc (AReg (objs (fst (construct hash env v n (p_reg p)))) (reg (fst (construct hash env v n (p_reg p)))) c') (p_socks p)).
Proof.
  intros I G. split; cbn [p_reg p_socks].
  - exact G.
  - unfold construct. cbn [fst objs]. intros i a H. apply nth_snoc' in H. destruct H as [H|[_ ->]]; [exact (i_ip ok p I i a H)|].
    unfold ao_ip. cbn [ao_auto ao_fam]. rewrite update_ip. apply new_ip_ok.
  - unfold construct. cbn [fst objs]. intros i a t H. apply nth_snoc' in H. destruct H as [H|[-> ->]]; [exact (i_targets ok p I i a t H)|].
    cbn [ao_auto]. rewrite update_targets. cbn [au_targets]. split; [intros []|]. intros (s & Hs & Es). exfalso.
    destruct (i_sync ok p I t s Hs) as (v' & z' & V & _). rewrite Es in V. cbn in V. destruct (nth_error (objs (p_reg p)) (length (objs (p_reg p)))) eqn:X; [|discriminate].
    assert (nth_error (objs (p_reg p)) (length (objs (p_reg p))) <> None) as Y by congruence. apply nth_error_Some in Y. lia.
  - intros k s Hs. destruct (i_sync ok p I k s Hs) as (v' & z' & V & S). exists v', z'. split; [|exact S]. unfold construct. cbn [fst objs reg]. apply value_snoc, V.
Qed.
Lemma inv_hup_one (ok : Prop) env outs p i : inv ok p -> (ok -> forall k, exists id, outs k = BindOk id) -> inv ok (hup_one env outs p i).
Proof.
  intros I B. unfold hup_one. destruct (nth_error (objs (p_reg p)) i) as [a|] eqn:Ea.
  2: { unfold update_one. rewrite Ea. cbn. destruct p. exact I. }
  rewrite (update_one_spec env i (p_reg p) a Ea). pose proof (i_good ok p I) as G. pose proof (g_targets _ G i a Ea) as NT.
  assert (i < length (objs (p_reg p)))%nat as L by (apply nth_error_Some; congruence).
  rewrite map_map. cbn [snd]. rewrite map_id. set (w := AReg _ _ _).
  assert (NoDup (told env a)) as Nt by (unfold told, update_address; destruct (_ =? _); [constructor|exact NT]).
  destruct (fold_on_change outs (told env a) Nt (Proc w (p_socks p))) as [H1 H2]. set (q := fold_left _ _ _) in *. cbn [p_reg p_socks] in H1, H2.
  assert (forall k s, nth_error (p_socks q) k = Some s -> exists s0, nth_error (p_socks p) k = Some s0 /\ us_addr s = us_addr s0) as A1.
  { intros k s Hs. rewrite H2 in Hs. destruct (in_dec Nat.eq_dec k (told env a)); [|eauto]. destruct (nth_error (p_socks p) k) as [s0|]; [|discriminate].
    exists s0. split; [reflexivity|]. injection Hs as <-. unfold us_rebind. destruct (value w (us_addr s0)) as [[v z]|]; reflexivity. }
  assert (forall k s0, nth_error (p_socks p) k = Some s0 -> exists s, nth_error (p_socks q) k = Some s /\ us_addr s = us_addr s0) as A2.
  { intros k s0 Hs. rewrite H2, Hs. destruct (in_dec Nat.eq_dec k (told env a)); cbn [option_map]; eexists; split; try reflexivity.
    unfold us_rebind. destruct (value w (us_addr s0)) as [[v z]|]; reflexivity. }
  assert (good w) as Gw.
  { split; cbn [reg objs cache w].
    - apply G.
    - intros j Hj. rewrite set_obj_length. apply (g_range _ G), Hj.
    - intros j b Hb. destruct (Nat.eq_dec j i) as [->|Hne].
      + rewrite set_obj_same in Hb by exact L. injection Hb as <-. unfold polled. cbn [ao_auto]. rewrite update_targets. exact NT.
      + rewrite set_obj_other in Hb by exact Hne. exact (g_targets _ G j b Hb).
    - intros v n j Hj. destruct (g_cache _ G v n j Hj) as (b & Hb & E1 & E2). destruct (Nat.eq_dec j i) as [->|Hne].
      + rewrite Ea in Hb. injection Hb as <-. exists (polled env a). unfold w. cbn [objs]. rewrite set_obj_same by exact L. auto.
      + exists b. unfold w. cbn [objs]. rewrite set_obj_other by exact Hne. auto. }
  split; rewrite ?H1.
  - exact Gw.
  - intros j b Hb. unfold w in Hb. cbn [objs] in Hb. destruct (Nat.eq_dec j i) as [->|Hne].
    + rewrite set_obj_same in Hb by exact L. injection Hb as <-. unfold polled, ao_ip. cbn [ao_auto ao_fam]. rewrite update_ip. apply new_ip_ok.
    + rewrite set_obj_other in Hb by exact Hne. exact (i_ip ok p I j b Hb).
  - intros j b t Hb.
    assert (In t (au_targets (ao_auto b)) <-> exists s, nth_error (p_socks p) t = Some s /\ us_addr s = UAuto j) as X.
    { unfold w in Hb. cbn [objs] in Hb. destruct (Nat.eq_dec j i) as [->|Hne].
      - rewrite set_obj_same in Hb by exact L. injection Hb as <-. unfold polled. cbn [ao_auto]. rewrite update_targets. exact (i_targets ok p I i a t Ea).
      - rewrite set_obj_other in Hb by exact Hne. exact (i_targets ok p I j b t Hb). }
    rewrite X. split; intros (s & Hs & Es).
    + destruct (A2 t s Hs) as (s' & Hs' & Es'). exists s'. split; [exact Hs'|congruence].
    + destruct (A1 t s Hs) as (s' & Hs' & Es'). exists s'. split; [exact Hs'|congruence].
  - intros k s Hs. destruct (A1 k s Hs) as (s0 & Hs0 & Es0). destruct (i_sync ok p I k s0 Hs0) as (v & z & V & S). rewrite Es0.
    rewrite H2, Hs0 in Hs. destruct (us_addr s0) as [v' z'|j] eqn:Eu.
    + (* a plain address *) cbn [value] in *. injection V as -> ->. exists v, z. split; [reflexivity|].
      destruct (in_dec Nat.eq_dec k (told env a)) as [X|X].
      * exfalso. apply told_spec in X. destruct X as [X _]. apply (i_targets ok p I i a k Ea) in X. destruct X as (s1 & Y1 & Y2). congruence.
      * injection Hs as <-. exact S.
    + destruct (Nat.eq_dec j i) as [->|Hne].
      * exists (ao_fam a), (ao_ip (polled env a)). split; [cbn [value w objs]; rewrite set_obj_same by exact L; reflexivity|].
        cbn [value] in V. rewrite Ea in V. cbn in V. injection V as <- <-.
        destruct (in_dec Nat.eq_dec k (told env a)) as [X|X].
        -- cbn [option_map] in Hs. injection Hs as <-. unfold us_rebind. rewrite Eu. cbn [value w objs]. rewrite set_obj_same by exact L. cbn [option_map us_sock].
           apply (rebind_sync ok ok (ao_fam a) (ao_ip a)); auto.
        -- injection Hs as <-. assert (ao_ip a = ao_ip (polled env a)) as <-; [|exact S].
           destruct (Z.eq_dec (ao_ip a) (ao_ip (polled env a))) as [E|E]; [exact E|]. exfalso. apply X, told_spec. split; [|exact E].
           apply (i_targets ok p I i a k Ea). eauto.
      * exists v, z. split; [cbn [value w objs] in *; rewrite set_obj_other by exact Hne; exact V|].
        destruct (in_dec Nat.eq_dec k (told env a)) as [X|X].
        -- exfalso. apply told_spec in X. destruct X as [X _]. apply (i_targets ok p I i a k Ea) in X. destruct X as (s1 & Y1 & Y2). congruence.
        -- injection Hs as <-. exact S.
Qed.
Lemma inv_step (ok : Prop) p e : inv ok p -> (ok -> binds e) -> inv ok (step p e).
Proof.
  intros I B. pose proof (i_good ok p I) as G. destruct e as [v n env|v n env|u port o|env outs]; cbn [p_step].
  - pose proof (good_step hash (p_reg p) (AGet v n env) G) as G'. cbn [a_step] in G'. unfold get_address in *. destruct (cached v n (p_reg p)); [destruct p; exact I|].
    destruct (construct hash env v n (p_reg p)) as [w i] eqn:C. cbn [fst] in *. pose proof (inv_construct ok env v n p (cache w ++ [(v, n, i)]) I) as K. rewrite C in K. cbn [fst] in K. exact (K G').
  - pose proof (good_construct hash env v n (p_reg p) G) as G'. pose proof (inv_construct ok env v n p (cache (p_reg p)) I) as K. unfold construct in *. cbn [fst objs reg] in *. exact (K G').
  - unfold new_socket. destruct (value (p_reg p) u) as [[v z]|] eqn:V; [|exact I]. cbn [binds] in B.
    set (s := us_rebind (p_reg p) o (USock u port asock0)).
    assert (us_addr s = u /\ sync ok v z (us_sock s)) as [Es Ss].
    { unfold s, us_rebind. cbn [us_addr]. rewrite V. cbn [us_addr us_sock]. split; [reflexivity|]. apply (rebind_sync ok ok v 0); [apply sync0|auto|exact B]. }
    clearbody s. destruct u as [v' z'|i].
    + split; cbn [p_reg p_socks].
      * exact G.
      * apply I.
      * intros j a t Ha. rewrite (i_targets ok p I j a t Ha). split; intros (s1 & H1 & H2).
        -- exists s1. split; [|exact H2]. rewrite nth_error_app1; [exact H1|]. apply nth_error_Some. congruence.
        -- apply nth_snoc' in H1. destruct H1 as [H1|[_ ->]]; [eauto|congruence].
      * intros k s1 H1. apply nth_snoc' in H1. destruct H1 as [H1|[_ ->]]; [exact (i_sync ok p I k s1 H1)|]. exists v, z. rewrite Es. auto.
    + pose proof (good_step hash (p_reg p) (AListen i (length (p_socks p))) G) as G'. cbn [a_step] in G'. unfold listen in *. cbn [value] in V.
      destruct (nth_error (objs (p_reg p)) i) as [a|] eqn:Ea; [|discriminate]. cbn in V. injection V as <- <-.
      assert (i < length (objs (p_reg p)))%nat as L by (apply nth_error_Some; congruence). set (a' := AObj _ _ _) in *.
      assert (forall t, In t (au_targets (ao_auto a')) <-> In t (au_targets (ao_auto a)) \/ t = length (p_socks p)) as At.
      { intros t. unfold a'. cbn [ao_auto add_target au_targets]. destruct (existsb _ _) eqn:X.
        - apply existsb_exists in X. destruct X as (y & Y1 & Y2). apply Nat.eqb_eq in Y2. subst y. split; [auto|]. intros [H| ->]; assumption.
        - cbn [In]. split; intros [H|H]; auto. }
      split; cbn [p_reg p_socks objs] in *.
      * exact G'.
      * intros j b Hb. destruct (Nat.eq_dec j i) as [->|Hne].
        -- rewrite set_obj_same in Hb by exact L. injection Hb as <-. exact (i_ip ok p I i a Ea).
        -- rewrite set_obj_other in Hb by exact Hne. exact (i_ip ok p I j b Hb).
      * intros j b t Hb. destruct (Nat.eq_dec j i) as [->|Hne].
        -- rewrite set_obj_same in Hb by exact L. injection Hb as <-. rewrite At, (i_targets ok p I i a t Ea). split.
           ++ intros [(s1 & H1 & H2)| ->].
              ** exists s1. split; [|exact H2]. rewrite nth_error_app1; [exact H1|]. apply nth_error_Some. congruence.
              ** exists s. rewrite nth_error_app2, Nat.sub_diag by lia. auto.
           ++ intros (s1 & H1 & H2). apply nth_snoc' in H1. destruct H1 as [H1|[-> ->]]; [left; eauto|right; reflexivity].
        -- rewrite set_obj_other in Hb by exact Hne. rewrite (i_targets ok p I j b t Hb). split; intros (s1 & H1 & H2).
           ++ exists s1. split; [|exact H2]. rewrite nth_error_app1; [exact H1|]. apply nth_error_Some. congruence.
           ++ apply nth_snoc' in H1. destruct H1 as [H1|[_ ->]]; [eauto|congruence].
      * assert (forall u x, value (p_reg p) u = Some x -> value (AReg (set_obj i a' (objs (p_reg p))) (reg (p_reg p)) (cache (p_reg p))) u = Some x) as Vk.
        { intros [vv zz|j] x Hx; cbn [value objs] in *; [exact Hx|]. destruct (Nat.eq_dec j i) as [->|Hne].
          - rewrite set_obj_same by exact L. rewrite Ea in Hx. exact Hx.
          - rewrite set_obj_other by exact Hne. exact Hx. }
        intros k s1 H1. apply nth_snoc' in H1. destruct H1 as [H1|[_ ->]].
        -- destruct (i_sync ok p I k s1 H1) as (v1 & z1 & V1 & S1). exists v1, z1. auto.
        -- exists (ao_fam a), (ao_ip a). split; [|exact Ss]. apply Vk. rewrite Es. cbn [value]. rewrite Ea. reflexivity.
  - unfold hup. cbn [binds] in B. generalize (reg (p_reg p)). intros l. revert I. clear G. revert p. induction l as [|i l IH]; intros p I; cbn [fold_left]; [exact I|].
    apply IH, inv_hup_one; assumption.
Qed.
Lemma inv_run (ok : Prop) p h : inv ok p -> (ok -> Forall binds h) -> inv ok (run p h).
Proof.
  revert p. induction h as [|e h IH]; intros p I B; cbn; [exact I|]. apply IH.
  - apply inv_step; [exact I|]. intros k. specialize (B k). inversion B. assumption.
  - intros k. specialize (B k). inversion B. assumption.
Qed.
Lemma inv0 (ok : Prop) : inv ok proc0.
Proof.
  split; cbn.
  - exact (good_run hash []).
  - intros [|i] a; discriminate.
  - intros [|i] a; discriminate.
  - intros [|k] s; discriminate.
Qed.
(** the import in terms of events *)
Definition import_h (e1 e2 : ifaces) (o : bind_out) : list pev := [PNew V4 vlan2 e1; PSocket (UAuto 0) 4342 o; PNew V4 vlan2 e2].
Lemma imported_run e1 e2 o : imported hash e1 e2 o = run proc0 (import_h e1 e2 o).
Proof. reflexivity. Qed.
Lemma run_app p h1 h2 : run p (h1 ++ h2) = run (run p h1) h2.
Proof. apply fold_left_app. Qed.
Lemma run_snoc p h e : run p (h ++ [e]) = step (run p h) e.
Proof. rewrite run_app. reflexivity. Qed.

(** ** The addresses after a history *)
Fixpoint ahist (p : proc) (h : list pev) : list aev :=
  match h with [] => [] | e :: h => aev_of p e ++ ahist (step p e) h end.
Lemma run_reg p h : p_reg (run p h) = fold_left (a_step hash) (ahist p h) (p_reg p).
Proof.
  revert p. induction h as [|e h IH]; intros p; cbn [p_run fold_left ahist]; [reflexivity|]. fold (run (step p e) h).
  rewrite IH, fold_left_app, <- step_reg. reflexivity.
Qed.
Lemma ahist_get p h v n env : In (AGet v n env) (ahist p h) <-> In (PGet v n env) h.
Proof.
  revert p. induction h as [|e h IH]; intros p; cbn [ahist In]; [tauto|]. rewrite in_app_iff, IH.
  assert (In (AGet v n env) (aev_of p e) <-> e = PGet v n env) as ->; [|tauto].
  destruct e as [v' n' env'|v' n' env'|[v' z'|i] port o|env' outs]; cbn [aev_of In]; try (split; [intros X; destruct X as [X|[]]; discriminate|discriminate]).
  - split; [intros [X|[]]; congruence|intros X; left; congruence].
  - split; [tauto|discriminate].
  - destruct (nth_error _ _); cbn; (split; [intros X; repeat (destruct X as [X|X]; try discriminate); destruct X|discriminate]).
Qed.
Lemma ahist_new p h v n env : In (ANew v n env) (ahist p h) <-> In (PNew v n env) h.
Proof.
  revert p. induction h as [|e h IH]; intros p; cbn [ahist In]; [tauto|]. rewrite in_app_iff, IH.
  assert (In (ANew v n env) (aev_of p e) <-> e = PNew v n env) as ->; [|tauto].
  destruct e as [v' n' env'|v' n' env'|[v' z'|i] port o|env' outs]; cbn [aev_of In]; try (split; [intros X; destruct X as [X|[]]; discriminate|discriminate]).
  - split; [intros [X|[]]; congruence|intros X; left; congruence].
  - split; [tauto|discriminate].
  - destruct (nth_error _ _); cbn; (split; [intros X; repeat (destruct X as [X|X]; try discriminate); destruct X|discriminate]).
Qed.
Lemma ahist_collect p h i : ~ In (ACollect i) (ahist p h).
Proof.
  revert p. induction h as [|e h IH]; intros p; cbn [ahist]; [tauto|]. rewrite in_app_iff. intros [X|X]; [|exact (IH _ X)].
  destruct e as [v' n' env'|v' n' env'|[v' z'|j] port o|env' outs]; cbn [aev_of In] in X; try (destruct X as [X|[]]; discriminate); [destruct X|].
  destruct (nth_error _ _); cbn in X; repeat (destruct X as [X|X]; try discriminate); destruct X.
Qed.
Lemma imported_inv (ok : Prop) e1 e2 o h : (ok -> exists id, o = BindOk id) -> (ok -> Forall binds h) -> inv ok (run (imported hash e1 e2 o) h).
Proof.
  intros B1 B2. rewrite imported_run, <- run_app. apply inv_run; [apply inv0|]. intros k. apply Forall_app. split; [|exact (B2 k)].
  unfold import_h. constructor; [exact Logic.I|]. constructor; [exact (B1 k)|]. constructor; [exact Logic.I|constructor].
Qed.

(** C104, one half: at any moment an open socket of the process is bound to the current value of its address, which is no loopback,
    link-local, multicast or unspecified address; if no bind ever failed, every socket whose address allows it is open *)
Theorem C104_bound_to_address : forall e1 e2 o h k s v z, let p := run (imported hash e1 e2 o) h in
  nth_error (p_socks p) k = Some s -> value (p_reg p) (us_addr s) = Some (v, z) ->
  (as_sock (us_sock s) <> None -> as_bound (us_sock s) = z /\ bindable v z) /\
  ((exists id, o = BindOk id) -> Forall binds h -> bindable v z -> as_sock (us_sock s) <> None).
Proof.
  intros e1 e2 o h k s v z p Hs V. split.
  - intros N. destruct (i_sync _ _ (imported_inv False e1 e2 o h (fun x => match x with end) (fun x => match x with end)) k s Hs) as (v' & z' & V' & S).
    fold p in V'. rewrite V in V'. injection V' as <- <-. destruct S as [(id & S1 & S2 & S3)|(S1 & _)]; [|contradiction]. split; [exact S2|apply usable_spec, S3].
  - intros B1 B2 U. destruct (i_sync _ _ (imported_inv True e1 e2 o h (fun _ => B1) (fun _ => B2)) k s Hs) as (v' & z' & V' & S).
    fold p in V'. rewrite V in V'. injection V' as <- <-. destruct S as [(id & S1 & _)|(S1 & _ & S3)]; [congruence|].
    apply usable_spec in U. rewrite (S3 Logic.I) in U. discriminate.
Qed.

(** ** SIGHUP *)
Lemma takeable_usable v z : takeable v z -> usable v z = true.
Proof. intros H. apply suitable_usable, suitable_spec, H. Qed.
Lemma hup_socks env outs p k s : inv False p -> nth_error (p_socks (hup env outs p)) k = Some s -> exists s0, nth_error (p_socks p) k = Some s0 /\ us_addr s = us_addr s0 /\ us_port s = us_port s0.
Proof.
  intros I. unfold hup. generalize (reg (p_reg p)). intros l. revert p I. induction l as [|i l IH]; intros p I; cbn [fold_left]; [eauto|].
  intros H. destruct (IH (hup_one env outs p i)) as (s1 & H1 & E1 & E2); [apply inv_hup_one; [exact I|intros []]|exact H|].
  assert (forall ts q s2, nth_error (p_socks (fold_left (on_change outs) ts q)) k = Some s2 -> exists s0, nth_error (p_socks q) k = Some s0 /\ us_addr s2 = us_addr s0 /\ us_port s2 = us_port s0) as K.
  { intros ts. induction ts as [|t ts IHt]; intros q s2; cbn [fold_left]; [eauto|]. intros X. destruct (IHt _ _ X) as (s3 & Y1 & Y2 & Y3). cbn [on_change p_socks] in Y1.
    destruct (Nat.eq_dec k t) as [->|Hne].
    - destruct (nth_error (p_socks q) t) as [s4|] eqn:E4.
      + rewrite (at_nth_same _ _ _ _ E4) in Y1. injection Y1 as <-. exists s4. split; [reflexivity|]. rewrite Y2, Y3. unfold us_rebind. destruct (value _ _) as [[? ?]|]; auto.
      + assert (nth_error (at_nth t (us_rebind (p_reg q) (outs t)) (p_socks q)) t = None) as Y4; [|congruence]. apply nth_error_None. rewrite at_nth_length. apply nth_error_None, E4.
    - rewrite at_nth_other in Y1 by exact Hne. eauto. }
  unfold hup_one in H1. destruct (update_one env i (p_reg p)) as [w c]. destruct (K _ _ _ H1) as (s2 & X1 & X2 & X3). exists s2. cbn [p_socks] in X1. split; [exact X1|]. split; congruence.
Qed.
(** a registered address: its sockets are where the interface is, after the signal *)
Lemma hup_registered p env outs ahs i v n k port : inv False p -> p_reg p = a_run hash ahs -> In i (reg (p_reg p)) -> is_for (p_reg p) i v n -> made_for p k i port ->
  exists z, interface_address v (env v n) z /\
    (closed (hup env outs p) k \/ bound_to (hup env outs p) k z port /\ z <> 0) /\
    (inv True p -> (forall j, exists id, outs j = BindOk id) -> (z <> 0 -> bound_to (hup env outs p) k z port) /\ (z = 0 -> closed (hup env outs p) k)).
Proof.
  intros I R HR (a & Ha & E1 & E2) (s & Hs & Es & Ep).
  assert (In i (reg (a_run hash ahs))) as HR' by (rewrite <- R; exact HR). assert (nth_error (objs (a_run hash ahs)) i = Some a) as Ha' by (rewrite <- R; exact Ha).
  destruct (followed hash ahs env i a HR' Ha') as (z & (b & Hb & Zb) & Z2 & _). rewrite <- R in Hb. rewrite <- (hup_reg env outs) in Hb. rewrite E1, E2 in Z2.
  assert (ao_fam b = v) as Fb.
  { pose proof (step_keeps hash (p_reg p) (AUpdate env) i v n (i_good _ _ I)) as K. cbn [a_step] in K. rewrite <- (hup_reg env outs) in K. destruct K as (b' & Hb' & K1 & _); [exists a; auto|]. congruence. }
  exists z. split; [exact Z2|].
  assert (forall ok : Prop, inv ok p -> (ok -> forall j, exists id, outs j = BindOk id) -> exists s1, nth_error (p_socks (hup env outs p)) k = Some s1 /\ us_port s1 = port /\ sync ok v z (us_sock s1)) as K.
  { intros ok Iok B. pose proof (inv_step ok p (PHup env outs) Iok B) as I'. cbn [p_step] in I'.
    assert (In k (au_targets (ao_auto a))) as T by (apply (i_targets ok p Iok i a k Ha); eauto).
    assert (exists b', nth_error (objs (p_reg (hup env outs p))) i = Some b' /\ In k (au_targets (ao_auto b'))) as (b' & Hb' & T').
    { rewrite hup_reg. unfold update_addresses. pose proof (i_good _ _ Iok) as G. pose proof (update_list_spec env (reg (p_reg p)) (p_reg p) (g_nodup _ G) (g_range _ G)) as (_ & _ & _ & _ & H5 & _).
      exists (polled env a). split; [apply H5; assumption|]. unfold polled. cbn [ao_auto]. rewrite update_targets. exact T. }
    apply (i_targets ok _ I' i b' k Hb') in T'. destruct T' as (s1 & H1 & U1). exists s1. split; [exact H1|].
    destruct (hup_socks env outs p k s1 I H1) as (s0 & H0 & _ & P0). split; [congruence|].
    destruct (i_sync ok _ I' k s1 H1) as (v1 & z1 & V1 & S1). rewrite U1 in V1. cbn [value] in V1. rewrite Hb in V1. cbn in V1. injection V1 as <- <-. rewrite Fb, Zb in S1. exact S1. }
  split.
  - destruct (K False I (fun x => match x with end)) as (s1 & H1 & P1 & [(id & S1 & S2 & S3)|(S1 & _)]).
    + right. split; [exists s1, id; auto|]. intros ->. rewrite zero_not_usable in S3. discriminate.
    + left. exists s1. auto.
  - intros It B. destruct (K True It (fun _ => B)) as (s1 & H1 & P1 & S). split; intros Hz.
    + destruct S as [(id & S1 & S2 & S3)|(_ & _ & S3)]; [exists s1, id; auto|]. exfalso. destruct Z2 as [(l1 & l2 & _ & T & _)|[X _]]; [|contradiction].
      apply takeable_usable in T. rewrite (S3 Logic.I) in T. discriminate.
    + destruct S as [(id & _ & _ & S3)|(S1 & _)]; [rewrite Hz, zero_not_usable in S3; discriminate|]. exists s1. auto.
Qed.
Lemma imported_reg e1 e2 o h : p_reg (run (imported hash e1 e2 o) h) = a_run hash (ahist proc0 (import_h e1 e2 o ++ h)).
Proof. rewrite imported_run, <- run_app, run_reg. reflexivity. Qed.

(** C104: settings.py gets the address of an interface, main() makes a socket for it.  After a SIGHUP the socket is bound to the
    interface's current address, or closed; if no bind failed, it is open exactly if the interface has an address.  (Interface vlan2, and
    names with its hash, are excepted for IPv4; see below) *)
Theorem C104_sighup : forall e1 e2 o h env outs v n envg k port, let p := run (imported hash e1 e2 o) h in let p' := hup env outs p in
  In (PGet v n envg) h -> names_apart hash h ->
  (forall n' env', In (PNew v n' env') h -> hash n' <> hash n) -> (v = V4 -> hash n <> hash vlan2) ->
  made_for p k (snd (get_address hash env v n (p_reg p))) port ->
  exists z, interface_address v (env v n) z /\ (closed p' k \/ bound_to p' k z port /\ z <> 0) /\
    ((exists id, o = BindOk id) -> Forall binds (h ++ [PHup env outs]) -> (z <> 0 -> bound_to p' k z port) /\ (z = 0 -> closed p' k)).
Proof.
  intros e1 e2 o h env outs v n envg k port p p' Hg N A V M.
  assert (inv False p) as I by (apply imported_inv; intros []).
  assert (p_reg p = a_run hash (ahist proc0 (import_h e1 e2 o ++ h))) as R by apply imported_reg.
  destruct (got_registered hash (ahist proc0 (import_h e1 e2 o ++ h)) v n envg) as (i & C & HR & F).
  - apply ahist_get, in_app_iff. auto.
  - intros v1 n1 g1 v2 n2 g2 H1 H2. apply ahist_get in H1, H2. apply in_app_iff in H1, H2.
    destruct H1 as [H1|H1]; [repeat (destruct H1 as [H1|H1]; try discriminate); destruct H1|]. destruct H2 as [H2|H2]; [repeat (destruct H2 as [H2|H2]; try discriminate); destruct H2|].
    exact (N v1 n1 g1 v2 n2 g2 H1 H2).
  - intros n' g H. apply ahist_new in H. apply in_app_iff in H. destruct H as [H|H]; [|exact (A n' g H)].
    destruct H as [H|[H|[H|[]]]]; try discriminate; injection H as Hv Hn _; rewrite <- Hn; intros E; exact (V (eq_sym Hv) (eq_sym E)).
  - rewrite <- R in C, HR, F. unfold get_address in M. rewrite C in M. cbn [snd] in M.
    destruct (hup_registered p env outs _ i v n k port I R HR F M) as (z & Z1 & Z2 & Z3). exists z. split; [exact Z1|]. split; [exact Z2|].
    intros B1 B2. apply Forall_app in B2. destruct B2 as [B2 B3]. inversion B3 as [|? ? B4 _]. apply Z3; [|exact B4]. apply imported_inv; intros _; assumption.
Qed.
(** vlan2 itself: the same if vlan2 has an address when the program is imported, and settings.py asks for it before the first SIGHUP *)
Definition lives (w : areg) : Prop :=
  forall j b, nth_error (objs w) j = Some b -> ao_fam b = V4 -> hash (ao_if b) = hash vlan2 -> ao_ip b <> 0.
Lemma lives_run h : forall p, lives (p_reg p) -> (forall g out, ~ In (PHup g out) h) -> (forall v n g, ~ In (PNew v n g) h) ->
  (forall n g, In (PGet V4 n g) h -> hash n <> hash vlan2) -> lives (p_reg (run p h)).
Proof.
  induction h as [|e h IH]; intros p L NH NN NG; cbn [p_run fold_left]; [exact L|]. fold (run (step p e) h). apply IH.
  - destruct e as [v n env|v n env|u port o|env outs]; cbn [p_step].
    + cbn [p_reg]. unfold get_address. destruct (cached _ _ _); [exact L|]. unfold construct. cbn [fst]. intros j b Hb Hf Hh. cbn [objs] in Hb.
      apply nth_snoc' in Hb. destruct Hb as [Hb|[_ ->]]; [exact (L j b Hb Hf Hh)|]. cbn [ao_fam ao_if] in Hf, Hh. subst v. destruct (NG n env); [left; reflexivity|exact Hh].
    + destruct (NN v n env). left. reflexivity.
    + unfold new_socket. destruct (value _ _) as [[v z]|]; [|exact L]. cbn [p_reg]. destruct u as [v' z'|i]; [exact L|]. unfold listen.
      destruct (nth_error (objs (p_reg p)) i) as [a|] eqn:Ea; [|exact L]. assert (i < length (objs (p_reg p)))%nat as Li by (apply nth_error_Some; congruence).
      intros j b Hb. cbn [objs] in Hb. destruct (Nat.eq_dec j i) as [->|Hne].
      * rewrite set_obj_same in Hb by exact Li. injection Hb as <-. cbn [ao_fam ao_if]. exact (L i a Ea).
      * rewrite set_obj_other in Hb by exact Hne. exact (L j b Hb).
    + destruct (NH env outs). left. reflexivity.
  - intros g out X. apply (NH g out). right. exact X.
  - intros v n g X. apply (NN v n g). right. exact X.
  - intros n g X. apply (NG n g). right. exact X.
Qed.
Lemma ahist_app p h1 h2 : ahist p (h1 ++ h2) = ahist p h1 ++ ahist (run p h1) h2.
Proof. revert p. induction h1 as [|e h1 IH]; intros p; cbn [ahist app p_run fold_left]; [reflexivity|]. rewrite IH, app_assoc. reflexivity. Qed.
Lemma new_ip_some env v n : ~ no_address env v n -> new_ip v (env v n) <> 0.
Proof. intros N E. apply N. unfold no_address. rewrite <- E. apply new_ip_spec. Qed.
Theorem C104_sighup_vlan2_partial : forall e1 e2 o h1 envg h2 env outs k port,
  let h := h1 ++ PGet V4 vlan2 envg :: h2 in let p := run (imported hash e1 e2 o) h in let p' := hup env outs p in
  ~ no_address e1 V4 vlan2 -> ~ no_address e2 V4 vlan2 ->
  (forall g out, ~ In (PHup g out) h1) -> (forall v n g, ~ In (PNew v n g) h1) -> (forall g, ~ In (PGet V4 vlan2 g) h1) -> names_apart hash h ->
  made_for p k (snd (get_address hash env V4 vlan2 (p_reg p))) port ->
  exists z, interface_address V4 (env V4 vlan2) z /\ (closed p' k \/ bound_to p' k z port /\ z <> 0) /\
    ((exists id, o = BindOk id) -> Forall binds (h ++ [PHup env outs]) -> (z <> 0 -> bound_to p' k z port) /\ (z = 0 -> closed p' k)).
Proof.
  intros e1 e2 o h1 envg h2 env outs k port h p p' N1 N2 NH NN NF N M.
  assert (inv False p) as I by (apply imported_inv; intros []).
  assert (p_reg p = a_run hash (ahist proc0 (import_h e1 e2 o ++ h))) as R by apply imported_reg.
  assert (exists i, cached V4 vlan2 (p_reg p) = Some i /\ In i (reg (p_reg p)) /\ is_for (p_reg p) i V4 vlan2) as (i & C & HR & F).
  { rewrite R. unfold h. rewrite app_assoc, ahist_app. set (q := run proc0 (import_h e1 e2 o ++ h1)). cbn [ahist aev_of app].
    exists (length (objs (a_run hash (ahist proc0 (import_h e1 e2 o ++ h1))))). apply first_get.
    - apply no_get_uncached. intros g X. apply ahist_get, in_app_iff in X. destruct X as [X|X]; [|exact (NF g X)]. repeat (destruct X as [X|X]; try discriminate). destruct X.
    - rewrite <- imported_reg. intros j b _. revert j b. change (lives (p_reg (run (imported hash e1 e2 o) h1))). apply lives_run; [|exact NH|exact NN|].
      + clear - N1 N2. apply new_ip_some in N1, N2. intros j b Hb _ _. cbn in Hb. destruct j as [|[|j]]; cbn in Hb.
        * injection Hb as <-. unfold ao_ip. cbn [ao_auto]. unfold add_target. cbn [au_ip]. rewrite update_ip. exact N1.
        * injection Hb as <-. unfold ao_ip. cbn [ao_auto]. rewrite update_ip. exact N2.
        * destruct j; discriminate.
      + intros n g X E. assert (n = vlan2) as ->; [|exact (NF g X)]. apply (N V4 n g V4 vlan2 envg); [| |exact E]; unfold h; apply in_app_iff; [left; exact X|right; left; reflexivity]. }
  unfold get_address in M. rewrite C in M. cbn [snd] in M.
  destruct (hup_registered p env outs _ i V4 vlan2 k port I R HR F M) as (z & Z1 & Z2 & Z3). exists z. split; [exact Z1|]. split; [exact Z2|].
  intros B1 B2. apply Forall_app in B2. destruct B2 as [B2 B3]. inversion B3 as [|? ? B4 _]. apply Z3; [|exact B4]. apply imported_inv; intros _; assumption.
Qed.

(** ** The socket the import leaves behind *)
Lemma imported_first e1 e2 o h : let p := run (imported hash e1 e2 o) h in In 0%nat (reg (p_reg p)) /\ is_for (p_reg p) 0 V4 vlan2 /\ made_for p 0 0 4342.
Proof.
  cbn zeta. induction h as [|e h IH] using rev_ind.
  - cbn [p_run fold_left]. split; [|split].
    + unfold imported, construct, new_socket. cbn -[registered]. match goal with |- context [if ?b then _ else _] => destruct b end; cbn; left; reflexivity.
    + eexists. cbn. split; [reflexivity|]. split; reflexivity.
    + eexists. cbn. split; [reflexivity|]. split; reflexivity.
  - rewrite run_snoc. set (p := run (imported hash e1 e2 o) h) in *. destruct IH as (I1 & I2 & s & Hs & I3 & I4).
    assert (inv False p) as I by (apply imported_inv; intros []). pose proof (i_good _ _ I) as G.
    assert (forall e', e' <> ACollect 0 -> In 0%nat (reg (a_step hash (p_reg p) e')) /\ is_for (a_step hash (p_reg p) e') 0 V4 vlan2) as K.
    { intros e' Ne. split; [apply reg_keeps; auto|apply step_keeps; auto]. }
    rewrite step_reg. split; [|split].
    3: { destruct e as [v n env|v n env|u port o'|env outs]; cbn [p_step].
         - exists s. auto.
         - exists s. auto.
         - unfold new_socket. destruct (value _ _) as [[v z]|]; [|exists s; auto]. exists s. cbn [p_socks]. rewrite nth_error_app1; [auto|]. apply nth_error_Some. congruence.
         - pose proof (inv_step False p (PHup env outs) I (fun x => match x with end)) as I'. cbn [p_step] in I'.
           destruct I2 as (a & Ha & E1 & E2).
           assert (In 0%nat (au_targets (ao_auto a))) as T by (apply (i_targets _ p I 0 a 0 Ha); eauto).
           pose proof (update_list_spec env (reg (p_reg p)) (p_reg p) (g_nodup _ G) (g_range _ G)) as (_ & _ & _ & _ & H5 & _).
           assert (nth_error (objs (p_reg (hup env outs p))) 0 = Some (polled env a)) as Hb by (rewrite hup_reg; apply H5; assumption).
           assert (In 0%nat (au_targets (ao_auto (polled env a)))) as T' by (unfold polled; cbn [ao_auto]; rewrite update_targets; exact T).
           apply (i_targets _ _ I' 0 _ 0 Hb) in T'. destruct T' as (s1 & H1 & U1). destruct (hup_socks env outs p 0 s1 I H1) as (s0 & H0 & _ & P0).
           exists s1. split; [exact H1|]. split; [exact U1|]. congruence. }
    all: destruct e as [v n env|v n env|[v' z'|i] port o'|env outs]; cbn [aev_of]; try (apply K; discriminate); try assumption;
      destruct (nth_error (objs (p_reg p)) i); cbn [fold_left]; try assumption; apply K; discriminate.
Qed.
(** Socket 0, which no part of the program ever reads, is on port 4342 of vlan2 whenever vlan2 has an address *)
Theorem C104_leftover_socket : forall e1 e2 o h env outs, let p' := hup env outs (run (imported hash e1 e2 o) h) in
  (exists id, o = BindOk id) -> Forall binds (h ++ [PHup env outs]) ->
  (forall z, interface_address V4 (env V4 vlan2) z -> z <> 0 -> bound_to p' 0 z 4342) /\
  (forall z, interface_address V4 (e1 V4 vlan2) z -> z <> 0 -> bound_to (imported hash e1 e2 o) 0 z 4342).
Proof.
  intros e1 e2 o h env outs p' [id ->] B. split; intros z A Hz.
  - destruct (imported_first e1 e2 (BindOk id) h) as (H1 & H2 & H3). apply Forall_app in B. destruct B as [B1 B2]. inversion B2 as [|? ? B3 _].
    destruct (hup_registered _ env outs _ 0%nat V4 vlan2 0%nat 4342 (imported_inv False e1 e2 (BindOk id) h (fun x => match x with end) (fun x => match x with end)) (imported_reg e1 e2 (BindOk id) h) H1 H2 H3) as (z' & Z1 & _ & Z3).
    rewrite (C64_deterministic V4 _ z z' A Z1) in *. apply Z3; [|exact B3|exact Hz]. apply imported_inv; [eauto|auto].
  - pose proof (C64_deterministic V4 _ z _ A (new_ip_spec V4 (e1 V4 vlan2))) as E. subst z.
    assert (usable V4 (new_ip V4 (e1 V4 vlan2)) = true) as U by (destruct (new_ip_ok V4 (e1 V4 vlan2)) as [X|X]; [contradiction|apply takeable_usable, X]).
    unfold imported, construct, new_socket, us_rebind. cbn -[rebind new_ip]. unfold ao_ip. cbn [ao_auto]. rewrite update_ip.
    unfold rebind. cbn [as_bound asock0]. destruct (Z.eqb_spec (new_ip V4 (e1 V4 vlan2)) 0) as [X|X]; [contradiction|]. rewrite U. cbn. eexists. exists id. cbn. repeat split; reflexivity.
Qed.
(** While vlan2 never has an address, that socket stays closed: every open socket is one the program made *)
Lemma no_addr_new_ip env v n : no_address env v n -> new_ip v (env v n) = 0.
Proof. intros H. symmetry. exact (C64_deterministic v _ _ _ H (new_ip_spec v (env v n))). Qed.
Lemma leftover_zero e1 e2 o h : no_address e1 V4 vlan2 -> (forall e env, In e h -> sees e env -> no_address env V4 vlan2) ->
  exists a, nth_error (objs (p_reg (run (imported hash e1 e2 o) h))) 0 = Some a /\ ao_fam a = V4 /\ ao_ip a = 0.
Proof.
  intros N1. induction h as [|e h IH] using rev_ind; intros NH.
  - eexists. cbn. split; [reflexivity|]. split; [reflexivity|]. unfold ao_ip. cbn [ao_auto]. unfold add_target. cbn [au_ip]. rewrite update_ip. apply no_addr_new_ip, N1.
  - destruct IH as (a & Ha & Fa & Za); [intros e' env' X; apply NH, in_app_iff; auto|]. destruct (imported_first e1 e2 o h) as (R1 & (a' & Ha' & _ & Ia) & _).
    rewrite run_snoc. set (p := run (imported hash e1 e2 o) h) in *. assert (inv False p) as I by (apply imported_inv; intros []). pose proof (i_good _ _ I) as G.
    rewrite Ha in Ha'. injection Ha' as <-.
    assert (0 < length (objs (p_reg p)))%nat as L by (apply nth_error_Some; congruence).
    destruct e as [v n env|v n env|u port o'|env outs]; cbn [p_step].
    + cbn [p_reg]. unfold get_address. destruct (cached _ _ _); [eauto|]. unfold construct. cbn [fst objs]. exists a. rewrite nth_error_app1 by exact L. auto.
    + cbn [p_reg]. unfold construct. cbn [fst objs]. exists a. rewrite nth_error_app1 by exact L. auto.
    + unfold new_socket. destruct (value _ _) as [[v z]|]; [|eauto]. cbn [p_reg]. destruct u as [v' z'|i]; [eauto|]. unfold listen.
      destruct (nth_error (objs (p_reg p)) i) as [b|] eqn:Eb; [|eauto]. cbn [objs]. destruct (Nat.eq_dec 0 i) as [<-|Hne].
      * rewrite Ha in Eb. injection Eb as <-. eexists. rewrite set_obj_same by exact L. split; [reflexivity|]. auto.
      * exists a. rewrite set_obj_other by exact Hne. auto.
    + rewrite hup_reg. unfold update_addresses. pose proof (update_list_spec env (reg (p_reg p)) (p_reg p) (g_nodup _ G) (g_range _ G)) as (_ & _ & _ & _ & H5 & _).
      exists (polled env a). split; [apply H5; assumption|]. split; [exact Fa|]. unfold polled, ao_ip. cbn [ao_auto]. rewrite update_ip, Fa, Ia. apply no_addr_new_ip.
      apply (NH (PHup env outs) env); [apply in_app_iff; right; left; reflexivity|reflexivity].
Qed.
Lemma made_later e1 e2 o h k s : nth_error (p_socks (run (imported hash e1 e2 o) h)) (S k) = Some s -> In (us_addr s, us_port s) (sockets_of h).
Proof.
  revert s. induction h as [|e h IH] using rev_ind; intros s.
  - cbn. destruct k; discriminate.
  - rewrite run_snoc. unfold sockets_of in *. rewrite flat_map_app, in_app_iff. set (p := run (imported hash e1 e2 o) h) in *. destruct e as [v n env|v n env|u port o'|env outs]; cbn [p_step].
    + intros H. left. apply IH, H.
    + intros H. left. apply IH, H.
    + unfold new_socket. destruct (value (p_reg p) u) as [[v z]|] eqn:V; [|intros H; left; apply IH, H]. cbn [p_socks]. intros H. apply nth_snoc' in H. destruct H as [H|[_ ->]]; [left; apply IH, H|].
      right. cbn. left. unfold us_rebind. cbn [us_addr]. rewrite V. reflexivity.
    + intros H. left. assert (inv False p) as I by (apply imported_inv; intros []). destruct (hup_socks env outs p (S k) s I H) as (s0 & H0 & E1 & E2). rewrite E1, E2. apply IH, H0.
Qed.
Theorem C104_only_made_partial : forall e1 e2 o h k z port,
  no_address e1 V4 vlan2 -> (forall e env, In e h -> sees e env -> no_address env V4 vlan2) ->
  bound_to (run (imported hash e1 e2 o) h) k z port -> exists a, In (a, port) (sockets_of h).
Proof.
  intros e1 e2 o h k z port N1 NH (s & id & Hs & Ep & Eo & _). destruct k as [|k].
  - exfalso. destruct (leftover_zero e1 e2 o h N1 NH) as (a & Ha & Fa & Za). destruct (imported_first e1 e2 o h) as (_ & _ & s' & Hs' & Ea & _).
    rewrite Hs in Hs'. injection Hs' as <-. destruct (C104_bound_to_address e1 e2 o h 0%nat s V4 0 Hs) as [K _].
    + rewrite Ea. cbn [value]. rewrite Ha. cbn. rewrite Fa, Za. reflexivity.
    + destruct K as [_ K]; [congruence|]. apply usable_spec in K. rewrite zero_not_usable in K. discriminate.
  - exists (us_addr s). rewrite <- Ep. exact (made_later e1 e2 o h k s Hs).
Qed.

(** ** etc/lispd/settings.py listens on vlan2 itself: two sockets for the same address and port, one of which nobody reads *)
Lemma socks_keep p e k s : (forall env outs, e <> PHup env outs) -> nth_error (p_socks p) k = Some s -> nth_error (p_socks (step p e)) k = Some s.
Proof.
  intros N H. destruct e as [v n env|v n env|u port o'|env outs]; cbn [p_step]; [exact H|exact H| |destruct (N env outs eq_refl)].
  unfold new_socket. destruct (value (p_reg p) u); [|exact H]. cbn [p_socks]. rewrite nth_error_app1; [exact H|]. apply nth_error_Some. congruence.
Qed.
Definition sample (envg : ifaces) (o : bind_out) : list pev := [PGet V4 vlan2 envg; PSocket (UAuto 2) 4342 o].
Theorem C104_two_sockets : forall e1 e2 envg i1 i2 z, z <> 0 ->
  interface_address V4 (e1 V4 vlan2) z -> interface_address V4 (envg V4 vlan2) z ->
  let p := run (imported hash e1 e2 (BindOk i1)) (sample envg (BindOk i2)) in
  bound_to p 0 z 4342 /\ bound_to p 1 z 4342 /\ length (sockets_of (sample envg (BindOk i2))) = 1%nat.
Proof.
  intros e1 e2 envg i1 i2 z Hz A1 A2. cbn zeta. assert (new_ip V4 (e1 V4 vlan2) = z) as E1 by (apply (C64_deterministic V4 (e1 V4 vlan2)); [apply new_ip_spec|exact A1]).
  assert (new_ip V4 (envg V4 vlan2) = z) as E2 by (apply (C64_deterministic V4 (envg V4 vlan2)); [apply new_ip_spec|exact A2]).
  assert (usable V4 z = true) as U by (rewrite <- E1; destruct (new_ip_ok V4 (e1 V4 vlan2)) as [X|X]; [congruence|apply takeable_usable, X]).
  split; [|split; [|reflexivity]].
  - destruct (C104_leftover_socket e1 e2 (BindOk i1) [] e1 (fun _ => BindOk i1)) as [_ K]; [eauto|constructor; [|constructor]; cbn; eauto|].
    destruct (K z A1 Hz) as (s & id & Hs & Ep & Eo & Eb). exists s, id. unfold sample. cbn [p_run fold_left]. split; [|auto]. apply socks_keep; [discriminate|]. apply socks_keep; [discriminate|]. exact Hs.
  - unfold sample. cbn [p_run fold_left p_step]. unfold get_address. change (cached V4 vlan2 (p_reg (imported hash e1 e2 (BindOk i1)))) with (@None nat).
    unfold bound_to. eexists. exists i2. cbn -[rebind new_ip registered]. split; [reflexivity|]. cbn [us_port us_sock]. unfold ao_ip. cbn [ao_auto]. rewrite update_ip, E2.
    unfold rebind. cbn [as_bound asock0]. destruct (Z.eqb_spec z 0) as [X|_]; [contradiction|]. rewrite U. cbn. auto.
Qed.
(** If vlan2 gets its address only after the start, the daemon never listens on it: after any number of SIGHUPs the socket it reads is
    closed, while the one nobody reads is open ([C104_leftover_socket]) *)
Theorem C104_vlan2_refuted : forall e1 e2 o envg o' hs, no_address e1 V4 vlan2 -> no_address envg V4 vlan2 ->
  closed (run (imported hash e1 e2 o) (sample envg o' ++ map (fun x => PHup (fst x) (snd x)) hs)) 1.
Proof.
  intros e1 e2 o envg o' hs N1 N2. apply no_addr_new_ip in N1, N2.
  assert (let p := run (imported hash e1 e2 o) (sample envg o' ++ map (fun x => PHup (fst x) (snd x)) hs) in
          reg (p_reg p) = [0%nat] /\ (exists a, nth_error (objs (p_reg p)) 2 = Some a /\ ao_fam a = V4 /\ ao_ip a = 0) /\ exists s, nth_error (p_socks p) 1 = Some s /\ us_addr s = UAuto 2) as (_ & (a & Ha & Fa & Za) & s & Hs & Es).
  { cbn zeta. induction hs as [|[env outs] hs IH] using rev_ind.
    - rewrite app_nil_r. unfold sample. cbn [p_run fold_left p_step]. unfold get_address. change (cached V4 vlan2 (p_reg (imported hash e1 e2 o))) with (@None nat).
      split; [|split].
      + cbn -[new_ip rebind]. unfold registered, same_key, a_hash, a_eqb, ao_ip. cbn -[new_ip rebind update_address]. rewrite update_ip, N1. cbn. rewrite Z.eqb_refl. cbn. unfold registered, same_key, a_hash, a_eqb, ao_ip. cbn -[new_ip rebind update_address]. rewrite update_ip, N1, Z.eqb_refl. reflexivity.
      + eexists. cbn -[new_ip rebind registered]. split; [reflexivity|]. split; [reflexivity|]. unfold ao_ip. cbn [ao_auto]. unfold add_target. cbn [au_ip]. rewrite update_ip. exact N2.
      + eexists. cbn -[new_ip rebind registered]. split; reflexivity.
    - rewrite map_app, app_assoc. cbn [map fst snd]. rewrite run_snoc. set (p := run (imported hash e1 e2 o) _) in *. destruct IH as (R & (a & Ha & Fa & Za) & s & Hs & Es).
      assert (inv False p) as I by (apply imported_inv; intros []). pose proof (i_good _ _ I) as G.
      pose proof (inv_step False p (PHup env outs) I (fun x => match x with end)) as I'. cbn [p_step] in *.
      pose proof (update_list_spec env (reg (p_reg p)) (p_reg p) (g_nodup _ G) (g_range _ G)) as (H1 & _ & _ & H4 & _).
      assert (nth_error (objs (p_reg (hup env outs p))) 2 = Some a) as Hb.
      { rewrite hup_reg. unfold update_addresses. rewrite H4; [exact Ha|]. rewrite R. intros [X|[]]. discriminate. }
      split; [rewrite hup_reg; unfold update_addresses; rewrite H1; exact R|]. split; [eauto|].
      assert (In 1%nat (au_targets (ao_auto a))) as T by (apply (i_targets _ p I 2 a 1 Ha); eauto). apply (i_targets _ _ I' 2 a 1 Hb) in T. exact T. }
  exists s. split; [exact Hs|]. destruct (C104_bound_to_address e1 e2 o _ 1%nat s V4 0 Hs) as [K _].
  - rewrite Es. cbn [value]. rewrite Ha. cbn. rewrite Fa, Za. reflexivity.
  - destruct (as_sock (us_sock s)) as [id|]; [|reflexivity]. destruct K as [_ K]; [congruence|]. apply usable_spec in K. rewrite zero_not_usable in K. discriminate.
Qed.
End P.

(** The statement users would expect: every open UDP socket of the process is one main() made and reads *)
Theorem C104_refuted : ~ (forall hash e1 e2 o h k z port, bound_to (p_run hash (imported hash e1 e2 o) h) k z port -> exists a, In (a, port) (sockets_of h)).
Proof.
  intros H. assert (interface_address V4 (has_addr V4 vlan2) (ip4 192 0 2 1)) as A by (apply (new_ip_spec V4 (has_addr V4 vlan2))).
  destruct (C104_leftover_socket (fun n => n) has_addr has_addr (BindOk 1) [] has_addr (fun _ => BindOk 1)) as [_ K]; [eauto|constructor; [|constructor]; cbn; eauto|].
  destruct (H (fun n => n) has_addr has_addr (BindOk 1) [] 0%nat (ip4 192 0 2 1) 4342) as [a []]. apply K; [exact A|discriminate].
Qed.
(** ** A case: interface 7 comes up after the start; after a SIGHUP the socket is on its address *)
Example C104_ex :
  let h := [PGet V4 7 no_addr; PSocket (UAuto 2) 4342 (BindOk 1); PHup no_addr (fun _ => BindOk 2)] in
  let p := p_run (fun n => n) (imported (fun n => n) no_addr no_addr NoSocket) h in
  In (PGet V4 7 no_addr) h /\ names_apart (fun n => n) h /\ (forall n' env', In (PNew V4 n' env') h -> n' <> 7) /\ 7 <> vlan2 /\
  made_for p 1 (snd (get_address (fun n => n) has_addr V4 7 (p_reg p))) 4342 /\ Forall binds (h ++ [PHup has_addr (fun _ => BindOk 3)]) /\
  closed p 1 /\ bound_to (hup has_addr (fun _ => BindOk 3) p) 1 (ip4 192 0 2 1) 4342.
Proof.
  cbn zeta. split; [left; reflexivity|]. split; [intros v1 n1 g1 v2 n2 g2 _ _ X; exact X|]. split; [intros n' g [X|[X|[X|[]]]]; discriminate|].
  split; [discriminate|]. split; [eexists; vm_compute; repeat split; reflexivity|]. split.
  - constructor; [exact Logic.I|]. constructor; [cbn; eauto|]. constructor; [cbn; eauto|]. constructor; [cbn; eauto|constructor].
  - split; [eexists; vm_compute; split; reflexivity|]. eexists. exists 3%nat. vm_compute. repeat split; reflexivity.
Qed.
Example C104_no_address_ex : no_address no_addr V4 vlan2 /\ ~ no_address has_addr V4 vlan2.
Proof.
  split; [apply (new_ip_spec V4 (no_addr V4 vlan2))|]. intros X. pose proof (C64_deterministic V4 _ _ _ X (new_ip_spec V4 (has_addr V4 vlan2))) as E. discriminate E.
Qed.
Print Assumptions C104_bound_to_address.
Print Assumptions C104_sighup.
Print Assumptions C104_sighup_vlan2_partial.
Print Assumptions C104_leftover_socket.
Print Assumptions C104_only_made_partial.
Print Assumptions C104_two_sockets.
Print Assumptions C104_vlan2_refuted.
Print Assumptions C104_refuted.
