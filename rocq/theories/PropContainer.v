(** * C119: the children of a container by prefix and by object
    (find_all, find_exact, [in], add, discard and clear of container_node.py) *)
From Verif Require Import Base BaseLemmas Afi Spec Tree SpecTree TreeProofs PropTree PropTree2.

Lemma apart_irrefl p : wf_pfx p -> ~ apart p p.
Proof. intros W. apply inside_not_apart; [exact W|apply inside_refl]. Qed.
Lemma FOP_in {A} (R : A -> A -> Prop) (l : list A) a b : ForallOrdPairs R l -> In a l -> In b l -> a = b \/ R a b \/ R b a.
Proof.
  induction 1 as [|x l F H IH]; intros Ia Ib; [destruct Ia|]. rewrite Forall_forall in F.
  destruct Ia as [<-|Ia], Ib as [<-|Ib]; auto.
Qed.

(** find_all: the children that have an address in common with the prefix *)
Theorem C119_find_all : forall n q, tidy n -> wf_pfx q -> inside q (n_pfx n) ->
  exists l, find_all n q = Ok l /\ forall c, In c l <-> In c (n_ch n) /\ ~ apart q (n_pfx c).
Proof.
  intros n q T W I. destruct (tidy_inv n T) as (Wn & _ & _ & In' & Tc). unfold find_all.
  rewrite (proj2 (inside_test_spec _ _ Wn W) I). cbn [guard bind]. eexists. split; [reflexivity|].
  intros c. rewrite filter_In. split; intros [H1 H2]; (split; [exact H1|]).
  - apply overlaps_spec; [exact W|apply (tidy_inv c (Tc c H1))|exact H2].
  - apply overlaps_spec; [exact W|apply (tidy_inv c (Tc c H1))|exact H2].
Qed.

Lemma find_exact_iff n q : tidy n -> wf_pfx q -> inside q (n_pfx n) ->
  exists o, find_exact n q = Ok o /\ forall c, o = Some c <-> In c (n_ch n) /\ n_pfx c = q.
Proof.
  intros T W I. destruct (C119_find_all n q T W I) as (l & E & HL). destruct (tidy_inv n T) as (_ & _ & FO & _ & _).
  unfold find_exact. rewrite E. cbn [bind].
  assert (forall c, In c (n_ch n) -> n_pfx c = q -> forall x, In x l -> x = c) as U.
  { intros c Hc Ec x Hx. apply HL in Hx. destruct Hx as [Hx Ax]. destruct (FOP_in _ _ x c FO Hx Hc) as [Q|[Q|Q]]; [exact Q| |].
    - exfalso. apply Ax. rewrite <- Ec. apply apart_sym. exact Q.
    - exfalso. apply Ax. rewrite <- Ec. exact Q. }
  assert (forall c, In c (n_ch n) -> n_pfx c = q -> In c l) as V.
  { intros c Hc Ec. apply HL. split; [exact Hc|]. rewrite Ec. apply apart_irrefl, W. }
  assert (forall a b (m : list node), l = a :: b :: m -> forall c, ~ (In c (n_ch n) /\ n_pfx c = q)) as N2.
  { intros a b m El c [Hc Ec]. pose proof (U c Hc Ec a) as Ea. pose proof (U c Hc Ec b) as Eb. rewrite El in Ea, Eb.
    specialize (Ea (or_introl eq_refl)). specialize (Eb (or_intror (or_introl eq_refl))).
    unfold find_all in E. destruct (guard _ _); [|discriminate]. cbn [bind] in E. injection E as E. rewrite El in E.
    destruct (filter_two _ _ _ _ _ E) as (l1 & l2 & l3 & EC & _). subst a b. rewrite EC in FO. clear - FO W Ec.
    induction l1 as [|y l1 IH]; [|inversion FO; auto]. cbn in FO. inversion FO as [|? ? F _]. rewrite Forall_forall in F.
    rewrite <- Ec in W. apply (apart_irrefl _ W). apply F. apply in_or_app. right. left. reflexivity. }
  destruct l as [|c0 [|c1 l]].
  - exists None. split; [reflexivity|]. intros c. split; [discriminate|]. intros [Hc Ec]. destruct (V c Hc Ec).
  - destruct (pfx_eqb (n_pfx c0) q) eqn:Eq.
    + apply pfx_eqb_spec in Eq. exists (Some c0). split; [reflexivity|]. intros c. split.
      * intros [= <-]. split; [apply HL; left; reflexivity|exact Eq].
      * intros [Hc Ec]. rewrite (U c Hc Ec c0 (or_introl eq_refl)). reflexivity.
    + exists None. split; [reflexivity|]. intros c. split; [discriminate|]. intros [Hc Ec]. rewrite (U c Hc Ec c0 (or_introl eq_refl)) in Eq.
      rewrite (proj2 (pfx_eqb_spec _ _) Ec) in Eq. discriminate.
  - exists None. split; [reflexivity|]. intros c. split; [discriminate|]. intros H. destruct (N2 _ _ _ eq_refl c H).
Qed.

(** ** By prefix *)
Theorem C119_by_prefix : forall n q, tidy n -> wf_pfx q -> inside q (n_pfx n) ->
  (forall c, find_exact n q = Ok (Some c) <-> In c (n_ch n) /\ n_pfx c = q) /\
  (find_exact n q = Ok None <-> forall c, In c (n_ch n) -> n_pfx c <> q) /\
  (contains n (ByNet q) = Ok true <-> exists c, In c (n_ch n) /\ n_pfx c = q) /\
  (contains n (ByNet q) = Ok false <-> forall c, In c (n_ch n) -> n_pfx c <> q) /\
  (NoDup (map n_id (n_ch n)) ->
   snd (discard n (ByNet q)) = Ok tt /\ n_pfx (fst (discard n (ByNet q))) = n_pfx n /\
   forall c, In c (n_ch (fst (discard n (ByNet q)))) <-> In c (n_ch n) /\ n_pfx c <> q).
Proof.
  intros n q T W I. destruct (find_exact_iff n q T W I) as (o & E & HO). unfold contains, discard. rewrite E. cbn [bind].
  split; [|split; [|split; [|split]]].
  - intros c. rewrite <- HO. split; congruence.
  - split.
    + intros [= ->] c Hc Ec. assert (None = Some c) by (apply HO; auto). discriminate.
    + intros N. destruct o as [c|]; [|reflexivity]. destruct (proj1 (HO c) eq_refl) as [Hc Ec]. destruct (N c Hc Ec).
  - split.
    + destruct o as [c|]; [|discriminate]. intros _. exists c. apply HO. reflexivity.
    + intros (c & Hc). apply HO in Hc. subst o. reflexivity.
  - split.
    + destruct o as [c|]; [discriminate|]. intros _ c Hc Ec. assert (None = Some c) by (apply HO; auto). discriminate.
    + intros N. destruct o as [c|]; [|reflexivity]. destruct (proj1 (HO c) eq_refl) as [Hc Ec]. destruct (N c Hc Ec).
  - intros ND. destruct o as [c0|]; cbn [fst snd].
    + split; [reflexivity|]. split; [apply n_pfx_set|]. rewrite n_ch_set. destruct (proj1 (HO c0) eq_refl) as [H0 E0].
      intros c. unfold drop_id. rewrite filter_In, negb_true_iff, Nat.eqb_neq. split; intros [Hc N]; (split; [exact Hc|]).
      * intros Ec. apply N. assert (Some c0 = Some c) as X by (apply HO; auto). injection X as ->. reflexivity.
      * intros Ei. apply N. rewrite <- E0. f_equal. clear - ND Hc H0 Ei. revert ND Hc H0. induction (n_ch n) as [|x l IH]; intros ND Hc H0; [destruct Hc|].
        cbn [map] in ND. inversion ND as [|? ? NI ND']. destruct Hc as [<-|Hc], H0 as [<-|H0]; auto.
        -- exfalso. apply NI. rewrite Ei. apply in_map, H0.
        -- exfalso. apply NI. rewrite <- Ei. apply in_map, Hc.
    + split; [reflexivity|]. split; [reflexivity|]. intros c. split; [|tauto]. intros Hc. split; [exact Hc|]. intros Ec.
      assert (None = Some c) by (apply HO; auto). discriminate.
Qed.

(** ** By object, in any container *)
Theorem C119_by_node : forall n c,
  (contains n (ByNode c) = Ok true <-> exists x, In x (n_ch n) /\ n_id x = n_id c) /\
  (contains n (ByNode c) = Ok false <-> forall x, In x (n_ch n) -> n_id x <> n_id c) /\
  snd (discard n (ByNode c)) = Ok tt /\ n_pfx (fst (discard n (ByNode c))) = n_pfx n /\
  (forall x, In x (n_ch (fst (discard n (ByNode c)))) <-> In x (n_ch n) /\ n_id x <> n_id c) /\
  n_ch (clear n) = [] /\ n_pfx (clear n) = n_pfx n.
Proof.
  intros n c. cbn [contains discard fst snd]. unfold has_id.
  split; [|split; [|split; [|split; [|split; [|split]]]]].
  - split.
    + intros [= H]. apply existsb_exists in H. destruct H as (x & Hx & E). apply Nat.eqb_eq in E. eauto.
    + intros (x & Hx & E). f_equal. apply existsb_exists. exists x. split; [exact Hx|]. apply Nat.eqb_eq, E.
  - split.
    + intros [= H] x Hx E. assert (existsb (fun x => Nat.eqb (n_id x) (n_id c)) (n_ch n) = true) as X; [|congruence].
      apply existsb_exists. exists x. split; [exact Hx|]. apply Nat.eqb_eq, E.
    + intros N. f_equal. apply not_true_iff_false. intros H. apply existsb_exists in H. destruct H as (x & Hx & E). apply Nat.eqb_eq in E. exact (N x Hx E).
  - reflexivity.
  - apply n_pfx_set.
  - intros x. rewrite n_ch_set. unfold drop_id. rewrite filter_In, negb_true_iff, Nat.eqb_neq. reflexivity.
  - apply n_ch_set.
  - apply n_pfx_set.
Qed.

(** ** What was added is there: a node whose prefix is inside the container's and has nothing in common with the children's *)
Theorem C119_added : forall n c, tidy n -> wf_pfx (n_pfx c) -> inside (n_pfx c) (n_pfx n) ->
  (forall x, In x (n_ch n) -> apart (n_pfx c) (n_pfx x)) -> (forall x, In x (n_ch n) -> n_id x <> n_id c) ->
  snd (add n c) = Ok tt /\ n_pfx (fst (add n c)) = n_pfx n /\
  (forall x, In x (n_ch (fst (add n c))) <-> x = c \/ In x (n_ch n)) /\
  contains (fst (add n c)) (ByNode c) = Ok true /\ (tidy c -> is_container n = true -> contains (fst (add n c)) (ByNet (n_pfx c)) = Ok true).
Proof.
  intros n c T W I NO NI. destruct (tidy_inv n T) as (Wn & CT & FO & IC & TC).
  destruct (C119_find_all n (n_pfx c) T W I) as (l & E & HL).
  assert (l = []) as ->. { destruct l as [|x l]; [reflexivity|]. destruct (proj1 (HL x) (or_introl eq_refl)) as [Hx N]. destruct (N (NO x Hx)). }
  assert (add n c = (set_ch n (c :: n_ch n), Ok tt)) as EA.
  { unfold add. rewrite (proj2 (inside_test_spec _ _ Wn W) I). cbn [negb]. unfold find_exact. rewrite E. cbn [bind].
    assert (has_id (n_ch n) c = false) as ->; [|reflexivity].
    apply not_true_iff_false. intros H. apply existsb_exists in H. destruct H as (x & Hx & Ex). apply Nat.eqb_eq in Ex. exact (NI x Hx Ex). }
  rewrite EA. cbn [fst snd]. rewrite n_pfx_set, n_ch_set. split; [reflexivity|]. split; [reflexivity|]. split; [|split].
  - intros x. split; [intros [<-|H]; auto|intros [->|H]; [left; reflexivity|right; exact H]].
  - apply C119_by_node. exists c. rewrite n_ch_set. split; [left; reflexivity|reflexivity].
  - intros Tc Cn. assert (tidy (set_ch n (c :: n_ch n))) as T'.
    { destruct n as [i p k ch]. cbn [set_ch n_ch n_pfx] in *. constructor; auto.
      - intros X. exfalso. unfold is_container in *. cbn [n_cls] in *. congruence.
      - constructor; [|exact FO]. rewrite Forall_forall. exact NO.
      - intros x [<-|Hx]; auto.
      - intros x [<-|Hx]; auto. }
    apply (C119_by_prefix (set_ch n (c :: n_ch n)) (n_pfx c) T' W); [rewrite n_pfx_set; exact I|]. exists c. rewrite n_ch_set. split; [left; reflexivity|reflexivity].
Qed.

(** ** Non-vacuity *)
Example C119_example : tidy ex_root /\ NoDup (map n_id (n_ch ex_root)) /\
  exists c, In c (n_ch ex_root) /\ contains ex_root (ByNet (n_pfx c)) = Ok true /\ contains (fst (discard ex_root (ByNet (n_pfx c)))) (ByNet (n_pfx c)) = Ok false.
Proof.
  split; [exact ex_root_tidy|]. split; [repeat constructor; cbn; intuition discriminate|].
  eexists. split; [left; reflexivity|]. split; vm_compute; reflexivity.
Qed.

Print Assumptions C119_find_all.
Print Assumptions C119_by_prefix.
Print Assumptions C119_by_node.
Print Assumptions C119_added.
