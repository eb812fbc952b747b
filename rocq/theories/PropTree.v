(** * Properties C46-C50 and C70: the address tree *)
From Coq Require Import Permutation.
From Verif Require Import Base BaseLemmas Afi Spec Tree SpecTree TreeProofs.

(** ** C46: longest-prefix match *)
Lemma climbs_in l n : climbs l n -> forall x, In x l -> in_tree x n.
Proof.
  intros H. assert (forall x r, l = x :: r -> in_tree x n /\ forall y, In y r -> in_tree y n) as G.
  { induction H as [r|x y l r Hx H IH]; intros a t E; injection E as <- <-.
    - split; [apply it_self|intros y []].
    - destruct (IH _ _ eq_refl) as [Hy Hl]. split.
      + eapply in_tree_trans; [|exact Hy]. eapply it_below; [exact Hx|apply it_self].
      + intros z [<-|Hz]; auto. }
  intros x Hx. destruct l as [|a r]; [destruct Hx|]. destruct (G _ _ eq_refl) as [Ha Hr].
  destruct Hx as [<-|Hx]; auto.
Qed.

Lemma climbs_order l n : climbs l n -> tidy n ->
  forall l1 x l2 y l3, l = l1 ++ x :: l2 ++ y :: l3 -> inside (n_pfx x) (n_pfx y).
Proof.
  intros H T. pose proof (climbs_in _ _ H) as Hin.
  assert (forall x r, l = x :: r -> forall y, In y r -> inside (n_pfx x) (n_pfx y)) as Hhd.
  { clear Hin. induction H as [r|x y l r Hx H IH]; intros a t E; injection E as <- <-; [intros z []|].
    specialize (IH T). assert (inside (n_pfx x) (n_pfx y)) as Hxy.
    { assert (tidy y) as Ty by (eapply tidy_in; [exact T|]; eapply climbs_in; [exact H|left; reflexivity]).
      apply tidy_inv in Ty. apply Ty, Hx. }
    intros z [<-|Hz]; [exact Hxy|]. eapply inside_trans; [exact Hxy|]. eapply IH; [reflexivity|exact Hz]. }
  clear Hin. induction H as [r|x y l r Hx H IH]; intros l1 a l2 b l3 E.
  - destruct l1 as [|? [|]]; try discriminate. destruct l2; discriminate.
  - destruct l1 as [|z l1].
    + injection E as -> E. eapply Hhd; [reflexivity|]. rewrite E. apply in_or_app. right; left; reflexivity.
    + injection E as -> E. eapply IH; [exact T| |exact E].
      intros x0 r0 E0 y0 Hy0. injection E0 as <- <-. clear - H T Hy0.
      (* the tail is again a climb *)
      assert (forall l n, climbs l n -> tidy n -> forall x r, l = x :: r -> forall y, In y r -> inside (n_pfx x) (n_pfx y)) as G.
      { clear. intros l n H T. induction H as [r|x y l r Hx H IH]; intros a t E; injection E as <- <-; [intros z []|].
        specialize (IH T). assert (inside (n_pfx x) (n_pfx y)) as Hxy.
        { assert (tidy y) as Ty by (eapply tidy_in; [exact T|]; eapply climbs_in; [exact H|left; reflexivity]).
          apply tidy_inv in Ty. apply Ty, Hx. }
        intros z [<-|Hz]; [exact Hxy|]. eapply inside_trans; [exact Hxy|]. eapply IH; [reflexivity|exact Hz]. }
      eapply G; [exact H|exact T|reflexivity|exact Hy0].
Qed.

Lemma climbs_last l n : climbs l n -> exists l', l = l' ++ [n].
Proof.
  intros H. induction H as [r|x y l r Hx H (l' & IH)]; [exists []; reflexivity|].
  exists (x :: l'). rewrite IH. reflexivity.
Qed.

Theorem C46_longest_prefix_match n q : tidy n -> wf_pfx q -> inside q (n_pfx n) ->
  (crowded n q <-> resolve_path n q = Err EMoreSpecifics) /\
  (~ crowded n q -> exists x l, resolve_path n q = Ok (x :: l) /\ resolve n q = Ok x /\
     (* exactly the covering nodes *)
     (forall y, In y (x :: l) <-> in_tree y n /\ inside q (n_pfx y)) /\
     (* most specific first, each one below the next, the node asked last *)
     (forall y, In y l -> inside (n_pfx x) (n_pfx y)) /\
     (forall l1 y l2 z l3, x :: l = l1 ++ y :: l2 ++ z :: l3 -> inside (n_pfx y) (n_pfx z)) /\
     climbs (x :: l) n /\ (exists l', x :: l = l' ++ [n])).
Proof.
  intros T Hq Hi. pose proof (resolve_path_tidy n T q Hq Hi) as H. unfold resolve.
  destruct (resolve_path n q) as [l|e] eqn:E.
  - destruct H as (Hc & Hl & Hn). split; [split; [intros C; contradiction|discriminate]|]. intros _.
    destruct l as [|x l]; [inversion Hc|]. exists x, l. cbn [bind].
    split; [reflexivity|]. split; [reflexivity|]. split; [exact Hl|]. split.
    { intros y Hy. apply in_split in Hy. destruct Hy as (l1 & l2 & ->).
      eapply (climbs_order _ _ Hc T [] x l1 y l2). reflexivity. }
    split; [apply climbs_order with (n := n); auto|]. split; [exact Hc|]. apply climbs_last, Hc.
  - destruct H as [-> Hc]. split; [split; auto|]. intros N. contradiction.
Qed.

(** for a single address two siblings never both match *)
Lemma host_not_crowded n v z : tidy n -> 0 <= z < 2 ^ wz v -> ~ crowded n (host v z).
Proof.
  intros T Hz (y & l1 & c1 & l2 & c2 & l3 & Hy & Hiy & Ech & Ha & Hb).
  pose proof (tidy_in _ _ T Hy) as Ty. apply tidy_inv in Ty. destruct Ty as (_ & _ & Hord & _ & Htd).
  assert (forall c, In c (n_ch y) -> ~ apart (host v z) (n_pfx c) -> in_pfx (n_pfx c) v z) as Hc.
  { intros c Hc Hn. apply inside_host. pose proof (host_wf v z Hz) as Hh.
    assert (wf_pfx (n_pfx c)) as Hw by (apply (tidy_inv c), Htd, Hc).
    destruct (nested _ _ Hh Hw Hn) as [G|G]; [exact G|].
    (* the child's prefix is inside a single address *)
    pose proof (G _ _ (in_first _ Hw)) as G1. destruct (proj1 (in_host _ _ _ _) G1) as [E1 E2].
    apply inside_host. rewrite <- E1, <- E2. apply in_first, Hw. }
  assert (In c1 (n_ch y)) as I1 by (rewrite Ech; apply in_or_app; right; left; reflexivity).
  assert (In c2 (n_ch y)) as I2 by (rewrite Ech; apply in_or_app; right; right; apply in_or_app; right; left; reflexivity).
  assert (apart (n_pfx c1) (n_pfx c2)) as A.
  { rewrite Ech in Hord. clear - Hord. induction l1 as [|a l1 IH]; cbn in Hord.
    - inversion Hord as [|? ? Hf Hr]; subst. rewrite Forall_forall in Hf. apply Hf. apply in_or_app. right; left; reflexivity.
    - inversion Hord; auto. }
  apply (A v z). auto.
Qed.

Theorem C46_address_lookup n v z : tidy n -> 0 <= z < 2 ^ wz v -> in_pfx (n_pfx n) v z ->
  exists x l, resolve_path n (host v z) = Ok (x :: l) /\ resolve n (host v z) = Ok x /\
    (forall y, In y (x :: l) <-> in_tree y n /\ in_pfx (n_pfx y) v z) /\
    (forall y, in_tree y n -> in_pfx (n_pfx y) v z -> inside (n_pfx x) (n_pfx y)) /\
    (forall l1 y l2 z l3, x :: l = l1 ++ y :: l2 ++ z :: l3 -> inside (n_pfx y) (n_pfx z)) /\
    climbs (x :: l) n /\ (exists l', x :: l = l' ++ [n]).
Proof.
  intros T Hz Hi.
  destruct (C46_longest_prefix_match n (host v z) T (host_wf v z Hz) (proj2 (inside_host v z _) Hi)) as [_ H].
  destruct (H (host_not_crowded n v z T Hz)) as (x & l & E1 & E2 & H1 & H2 & H3 & H4).
  assert (forall y, In y (x :: l) <-> in_tree y n /\ in_pfx (n_pfx y) v z) as H1'.
  { intros y. rewrite H1, inside_host. tauto. }
  exists x, l. split; [exact E1|]. split; [exact E2|]. split; [exact H1'|]. split; [|auto].
  intros y Hy Hv. destruct (proj2 (H1' y) (conj Hy Hv)) as [<-|Hin]; [apply inside_refl|apply H2, Hin].
Qed.

(** *** the order in which Python iterates over the children does not matter, in any tree *)
Lemma same_inv a b : same_tree a b ->
  n_id a = n_id b /\ n_pfx a = n_pfx b /\ n_cls a = n_cls b /\
  exists ch1, Permutation (n_ch a) ch1 /\ Forall2 same_tree ch1 (n_ch b).
Proof. intros [i p c ch ch1 ch' H1 H2]. cbn. eauto 10. Qed.

Lemma Permutation_filter' {A} (f : A -> bool) l l' : Permutation l l' -> Permutation (filter f l) (filter f l').
Proof.
  intros H. induction H as [|x l l' H IH|x y l|l l' l'' H1 IH1 H2 IH2]; cbn; auto.
  - destruct (f x); auto.
  - destruct (f x), (f y); auto. apply perm_swap.
  - etransitivity; eauto.
Qed.

Lemma Forall2_filter' {A} (R : A -> A -> Prop) (f : A -> bool) l l' :
  (forall a b, R a b -> f a = f b) -> Forall2 R l l' -> Forall2 R (filter f l) (filter f l').
Proof.
  intros Hf H. induction H as [|a b l l' Hab H IH]; cbn; [constructor|].
  rewrite <- (Hf _ _ Hab). destruct (f a); auto.
Qed.

Lemma path_nonempty n q : resolve_path n q <> Ok [].
Proof.
  destruct n as [i p c ch]. cbn [resolve_path]. destruct (guard _ _); cbn [bind]; [|discriminate].
  destruct (filter _ _) as [|[x r] [|]]; [discriminate| |discriminate]. destruct (_ && _); [|discriminate].
  destruct (is_container x); [|discriminate]. destruct r as [l|]; cbn [bind]; [|discriminate]. destruct l; discriminate.
Qed.
(** the lookup of the daemon in INSTANCES (utils/prefix.py): nothing for an instance or family that is not configured,
    otherwise what the tree gives; [resolve] gives the first of [resolve_path] *)
Theorem C46_instances cfg iid afi q :
  ((forall n, root_of cfg iid afi <> Some n) -> g_resolve_path cfg iid afi q = Ok None /\ g_resolve cfg iid afi q = Ok None) /\
  forall n, root_of cfg iid afi = Some n ->
    (forall l, resolve_path n q = Ok l -> g_resolve_path cfg iid afi q = Ok (Some l) /\
       exists x l', l = x :: l' /\ g_resolve cfg iid afi q = Ok (Some x)) /\
    (forall e, resolve_path n q = Err e -> g_resolve_path cfg iid afi q = Err e /\ g_resolve cfg iid afi q = Err e).
Proof.
  unfold g_resolve_path, g_resolve. split.
  - intros H. destruct (root_of cfg iid afi) as [n|]; [destruct (H n eq_refl)|auto].
  - intros n ->. unfold resolve. split.
    + intros l E. rewrite E. cbn [bind]. split; [reflexivity|]. destruct l as [|x l]; [destruct (path_nonempty _ _ E)|]. exists x, l. auto.
    + intros e ->. cbn [bind]. auto.
Qed.
Theorem C46_order_independent a b q : same_tree a b ->
  match resolve_path a q, resolve_path b q with
  | Ok l, Ok l' => Forall2 same_tree l l'
  | Err e, Err e' => e = e'
  | _, _ => False
  end.
Proof.
  revert b. induction a as [i p c ch IH] using node_ind'. intros b H. pose proof H as Hab.
  destruct (same_inv _ _ H) as (_ & Ep & Ec & ch1 & P & F). cbn [n_pfx n_cls n_ch] in Ep, Ec, P.
  rewrite (resolve_path_eq (Node i p c ch)), (resolve_path_eq b). unfold find_one, find_all.
  rewrite <- Ep. cbn [n_pfx n_ch]. destruct (guard _ _); cbn [bind]; [|reflexivity].
  set (f := fun c => overlaps q (n_pfx c)).
  assert (Forall2 same_tree (filter f ch1) (filter f (n_ch b))) as F'.
  { apply Forall2_filter'; [|exact F]. intros x y Hxy. apply same_inv in Hxy. unfold f. destruct Hxy as (_ & -> & _). reflexivity. }
  pose proof (Permutation_filter' f _ _ P) as P'.
  assert (forall x, In x (filter f ch1) -> In x ch) as Hin.
  { intros x Hx. apply filter_In in Hx. eapply Permutation_in; [symmetry; exact P|apply Hx]. }
  destruct (filter f ch) as [|x [|y r]] eqn:E1.
  - apply Permutation_nil in P'. rewrite P' in F'. inversion F'; subst. cbn [bind]. constructor; [exact Hab|constructor].
  - apply Permutation_length_1_inv in P'. rewrite P' in F', Hin.
    inversion F' as [|? y ? r Hxy Hr]; subst. inversion Hr; subst.
    destruct (same_inv _ _ Hxy) as (_ & Epx & Ecx & _). rewrite <- Epx.
    destruct (_ && _); cbn [bind]; [|constructor; [exact Hab|constructor]].
    assert (is_container x = is_container y) as Eic by (unfold is_container; rewrite Ecx; reflexivity). rewrite <- Eic.
    destruct (is_container x).
    + specialize (IH x (Hin x (or_introl eq_refl)) y Hxy).
      destruct (resolve_path x q), (resolve_path y q); cbn [bind]; auto; try contradiction.
      apply Forall2_app; [exact IH|]. constructor; [exact Hab|constructor].
    + constructor; [exact Hxy|]. constructor; [exact Hab|constructor].
  - pose proof (Permutation_length P') as L. cbn [length] in L.
    destruct (filter f ch1) as [|x1 [|x2 r1]]; try discriminate.
    inversion F' as [|? y1 ? r2 _ Hr Ea Eb]; subst. inversion Hr; subst. cbn [bind]. reflexivity.
Qed.

(** ** C48: authority *)
Lemma find_all_err n q e : find_all n q = Err e -> e = ENotAuth /\ inside_test (n_pfx n) q = false.
Proof. unfold find_all. destruct (inside_test _ _); cbn; intros H; [discriminate|]. injection H as <-. auto. Qed.

Lemma inside_test_false p q : wf_pfx p -> wf_pfx q -> inside_test p q = false <-> ~ inside q p.
Proof.
  intros Hp Hq. rewrite <- (inside_test_spec p q Hp Hq). destruct (inside_test p q); split; intros; congruence.
Qed.

Theorem C48_authority n q : all_wf n -> wf_pfx q ->
  (find_all n q = Err ENotAuth <-> ~ inside q (n_pfx n)) /\
  (find_one n q = Err ENotAuth <-> ~ inside q (n_pfx n)) /\
  (find_exact n q = Err ENotAuth <-> ~ inside q (n_pfx n)) /\
  (resolve_path n q = Err ENotAuth <-> ~ inside q (n_pfx n)) /\
  (resolve n q = Err ENotAuth <-> ~ inside q (n_pfx n)) /\
  (forall c, n_pfx c = q -> snd (add n c) = Err ENotAuth <-> ~ inside q (n_pfx n)) /\
  (contains n (ByNet q) = Err ENotAuth <-> ~ inside q (n_pfx n)) /\
  (snd (discard n (ByNet q)) = Err ENotAuth <-> ~ inside q (n_pfx n)) /\
  (snd (remove n (ByNet q)) = Err ENotAuth <-> ~ inside q (n_pfx n)).
Proof.
  intros Hw Hq.
  assert (forall n, wf_pfx (n_pfx n) -> find_all n q = Err ENotAuth <-> ~ inside q (n_pfx n)) as HA.
  { intros m Hm. rewrite <- inside_test_false by assumption. unfold find_all. destruct (inside_test _ _); cbn; split; congruence. }
  assert (wf_pfx (n_pfx n)) as Hn by apply Hw, it_self.
  assert (forall n, wf_pfx (n_pfx n) -> find_one n q = Err ENotAuth <-> ~ inside q (n_pfx n)) as HO.
  { intros m Hm. rewrite <- HA by exact Hm. unfold find_one. destruct (find_all m q) as [l|e]; cbn; [|split; congruence].
    destruct l as [|c [|d r]]; try (split; discriminate). destruct (_ && _); split; discriminate. }
  assert (find_exact n q = Err ENotAuth <-> ~ inside q (n_pfx n)) as HE.
  { rewrite <- HA by exact Hn. unfold find_exact. destruct (find_all n q) as [l|e]; cbn; [|split; congruence].
    destruct l as [|c [|d r]]; try (split; discriminate). destruct (pfx_eqb _ _); split; discriminate. }
  assert (resolve_path n q = Err ENotAuth <-> ~ inside q (n_pfx n)) as HR.
  { clear HE. revert Hw Hn. induction n as [i p k ch IH] using node_ind'. intros Hw Hn.
    rewrite <- HO by exact Hn. rewrite resolve_path_eq. destruct (find_one _ q) as [[c|]|e] eqn:Ef; cbn [bind]; try (split; congruence).
    split; [|discriminate]. intros H.
    assert (In c ch /\ inside q (n_pfx c)) as [Hc Hi].
    { unfold find_one, find_all in Ef. cbn [n_pfx n_ch] in Ef. destruct (inside_test p q); [|discriminate]. cbn [guard bind] in Ef.
      destruct (filter _ ch) as [|d [|]] eqn:EF; try discriminate. destruct (_ && _) eqn:EC; [|discriminate].
      injection Ef as ->. apply filter_one in EF. destruct EF as (Hc & Ho & _). split; [exact Hc|].
      assert (wf_pfx (n_pfx c)) as Hwc by (apply Hw; eapply it_below; [exact Hc|apply it_self]).
      apply overlaps_spec in Ho; auto. apply covers_test in EC; auto. }
    destruct (is_container c); [|discriminate].
    assert (resolve_path c q = Err ENotAuth) as Hr by (destruct (resolve_path c q); cbn in H; [discriminate|congruence]).
    apply (IH c Hc) in Hr; [contradiction| |].
    - intros x Hx. apply Hw. eapply it_below; [exact Hc|exact Hx].
    - apply Hw. eapply it_below; [exact Hc|apply it_self]. }
  split; [auto|]. split; [auto|]. split; [exact HE|]. split; [exact HR|].
  split.
  { rewrite <- HR. unfold resolve. destruct (resolve_path n q) as [[|x l]|e]; cbn; split; congruence. }
  assert (inside q (n_pfx n) -> find_all n q = Err ENotAuth -> False) as HX by (intros G1 G2; apply HA in G2; auto).
  split.
  { intros c Ec. unfold add. rewrite Ec. destruct (inside_test (n_pfx n) q) eqn:Et; cbn [negb].
    - assert (inside q (n_pfx n)) as Hi by (apply inside_test_spec; auto). split; [|tauto]. intros H. exfalso.
      destruct (find_exact n q) as [[x|]|e] eqn:Ee; cbn in H.
      + discriminate.
      + destruct (find_all n q) as [[|x l]|e] eqn:Ea; cbn in H; try discriminate. injection H as ->. exact (HX Hi eq_refl).
      + injection H as ->. exact (proj1 HE eq_refl Hi).
    - apply inside_test_false in Et; auto. cbn. tauto. }
  split.
  { rewrite <- HE. unfold contains. destruct (find_exact n q); cbn; split; intros; congruence. }
  assert (snd (discard n (ByNet q)) = Err ENotAuth <-> ~ inside q (n_pfx n)) as HD.
  { rewrite <- HE. unfold discard. destruct (find_exact n q) as [[x|]|e]; cbn; split; intros; congruence. }
  split; [exact HD|]. rewrite <- HD. unfold remove. destruct (discard n (ByNet q)) as [n' [u|e]]; cbn [snd]; [|tauto].
  destruct (negb _); cbn; split; intros; discriminate.
Qed.

(** ... and refused calls change nothing *)
Theorem C48_refused_add n c e : snd (add n c) = Err e -> fst (add n c) = n.
Proof.
  unfold add. destruct (negb _); cbn; [reflexivity|]. destruct (find_exact n _) as [[x|]|]; cbn; [discriminate| |reflexivity].
  destruct (find_all n _) as [[|]|]; cbn; try reflexivity. discriminate.
Qed.
