(** * Prefix arithmetic and lookups *)
From Coq Require Import Permutation.
From Verif Require Import Base BaseLemmas Afi Spec Tree SpecTree.

Lemma fam_eqb_spec a b : fam_eqb a b = true <-> a = b.
Proof. destruct a, b; cbn; split; congruence. Qed.

Lemma wz_pos v : 0 < wz v.
Proof. destruct v; cbn; lia. Qed.

Definition blk (p : pfx) : Z := 2 ^ (wz (x_fam p) - x_len p).
Lemma blk_pos p : wf_pfx p -> 0 < blk p.
Proof. intros [H _]. unfold blk. apply Z.pow_pos_nonneg; lia. Qed.

Lemma wf_mult p : wf_pfx p -> x_net p = blk p * (x_net p / blk p).
Proof.
  intros H. pose proof (blk_pos p H) as Hb. destruct H as (_ & _ & Ha). unfold aligned in Ha. fold (blk p) in Ha.
  pose proof (Z.div_mod (x_net p) (blk p) ltac:(lia)). lia.
Qed.

(** a prefix is the interval of addresses from its first to its last one *)
Lemma in_pfx_interval p v z : wf_pfx p -> in_pfx p v z <-> x_fam p = v /\ x_first p <= z <= x_last p.
Proof.
  intros H. pose proof (blk_pos p H) as Hb. pose proof (wf_mult p H) as Hm.
  unfold in_pfx, in_prefix, x_first, x_last. split.
  - intros [<- E]. fold (blk p) in *. split; [reflexivity|].
    pose proof (Z.div_mod z (blk p) ltac:(lia)). pose proof (Z.mod_pos_bound z (blk p) Hb). rewrite E in *. lia.
  - intros [<- E]. fold (blk p) in *. split; [reflexivity|].
    symmetry. apply Z.div_unique with (r := z - x_net p); lia.
Qed.

Lemma first_le_last p : wf_pfx p -> x_first p <= x_last p.
Proof. intros H. pose proof (blk_pos p H). unfold x_first, x_last. fold (blk p). lia. Qed.

Lemma has_addr_spec p v z : wf_pfx p -> has_addr p v z = true <-> in_pfx p v z.
Proof.
  intros H. rewrite in_pfx_interval by exact H. unfold has_addr, x_first.
  rewrite !andb_true_iff, fam_eqb_spec. split; [intros [[A B] C]|intros [A B]]; repeat split; auto; lia.
Qed.

Lemma in_first p : wf_pfx p -> in_pfx p (x_fam p) (x_first p).
Proof. intros H. apply in_pfx_interval; [exact H|]. pose proof (first_le_last p H). split; [reflexivity|lia]. Qed.
Lemma in_last p : wf_pfx p -> in_pfx p (x_fam p) (x_last p).
Proof. intros H. apply in_pfx_interval; [exact H|]. pose proof (first_le_last p H). split; [reflexivity|lia]. Qed.

Lemma inside_interval q p : wf_pfx q -> wf_pfx p ->
  inside q p <-> x_fam q = x_fam p /\ x_first p <= x_first q /\ x_last q <= x_last p.
Proof.
  intros Hq Hp. split.
  - intros H. pose proof (H _ _ (in_first q Hq)) as H1. pose proof (H _ _ (in_last q Hq)) as H2.
    apply in_pfx_interval in H1; auto. apply in_pfx_interval in H2; auto. destruct H1, H2. split; [congruence|lia].
  - intros (E & H1 & H2) v z H. apply in_pfx_interval in H; auto. apply in_pfx_interval; auto.
    destruct H as [<- H]. split; [congruence|lia].
Qed.

Lemma apart_interval p q : wf_pfx p -> wf_pfx q ->
  apart p q <-> x_fam p <> x_fam q \/ x_last p < x_first q \/ x_last q < x_first p.
Proof.
  intros Hp Hq. pose proof (first_le_last p Hp). pose proof (first_le_last q Hq). split.
  - intros H1. destruct (fam_eqb (x_fam p) (x_fam q)) eqn:E.
    + apply fam_eqb_spec in E. right.
      destruct (Z.lt_ge_cases (x_last p) (x_first q)) as [|G1]; [auto|].
      destruct (Z.lt_ge_cases (x_last q) (x_first p)) as [|G2]; [auto|]. exfalso.
      apply (H1 (x_fam p) (Z.max (x_first p) (x_first q))).
      split; apply in_pfx_interval; auto; split; auto; lia.
    + left. intros C. apply fam_eqb_spec in C. congruence.
  - intros H1 v z [A B]. apply in_pfx_interval in A; auto. apply in_pfx_interval in B; auto.
    destruct A as [<- A], B as [B1 B]. destruct H1 as [H1|H1]; [congruence|lia].
Qed.

Lemma overlaps_spec p q : wf_pfx p -> wf_pfx q -> overlaps p q = true <-> ~ apart p q.
Proof.
  intros Hp Hq. pose proof (first_le_last p Hp). pose proof (first_le_last q Hq).
  assert (overlaps p q = true <-> x_fam p = x_fam q /\ x_first q <= x_last p /\ x_first p <= x_last q) as ->.
  { unfold overlaps. rewrite !orb_true_iff. rewrite !has_addr_spec by assumption. rewrite !in_pfx_interval by assumption.
    split.
    - intros H1. intuition (try congruence); lia.
    - intros (E & A & C). destruct (Z.le_gt_cases (x_first q) (x_first p)).
      + left. left. left. split; [congruence|lia].
      + left. right. split; [congruence|lia]. }
  rewrite apart_interval by assumption. split.
  - intros (E & A & C) [D|D]; [congruence|lia].
  - intros N. destruct (fam_eqb (x_fam p) (x_fam q)) eqn:E.
    + apply fam_eqb_spec in E. split; [exact E|]. split; apply Z.nlt_ge; intros C; apply N; auto.
    + exfalso. apply N. left. intros C. apply fam_eqb_spec in C. congruence.
Qed.

Lemma apart_sym p q : apart p q -> apart q p.
Proof. intros H v z [A B]. apply (H v z). auto. Qed.

Lemma overlaps_sym p q : wf_pfx p -> wf_pfx q -> overlaps p q = overlaps q p.
Proof.
  intros Hp Hq. apply eq_true_iff_eq. rewrite !overlaps_spec by assumption.
  split; intros H C; apply H, apart_sym, C.
Qed.

Lemma inside_test_spec p q : wf_pfx p -> wf_pfx q -> inside_test p q = true <-> inside q p.
Proof.
  intros Hp Hq. rewrite inside_interval by assumption. unfold inside_test.
  pose proof (first_le_last p Hp). pose proof (first_le_last q Hq).
  rewrite negb_true_iff, !orb_false_iff, negb_false_iff, overlaps_spec, apart_interval by assumption.
  split.
  - intros [[H1 H2] H3]. split; [|lia].
    destruct (fam_eqb (x_fam p) (x_fam q)) eqn:E; [apply fam_eqb_spec in E; congruence|].
    exfalso. apply H1. left. intros C. apply fam_eqb_spec in C. congruence.
  - intros (E & H1 & H2). repeat split; [|lia|lia]. intros [C|C]; [congruence|lia].
Qed.

(** overlapping prefixes: the longer one is inside the other *)
Lemma longer_inside p q : wf_pfx p -> wf_pfx q -> x_len q <= x_len p -> ~ apart p q -> inside p q.
Proof.
  intros Hp Hq Hl Ha. apply inside_interval; auto.
  assert (x_fam p = x_fam q) as E.
  { destruct (fam_eqb (x_fam p) (x_fam q)) eqn:E; [apply fam_eqb_spec; exact E|].
    exfalso. apply Ha. apply apart_interval; auto. left. intros C. apply fam_eqb_spec in C. congruence. }
  split; [exact E|]. pose proof (wf_mult p Hp) as Mp. pose proof (wf_mult q Hq) as Mq.
  pose proof (blk_pos p Hp) as Bp. pose proof (blk_pos q Hq) as Bq.
  assert (blk q = blk p * 2 ^ (x_len p - x_len q)) as Eb.
  { unfold blk. rewrite E. rewrite <- Z.pow_add_r; [f_equal; lia| |lia]. destruct Hp as [Hp _]. rewrite <- E. lia. }
  assert (x_first q <= x_last p /\ x_first p <= x_last q) as [H1 H2].
  { split; apply Z.nlt_ge; intros C; apply Ha, apart_interval; auto. }
  unfold x_first, x_last in *. fold (blk p) in *. fold (blk q) in *.
  set (k := 2 ^ (x_len p - x_len q)) in *. set (a := x_net p / blk p) in *. set (b := x_net q / blk q) in *.
  assert (x_net q = blk p * (k * b)) as Mq' by (rewrite Mq, Eb; ring).
  assert (x_net q + blk q = blk p * (k * b + k)) as Mq2 by (rewrite Mq', Eb; ring).
  assert (k * b <= a) by nia. assert (a < k * b + k) by nia. nia.
Qed.

(** two prefixes are disjoint or one contains the other *)
Lemma nested p q : wf_pfx p -> wf_pfx q -> ~ apart p q -> inside p q \/ inside q p.
Proof.
  intros Hp Hq Ha. destruct (Z.le_gt_cases (x_len q) (x_len p)).
  - left. apply longer_inside; auto.
  - right. apply longer_inside; auto; [lia|]. intros C. apply Ha, apart_sym, C.
Qed.

(** the prefix inside is the longer one, and of equal length only if equal *)
Lemma inside_len q p : wf_pfx q -> wf_pfx p -> inside q p -> x_len p <= x_len q.
Proof.
  intros Hq Hp H. apply inside_interval in H; auto. destruct H as (E & H1 & H2).
  unfold x_first, x_last in *. fold (blk q) in *. fold (blk p) in *.
  assert (blk q <= blk p) as L by lia. unfold blk in L. rewrite E in L.
  destruct Hq as [Hq _], Hp as [Hp _]. rewrite E in Hq.
  apply Z.pow_le_mono_r_iff in L; lia.
Qed.
Lemma inside_eq q p : wf_pfx q -> wf_pfx p -> inside q p -> x_len q <= x_len p -> q = p.
Proof.
  intros Hq Hp H L. pose proof (inside_len _ _ Hq Hp H) as L2. apply inside_interval in H; auto.
  destruct H as (E & H1 & H2). destruct q as [v z n], p as [v' z' n']. cbn in *. subst v'.
  assert (n = n') as -> by lia. unfold x_first, x_last in *. cbn in *. f_equal. lia.
Qed.

Lemma inside_not_apart q p : wf_pfx q -> inside q p -> ~ apart q p.
Proof. intros Hq H A. apply (A (x_fam q) (x_first q)). split; [apply in_first; auto|apply H, in_first; auto]. Qed.
Lemma inside_refl p : inside p p.
Proof. intros v z H; exact H. Qed.
Lemma inside_trans a b c : inside a b -> inside b c -> inside a c.
Proof. intros H1 H2 v z H. auto. Qed.

(** the containment test of find_one *)
Lemma covers_test c q : wf_pfx c -> wf_pfx q -> ~ apart q c ->
  ((x_first c <=? x_first q) && (x_last c >=? x_last q) = true <-> inside q c).
Proof.
  intros Hc Hq Ha. rewrite inside_interval, andb_true_iff by assumption.
  assert (x_fam q = x_fam c).
  { destruct (fam_eqb (x_fam q) (x_fam c)) eqn:E; [apply fam_eqb_spec; exact E|].
    exfalso. apply Ha. apply apart_interval; auto. left. intros C. apply fam_eqb_spec in C. congruence. }
  split; [intros [A B]; repeat split; auto; lia|intros (_ & A & B); lia].
Qed.

Lemma host_wf v z : 0 <= z < 2 ^ wz v -> wf_pfx (host v z).
Proof.
  intros H. unfold wf_pfx, host, aligned; cbn [x_fam x_net x_len]. pose proof (wz_pos v).
  rewrite Z.sub_diag, Z.pow_0_r, Z.mod_1_r. lia.
Qed.
Lemma in_host v z v' z' : in_pfx (host v z) v' z' <-> v' = v /\ z' = z.
Proof.
  unfold in_pfx, in_prefix, host; cbn [x_fam x_net x_len]. split.
  - intros [Ev H]. subst v'. rewrite Z.sub_diag, Z.pow_0_r, !Z.div_1_r in H. auto.
  - intros [-> ->]. auto.
Qed.
Lemma inside_host v z p : inside (host v z) p <-> in_pfx p v z.
Proof.
  split; intros H.
  - apply H. apply in_host. auto.
  - intros v' z' H'. destruct (proj1 (in_host _ _ _ _) H') as [-> ->]. exact H.
Qed.

(** ** resolve_path is the recursion of the source *)
Lemma filter_map_fst {A B} (f : A -> bool) (g : A -> B) l :
  filter (fun x => f (fst x)) (map (fun x => (x, g x)) l) = map (fun x => (x, g x)) (filter f l).
Proof. induction l as [|x l IH]; cbn; [reflexivity|]. destruct (f x); cbn; rewrite IH; reflexivity. Qed.

Lemma resolve_path_eq n q :
  resolve_path n q =
  let* m := find_one n q in
  match m with
  | None => Ok [n]
  | Some c => if is_container c then let* l := resolve_path c q in Ok (l ++ [n]) else Ok [c; n]
  end.
Proof.
  destruct n as [i p k ch]. unfold find_one, find_all.
  cbn [resolve_path n_pfx n_ch]. destruct (guard _ _); cbn [bind]; [|reflexivity].
  rewrite (filter_map_fst (fun x => overlaps q (n_pfx x)) (fun x => resolve_path x q)).
  destruct (filter _ ch) as [|c [|d r]]; cbn [map]; try reflexivity.
  destruct (_ && _); reflexivity.
Qed.

(** induction over trees *)
Fixpoint node_ind' (P : node -> Prop)
  (H : forall i p c ch, (forall x, In x ch -> P x) -> P (Node i p c ch)) (n : node) {struct n} : P n.
Proof.
  destruct n as [i p c ch]. apply H.
  induction ch as [|y ch IH]; intros x Hx; [destruct Hx|].
  destruct Hx as [<-|Hx]; [apply node_ind', H|apply IH, Hx].
Qed.

Lemma tidy_inv n : tidy n ->
  wf_pfx (n_pfx n) /\ (is_container n = false -> n_ch n = []) /\
  ForallOrdPairs (fun a b => apart (n_pfx a) (n_pfx b)) (n_ch n) /\
  (forall x, In x (n_ch n) -> inside (n_pfx x) (n_pfx n)) /\
  (forall x, In x (n_ch n) -> tidy x).
Proof. intros [i p c ch]; cbn; auto. Qed.

Lemma filter_two {A} (f : A -> bool) l a b r : filter f l = a :: b :: r ->
  exists l1 l2 l3, l = l1 ++ a :: l2 ++ b :: l3 /\ f a = true /\ f b = true.
Proof.
  revert a b r. induction l as [|x l IH]; cbn; intros a b r H; [discriminate|].
  destruct (f x) eqn:E.
  - injection H as -> H. 
    assert (exists l2 l3, l = l2 ++ b :: l3 /\ f b = true) as (l2 & l3 & -> & Hb).
    { clear IH E. induction l as [|y l IH]; cbn in H; [discriminate|]. destruct (f y) eqn:E.
      - injection H as -> H. exists [], l. auto.
      - destruct (IH H) as (l2 & l3 & -> & Hb). exists (y :: l2), l3. auto. }
    exists [], l2, l3. auto.
  - destruct (IH _ _ _ H) as (l1 & l2 & l3 & -> & Ha & Hb). exists (x :: l1), l2, l3. auto.
Qed.

Lemma filter_none {A} (f : A -> bool) l : filter f l = [] -> forall x, In x l -> f x = false.
Proof.
  intros H x Hx. destruct (f x) eqn:E; [|reflexivity].
  assert (In x (filter f l)) as C by (apply filter_In; auto). rewrite H in C. destruct C.
Qed.
Lemma filter_one {A} (f : A -> bool) l a : filter f l = [a] -> In a l /\ f a = true /\ forall x, In x l -> f x = true -> x = a.
Proof.
  intros H. assert (In a (filter f l)) as Ha by (rewrite H; left; reflexivity). apply filter_In in Ha.
  split; [apply Ha|]. split; [apply Ha|]. intros x Hx E.
  assert (In x (filter f l)) as C by (apply filter_In; auto). rewrite H in C. destruct C as [C|[]]. auto.
Qed.

Lemma filter_two_conv {A} (f : A -> bool) l1 a l2 b l3 : f a = true -> f b = true ->
  exists c d r, filter f (l1 ++ a :: l2 ++ b :: l3) = c :: d :: r.
Proof.
  intros Ha Hb. rewrite filter_app. cbn. rewrite Ha. rewrite filter_app. cbn. rewrite Hb.
  destruct (filter f l1) as [|x [|y r]]; cbn; eauto. destruct (filter f l2) as [|z r]; cbn; eauto.
Qed.

Lemma in_tree_trans x y n : in_tree x y -> in_tree y n -> in_tree x n.
Proof. intros H1 H2. induction H2; [exact H1|]. eapply it_below; eauto. Qed.

Lemma tidy_in x n : tidy n -> in_tree x n -> tidy x.
Proof. intros T H. induction H as [|n c Hc H IH]; [exact T|]. apply IH. apply tidy_inv in T. apply T, Hc. Qed.
Lemma tidy_inside x n : tidy n -> in_tree x n -> inside (n_pfx x) (n_pfx n).
Proof.
  intros T H. induction H as [|n c Hc H IH]; [apply inside_refl|]. apply tidy_inv in T.
  eapply inside_trans; [apply IH, T, Hc|]. apply T, Hc.
Qed.

Lemma climbs_snoc l c n : climbs l c -> In c (n_ch n) -> climbs (l ++ [n]) n.
Proof.
  intros H Hc. induction H as [r|x y l r Hx H IH]; cbn.
  - apply climbs_up; [exact Hc|apply climbs_top].
  - apply climbs_up; [exact Hx|]. apply IH, Hc.
Qed.

Lemma in_tree_inv x n : in_tree x n -> x = n \/ exists c, In c (n_ch n) /\ in_tree x c.
Proof. intros H; destruct H; eauto. Qed.

(** what a lookup below [n] returns, in a tidy tree *)
Lemma resolve_path_tidy n : tidy n -> forall q, wf_pfx q -> inside q (n_pfx n) ->
  match resolve_path n q with
  | Ok l => climbs l n /\ (forall x, In x l <-> in_tree x n /\ inside q (n_pfx x)) /\ ~ crowded n q
  | Err e => e = EMoreSpecifics /\ crowded n q
  end.
Proof.
  induction n as [i p k ch IH] using node_ind'. intros T q Hq Hin. set (n := Node i p k ch) in *.
  destruct (tidy_inv _ T) as (Hwf & Hleaf & Hord & Hins & Htd). cbn [n_pfx n_ch n] in Hwf, Hord, Hins, Htd, Hin.
  rewrite resolve_path_eq. unfold find_one, find_all. cbn [n_pfx n_ch n].
  rewrite (proj2 (inside_test_spec p q Hwf Hq) Hin). cbn [guard bind].
  assert (forall x, In x ch -> wf_pfx (n_pfx x)) as Hwc by (intros x Hx; apply (tidy_inv x), Htd, Hx).
  assert (forall x, In x ch -> overlaps q (n_pfx x) = true <-> ~ apart q (n_pfx x)) as Hov
    by (intros x Hx; apply overlaps_spec; auto).
  (* descendants of children that do not overlap q do not contain it *)
  assert (forall c x, In c ch -> overlaps q (n_pfx c) = false -> in_tree x c -> ~ inside q (n_pfx x)) as Hno.
  { intros c x Hc Ho Hx Hi. assert (inside q (n_pfx c)) as Hi2 by (eapply inside_trans; [exact Hi|]; apply tidy_inside; auto).
    apply inside_not_apart in Hi2; auto. apply Hov in Hi2; auto. congruence. }
  assert (forall c x, In c ch -> in_tree x c -> in_tree x n) as Hbelow by (intros c x Hc Hx; exact (it_below x n c Hc Hx)).
  assert (In n [n]) as Hself by (left; reflexivity).
  destruct (filter (fun c => overlaps q (n_pfx c)) ch) as [|c [|d r]] eqn:EF.
  - (* nothing below overlaps *)
    cbn [bind]. pose proof (filter_none _ _ EF) as Hn. split; [apply climbs_top|]. split.
    + intros x. split.
      * intros [<-|[]]. split; [apply it_self|exact Hin].
      * intros [Hx Hi]. apply in_tree_inv in Hx. destruct Hx as [->|(c & Hc & Hx)]; [exact Hself|].
        exfalso. exact (Hno c x Hc (Hn c Hc) Hx Hi).
    + intros (y & l1 & c1 & l2 & c2 & l3 & Hy & Hiy & Ech & Ha & Hb).
      apply in_tree_inv in Hy. destruct Hy as [->|(c & Hc & Hy)].
      * cbn [n_ch n] in Ech. assert (In c1 ch) as Hc1 by (rewrite Ech; apply in_or_app; right; left; reflexivity).
        apply Hov in Ha; auto. rewrite (Hn c1 Hc1) in Ha. discriminate.
      * exact (Hno c y Hc (Hn c Hc) Hy Hiy).
  - (* one child overlaps *)
    destruct (filter_one _ _ _ EF) as (Hc & Hoc & Huniq).
    assert (~ apart q (n_pfx c)) as Hnap by (apply Hov; auto).
    assert (forall x, In x ch -> x <> c -> overlaps q (n_pfx x) = false) as Hoth.
    { intros x Hx Hne. destruct (overlaps q (n_pfx x)) eqn:E; [|reflexivity]. exfalso. apply Hne, Huniq; auto. }
    assert (forall (P : node -> Prop), (forall x, in_tree x n -> inside q (n_pfx x) -> in_tree x c -> P x) ->
              P n -> forall x, in_tree x n -> inside q (n_pfx x) -> P x) as Hcase.
    { intros P H1 H0 x Hx Hi. pose proof Hx as Hx0. apply in_tree_inv in Hx. destruct Hx as [->|(d & Hd & Hx)]; [exact H0|].
      destruct (overlaps q (n_pfx d)) eqn:Ed.
      - pose proof (Huniq d Hd Ed) as ->. apply H1; auto.
      - exfalso. exact (Hno d x Hd Ed Hx Hi). }
    destruct ((x_first (n_pfx c) <=? x_first q) && (x_last (n_pfx c) >=? x_last q)) eqn:EC.
    + apply covers_test in EC; auto. cbn [bind].
      specialize (IH c Hc (Htd c Hc) q Hq EC).
      destruct (is_container c) eqn:Eic.
      * destruct (resolve_path c q) as [l|e]; cbn [bind].
        -- destruct IH as (Hcl & Hl & Hcr). split; [exact (climbs_snoc _ c n Hcl Hc)|]. split.
           ++ intros x. rewrite in_app_iff, Hl. split.
              ** intros [[Hx Hi]|[<-|[]]]; [split; [exact (Hbelow c x Hc Hx)|exact Hi]|split; [apply it_self|exact Hin]].
              ** intros [Hx Hi]. revert x Hx Hi. apply Hcase; [|right; exact Hself]. intros x Hx Hi Hxc. left. auto.
           ++ intros (y & l1 & c1 & l2 & c2 & l3 & Hy & Hiy & Ech & Ha & Hb).
              apply in_tree_inv in Hy. destruct Hy as [->|(d & Hd & Hy)].
              ** cbn [n_ch n] in Ech. subst ch. apply Hov in Ha; [|apply in_or_app; right; left; reflexivity].
                 apply Hov in Hb; [|apply in_or_app; right; right; apply in_or_app; right; left; reflexivity].
                 destruct (filter_two_conv (fun c => overlaps q (n_pfx c)) l1 c1 l2 c2 l3 Ha Hb) as (? & ? & ? & F).
                 rewrite F in EF. discriminate.
              ** destruct (overlaps q (n_pfx d)) eqn:Ed; [|exact (Hno d y Hd Ed Hy Hiy)].
                 pose proof (Huniq d Hd Ed) as ->. apply Hcr. exists y, l1, c1, l2, c2, l3. auto.
        -- destruct IH as (He & y & l1 & c1 & l2 & c2 & l3 & Hy & Hiy & Ech & Ha & Hb).
           split; [exact He|]. exists y, l1, c1, l2, c2, l3. split; [exact (Hbelow c y Hc Hy)|auto].
      * (* a leaf *)
        assert (n_ch c = []) as Hcl by (apply (tidy_inv c (Htd c Hc)), Eic).
        split; [apply climbs_up; [exact Hc|apply climbs_top]|]. split.
        -- intros x. split.
           ++ intros [<-|[<-|[]]]; [split; [exact (Hbelow c c Hc (it_self c))|exact EC]|split; [apply it_self|exact Hin]].
           ++ intros [Hx Hi]. revert x Hx Hi. apply Hcase; [|right; exact Hself].
              intros x Hx Hi Hxc. left. apply in_tree_inv in Hxc. destruct Hxc as [->|(d & Hd & _)]; [reflexivity|].
              rewrite Hcl in Hd. destruct Hd.
        -- intros (y & l1 & c1 & l2 & c2 & l3 & Hy & Hiy & Ech & Ha & Hb).
           apply in_tree_inv in Hy. destruct Hy as [->|(d & Hd & Hy)].
           ++ cbn [n_ch n] in Ech. subst ch. apply Hov in Ha; [|apply in_or_app; right; left; reflexivity].
              apply Hov in Hb; [|apply in_or_app; right; right; apply in_or_app; right; left; reflexivity].
              destruct (filter_two_conv (fun c => overlaps q (n_pfx c)) l1 c1 l2 c2 l3 Ha Hb) as (? & ? & ? & F).
              rewrite F in EF. discriminate.
           ++ destruct (overlaps q (n_pfx d)) eqn:Ed; [|exact (Hno d y Hd Ed Hy Hiy)].
              pose proof (Huniq d Hd Ed) as ->. apply in_tree_inv in Hy.
              destruct Hy as [->|(d & Hd' & _)]; [|rewrite Hcl in Hd'; destruct Hd'].
              rewrite Hcl in Ech. destruct l1; discriminate.
    + (* the child is more specific than q *)
      assert (~ inside q (n_pfx c)) as EC' by (intros C; apply covers_test in C; auto; congruence).
      cbn [bind].
      assert (forall x, in_tree x c -> ~ inside q (n_pfx x)) as Hnoc.
      { intros x Hx Hi. apply EC'. eapply inside_trans; [exact Hi|]. apply tidy_inside; auto. }
      split; [apply climbs_top|]. split.
      * intros x. split.
        -- intros [<-|[]]. split; [apply it_self|exact Hin].
        -- intros [Hx Hi]. revert x Hx Hi. apply Hcase; [|exact Hself]. intros x _ Hi Hxc. exfalso. exact (Hnoc x Hxc Hi).
      * intros (y & l1 & c1 & l2 & c2 & l3 & Hy & Hiy & Ech & Ha & Hb).
        apply in_tree_inv in Hy. destruct Hy as [->|(d & Hd & Hy)].
        -- cbn [n_ch n] in Ech. subst ch. apply Hov in Ha; [|apply in_or_app; right; left; reflexivity].
           apply Hov in Hb; [|apply in_or_app; right; right; apply in_or_app; right; left; reflexivity].
           destruct (filter_two_conv (fun c => overlaps q (n_pfx c)) l1 c1 l2 c2 l3 Ha Hb) as (? & ? & ? & F).
           rewrite F in EF. discriminate.
        -- destruct (overlaps q (n_pfx d)) eqn:Ed; [|exact (Hno d y Hd Ed Hy Hiy)].
           pose proof (Huniq d Hd Ed) as ->. exact (Hnoc y Hy Hiy).
  - (* two children overlap *)
    cbn [bind]. split; [reflexivity|].
    destruct (filter_two _ _ _ _ _ EF) as (l1 & l2 & l3 & -> & H1 & H2).
    exists n, l1, c, l2, d, l3. split; [apply it_self|]. split; [exact Hin|]. split; [reflexivity|].
    split; (apply Hov; [|assumption]); apply in_or_app; right; [left; reflexivity|].
    right. apply in_or_app. right. left. reflexivity.
Qed.
