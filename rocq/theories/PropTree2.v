(** * Properties C47, C49, C50 and C70: changing a container *)
From Coq Require Import Permutation.
From Verif Require Import Base BaseLemmas Afi Spec Tree SpecTree TreeProofs PropTree.

Lemma pfx_eqb_spec p q : pfx_eqb p q = true <-> p = q.
Proof.
  destruct p, q. unfold pfx_eqb; cbn. rewrite !andb_true_iff, fam_eqb_spec, !Z.eqb_eq.
  split; [intros [[-> ->] ->]; reflexivity|intros [= -> -> ->]; auto].
Qed.

Definition ov (c x : node) : bool := overlaps (n_pfx c) (n_pfx x).

(** what add can do *)
Lemma add_cases n c :
  fst (add n c) = n \/
  fst (add n c) = set_ch n (c :: n_ch n) /\ inside_test (n_pfx n) (n_pfx c) = true /\ has_id (n_ch n) c = false /\
    (filter (ov c) (n_ch n) = [] \/ exists x, filter (ov c) (n_ch n) = [x] /\ n_pfx x = n_pfx c).
Proof.
  unfold add, find_exact, find_all. destruct (inside_test _ _) eqn:Ei; cbn [negb fst guard bind]; [|left; reflexivity].
  change (filter (fun c0 => overlaps (n_pfx c) (n_pfx c0)) (n_ch n)) with (filter (ov c) (n_ch n)).
  destruct (filter (ov c) (n_ch n)) as [|x [|y r]]; cbn.
  - destruct (has_id _ _) eqn:Eh; cbn; [left; reflexivity|right; auto 10].
  - destruct (pfx_eqb _ _) eqn:Ep; cbn; [|auto]. apply pfx_eqb_spec in Ep. destruct (has_id _ _) eqn:Eh; cbn; [left; reflexivity|]. right. eauto 10.
  - auto.
Qed.

Lemma filter_true {A} (l : list A) : filter (fun _ => true) l = l.
Proof. induction l as [|x l IH]; cbn; [reflexivity|]. rewrite IH; reflexivity. Qed.

(** what the other calls can do *)
Lemma discard_cases n t : exists f, fst (discard n t) = set_ch n (filter f (n_ch n)).
Proof.
  assert (forall m, m = set_ch m (filter (fun _ => true) (n_ch m))) as Hid.
  { intros [i p k ch]; cbn. rewrite filter_true. reflexivity. }
  unfold discard, drop_id. destruct t as [c|q]; [eexists; reflexivity|].
  destruct (find_exact n q) as [[c|]|]; cbn [fst]; eauto.
Qed.
Lemma remove_fst n t : fst (remove n t) = fst (discard n t).
Proof. unfold remove. destruct (discard n t) as [n' [u|e]]; cbn; [|reflexivity]. destruct (negb _); reflexivity. Qed.

Lemma n_pfx_set n ch : n_pfx (set_ch n ch) = n_pfx n. Proof. destruct n; reflexivity. Qed.
Lemma n_ch_set n ch : n_ch (set_ch n ch) = ch. Proof. destruct n; reflexivity. Qed.
Lemma n_cls_set n ch : n_cls (set_ch n ch) = n_cls n. Proof. destruct n; reflexivity. Qed.
Lemma n_id_set n ch : n_id (set_ch n ch) = n_id n. Proof. destruct n; reflexivity. Qed.

Lemma history_ind p k i (G : node -> Prop) (P : list node -> Prop) :
  P [] -> (forall l f, P l -> P (filter f l)) ->
  (forall l c, P l -> G c -> inside_test p (n_pfx c) = true -> has_id l c = false ->
     (filter (ov c) l = [] \/ exists x, filter (ov c) l = [x] /\ n_pfx x = n_pfx c) -> P (c :: l)) ->
  forall h, (forall c, In c (given h) -> G c) ->
  P (n_ch (container_after i p k h)) /\ n_pfx (container_after i p k h) = p.
Proof.
  intros H0 Hf Ha.
  assert (forall n c, P (n_ch n) -> n_pfx n = p -> G c -> P (n_ch (fst (add n c))) /\ n_pfx (fst (add n c)) = p) as Hadd.
  { intros n c Hn Hp Gc. destruct (add_cases n c) as [->|(-> & Hi & Hid & Hc)]; [auto|].
    rewrite n_ch_set, n_pfx_set. split; [|exact Hp]. rewrite Hp in Hi. apply Ha; auto. }
  assert (forall l n, P (n_ch n) -> n_pfx n = p -> (forall c, In c l -> G c) ->
            P (n_ch (fst (update n l))) /\ n_pfx (fst (update n l)) = p) as Hupd.
  { induction l as [|c l IH]; intros n Hn Hp Gl; cbn; [auto|].
    pose proof (Hadd n c Hn Hp (Gl c (or_introl eq_refl))) as [A1 A2].
    destruct (add n c) as [n' [u|e]]; cbn [fst] in *; [|auto]. apply IH; auto. intros x Hx; apply Gl; right; auto. }
  intros h. unfold container_after. assert (P (n_ch (Node i p k []))) as Hi by exact H0.
  assert (n_pfx (Node i p k []) = p) as Hip by reflexivity. revert Hi Hip. generalize (Node i p k []) as n.
  induction h as [|o h IH]; intros n Hi Hip Hg; cbn [fold_left]; [auto|].
  assert (P (n_ch (called n o)) /\ n_pfx (called n o) = p) as [B1 B2].
  { destruct o as [c|l|t|t|]; cbn [called].
    - apply Hadd; auto. apply Hg. cbn. left; reflexivity.
    - apply Hupd; auto. intros c Hc. apply Hg. cbn. apply in_or_app; auto.
    - destruct (discard_cases n t) as (f & ->). rewrite n_ch_set, n_pfx_set. auto.
    - rewrite remove_fst. destruct (discard_cases n t) as (f & ->). rewrite n_ch_set, n_pfx_set. auto.
    - unfold clear. rewrite n_ch_set, n_pfx_set. auto. }
  apply IH; auto. intros c Hc. apply Hg. cbn. apply in_or_app; auto.
Qed.

Lemma FOP_filter {A} (R : A -> A -> Prop) f l : ForallOrdPairs R l -> ForallOrdPairs R (filter f l).
Proof.
  intros H. induction H as [|a l Ha H IH]; cbn; [constructor|]. destruct (f a); [|exact IH].
  constructor; [|exact IH]. rewrite Forall_forall in *. intros x Hx. apply filter_In in Hx. apply Ha, Hx.
Qed.
Lemma FOP_two {A} (R : A -> A -> Prop) l a b : ForallOrdPairs R l -> two_of l a b -> R a b.
Proof.
  intros H (l1 & l2 & l3 & ->). induction l1 as [|x l1 IH]; cbn in H; inversion H as [|? ? Hf Hr]; subst; [|auto].
  rewrite Forall_forall in Hf. apply Hf. apply in_or_app. right; left; reflexivity.
Qed.
Lemma filter_filter_len {A} (f g : A -> bool) l : (length (filter f (filter g l)) <= length (filter f l))%nat.
Proof. induction l as [|x l IH]; cbn; [lia|]. destruct (g x); cbn; destruct (f x); cbn; lia. Qed.

(** ** C47.  The full claim (no two children overlap) is false, see C47_children_overlap_refuted.
    What holds of every history: children lie inside the container, two children that overlap have
    the same prefix, and no prefix occurs three times. *)
Definition inv47 (p : pfx) (l : list node) : Prop :=
  (forall x, In x l -> wf_pfx (n_pfx x) /\ inside (n_pfx x) p) /\
  ForallOrdPairs (fun a b => apart (n_pfx a) (n_pfx b) \/ n_pfx a = n_pfx b) l /\
  forall r, (length (filter (fun x => pfx_eqb (n_pfx x) r) l) <= 2)%nat.

Lemma inv47_hist i p k h : wf_pfx p -> (forall c, In c (given h) -> wf_pfx (n_pfx c)) ->
  inv47 p (n_ch (container_after i p k h)) /\ n_pfx (container_after i p k h) = p.
Proof.
  intros Hp. revert h. refine (history_ind p k i (fun c => wf_pfx (n_pfx c)) (inv47 p) _ _ _).
  - split; [intros x []|]. split; [constructor|]. intros r; cbn; lia.
  - intros l f (A & B & C). split; [intros x Hx; apply filter_In in Hx; apply A, Hx|]. split; [apply FOP_filter, B|].
    intros r. etransitivity; [apply filter_filter_len|apply C].
  - intros l c (A & B & C) Gc Hi Hid Hov. apply inside_test_spec in Hi; auto.
    assert (forall x, In x l -> ov c x = true <-> ~ apart (n_pfx c) (n_pfx x)) as Ho.
    { intros x Hx. apply overlaps_spec; auto. apply A, Hx. }
    split; [intros x [<-|Hx]; auto|]. split.
    + constructor; [|exact B]. rewrite Forall_forall. intros x Hx. destruct (ov c x) eqn:E.
      * right. destruct Hov as [Hn|(y & Hy & Ey)]; [rewrite (filter_none _ _ Hn x Hx) in E; discriminate|].
        destruct (filter_one _ _ _ Hy) as (_ & _ & U). rewrite (U x Hx E). auto.
      * left. intros v z I. assert (ov c x = true) as C' by (apply Ho; auto; intros G'; exact (G' v z I)). congruence.
    + intros r. cbn [filter]. destruct (pfx_eqb (n_pfx c) r) eqn:E; [|apply C]. apply pfx_eqb_spec in E.
      assert (length (filter (fun x => pfx_eqb (n_pfx x) r) l) <= length (filter (ov c) l))%nat as L.
      { subst r. clear - A Ho. induction l as [|x l IH]; cbn [filter]; [lia|].
        assert (length (filter (fun x => pfx_eqb (n_pfx x) (n_pfx c)) l) <= length (filter (ov c) l))%nat as L.
        { apply IH; intros y Hy; [apply A; right; auto|apply Ho; right; auto]. }
        destruct (pfx_eqb (n_pfx x) (n_pfx c)) eqn:E; [|destruct (ov c x); cbn [length]; lia].
        apply pfx_eqb_spec in E. assert (ov c x = true) as ->; [|cbn [length]; lia].
        apply Ho; [left; reflexivity|]. rewrite E. apply inside_not_apart; [|apply inside_refl].
        rewrite <- E. apply A. left; reflexivity. }
      destruct Hov as [Hn|(y & Hy & _)]; [rewrite Hn in L|rewrite Hy in L]; cbn [length] in *; lia.
Qed.

Theorem C47_children_partial i p k h : wf_pfx p -> (forall c, In c (given h) -> wf_pfx (n_pfx c)) ->
  let ch := n_ch (container_after i p k h) in
  (forall x, In x ch -> inside (n_pfx x) p) /\
  (forall a b, two_of ch a b -> ~ apart (n_pfx a) (n_pfx b) -> n_pfx a = n_pfx b) /\
  (forall a b c, three_of ch a b c -> apart (n_pfx a) (n_pfx b) \/ apart (n_pfx a) (n_pfx c)).
Proof.
  intros Hp Hg ch. destruct (inv47_hist i p k h Hp Hg) as [(A & B & C) _]. fold ch in A, B, C.
  split; [intros x Hx; apply A, Hx|]. split.
  - intros a b T N. destruct (FOP_two _ _ _ _ B T); [contradiction|auto].
  - intros a b c (l1 & l2 & l3 & l4 & E).
    assert (two_of ch a b) as T1 by (exists l1, l2, (l3 ++ c :: l4); exact E).
    assert (two_of ch a c) as T2 by (exists l1, (l2 ++ b :: l3), l4; rewrite E; repeat (rewrite <- app_assoc; cbn); reflexivity).
    destruct (FOP_two _ _ _ _ B T1) as [|E1]; [auto|]. destruct (FOP_two _ _ _ _ B T2) as [|E2]; [auto|]. exfalso.
    specialize (C (n_pfx a)). rewrite E in C. repeat (rewrite filter_app in C; cbn [filter] in C).
    rewrite <- E1, <- E2 in C. rewrite (proj2 (pfx_eqb_spec (n_pfx a) (n_pfx a)) eq_refl) in C.
    repeat (rewrite app_length in C; cbn [length] in C). lia.
Qed.

(** ... and the children never overlap when the history does not hand over two different nodes
    with the same prefix *)
Theorem C47_no_overlap_partial i p k h : wf_pfx p -> (forall c, In c (given h) -> wf_pfx (n_pfx c)) ->
  (forall a b, In a (given h) -> In b (given h) -> n_pfx a = n_pfx b -> n_id a = n_id b) ->
  forall a b, two_of (n_ch (container_after i p k h)) a b -> apart (n_pfx a) (n_pfx b).
Proof.
  intros Hp Hg Hd.
  assert (((forall x, In x (n_ch (container_after i p k h)) -> wf_pfx (n_pfx x) /\ In x (given h)) /\
           ForallOrdPairs (fun a b => apart (n_pfx a) (n_pfx b)) (n_ch (container_after i p k h))) /\
          n_pfx (container_after i p k h) = p) as [[_ H] _].
  { refine (history_ind p k i (fun c => In c (given h))
      (fun l => (forall x, In x l -> wf_pfx (n_pfx x) /\ In x (given h)) /\
                ForallOrdPairs (fun a b => apart (n_pfx a) (n_pfx b)) l) _ _ _ h (fun c Hc => Hc)).
    - split; [intros x []|constructor].
    - intros l f [A B]. split; [intros x Hx; apply filter_In in Hx; apply A, Hx|apply FOP_filter, B].
    - intros l c [A B] Gc Hi Hid Hov. split; [intros x [<-|Hx]; auto|]. constructor; [|exact B].
      rewrite Forall_forall. intros x Hx. destruct Hov as [Hn|(y & Hy & Ey)].
      + pose proof (filter_none _ _ Hn x Hx) as E. intros v z I.
        assert (ov c x = true); [|congruence]. apply overlaps_spec; [auto|apply A, Hx|]. intros G. exact (G v z I).
      + exfalso. destruct (filter_one _ _ _ Hy) as (Hin & _ & _).
        pose proof (Hd y c (proj2 (A y Hin)) Gc Ey) as Eid.
        assert (has_id l c = true); [|congruence]. apply existsb_exists. exists y. split; [exact Hin|]. apply Nat.eqb_eq, Eid. }
  intros a b T. exact (FOP_two _ _ _ _ H T).
Qed.

Definition p8 := Pfx V4 (10 * 2 ^ 24) 8.
Definition p16 := Pfx V4 (10 * 2 ^ 24 + 5 * 2 ^ 16) 16.
Lemma p8_wf : wf_pfx p8. Proof. repeat split; vm_compute; congruence. Qed.
Lemma p16_wf : wf_pfx p16. Proof. repeat split; vm_compute; congruence. Qed.

(** ContainerNode('10.0.0.0/8'), then two different ETR nodes for 10.5.0.0/16 *)
Theorem C47_children_overlap_refuted :
  ~ (forall i p k h, wf_pfx p -> (forall c, In c (given h) -> wf_pfx (n_pfx c)) ->
     forall a b, two_of (n_ch (container_after i p k h)) a b -> apart (n_pfx a) (n_pfx b)).
Proof.
  intros H.
  assert (apart p16 p16) as A.
  { apply (H 0%nat p8 NContainer [CAdd (Node 1 p16 NETR []); CAdd (Node 2 p16 NETR [])] p8_wf) with
      (a := Node 2 p16 NETR []) (b := Node 1 p16 NETR []).
    - intros c [<-|[<-|[]]]; exact p16_wf.
    - exists [], [], []. vm_compute. reflexivity. }
  apply (A V4 (10 * 2 ^ 24 + 5 * 2 ^ 16)). split; split; reflexivity.
Qed.

(** ** C49: false of the code.  For every tidy container with a child of prefix [n_pfx c], adding
    another node [c] with that prefix keeps the old child, after which every lookup that overlaps
    the prefix raises MoreSpecificsFoundError, and neither node can be found by its prefix. *)
Theorem C49_old_child_stays n c old : tidy n -> In old (n_ch n) -> n_pfx old = n_pfx c ->
  has_id (n_ch n) c = false ->
  add n c = (set_ch n (c :: n_ch n), Ok tt) /\
  In old (n_ch (fst (add n c))) /\
  contains (fst (add n c)) (ByNet (n_pfx c)) = Ok false /\
  forall q, wf_pfx q -> inside q (n_pfx n) -> ~ apart q (n_pfx c) ->
    find_one (fst (add n c)) q = Err EMoreSpecifics /\ resolve (fst (add n c)) q = Err EMoreSpecifics.
Proof.
  intros T Ho Ep Hid. destruct (tidy_inv _ T) as (Hw & _ & Hord & Hins & Htd).
  assert (forall x, In x (n_ch n) -> wf_pfx (n_pfx x)) as Hwc by (intros x Hx; apply (tidy_inv x), Htd, Hx).
  assert (wf_pfx (n_pfx c)) as Hc by (rewrite <- Ep; auto).
  assert (inside (n_pfx c) (n_pfx n)) as Hi by (rewrite <- Ep; auto).
  assert (inside_test (n_pfx n) (n_pfx c) = true) as Ht by (apply inside_test_spec; auto).
  assert (forall q, wf_pfx q -> ~ apart q (n_pfx c) -> exists l1 l2 , filter (fun x => overlaps q (n_pfx x)) (n_ch n) = l1 ++ old :: l2) as Hq.
  { intros q Hq Hn. apply in_split. apply filter_In. split; [exact Ho|]. apply overlaps_spec; auto. rewrite Ep. exact Hn. }
  assert (filter (ov c) (n_ch n) = [old]) as Hf.
  { apply in_split in Ho. destruct Ho as (l1 & l2 & E). rewrite E in *. clear - Hord Hwc Ep Hc.
    assert (forall l, (forall x, In x l -> wf_pfx (n_pfx x) /\ apart (n_pfx c) (n_pfx x)) -> filter (ov c) l = []) as Z.
    { induction l as [|x l IH]; intros H; cbn; [reflexivity|]. destruct (ov c x) eqn:E.
      - exfalso. destruct (H x (or_introl eq_refl)) as [Wx Ax]. apply overlaps_spec in E; auto.
      - apply IH. intros y Hy; apply H; right; auto. }
    rewrite filter_app. cbn [filter]. rewrite Z, Z.
    - assert (ov c old = true) as ->; [|reflexivity]. unfold ov. rewrite Ep. apply overlaps_spec; auto. apply inside_not_apart; [auto|apply inside_refl].
    - intros x Hx. split; [apply Hwc, in_or_app; right; right; auto|]. rewrite <- Ep.
      apply in_split in Hx. destruct Hx as (m1 & m2 & ->). eapply FOP_two in Hord; [exact Hord|].
      exists l1, m1, m2. reflexivity.
    - intros x Hx. split; [apply Hwc, in_or_app; left; auto|]. rewrite <- Ep. apply apart_sym.
      apply in_split in Hx. destruct Hx as (m1 & m2 & ->). eapply FOP_two in Hord; [exact Hord|].
      exists m1, m2, l2. rewrite <- app_assoc. reflexivity. }
  assert (add n c = (set_ch n (c :: n_ch n), Ok tt)) as E.
  { unfold add, find_exact, find_all. rewrite Ht. cbn [negb guard bind].
    change (filter (fun c0 => overlaps (n_pfx c) (n_pfx c0)) (n_ch n)) with (filter (ov c) (n_ch n)). rewrite Hf.
    rewrite (proj2 (pfx_eqb_spec (n_pfx old) (n_pfx c)) Ep). rewrite Hid. reflexivity. }
  rewrite E. cbn [fst]. split; [reflexivity|]. split; [rewrite n_ch_set; right; exact Ho|]. split.
  { unfold contains, find_exact, find_all. rewrite n_pfx_set, n_ch_set, Ht. cbn [guard bind filter].
    rewrite (proj2 (overlaps_spec (n_pfx c) (n_pfx c) Hc Hc) (inside_not_apart _ _ Hc (inside_refl _))).
    change (filter (fun c0 => overlaps (n_pfx c) (n_pfx c0)) (n_ch n)) with (filter (ov c) (n_ch n)). rewrite Hf. reflexivity. }
  intros q Wq Iq Nq.
  assert (find_one (set_ch n (c :: n_ch n)) q = Err EMoreSpecifics) as F.
  { unfold find_one, find_all. rewrite n_pfx_set, n_ch_set, (proj2 (inside_test_spec _ _ Hw Wq) Iq). cbn [guard bind filter].
    rewrite (proj2 (overlaps_spec q (n_pfx c) Wq Hc) Nq). destruct (Hq q Wq Nq) as (l1 & l2 & ->). destruct l1; reflexivity. }
  split; [exact F|]. unfold resolve. rewrite resolve_path_eq, F. reflexivity.
Qed.

(** a container that meets the hypotheses *)
Example ex_etr := Node 1 p16 NETR [].
Example ex_root := Node 0 p8 NContainer [ex_etr].
Lemma ex_root_tidy : tidy ex_root.
Proof.
  assert (inside p16 p8) as I.
  { apply inside_interval; [exact p16_wf|exact p8_wf|]. vm_compute. repeat split; congruence. }
  constructor; [exact p8_wf|discriminate| | |].
  - constructor; [constructor|constructor].
  - intros x [<-|[]]. exact I.
  - intros x [<-|[]]. constructor; [exact p16_wf|reflexivity|constructor|intros y []|intros y []].
Qed.

Theorem C49_refuted :
  ~ (forall n c old, tidy n -> In old (n_ch n) -> n_pfx old = n_pfx c -> has_id (n_ch n) c = false ->
     snd (add n c) = Ok tt -> ~ In old (n_ch (fst (add n c)))).
Proof.
  intros H. destruct (C49_old_child_stays ex_root (Node 2 p16 NETR []) ex_etr ex_root_tidy (or_introl eq_refl) eq_refl eq_refl)
    as (E & Hin & _). apply (H ex_root (Node 2 p16 NETR []) ex_etr ex_root_tidy (or_introl eq_refl) eq_refl eq_refl); [|exact Hin].
  rewrite E. reflexivity.
Qed.

(** ** C50: false of the code, and the wrong way round.  remove(node) raises KeyError exactly when the
    node is a child (which it then removes), and returns normally when it is absent. *)
Lemma drop_id_len l c : (length (drop_id l c) <= length l)%nat.
Proof. unfold drop_id. induction l as [|x l IH]; cbn; [lia|]. destruct (Nat.eqb _ _); cbn; lia. Qed.
Lemma drop_id_has l c : has_id l c = true -> (length (drop_id l c) < length l)%nat.
Proof.
  induction l as [|x l IH]; cbn; [discriminate|]. pose proof (drop_id_len l c) as L. unfold drop_id in *.
  destruct (Nat.eqb _ _); cbn; intros H0; [lia|]. specialize (IH H0). lia.
Qed.
Lemma drop_id_absent l c : has_id l c = false -> drop_id l c = l.
Proof.
  induction l as [|x l IH]; cbn; [reflexivity|]. destruct (Nat.eqb _ _); cbn; intros H0; [discriminate|].
  unfold drop_id in IH. rewrite IH; auto.
Qed.
Lemma drop_id_gone l c : has_id (drop_id l c) c = false.
Proof.
  induction l as [|x l IH]; cbn; [reflexivity|]. destruct (Nat.eqb (n_id x) (n_id c)) eqn:E; cbn; [exact IH|].
  rewrite E. exact IH.
Qed.

Theorem C50_remove_inverted n c :
  (snd (remove n (ByNode c)) = Err EKey <-> has_id (n_ch n) c = true) /\
  (snd (remove n (ByNode c)) = Ok tt <-> has_id (n_ch n) c = false) /\
  has_id (n_ch (fst (remove n (ByNode c)))) c = false /\
  (forall x, In x (n_ch (fst (remove n (ByNode c)))) <-> In x (n_ch n) /\ n_id x <> n_id c).
Proof.
  rewrite remove_fst. unfold remove, discard. cbn [fst]. rewrite n_ch_set.
  assert (snd (if negb (Nat.eqb (length (drop_id (n_ch n) c)) (length (n_ch n)))
               then (set_ch n (drop_id (n_ch n) c), Err EKey) else (set_ch n (drop_id (n_ch n) c), Ok tt))
          = if has_id (n_ch n) c then Err EKey else Ok tt) as ->.
  { destruct (has_id (n_ch n) c) eqn:E.
    - apply drop_id_has in E. destruct (Nat.eqb_spec (length (drop_id (n_ch n) c)) (length (n_ch n))); [lia|reflexivity].
    - rewrite drop_id_absent by exact E. rewrite Nat.eqb_refl. reflexivity. }
  destruct (has_id (n_ch n) c); (split; [split; congruence|]); (split; [split; congruence|]); (split; [apply drop_id_gone|]);
    intros x; unfold drop_id; rewrite filter_In, negb_true_iff, Nat.eqb_neq; tauto.
Qed.

Theorem C50_refuted :
  ~ (forall n c, snd (remove n (ByNode c)) = Err EKey <-> has_id (n_ch n) c = false).
Proof. intros H. specialize (H ex_root ex_etr). vm_compute in H. destruct H as [H _]. specialize (H eq_refl). discriminate. Qed.

(** ** C70: copying a container *)
Lemma update_app n l l' : update n (l ++ l') = let '(m, r) := update n l in match r with Ok _ => update m l' | Err e => (m, Err e) end.
Proof.
  revert n. induction l as [|c l IH]; intros n; cbn; [reflexivity|]. destruct (add n c) as [m [u|e]]; [apply IH|reflexivity].
Qed.

(** A copy of a tidy container has the same prefix and the same children *)
Theorem C70_copy_children_partial id n : tidy n -> NoDup (map n_id (n_ch n)) ->
  snd (copy id n) = Ok tt /\
  n_pfx (fst (copy id n)) = n_pfx n /\ Permutation (n_ch n) (n_ch (fst (copy id n))) /\
  (is_container n = is_container (fst (copy id n))) /\
  (forall d, n_cls n = NAuth d -> n_cls (fst (copy id n)) = NAuth []) /\
  ((forall d, n_cls n <> NAuth d) -> n_cls (fst (copy id n)) = n_cls n).
Proof.
  intros T ND. destruct (tidy_inv _ T) as (Hw & _ & Hord & Hins & Htd).
  set (k := match n_cls n with NAuth _ => NAuth [] | c => c end).
  assert (forall l l', n_ch n = rev l' ++ l ->
            update (Node id (n_pfx n) k l') l = (Node id (n_pfx n) k (rev l ++ l'), Ok tt)) as H.
  { induction l as [|c l IH]; intros l' E; [reflexivity|]. cbn [update].
    assert (In c (n_ch n)) as Hc by (rewrite E; apply in_or_app; right; left; reflexivity).
    assert (wf_pfx (n_pfx c)) as Wc by (apply (tidy_inv c), Htd, Hc).
    assert (filter (fun x => overlaps (n_pfx c) (n_pfx x)) l' = []) as F.
    { assert (forall x, In x l' -> overlaps (n_pfx c) (n_pfx x) = false) as G.
      { intros x Hx. destruct (overlaps _ _) eqn:Eo; [|reflexivity]. exfalso.
        assert (In x (n_ch n)) as Hx' by (rewrite E; apply in_or_app; left; apply -> in_rev; exact Hx).
        apply overlaps_spec in Eo; [|exact Wc|apply (tidy_inv x), Htd, Hx']. apply Eo, apart_sym.
        apply in_rev, in_split in Hx. destruct Hx as (m1 & m2 & Em).
        apply (FOP_two _ _ x c Hord). exists m1, m2, l. rewrite E, Em, <- app_assoc. reflexivity. }
      clear - G. induction l' as [|x l' IH]; cbn; [reflexivity|]. rewrite G by (left; reflexivity). apply IH.
      intros y Hy; apply G; right; auto. }
    assert (has_id l' c = false) as Hid.
    { destruct (has_id l' c) eqn:Eh; [|reflexivity]. exfalso. apply existsb_exists in Eh. destruct Eh as (x & Hx & Ex).
      apply Nat.eqb_eq in Ex. rewrite E in ND. rewrite map_app in ND. cbn in ND. apply NoDup_remove_2 in ND. apply ND.
      apply in_or_app. left. rewrite <- Ex. apply in_map. apply -> in_rev. exact Hx. }
    assert (add (Node id (n_pfx n) k l') c = (Node id (n_pfx n) k (c :: l'), Ok tt)) as ->.
    { unfold add, find_exact, find_all. cbn [n_pfx n_ch].
      rewrite (proj2 (inside_test_spec _ _ Hw Wc) (Hins c Hc)). cbn [negb guard bind]. rewrite F, Hid. reflexivity. }
    rewrite (IH (c :: l')); [|cbn; rewrite <- app_assoc; exact E]. cbn [rev]. rewrite <- app_assoc. reflexivity. }
  unfold copy, new_container. fold k. rewrite (H (n_ch n) []) by reflexivity. rewrite app_nil_r. cbn [fst snd n_pfx n_ch].
  split; [reflexivity|]. split; [reflexivity|]. split; [apply Permutation_rev|]. cbn [n_cls]. split.
  { unfold is_container. cbn [n_cls]. unfold k. destruct (n_cls n); reflexivity. }
  split; [intros d Hd; unfold k; rewrite Hd; reflexivity|].
  intros Hd. unfold k. destruct (n_cls n) as [|d| | | | |]; try reflexivity. exfalso. exact (Hd d eq_refl).
Qed.

(** ... but the DDT nodes of an AuthContainerNode are lost *)
Theorem C70_refuted : ~ (forall id n, tidy n -> snd (copy id n) = Ok tt -> n_cls (fst (copy id n)) = n_cls n).
Proof.
  intros H. specialize (H 1%nat (Node 0 p8 (NAuth [AIP V4 1]) [])). assert (tidy (Node 0 p8 (NAuth [AIP V4 1]) [])) as T.
  { constructor; [exact p8_wf|discriminate|constructor|intros x []|intros x []]. }
  specialize (H T eq_refl). vm_compute in H. discriminate.
Qed.

(** Examples for C46 and C48: 10.5.1.2 below 10.0.0.0/8 with the ETR 10.5.0.0/16 *)
Example ex_lookup : resolve_path ex_root (host V4 (10 * 2 ^ 24 + 5 * 2 ^ 16 + 258)) = Ok [ex_etr; ex_root].
Proof. vm_compute. reflexivity. Qed.
Example ex_lookup_out : resolve_path ex_root (host V4 (11 * 2 ^ 24)) = Err ENotAuth.
Proof. vm_compute. reflexivity. Qed.
Example ex_history : n_ch (container_after 0 p8 NContainer [CAdd ex_etr; CAdd (Node 3 p8 NETR []); CDiscard (ByNet p16); CAdd ex_etr])
                     = [ex_etr].
Proof. vm_compute. reflexivity. Qed.
