(** * Properties C57, C58: announced locators and Map-Replies of the ETR *)
From Coq Require Import Permutation.
From Verif Require Import Base BaseLemmas Afi AfiProofs Spec SpecLemmas SpecEid PropEid Records RecordsProofs Control ControlProofs SpecRec PropControl Tree SpecTree TreeProofs PropTree MapServer Ddt SpecDdt PropDdt2 Etr SpecEtr.

Lemma addr_same_eq a b : addr_same a b = true -> a = b.
Proof.
  destruct a, b; cbn; try discriminate; try reflexivity; rewrite ?andb_true_iff, ?fam_eqb_spec, ?Z.eqb_eq.
  - intros [-> ->]; reflexivity.
  - intros [[-> ->] ->]; reflexivity.
Qed.
Lemma addr_same_ip v z : addr_same (AIP v z) (AIP v z) = true.
Proof. cbn. rewrite Z.eqb_refl, andb_true_r. apply fam_eqb_spec. reflexivity. Qed.
Lemma bits_eqb_eq a : forall b, bits_eqb a b = true <-> a = b.
Proof.
  induction a as [|x a IH]; intros [|y b]; cbn; try (split; [discriminate|discriminate]); [tauto|].
  rewrite andb_true_iff, Bool.eqb_true_iff, IH. split; [intros [-> ->]; reflexivity|intros [= -> ->]; auto].
Qed.
Lemma loc_same_eq a b : loc_same a b = true -> a = b.
Proof.
  destruct a, b. unfold loc_same. cbn. rewrite !andb_true_iff, !Z.eqb_eq, !Bool.eqb_true_iff, bits_eqb_eq.
  intros [[[[[[[[-> ->] ->] ->] ->] ->] ->] H] ->]. apply addr_same_eq in H. congruence.
Qed.
Lemma loc_same_refl a : ip_locator a -> loc_same a a = true.
Proof.
  intros (v & z & E). unfold loc_same. rewrite !Z.eqb_refl, !Bool.eqb_reflx, E, addr_same_ip. cbn [andb]. apply bits_eqb_eq. reflexivity.
Qed.

Lemma set_add_in {A} (same : A -> A -> bool) x l : (forall a b, same a b = true -> a = b) ->
  forall y, In y (set_add same x l) <-> In y l \/ y = x.
Proof.
  intros S y. unfold set_add. destruct (existsb _ _) eqn:E.
  - apply existsb_exists in E. destruct E as (z & Hz & Ez). apply S in Ez. subst z. split; [auto|]. intros [?| ->]; assumption.
  - rewrite in_app_iff. cbn. split; [intros [|[|[]]]; auto|intros [| ->]; auto].
Qed.
Lemma set_add_nodup {A} (same : A -> A -> bool) x l : same x x = true -> NoDup l -> NoDup (set_add same x l).
Proof.
  intros R ND. unfold set_add. destruct (existsb _ _) eqn:E; [exact ND|].
  apply (Permutation.Permutation_NoDup (l := x :: l)); [apply Permutation.Permutation_cons_append|]. constructor; [|exact ND].
  intros Hin. assert (existsb (same x) l = true) as E' by (apply existsb_exists; eauto). congruence.
Qed.
Lemma fold_add_in {A B} (same : A -> A -> bool) (f : B -> A) (S : forall a b, same a b = true -> a = b) l :
  forall acc y, In y (fold_left (fun s r => set_add same (f r) s) l acc) <-> In y acc \/ exists r, In r l /\ y = f r.
Proof.
  induction l as [|r l IH]; intros acc y; cbn [fold_left].
  - split; [auto|]. intros [|(r & [] & _)]; assumption.
  - rewrite IH, (set_add_in same) by exact S. split.
    + intros [[|]|(r' & H & E)]; [auto|right; exists r; split; [left; reflexivity|assumption]|right; exists r'; split; [right; exact H|exact E]].
    + intros [|(r' & [<-|H] & E)]; [auto|auto|right; eauto].
Qed.
Lemma fold_add_nodup {A B} (same : A -> A -> bool) (f : B -> A) l : (forall r, In r l -> same (f r) (f r) = true) ->
  forall acc, NoDup acc -> NoDup (fold_left (fun s r => set_add same (f r) s) l acc).
Proof.
  induction l as [|r l IH]; intros H acc ND; cbn [fold_left]; [exact ND|].
  apply IH; [intros; apply H; right; assumption|]. apply set_add_nodup; [apply H; left; reflexivity|exact ND].
Qed.

Lemma new_loc_announces l local a x : x = new_loc l local a <-> announces l local a x.
Proof. split; [intros ->; constructor; reflexivity|]. intros [H1 H2 H3 H4 H5 H6 H7 H8 H9]. destruct x; unfold new_loc; unfold Records.l_prio, Records.l_weight, Records.l_mprio, Records.l_mweight, Records.l_rsv, Records.l_local, Records.l_probed, Records.l_reach, Records.l_addr in *. congruence. Qed.

Lemma is_local_spec socks locs l v z : no_mixup socks locs -> In l locs -> l_addr l = AIP v z ->
  is_local_loc socks z = true <-> ours socks l.
Proof.
  intros NM Hl E. unfold is_local_loc, ours. rewrite existsb_exists. split.
  - intros ([v' z'] & Hin & Ez). cbn in Ez. apply Z.eqb_eq in Ez. subst z'. exists v, z. split; [exact E|].
    rewrite <- (NM l v z v' Hl E Hin) in *. exact Hin.
  - intros (v' & z' & E' & Hin). rewrite E in E'. injection E' as <- <-. exists (v, z). split; [exact Hin|]. apply Z.eqb_refl.
Qed.

(** one pass: no RTRs *)
Lemma announce_plain socks locs0 : no_mixup socks locs0 -> forall locs, (forall l, In l locs -> In l locs0 /\ ip_locator l) ->
  forall acc inc rtrs, (rtrs = [] \/ forall l, In l locs -> bound l -> ~ ours socks l) -> NoDup acc ->
  exists ls, announce socks rtrs locs inc acc = Ok ls /\ NoDup ls /\
    forall x, In x ls <-> In x acc \/ exists l b, In l locs /\ bound l /\ (b = true <-> ours socks l) /\ announces l b (l_addr l) x.
Proof.
  intros NM. induction locs as [|l locs IH]; intros Hl acc inc rtrs HR ND; cbn [announce].
  - exists acc. split; [reflexivity|]. split; [exact ND|]. intros x. split; [auto|]. intros [|(l & b & [] & _)]; assumption.
  - destruct (Hl l (or_introl eq_refl)) as [Hl0 (v & z & E)]. rewrite E.
    assert (forall l', In l' locs -> In l' locs0 /\ ip_locator l') as Hl' by (intros; apply Hl; right; assumption).
    assert (rtrs = [] \/ forall l', In l' locs -> bound l' -> ~ ours socks l') as HR' by (destruct HR as [|HR]; [auto|right; intros; apply HR; [right|]; assumption]).
    destruct (Z.eqb_spec z 0) as [->|Nz].
    + destruct (IH Hl' acc inc rtrs HR' ND) as (ls & E1 & ND1 & H1). exists ls. split; [exact E1|]. split; [exact ND1|].
      intros x. rewrite H1. split; (intros [|(l' & b & Hin & Hb & R)]; [auto|right]).
      * exists l', b. split; [right; exact Hin|auto].
      * destruct Hin as [<-|Hin]; [destruct Hb as (v' & z' & E' & N); rewrite E in E'; injection E' as <- <-; congruence|eauto].
    + assert (is_local_loc socks z && nonempty rtrs = false) as ->.
      { destruct HR as [->|HR]; [apply andb_false_r|]. destruct (is_local_loc socks z) eqn:El; [|reflexivity].
        apply (is_local_spec socks locs0 l v z NM Hl0 E) in El. destruct (HR l (or_introl eq_refl)); [exists v, z; auto|exact El]. }
      destruct (IH Hl' (set_add loc_same (new_loc l (is_local_loc socks z) (AIP v z)) acc) inc rtrs HR') as (ls & E1 & ND1 & H1).
      { apply set_add_nodup; [|exact ND]. apply loc_same_refl. exists v, z. reflexivity. }
      exists ls. split; [exact E1|]. split; [exact ND1|]. intros x. rewrite H1, (set_add_in loc_same) by exact loc_same_eq. split.
      * intros [[|Ex]|(l' & b & Hin & R)]; [auto| |right; exists l', b; split; [right; exact Hin|exact R]].
        right. exists l, (is_local_loc socks z). split; [left; reflexivity|]. split; [exists v, z; auto|].
        split; [apply (is_local_spec socks locs0 l v z); assumption|]. rewrite E. apply new_loc_announces, Ex.
      * intros [|(l' & b & [<-|Hin] & Hb & Hbo & A)]; [auto| |right; exists l', b; auto]. left. right.
        rewrite E in A. apply new_loc_announces in A. rewrite A. f_equal.
        pose proof (is_local_spec socks locs0 l v z NM Hl0 E) as S. destruct b, (is_local_loc socks z); try reflexivity; intuition discriminate.
Qed.

(** one pass, RTRs already included *)
Lemma announce_rest socks locs0 rtrs : no_mixup socks locs0 -> rtrs <> [] -> forall locs, (forall l, In l locs -> In l locs0 /\ ip_locator l) ->
  forall acc, NoDup acc ->
  exists ls, announce socks rtrs locs true acc = Ok ls /\ NoDup ls /\
    forall x, In x ls <-> In x acc \/ exists l, In l locs /\ bound l /\ ~ ours socks l /\ announces l false (l_addr l) x.
Proof.
  intros NM NR. induction locs as [|l locs IH]; intros Hl acc ND; cbn [announce].
  - exists acc. split; [reflexivity|]. split; [exact ND|]. intros x. split; [auto|]. intros [|(l & [] & _)]; assumption.
  - destruct (Hl l (or_introl eq_refl)) as [Hl0 (v & z & E)]. rewrite E.
    assert (forall l', In l' locs -> In l' locs0 /\ ip_locator l') as Hl' by (intros; apply Hl; right; assumption).
    pose proof (is_local_spec socks locs0 l v z NM Hl0 E) as S.
    assert (nonempty rtrs = true) as NE by (destruct rtrs; [congruence|reflexivity]). rewrite NE, andb_true_r.
    assert (forall ls, (forall x, In x ls <-> In x acc \/ exists l, In l locs /\ bound l /\ ~ ours socks l /\ announces l false (l_addr l) x) ->
      (z = 0 \/ ours socks l) -> forall x, In x ls <-> In x acc \/ exists l', In l' (l :: locs) /\ bound l' /\ ~ ours socks l' /\ announces l' false (l_addr l') x) as Skip.
    { intros ls H Hz x. rewrite H. split; (intros [|(l' & Hin & Hb & Ho & R)]; [auto|right]).
      - exists l'. split; [right; exact Hin|auto].
      - destruct Hin as [<-|Hin]; [|eauto]. exfalso. destruct Hz as [->|Hz]; [|contradiction].
        destruct Hb as (v' & z' & E' & N); rewrite E in E'; injection E' as <- <-; congruence. }
    destruct (Z.eqb_spec z 0) as [Ez|Nz].
    + destruct (IH Hl' acc ND) as (ls & E1 & ND1 & H1). exists ls. split; [exact E1|]. split; [exact ND1|]. apply Skip; auto.
    + destruct (is_local_loc socks z) eqn:El.
      * destruct (IH Hl' acc ND) as (ls & E1 & ND1 & H1). exists ls. split; [exact E1|]. split; [exact ND1|]. apply Skip; [exact H1|right; apply S; reflexivity].
      * destruct (IH Hl' (set_add loc_same (new_loc l false (AIP v z)) acc)) as (ls & E1 & ND1 & H1).
        { apply set_add_nodup; [|exact ND]. apply loc_same_refl. exists v, z. reflexivity. }
        exists ls. split; [exact E1|]. split; [exact ND1|]. intros x. rewrite H1, (set_add_in loc_same) by exact loc_same_eq. split.
        -- intros [[|Ex]|(l' & Hin & R)]; [auto| |right; exists l'; split; [right; exact Hin|exact R]].
           right. exists l. split; [left; reflexivity|]. split; [exists v, z; auto|]. split; [rewrite <- S; discriminate|].
           rewrite E. apply new_loc_announces, Ex.
        -- intros [|(l' & [<-|Hin] & Hb & Hno & A)]; [auto| |right; exists l'; auto]. left. right.
           rewrite E in A. apply new_loc_announces in A. exact A.
Qed.

Lemma announce_rtrs socks locs0 rtrs : no_mixup socks locs0 -> rtrs <> [] -> Forall ip_addr rtrs -> forall locs, (forall l, In l locs -> In l locs0 /\ ip_locator l) ->
  forall acc, NoDup acc -> (exists l, In l locs /\ bound l /\ ours socks l) ->
  exists ls l0, announce socks rtrs locs false acc = Ok ls /\ NoDup ls /\ In l0 locs /\ bound l0 /\ ours socks l0 /\
    forall x, In x ls <-> In x acc \/ (exists l, In l locs /\ bound l /\ ~ ours socks l /\ announces l false (l_addr l) x) \/
                          (exists r, In r rtrs /\ announces l0 false r x).
Proof.
  intros NM NR HR. induction locs as [|l locs IH]; intros Hl acc ND (lx & Hx & Bx & Ox); [destruct Hx|]. cbn [announce].
  destruct (Hl l (or_introl eq_refl)) as [Hl0 (v & z & E)]. rewrite E.
  assert (forall l', In l' locs -> In l' locs0 /\ ip_locator l') as Hl' by (intros; apply Hl; right; assumption).
  pose proof (is_local_spec socks locs0 l v z NM Hl0 E) as S.
  assert (nonempty rtrs = true) as NE by (destruct rtrs; [congruence|reflexivity]). rewrite NE, andb_true_r.
  destruct (Z.eqb_spec z 0) as [Ez|Nz].
  - assert (In lx locs) as Hx' by (destruct Hx as [<-|]; [destruct Bx as (v' & z' & E' & N); rewrite E in E'; injection E' as <- <-; congruence|assumption]).
    destruct (IH Hl' acc ND) as (ls & l0 & E1 & ND1 & I0 & B0 & O0 & H1); [eauto|]. exists ls, l0.
    split; [exact E1|]. split; [exact ND1|]. split; [right; exact I0|]. split; [exact B0|]. split; [exact O0|].
    intros x. rewrite H1. split; (intros [|[(l' & Hin & Hb & R)|]]; [auto| |auto]); right; left.
    + exists l'. split; [right; exact Hin|auto].
    + destruct Hin as [<-|Hin]; [destruct Hb as (v' & z' & E' & N); rewrite E in E'; injection E' as <- <-; congruence|eauto].
  - destruct (is_local_loc socks z) eqn:El.
    + destruct (announce_rest socks locs0 rtrs NM NR locs Hl' (fold_left (fun s r => set_add loc_same (new_loc l false r) s) rtrs acc)) as (ls & E1 & ND1 & H1).
      { apply fold_add_nodup; [|exact ND]. intros r Hr. rewrite Forall_forall in HR. destruct (HR r Hr) as (v' & z' & ->). apply loc_same_refl. exists v', z'. reflexivity. }
      exists ls, l. split; [exact E1|]. split; [exact ND1|]. split; [left; reflexivity|]. split; [exists v, z; auto|].
      assert (ours socks l) as Ol by (apply S; reflexivity). split; [exact Ol|].
      intros x. rewrite H1, (fold_add_in loc_same (new_loc l false)) by exact loc_same_eq. split.
      * intros [[|(r & Hr & Ex)]|(l' & Hin & R)]; [auto|right; right; exists r; split; [exact Hr|apply new_loc_announces, Ex]|].
        right. left. exists l'. split; [right; exact Hin|exact R].
      * intros [|[(l' & [<-|Hin] & Hb & Hno & R)|(r & Hr & A)]]; [auto|contradiction|right; eauto|].
        left. right. exists r. split; [exact Hr|apply new_loc_announces, A].
    + assert (In lx locs) as Hx' by (destruct Hx as [<-|]; [apply S in Ox; congruence|assumption]).
      destruct (IH Hl' (set_add loc_same (new_loc l false (AIP v z)) acc)) as (ls & l0 & E1 & ND1 & I0 & B0 & O0 & H1); [|eauto|].
      { apply set_add_nodup; [|exact ND]. apply loc_same_refl. exists v, z. reflexivity. }
      exists ls, l0. split; [exact E1|]. split; [exact ND1|]. split; [right; exact I0|]. split; [exact B0|]. split; [exact O0|].
      intros x. rewrite H1, (set_add_in loc_same) by exact loc_same_eq. split.
      * intros [[|Ex]|[(l' & Hin & R)|]]; [auto| |right; left; exists l'; split; [right; exact Hin|exact R]|auto].
        right. left. exists l. split; [left; reflexivity|]. split; [exists v, z; auto|]. split; [rewrite <- S; discriminate|].
        rewrite E. apply new_loc_announces, Ex.
      * intros [|[(l' & [<-|Hin] & Hb & Hno & A)|]]; [auto| |right; left; exists l'; auto|auto]. left. right.
        rewrite E in A. apply new_loc_announces in A. exact A.
Qed.

Lemma as_ips_ok l : Forall ip_addr l -> as_ips l = Ok l.
Proof. induction 1 as [|a l (v & z & ->) _ IH]; [reflexivity|]. cbn [as_ips as_address bind]. rewrite IH. reflexivity. Qed.
(** RTRs that are shown as addresses (in instance 0) count as these *)
Definition plain_rtr (a r : addr) : Prop := exists v z, shown a = Some (v, z) /\ r = AIP v z.
Lemma as_ips_plain l rs : Forall2 plain_rtr l rs -> as_ips l = Ok rs.
Proof. induction 1 as [|a r l rs (v & z & S & ->) _ IH]; [reflexivity|]. apply as_address_shown in S. cbn [as_ips]. rewrite S. cbn [bind]. rewrite IH. reflexivity. Qed.
Theorem C57_shown_rtrs locs stored rs socks tentative : Forall2 plain_rtr (concat stored) rs ->
  get_etr_locators locs stored socks tentative = get_etr_locators locs [rs] socks tentative.
Proof.
  intros H. unfold get_etr_locators, get_rtrs. rewrite (as_ips_plain _ _ H). cbn [concat]. rewrite app_nil_r.
  rewrite (as_ips_ok rs); [reflexivity|]. clear - H. induction H as [|a r l rs (v & z & _ & ->)]; constructor; [exists v, z; reflexivity|assumption].
Qed.

(** The locators that are announced: [locs] in whatever order Python iterates over the set, [stored] the RTRs of all
    registrations, [tentative] further RTRs. *)
Theorem C57_announced_partial locs stored socks tentative :
  Forall ip_locator locs -> Forall ip_addr (concat stored ++ tentative) -> no_mixup socks locs ->
  exists ls, get_etr_locators locs stored socks tentative = Ok ls /\ NoDup ls /\
  ((concat stored ++ tentative = [] \/ forall l, In l locs -> bound l -> ~ ours socks l) ->
     forall x, In x ls <-> exists l local, In l locs /\ bound l /\ (local = true <-> ours socks l) /\ announces l local (l_addr l) x) /\
  (concat stored ++ tentative <> [] -> (exists l, In l locs /\ bound l /\ ours socks l) ->
     exists l0, In l0 locs /\ bound l0 /\ ours socks l0 /\
     forall x, In x ls <-> (exists l, In l locs /\ bound l /\ ~ ours socks l /\ announces l false (l_addr l) x) \/
                           (exists r, In r (concat stored ++ tentative) /\ announces l0 false r x)).
Proof.
  intros HL HR NM. rewrite Forall_forall in HL. apply Forall_app in HR. destruct HR as [HR1 HR2].
  unfold get_etr_locators, get_rtrs. rewrite (as_ips_ok _ HR1). cbn [bind].
  set (rtrs := fold_left _ tentative _).
  assert (forall r, In r rtrs <-> In r (concat stored ++ tentative)) as HRT.
  { intros r. unfold rtrs. rewrite (fold_add_in addr_same (fun x => x)) by exact addr_same_eq.
    rewrite (fold_add_in addr_same (fun x => x)) by exact addr_same_eq. rewrite in_app_iff. split.
    - intros [[[]|(y & H & ->)]|(y & H & ->)]; auto.
    - intros [H|H]; [left; right; eauto|right; eauto]. }
  assert (rtrs = [] <-> concat stored ++ tentative = []) as HN.
  { split; intros E.
    - destruct (concat stored ++ tentative) as [|r l]; [reflexivity|]. assert (In r rtrs) as X by (apply HRT; left; reflexivity). rewrite E in X. destruct X.
    - destruct rtrs as [|r l]; [reflexivity|]. exfalso. rewrite E in HRT. apply (proj1 (HRT r)). left; reflexivity. }
  assert (forall l, In l locs -> In l locs /\ ip_locator l) as Hl by auto.
  destruct rtrs as [|r0 rt] eqn:Ert.
  - destruct (announce_plain socks locs NM locs Hl [] false [] (or_introl eq_refl) (NoDup_nil _)) as (ls & E & ND & H).
    exists ls. split; [exact E|]. split; [exact ND|]. split.
    + intros _ x. rewrite H. split; [intros [[]|]; assumption|auto].
    + intros N. destruct N. apply HN. reflexivity.
  - rewrite <- Ert in *. assert (rtrs <> []) as NR by (rewrite Ert; discriminate).
    assert (Forall ip_addr rtrs) as HF. { apply Forall_forall. intros r Hr. apply HRT in Hr. rewrite Forall_forall in HR1, HR2. apply in_app_iff in Hr. destruct Hr; auto. }
    assert ((exists l, In l locs /\ bound l /\ ours socks l) \/ (forall l, In l locs -> bound l -> ~ ours socks l)) as [HX|HX].
    { clear - Hl NM. assert (forall l, In l locs -> (bound l /\ ours socks l) \/ ~ (bound l /\ ours socks l)) as Dec.
      { intros l Hin. destruct (Hl l Hin) as [_ (v & z & E)]. pose proof (is_local_spec socks locs l v z NM Hin E) as S.
        destruct (Z.eq_dec z 0) as [->|N]; [right; intros [(v' & z' & E' & N) _]; congruence|].
        destruct (is_local_loc socks z); [left; split; [exists v, z; auto|apply S; reflexivity]|right; intros [_ O]; apply S in O; discriminate]. }
      clear Hl NM. induction locs as [|l locs IH]; [right; intros l []|].
      destruct (Dec l (or_introl eq_refl)) as [[B O]|N]; [left; exists l; split; [left; reflexivity|auto]|].
      destruct IH as [(l' & H & R)|H]; [intros; apply Dec; right; assumption|left; exists l'; split; [right; exact H|exact R]|].
      right. intros l' [<-|Hin] B O; [apply N; auto|apply (H l' Hin B O)]. }
    + destruct (announce_rtrs socks locs rtrs NM NR HF locs Hl [] (NoDup_nil _) HX) as (ls & l0 & E & ND & I0 & B0 & O0 & H).
      exists ls. split; [exact E|]. split; [exact ND|]. split.
      * intros [Enil|Hno]; [destruct (NR (proj2 HN Enil))|]. destruct HX as (l & H1 & H2 & H3). destruct (Hno l H1 H2 H3).
      * intros _ _. exists l0. split; [exact I0|]. split; [exact B0|]. split; [exact O0|]. intros x. rewrite H. split.
        -- intros [[]|[?|(r & Hr & A)]]; [auto|]. right. exists r. split; [apply HRT, Hr|exact A].
        -- intros [?|(r & Hr & A)]; [auto|]. right. right. exists r. split; [apply HRT, Hr|exact A].
    + destruct (announce_plain socks locs NM locs Hl [] false rtrs (or_intror HX) (NoDup_nil _)) as (ls & E & ND & H).
      exists ls. split; [exact E|]. split; [exact ND|]. split.
      * intros _ x. rewrite H. split; [intros [[]|]; assumption|auto].
      * intros _ (l & H1 & H2 & H3). destruct (HX l H1 H2 H3).
Qed.

(** a locator that has no IP address, or an RTR that is not even shown as one, makes it raise *)
Theorem C57_other_addresses_raise locs stored socks tentative :
  (exists l, In l locs /\ ~ ip_locator l) \/ (exists a, In a (concat stored) /\ shown a = None) ->
  exists e, get_etr_locators locs stored socks tentative = Err e.
Proof.
  intros H. unfold get_etr_locators, get_rtrs.
  destruct (as_ips (concat stored)) as [l|e] eqn:E; [|cbn; eauto]. cbn [bind].
  assert (Forall (fun a => shown a <> None) (concat stored)) as HF.
  { revert l E. generalize (concat stored) as k. induction k as [|a k IH]; intros l E; [constructor|]. cbn [as_ips] in E.
    bo E [v z] E0. bo E r E1. constructor; [apply as_address_shown in E0; congruence|eapply IH; eauto]. }
  destruct H as [(l' & Hl & Hn)|(a & Ha & Hn)].
  2: { rewrite Forall_forall in HF. destruct (HF a Ha Hn). }
  generalize (fold_left (fun s x => set_add addr_same x s) tentative (fold_left (fun s x => set_add addr_same x s) l [])) as rtrs.
  intros rtrs. generalize false as inc. generalize (@nil loc) as acc. clear E HF. revert Hl. induction locs as [|x locs IH]; intros Hl acc inc; [destruct Hl|].
  cbn [announce]. destruct Hl as [->|Hl].
  - destruct (l_addr l') eqn:E; try (eexists; reflexivity). destruct Hn. eexists _, _; exact E.
  - destruct (l_addr x); try (eexists; reflexivity). destruct (z =? 0); [apply IH, Hl|].
    destruct (is_local_loc socks z && nonempty rtrs); [|apply IH, Hl]. destruct inc; apply IH, Hl.
Qed.

(** The families are not compared: an IPv6 locator whose number is that of an IPv4 socket counts as local and is replaced
    by the RTR. *)
Definition ex_l (v : fam) (z prio : Z) : loc := Loc prio 100 255 0 (repeat false 13) false false false (AIP v z).
Theorem C57_refuted :
  ~ (forall locs stored socks tentative ls, Forall ip_locator locs -> Forall ip_addr (concat stored ++ tentative) ->
       get_etr_locators locs stored socks tentative = Ok ls ->
       forall l, In l locs -> bound l -> ~ ours socks l -> exists x, In x ls /\ announces l false (l_addr l) x).
Proof.
  intros H. set (l := ex_l V6 167772161 1).
  destruct (H [l] [[AIP V4 5]] [(V4, 167772161)] [] [new_loc l false (AIP V4 5)]) with (l := l) as (x & [<-|[]] & A).
  - repeat constructor. exists V6, 167772161. reflexivity.
  - repeat constructor. exists V4, 5. reflexivity.
  - vm_compute. reflexivity.
  - left; reflexivity.
  - exists V6, 167772161. split; [reflexivity|lia].
  - intros (v & z & [= <- <-] & [E|[]]). discriminate.
  - destruct A as [_ _ _ _ _ _ _ _ A]. discriminate.
Qed.

(** three configured locators, one local, one unbound, one elsewhere; without and with an RTR *)
Example ex_announced :
  get_etr_locators [ex_l V4 10 1; ex_l V4 0 2; ex_l V6 77 3] [] [(V4, 10); (V6, 3)] [] =
    Ok [new_loc (ex_l V4 10 1) true (AIP V4 10); new_loc (ex_l V6 77 3) false (AIP V6 77)] /\
  get_etr_locators [ex_l V4 10 1; ex_l V4 0 2; ex_l V6 77 3] [[AIP V4 99]] [(V4, 10); (V6, 3)] [] =
    Ok [new_loc (ex_l V4 10 1) false (AIP V4 99); new_loc (ex_l V6 77 3) false (AIP V6 77)].
Proof. split; vm_compute; reflexivity. Qed.
Print Assumptions C57_announced_partial.
Print Assumptions C57_other_addresses_raise.
Print Assumptions C57_shown_rtrs.
Print Assumptions C57_refuted.

(** ** C58 *)
Lemma set_flags_replied probe dest x : replied probe dest x (set_flags probe dest x).
Proof.
  unfold replied, set_flags; cbn. repeat (split; [reflexivity|]). rewrite andb_true_iff. split; intros [-> H]; (split; [reflexivity|]).
  - symmetry. exact (addr_same_eq (AIP _ _) _ H).
  - rewrite H. destruct dest as [v z]. cbn [fst snd]. exact (addr_same_ip v z).
Qed.

(** Every reply: nonce and probe bit of the request, to its ITR-RLOCs and the port it came from, one authoritative record
    for the ETR's prefix with TTL 1440; the announced locators (C57), all reachable, the probed bit as it should be; or
    without locators the action natively-forward. *)
Theorem C58_reply cfg w socks m dest port s : handle_map_request cfg w socks m dest port = Ok (Some s) ->
  exists eid iid afi a q n x l r ls,
    q_eids m = [eid] /\ eid_named eid iid afi a /\ pfx_of a = Some q /\ tree_for cfg iid afi n /\
    resolve_path n q = Ok (x :: l) /\ n_cls x = NETR /\
    p_probe (s_msg s) = q_probe m /\ p_nonce (s_msg s) = q_nonce m /\ s_to s = q_rlocs m /\ s_port s = port /\
    p_records (s_msg s) = [r] /\ mr_eid r = ANet (x_fam (n_pfx x)) (x_net (n_pfx x)) (x_len (n_pfx x)) /\
    mr_auth r = true /\ mr_ttl r = 1440 /\
    get_etr_locators (e_locs (w (n_id x))) (map snd (e_rtrs (w (n_id x)))) socks [] = Ok ls /\
    Forall2 (replied (q_probe m) dest) ls (mr_locs r) /\
    mr_action r = (match ls with [] => 1 | _ => 0 end).
Proof.
  unfold handle_map_request. intros H. destruct (q_eids m) as [|eid [|]] eqn:Eq; try discriminate.
  destruct (determine eid) as [[[iid afi] a]|] eqn:Ed; [|discriminate]. destruct (root_of cfg iid afi) as [n|] eqn:Er; [|discriminate].
  destruct (pfx_of a) as [q|] eqn:Ep; [|discriminate]. bo H l El. destruct l as [|x l]; [discriminate|].
  destruct (n_cls x) eqn:Ec; try discriminate. bo H s' Es. injection H as <-. unfold etr_map_request in Es. bo Es ls Els. injection Es as <-.
  exists eid, iid, afi, a, q, n, x, l, (match ls with [] => new_mrec 1 (n_pfx x) [] | _ :: _ => new_mrec 0 (n_pfx x) (map (set_flags (q_probe m) dest) ls) end), ls.
  repeat (split; [assumption || reflexivity || (apply eid_named_spec; assumption)|]).
  destruct ls as [|y ls].
  - repeat (split; [assumption || reflexivity || constructor|]). reflexivity.
  - repeat (split; [assumption || reflexivity|]). split; [|reflexivity]. cbn [mr_locs new_mrec].
    generalize (y :: ls) as k. induction k; constructor; [apply set_flags_replied|assumption].
Qed.

(** It is sent whenever the most specific node for the requested prefix is an ETR node, and only then. *)
Theorem C58_answered cfg w socks m dest port iid afi q n x : tree_for cfg iid afi n -> tidy n -> length (q_eids m) = 1%nat ->
  asks m iid afi q -> wf_pfx q -> inside q (n_pfx n) -> ~ crowded n q -> most_specific n q x ->
  (n_cls x = NETR ->
     Forall ip_locator (e_locs (w (n_id x))) -> Forall ip_addr (concat (map snd (e_rtrs (w (n_id x))))) -> no_mixup socks (e_locs (w (n_id x))) ->
     exists s, handle_map_request cfg w socks m dest port = Ok (Some s)) /\
  (n_cls x <> NETR -> handle_map_request cfg w socks m dest port = Ok None).
Proof.
  intros Ht T Hlen (eid & el & a & Eq & Ed & Ea) Wq Hi NC (Hx1 & Hx2 & Hx3). apply eid_named_spec in Ed.
  destruct (C46_longest_prefix_match n q T Wq Hi) as [_ H]. destruct (H NC) as (y & l & E1 & _ & Hin & Hsp & _ & Hc & _). clear H.
  assert (y = x) as ->.
  { destruct (proj2 (Hin x) (conj Hx1 Hx2)) as [|Hxl]; [assumption|]. exfalso.
    apply in_split in Hxl. destruct Hxl as (l1 & l2 & ->).
    destruct (climbs_below _ _ Hc y l1 x l2 eq_refl) as (c & Hc1 & Hc2). apply (Hx3 c Hc1). apply (Hin c), Hc2. }
  unfold handle_map_request. rewrite Eq in *. destruct el as [|? ?]; [|discriminate]. rewrite Ed. unfold tree_for in Ht. rewrite Ht, Ea, E1. cbn [bind].
  split.
  - intros -> HL HR NM. destruct (C57_announced_partial (e_locs (w (n_id x))) (map snd (e_rtrs (w (n_id x)))) socks []) as (ls & E & _); [assumption|rewrite app_nil_r; assumption|assumption|].
    unfold etr_map_request. rewrite E. cbn [bind]. eauto.
  - intros N. destruct (n_cls x); try reflexivity. congruence.
Qed.

(** other numbers of EIDs and unknown instances are ignored *)
Theorem C58_ignored cfg w socks m dest port :
  length (q_eids m) <> 1%nat \/ (exists eid, q_eids m = [eid] /\ ((forall iid afi a, ~ eid_named eid iid afi a) \/ exists iid afi a, eid_named eid iid afi a /\ forall n, ~ tree_for cfg iid afi n)) ->
  handle_map_request cfg w socks m dest port = Ok None.
Proof.
  unfold handle_map_request. intros [H|(eid & -> & [N|(iid & afi & a & Ed & NT)])].
  2:{ destruct (determine eid) as [[[iid afi] a]|] eqn:Ed; [|reflexivity]. apply eid_named_spec in Ed. destruct (N _ _ _ Ed). }
  2:{ apply eid_named_spec in Ed. rewrite Ed. destruct (root_of cfg iid afi) as [n|] eqn:Er; [destruct (NT n Er)|reflexivity]. }
  destruct (q_eids m) as [|? [|]]; cbn in H; [reflexivity|lia|reflexivity].
Qed.

(** ** Sending records *)
Definition sendable (l : loc) : Prop := obj_loc l /\ byte_fields l /\ sendable_addr (l_addr l).

Lemma wf_pfx_addr p : wf_pfx p -> wf_ip (ANet (x_fam p) (x_net p) (x_len p)) = true.
Proof.
  intros (H1 & H2 & H3). cbn [wf_ip]. unfold fits. rewrite !andb_true_iff, !Z.leb_le, Z.ltb_lt, Z.eqb_eq.
  repeat split; try (unfold wz in *; lia).
  unfold aligned in H3. unfold mask_to. set (k := 2 ^ (wz (x_fam p) - x_len p)) in *.
  assert (0 < k) by (apply Z.pow_pos_nonneg; lia).
  rewrite (Z_div_mod_eq_full (x_net p) k) at 2. lia.
Qed.

Lemma new_mrec_obj action p ls : wf_pfx p -> Forall sendable ls -> obj_mrec (new_mrec action p ls).
Proof.
  intros Wp HS. split; [reflexivity|]. split; [apply wf_pfx_addr, Wp|]. eapply Forall_impl; [|exact HS]. intros l H; apply H.
Qed.

Lemma new_mrec_sends action p ls : wf_pfx p -> Forall sendable ls -> lenZ ls <= 255 -> 0 <= action <= 3 ->
  exists r' b, sanitize_mrec (new_mrec action p ls) = Ok r' /\ sanitize_mrec r' = Ok r' /\ w_mrec r' = Ok b.
Proof.
  intros Wp HS Hlen Ha.
  assert (Forall (fun l => sanitize_loc l = Ok tt) ls) as Hs.
  { eapply Forall_impl; [|exact HS]. intros l (_ & (B1 & B2 & B3 & B4) & (v & z & E & Hz & Hf)).
    apply (sanitize_loc_iff l v z E Hz). repeat split; try assumption; unfold byte_range; try lia. }
  assert (Forall loc_ip ls) as Hi.
  { eapply Forall_impl; [|exact HS]. intros l (_ & _ & (v & z & E & _)). exists v, z; exact E. }
  pose proof (sort_locs_eq ls Hi) as Hso.
  assert (exists r', sanitize_mrec (new_mrec action p ls) = Ok r') as (r' & Er).
  { unfold sanitize_mrec, new_mrec. cbn [mr_ttl mr_action mr_auth mr_rsv mr_ver mr_eid mr_locs].
    change (guard ((0 <=? 1440) && (1440 <=? 4294967295)) EValue) with (Ok tt). cbn [bind].
    replace (guard _ EValue) with (Ok tt : res unit).
    2: { destruct ls; cbn [nonempty]; [|reflexivity]. replace ((0 <=? action) && (action <=? 3)) with true; [reflexivity|].
         symmetry. rewrite andb_true_iff, !Z.leb_le. lia. }
    cbn [bind]. change (guard ((0 <=? 0) && (0 <? 4096)) EValue) with (Ok tt). cbn [bind].
    change (guard (is_net _) EValue) with (Ok tt : res unit). cbn [bind].
    replace (checkM sanitize_loc ls) with (Ok tt : res unit) by (symmetry; apply checkM_ok; auto). cbn [bind].
    rewrite Hso. cbn [bind]. eexists; reflexivity. }
  exists r'. pose proof (sanitize_mrec_idem _ _ Er) as Er'. pose proof (sanitize_mrec_wf _ _ (new_mrec_obj action p ls Wp HS) Er) as Hw.
  apply sanitize_mrec_inv in Er as Inv. cbn [mr_locs new_mrec] in Inv. destruct Inv as (_ & _ & _ & _ & _ & Hso' & _).
  destruct (sort_locs_idem _ _ Hs Hso') as [_ HP].
  destruct (w_mrec_total r') as (b & Hb); [exact Hw|exact Er'| | |].
  - eapply Permutation_Forall; [symmetry; exact HP|]. eapply Forall_impl; [|exact HS].
    intros l (_ & _ & (v & z & E & Hz & _)) v' z' E'. rewrite E in E'. injection E' as <- <-. exact Hz.
  - unfold lenZ in *. rewrite (Permutation_length HP). exact Hlen.
  - eauto.
Qed.

Lemma announced_sendable locs stored socks tentative ls : get_etr_locators locs stored socks tentative = Ok ls ->
  no_mixup socks locs -> Forall usable_locator locs -> Forall sendable_addr (concat stored ++ tentative) -> Forall sendable ls.
Proof.
  intros E NM HL HR.
  assert (Forall ip_locator locs) as HI by (eapply Forall_impl; [|exact HL]; intros l (_ & [(v & H)|(v & z & H & _)]); eexists _, _; exact H).
  assert (Forall ip_addr (concat stored ++ tentative)) as HA by (eapply Forall_impl; [|exact HR]; intros a (v & z & -> & _); eexists _, _; reflexivity).
  destruct (C57_announced_partial locs stored socks tentative HI HA NM) as (ls' & E' & _ & P1 & P2).
  assert (ls' = ls) as -> by congruence.
  assert (forall l b a x, In l locs -> announces l b a x -> sendable_addr a -> sendable x) as Key.
  { intros l b a x Hl A Ha. rewrite Forall_forall in HL. destruct (HL l Hl) as [(B1 & B2 & B3 & B4) _]. destruct A as [A1 A2 A3 A4 _ _ _ A5 A6].
    split; [unfold obj_loc; rewrite A5; reflexivity|]. split; [unfold byte_fields; rewrite A1, A2, A3, A4; auto|]. rewrite A6. exact Ha. }
  assert (forall l, In l locs -> bound l -> sendable_addr (l_addr l)) as Kb.
  { intros l Hl (v & z & Ea & N). rewrite Forall_forall in HL. destruct (HL l Hl) as [_ [(v' & Hv)|H]]; [congruence|exact H]. }
  apply Forall_forall. intros x Hx. rewrite Forall_forall in HR.
  assert (forall l, In l locs -> (bound l /\ ours socks l) \/ ~ (bound l /\ ours socks l)) as Dec.
  { intros l Hin. rewrite Forall_forall in HI. destruct (HI l Hin) as (v & z & Ea). pose proof (is_local_spec socks locs l v z NM Hin Ea) as S.
    destruct (Z.eq_dec z 0) as [->|N]; [right; intros [(v' & z' & Ez' & N) _]; congruence|].
    destruct (is_local_loc socks z); [left; split; [exists v, z; auto|apply S; reflexivity]|right; intros [_ O]; apply S in O; discriminate]. }
  assert ((exists l, In l locs /\ bound l /\ ours socks l) \/ (forall l, In l locs -> bound l -> ~ ours socks l)) as HX.
  { clear - Dec. induction locs as [|l locs IH]; [right; intros l []|].
    destruct (Dec l (or_introl eq_refl)) as [[B O]|N]; [left; exists l; split; [left; reflexivity|auto]|].
    destruct IH as [(l' & H & R)|H]; [intros; apply Dec; right; assumption|left; exists l'; split; [right; exact H|exact R]|].
    right. intros l' [<-|Hin] B O; [apply N; auto|apply (H l' Hin B O)]. }
  destruct (concat stored ++ tentative) as [|r0 rt] eqn:Er.
  - apply P1 in Hx; [|left; reflexivity]. destruct Hx as (l & b & Hl & Hb & _ & A). eauto.
  - destruct HX as [HX|HX].
    + destruct (P2 ltac:(discriminate) HX) as (l0 & I0 & _ & _ & H). apply H in Hx. destruct Hx as [(l & Hl & Hb & _ & A)|(r & Hr & A)]; eauto.
    + apply P1 in Hx; [|right; exact HX]. destruct Hx as (l & b & Hl & Hb & _ & A). eauto.
Qed.

(** On the wire: with usable locators and RTRs and at most 255 announced locators, a request that was received (8-byte
    nonce) is answered by a message that can be serialised, and the requester decodes it to the same reply with the
    locators in ascending order. *)
Theorem C58_arrives cfg w socks m dest port iid afi q n x ls : tree_for cfg iid afi n -> tidy n -> length (q_eids m) = 1%nat ->
  asks m iid afi q -> wf_pfx q -> inside q (n_pfx n) -> ~ crowded n q -> most_specific n q x -> n_cls x = NETR ->
  length (q_nonce m) = 8%nat ->
  Forall usable_locator (e_locs (w (n_id x))) -> Forall sendable_addr (concat (map snd (e_rtrs (w (n_id x))))) -> no_mixup socks (e_locs (w (n_id x))) ->
  get_etr_locators (e_locs (w (n_id x))) (map snd (e_rtrs (w (n_id x)))) socks [] = Ok ls -> (length ls <= 255)%nat ->
  exists s out m', handle_map_request cfg w socks m dest port = Ok (Some s) /\ mrep_to_bytes (s_msg s) = Ok out /\
    (forall more, mrep_from_bytes (out ++ more) = Ok m') /\ arrives_mrep (s_msg s) m' /\ p_nonce m' = q_nonce m.
Proof.
  intros Ht T Hlen Has Wq Hi NC Hms Hc Hnon HL HR NM Els Hls.
  assert (Forall ip_locator (e_locs (w (n_id x)))) as HI by (eapply Forall_impl; [|exact HL]; intros l (_ & [(v & H)|(v & z & H & _)]); eexists _, _; exact H).
  assert (Forall ip_addr (concat (map snd (e_rtrs (w (n_id x)))))) as HA by (eapply Forall_impl; [|exact HR]; intros a (v & z & -> & _); eexists _, _; reflexivity).
  destruct (proj1 (C58_answered cfg w socks m dest port iid afi q n x Ht T Hlen Has Wq Hi NC Hms) Hc HI HA NM) as (s & Es).
  exists s. destruct (C46_longest_prefix_match n q T Wq Hi) as [_ H]. destruct (H NC) as (y & l & E1 & _ & Hin & Hsp & _ & Hcl & _). clear H.
  pose proof Es as Es0. unfold handle_map_request in Es0. destruct Has as (eid & el & a & Eq & Ed & Ea). apply eid_named_spec in Ed. rewrite Eq in *.
  destruct el as [|? ?]; [|discriminate]. rewrite Ed in Es0. unfold tree_for in Ht. rewrite Ht, Ea, E1 in Es0. cbn [bind] in Es0.
  destruct Hms as (Hx1 & Hx2 & Hx3).
  assert (y = x) as ->.
  { destruct (proj2 (Hin x) (conj Hx1 Hx2)) as [|Hxl]; [assumption|]. exfalso.
    apply in_split in Hxl. destruct Hxl as (l1 & l2 & ->).
    destruct (climbs_below _ _ Hcl y l1 x l2 eq_refl) as (c & Hc1 & Hc2). apply (Hx3 c Hc1). apply (Hin c), Hc2. }
  rewrite Hc in Es0. unfold etr_map_request in Es0. rewrite Els in Es0. cbn [bind] in Es0. injection Es0 as <-. cbn [s_msg].
  pose proof (announced_sendable _ _ _ [] _ Els NM HL) as HS. rewrite app_nil_r in HS. specialize (HS HR).
  assert (wf_pfx (n_pfx x)) as Wx. { pose proof (tidy_in x n T Hx1) as Tx. inversion Tx; assumption. }
  set (r := match ls with [] => _ | _ => _ end) in *.
  assert (exists action ks, r = new_mrec action (n_pfx x) ks /\ Forall sendable ks /\ lenZ ks <= 255 /\ 0 <= action <= 3) as (action & ks & Er & Hk1 & Hk2 & Hk3).
  { subst r. destruct ls as [|y0 ls0].
    - exists 1, []. repeat split; try constructor; try lia. cbn. lia.
    - exists 0, (map (set_flags (q_probe m) dest) (y0 :: ls0)). repeat split; try lia.
      + rewrite Forall_map. eapply Forall_impl; [|exact HS]. intros l0 H. exact H.
      + unfold lenZ. rewrite map_length. lia. }
  clearbody r. subst r.
  destruct (new_mrec_sends action (n_pfx x) ks Wx Hk1 Hk2 Hk3) as (r' & b & S1 & S2 & S3).
  set (mm := MRep (q_probe m) false false (repeat false 17) (q_nonce m) [new_mrec action (n_pfx x) ks]).
  assert (obj_mrep mm) as Ho. { split; [reflexivity|]. constructor; [apply new_mrec_obj; assumption|constructor]. }
  assert (exists bb, w_mrep mm = Ok bb) as (bb & Hbb).
  { unfold w_mrep, sanitize_mrep, mm. cbn [p_probe p_enlra p_security p_rsv p_nonce p_records negb guard bind].
    unfold blen. rewrite Hnon. cbn [Z.of_nat Pos.of_succ_nat Pos.succ Z.eqb Pos.eqb orb guard bind mapM].
    rewrite S1. cbn [bind p_probe p_enlra p_security p_rsv p_nonce p_records negb guard].
    unfold concatM, mapM. rewrite S3. cbn [bind].
    rewrite w_uint_in by (cbn; lia). cbn [bind]. rewrite w_uint_in by (cbn; lia). cbn [bind]. eexists; reflexivity. }
  destruct (al8_out bb (al8_mrep _ _ Ho Hbb)) as [out Hout].
  assert (mrep_to_bytes mm = Ok out) as Hb by (unfold mrep_to_bytes, to_bytes; rewrite Hbb; exact Hout).
  destruct (C25_map_reply_roundtrip mm out Ho Hb) as (m' & A & Hm'). exists out, m'.
  split; [exact Es|]. split; [exact Hb|]. split; [exact Hm'|]. split; [exact A|].
  destruct A as [_ (N1 & k & N2) _]. cbn [p_nonce mm] in N2. rewrite N2 in N1 |- *. rewrite app_length, repeat_length, Hnon in N1.
  assert (k = 0%nat) as -> by lia. reflexivity.
Qed.
Print Assumptions C58_reply.
Print Assumptions C58_answered.
Print Assumptions C58_ignored.
Print Assumptions C58_arrives.

(** a configured ETR for 10/8 with a local locator, and one request for it *)
Definition ex_etr_cfg : instances := [(0, [(1, Node 0 (Pfx V4 0 0) NContainer [Node 1 (Pfx V4 (10 * 2 ^ 24) 8) NETR []])])].
Definition ex_etr_w (k : nat) : etr := Etr [ex_l V4 3405803777 1; ex_l V4 0 2] [] [].
Definition ex_probe : mreq :=
  MReq false true false false false (repeat false 9) (B [1;2;3;4;5;6;7;8]) (AIP V4 7) [AIP V4 7] [ANet V4 (10 * 2 ^ 24 + 256) 24] None.
Example ex_etr_reply :
  handle_map_request ex_etr_cfg ex_etr_w [(V4, 3405803777)] ex_probe (V4, 3405803777) 5555 =
    Ok (Some (Sent (MRep true false false (repeat false 17) (B [1;2;3;4;5;6;7;8])
                     [new_mrec 0 (Pfx V4 (10 * 2 ^ 24) 8) [Loc 1 100 255 0 (repeat false 13) true true true (AIP V4 3405803777)]])
                   [AIP V4 7] 5555)) /\
  Forall usable_locator (e_locs (ex_etr_w 1)) /\ no_mixup [(V4, 3405803777)] (e_locs (ex_etr_w 1)).
Proof.
  split; [vm_compute; reflexivity|]. split.
  - constructor; [|constructor; [|constructor]]; (split; [unfold byte_fields; cbn; lia|]).
    + right. exists V4, 3405803777. split; [reflexivity|]. split; [vm_compute; split; congruence|].
      intros H. inversion H; subst; vm_compute in *; intuition discriminate.
    + left. exists V4. reflexivity.
  - intros l v z v' [<-|[<-|[]]] E [[= <- <-]|[]]; injection E as <- ; reflexivity.
Qed.
