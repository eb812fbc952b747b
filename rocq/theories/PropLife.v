(** * Property C84: one thread per configured registration *)
From Verif Require Import Base BaseLemmas Afi Etr PropEtr Daemon SpecLife.

Lemma atn_app {A} (l : list A) x o p : and_then_no (l ++ [x]) o p <-> (x = o \/ (~ p x /\ and_then_no l o p)).
Proof.
  split.
  - intros (l1 & l2 & E & N). destruct l2 as [|y l2] using rev_ind.
    + apply app_inj_tail in E. left. apply E.
    + rewrite app_comm_cons, app_assoc in E. apply app_inj_tail in E. destruct E as [-> ->]. right. split; [apply N; apply in_app_iff; right; left; reflexivity|].
      exists l1, l2. split; [reflexivity|]. intros z I. apply N. apply in_app_iff. left. exact I.
  - intros [->|(Nx & l1 & l2 & -> & N)]; [exists l, []; split; [reflexivity|intros y []]|].
    exists l1, (l2 ++ [x]). split; [rewrite <- app_assoc; reflexivity|]. intros y I. apply in_app_iff in I. destruct I as [I|[<-|[]]]; auto.
Qed.
Lemma atn_nil {A} (o : A) p : ~ and_then_no [] o p.
Proof. intros (l1 & l2 & E & _). destruct l1; discriminate. Qed.
Lemma configured_app l x r : configured (l ++ [x]) r <-> x = LAdd r \/ (x <> LRemove r /\ configured l r).
Proof. unfold configured. rewrite atn_app. reflexivity. Qed.
Lemma sockets_app l x : has_sockets (l ++ [x]) <-> x = LSockets true \/ ((forall b, x <> LSockets b) /\ has_sockets l).
Proof.
  unfold has_sockets. rewrite atn_app. split; (intros [H|[H H']]; [left; exact H|right]); (split; [|exact H']).
  - intros b E. apply H. exists b. exact E.
  - intros [b E]. exact (H b E).
Qed.
Lemma started_app l x r : got_started (l ++ [x]) r <-> (configured (l ++ [x]) r /\ has_sockets (l ++ [x])) \/ (x <> LRemove r /\ got_started l r).
Proof.
  split.
  - intros (l1 & l2 & E & C & S & N). destruct l2 as [|y l2] using rev_ind.
    + rewrite app_nil_r in E. subst l1. left. auto.
    + rewrite app_assoc in E. apply app_inj_tail in E. destruct E as [-> ->]. right. split.
      * intros ->. apply N. apply in_app_iff. right. left. reflexivity.
      * exists l1, l2. split; [reflexivity|]. split; [exact C|]. split; [exact S|]. intros I. apply N. apply in_app_iff. left. exact I.
  - intros [[C S]|(Nx & l1 & l2 & -> & C & S & N)]; [exists (l ++ [x]), []; rewrite app_nil_r; auto|].
    exists l1, (l2 ++ [x]). rewrite app_assoc. split; [reflexivity|]. split; [exact C|]. split; [exact S|].
    intros I. apply in_app_iff in I. destruct I as [I|[I|[]]]; [exact (N I)|exact (Nx I)].
Qed.

Lemma nassoc_in {A} k (x : A) l : nassoc k l = Some x -> In (k, x) l.
Proof.
  induction l as [|[k' y] l IH]; cbn [nassoc]; [discriminate|]. destruct (Nat.eqb_spec k' k) as [->|N]; [intros [= ->]; left; reflexivity|intros H; right; auto].
Qed.
Lemma nassoc_none {A} k (l : list (nat * A)) : nassoc k l = None <-> ~ In k (map fst l).
Proof.
  induction l as [|[k' y] l IH]; cbn [nassoc map fst In]; [tauto|]. destruct (Nat.eqb_spec k' k) as [->|N]; [split; [discriminate|tauto]|]. rewrite IH. tauto.
Qed.
Lemma in_nassoc {A} k (x : A) l : NoDup (map fst l) -> In (k, x) l -> nassoc k l = Some x.
Proof.
  induction l as [|[k' y] l IH]; cbn [nassoc map fst]; [intros _ []|]. intros D [E|I].
  - injection E as -> ->. rewrite Nat.eqb_refl. reflexivity.
  - inversion D as [|? ? N D']; subst. destruct (Nat.eqb_spec k' k) as [->|N']; [|auto]. destruct N. apply in_map_iff. exists (k, x). auto.
Qed.
Lemma set_nth_nth {A} (i j : nat) (x : A) l : nth_error (set_nth i x l) j = if Nat.eqb j i then (match nth_error l j with Some _ => Some x | None => None end) else nth_error l j.
Proof.
  unfold set_nth. revert i j. induction l as [|y l IH]; intros i j.
  - rewrite firstn_nil, skipn_nil. cbn [app]. destruct (Nat.eqb j i), j; reflexivity.
  - destruct i as [|i], j as [|j]; cbn [firstn skipn app nth_error Nat.eqb]; try reflexivity. apply IH.
Qed.
Lemma set_nth_length {A} (i : nat) (x : A) l : length (set_nth i x l) = length l.
Proof.
  unfold set_nth. revert i. induction l as [|y l IH]; intros [|i]; cbn [firstn skipn app length]; try reflexivity. f_equal. apply IH.
Qed.
Lemma start1_nth l t j : nth_error (start1 l t) j = if Nat.eqb j t then (match nth_error l j with Some TNew => Some TRunning | o => o end) else nth_error l j.
Proof.
  unfold start1. destruct (nth_error l t) as [[| |]|] eqn:E; destruct (Nat.eqb_spec j t) as [->|N]; rewrite ?set_nth_nth, ?Nat.eqb_refl, ?E; try reflexivity.
  destruct (Nat.eqb_spec j t); [contradiction|reflexivity].
Qed.
Lemma starts_nth ts : forall l j, nth_error (fold_left start1 ts l) j =
  if existsb (Nat.eqb j) ts then (match nth_error l j with Some TNew => Some TRunning | o => o end) else nth_error l j.
Proof.
  induction ts as [|t ts IH]; intros l j; cbn [fold_left existsb]; [reflexivity|]. rewrite IH, start1_nth.
  destruct (Nat.eqb_spec j t); cbn [orb]; [|reflexivity]. destruct (existsb (Nat.eqb j) ts); [|reflexivity]. destruct (nth_error l j) as [[| |]|]; reflexivity.
Qed.

Lemma NoDup_filter_map {A B} (f : A -> B) p l : NoDup (map f l) -> NoDup (map f (filter p l)).
Proof.
  induction l as [|x l IH]; cbn [map filter]; [auto|]. intros D. inversion D as [|? ? N D']; subst. destruct (p x); [|auto]. cbn [map]. constructor; [|auto].
  intros I. apply N. apply in_map_iff in I. destruct I as (y & E & I). apply filter_In in I. apply in_map_iff. exists y. tauto.
Qed.
Lemma NoDup_snoc {A} (l : list A) x : NoDup l -> ~ In x l -> NoDup (l ++ [x]).
Proof.
  induction l as [|y l IH]; intros D N; cbn [app]; [constructor; [intros []|constructor]|]. inversion D as [|? ? N' D']; subst. cbn [In] in N. constructor.
  - intros I. apply in_app_iff in I. destruct I as [I|[->|[]]]; [contradiction|tauto].
  - apply IH; [exact D'|tauto].
Qed.
Definition life_inv (l : list lc_op) (s : lc) : Prop :=
  NoDup (map fst (lc_threads s)) /\ NoDup (map snd (lc_threads s)) /\
  (forall r, In r (map fst (lc_threads s)) <-> configured l r) /\
  (lc_socks s = true <-> has_sockets l) /\
  (forall r t, In (r, t) (lc_threads s) -> nth_error (lc_all s) t = Some TRunning /\ got_started l r \/ nth_error (lc_all s) t = Some TNew /\ ~ got_started l r) /\
  (forall t, (t < length (lc_all s))%nat -> ~ In t (map snd (lc_threads s)) -> nth_error (lc_all s) t = Some TStopping).
Lemma started_configured l r : got_started l r -> configured l r.
Proof.
  intros (l1 & l2 & -> & (a & b & -> & N) & _ & N2). exists a, (b ++ l2). rewrite <- app_assoc. split; [reflexivity|].
  intros x I ->. apply in_app_iff in I. destruct I as [I|I]; [exact (N _ I eq_refl)|exact (N2 I)].
Qed.
Lemma life_run l : life_inv l (lc_run l).
Proof.
  induction l as [|o l IH] using rev_ind.
  - unfold life_inv. cbn [lc_run fold_left lc0 lc_threads lc_all lc_socks map length]. split; [constructor|]. split; [constructor|].
    split; [intros r; split; [intros []|intros X; destruct (atn_nil _ _ X)]|]. split; [split; [discriminate|intros X; destruct (atn_nil _ _ X)]|].
    split; [intros r t []|]. intros t X. lia.
  - unfold lc_run in *. rewrite fold_left_app. cbn [fold_left]. set (s := fold_left lc_step l lc0) in *. clearbody s.
    destruct IH as (D1 & D2 & C & S & T & Z).
    assert (forall t, In t (map snd (lc_threads s)) -> (t < length (lc_all s))%nat) as B.
    { intros t I. apply in_map_iff in I. destruct I as ([r t'] & <- & I). cbn [snd]. apply T in I. apply nth_error_Some. destruct I as [[-> _]|[-> _]]; discriminate. }
    destruct o as [r|r|b|r rtrs]; cbn [lc_step].
    + destruct (nassoc r (lc_threads s)) as [t|] eqn:E.
      * pose proof (nassoc_in _ _ _ E) as I. assert (configured l r) as Cr by (apply C, in_map_iff; exists (r, t); auto).
        split; [exact D1|]. split; [exact D2|]. split; [intros r'; rewrite configured_app, C|].
        { split; [intros H; right; split; [discriminate|exact H]|]. intros [[= ->]|[_ H]]; assumption. }
        split; [rewrite sockets_app, S|split; [|exact Z]].
        { split; [intros H; right; split; [discriminate|exact H]|]. intros [H|[_ H]]; [discriminate|exact H]. }
        intros r' t' I'. rewrite started_app, configured_app, sockets_app.
        assert (configured l r') as Cr' by (apply C, in_map_iff; exists (r', t'); auto).
        destruct (T _ _ I') as [[H1 H2]|[H1 H2]]; [left; split; [exact H1|right; split; [discriminate|exact H2]]|right; split; [exact H1|]].
        intros [[_ [Hs|[_ Hs]]]|[_ Hs]]; [discriminate| |contradiction]. apply H2. exists l, []. rewrite app_nil_r. auto.
      * apply nassoc_none in E. unfold life_inv. cbn [lc_threads lc_all lc_socks]. rewrite !map_app. cbn [map fst snd].
        assert (~ configured l r) as NC by (rewrite <- C; exact E).
        assert (~ In (length (lc_all s)) (map snd (lc_threads s))) as NL by (intros I; apply B in I; lia).
        split; [apply NoDup_snoc; assumption|].
        split; [apply NoDup_snoc; assumption|].
        split; [intros r'; rewrite in_app_iff, configured_app, C; cbn [In]|].
        { split; [intros [H|[->|[]]]; [right; split; [discriminate|exact H]|left; reflexivity]|]. intros [[= ->]|[_ H]]; [right; left; reflexivity|left; exact H]. }
        assert (has_sockets (l ++ [LAdd r]) <-> has_sockets l) as HS.
        { rewrite sockets_app. split; [intros [H|[_ H]]; [discriminate|exact H]|]. intros H; right; split; [discriminate|exact H]. }
        split; [rewrite HS; exact S|]. split.
        -- intros r' t' I. rewrite started_app, HS, configured_app. apply in_app_iff in I. destruct I as [I|[[= <- <-]|[]]].
           ++ rewrite nth_error_app1 by (apply B, in_map_iff; exists (r', t'); auto).
              assert (configured l r') as Cr' by (apply C, in_map_iff; exists (r', t'); auto).
              destruct (T _ _ I) as [[H1 H2]|[H1 H2]]; [left; split; [exact H1|right; split; [discriminate|exact H2]]|right; split; [exact H1|]].
              intros [[_ Hs]|[_ Hs]]; [|contradiction]. apply H2. exists l, []. rewrite app_nil_r. auto.
           ++ rewrite nth_error_app2 by lia. rewrite Nat.sub_diag. cbn [nth_error]. destruct (lc_socks s).
              ** left. split; [reflexivity|]. left. split; [left; reflexivity|apply S; reflexivity].
              ** right. split; [reflexivity|]. intros [[_ Hs]|[_ Hs]]; [apply S in Hs; discriminate|]. apply started_configured in Hs. contradiction.
        -- intros t L NI. rewrite app_length in L. cbn [length] in L. rewrite in_app_iff in NI. cbn [In] in NI.
           assert (t <> length (lc_all s)) as Nt by (intros ->; tauto). rewrite nth_error_app1 by lia. apply Z; [lia|tauto].
    + destruct (nassoc r (lc_threads s)) as [t|] eqn:E.
      * pose proof (nassoc_in _ _ _ E) as I. unfold life_inv. cbn [lc_threads lc_all lc_socks].
        assert (forall x, In x (filter (fun x => negb (Nat.eqb (fst x) r)) (lc_threads s)) <-> In x (lc_threads s) /\ fst x <> r) as F.
        { intros x. rewrite filter_In, negb_true_iff, Nat.eqb_neq. reflexivity. }
        assert (forall r' t', In (r', t') (lc_threads s) -> (t' = t <-> r' = r)) as U.
        { intros r' t' I'. split; intros ->.
          - clear - D2 I I'. induction (lc_threads s) as [|x L IHL]; [destruct I|]. cbn [map] in D2. inversion D2 as [|? ? N D']; subst.
            destruct I as [I|I], I' as [I'|I']; [congruence| | |auto]; destruct N; apply in_map_iff; [exists (r', t)|exists (r, t)]; subst x; auto.
          - pose proof (in_nassoc _ _ _ D1 I'). congruence. }
        split; [apply NoDup_filter_map; exact D1|]. split; [apply NoDup_filter_map; exact D2|].
        split; [intros r'; rewrite configured_app, <- C, !in_map_iff|].
        { split.
          - intros ([a b] & <- & H). apply F in H. cbn [fst] in *. right. split; [intros [= ->]; tauto|]. exists (a, b). tauto.
          - intros [H|[H ([a b] & <- & H')]]; [discriminate|]. exists (a, b). split; [reflexivity|]. apply F. split; [exact H'|]. cbn [fst] in *. congruence. }
        assert (has_sockets (l ++ [LRemove r]) <-> has_sockets l) as HS.
        { rewrite sockets_app. split; [intros [H|[_ H]]; [discriminate|exact H]|]. intros H; right; split; [discriminate|exact H]. }
        split; [rewrite HS; exact S|]. split.
        -- intros r' t' I'. apply F in I'. cbn [fst] in I'. destruct I' as [I' N]. rewrite set_nth_nth.
           destruct (Nat.eqb_spec t' t) as [->|Nt]; [destruct N; apply (U _ _ I'); reflexivity|]. rewrite started_app, HS, configured_app.
           assert (configured l r') as Cr' by (apply C, in_map_iff; exists (r', t'); auto).
           destruct (T _ _ I') as [[H1 H2]|[H1 H2]]; [left; split; [exact H1|right; split; [congruence|exact H2]]|right; split; [exact H1|]].
           intros [[_ Hs]|[_ Hs]]; [|contradiction]. apply H2. exists l, []. rewrite app_nil_r. auto.
        -- intros t' L NI. rewrite set_nth_length in L. rewrite set_nth_nth. destruct (Nat.eqb_spec t' t) as [->|Nt].
           ++ destruct (nth_error (lc_all s) t) eqn:Q; [reflexivity|]. apply nth_error_None in Q. lia.
           ++ apply Z; [exact L|]. intros I'. apply in_map_iff in I'. destruct I' as ([a b] & <- & I'). cbn [snd] in *. apply NI. apply in_map_iff. exists (a, b). split; [reflexivity|].
              apply F. split; [exact I'|]. cbn [fst]. intros ->. apply Nt. apply (U _ _ I'). reflexivity.
      * apply nassoc_none in E. assert (~ configured l r) as NC by (rewrite <- C; exact E).
        split; [exact D1|]. split; [exact D2|]. split; [intros r'; rewrite configured_app, C|].
        { split; [intros H; right; split; [congruence|exact H]|]. intros [H|[_ H]]; [discriminate|exact H]. }
        assert (has_sockets (l ++ [LRemove r]) <-> has_sockets l) as HS.
        { rewrite sockets_app. split; [intros [H|[_ H]]; [discriminate|exact H]|]. intros H; right; split; [discriminate|exact H]. }
        split; [rewrite HS; exact S|]. split; [|exact Z].
        intros r' t' I'. rewrite started_app, HS, configured_app.
        assert (configured l r') as Cr' by (apply C, in_map_iff; exists (r', t'); auto). assert (r' <> r) as N by congruence.
        destruct (T _ _ I') as [[H1 H2]|[H1 H2]]; [left; split; [exact H1|right; split; [congruence|exact H2]]|right; split; [exact H1|]].
        intros [[_ Hs]|[_ Hs]]; [|contradiction]. apply H2. exists l, []. rewrite app_nil_r. auto.
    + unfold life_inv. cbn [lc_threads lc_all lc_socks].
      assert (forall r', configured (l ++ [LSockets b]) r' <-> configured l r') as HC.
      { intros r'. rewrite configured_app. split; [intros [H|[_ H]]; [discriminate|exact H]|]. intros H. right. split; [discriminate|exact H]. }
      assert (has_sockets (l ++ [LSockets b]) <-> b = true) as HS.
      { rewrite sockets_app. split; [intros [[= ->]|[H _]]; [reflexivity|destruct (H b eq_refl)]|]. intros ->. left. reflexivity. }
      split; [exact D1|]. split; [exact D2|]. split; [intros r'; rewrite HC; apply C|]. split; [rewrite HS; reflexivity|].
      assert (forall r' t', In (r', t') (lc_threads s) -> existsb (Nat.eqb t') (map snd (lc_threads s)) = true) as X.
      { intros r' t' I'. apply existsb_exists. exists t'. split; [apply in_map_iff; exists (r', t'); auto|apply Nat.eqb_refl]. }
      split.
      * intros r' t' I'. rewrite started_app, HC, HS.
        assert (configured l r') as Cr' by (apply C, in_map_iff; exists (r', t'); auto).
        destruct b.
        -- rewrite starts_nth, (X _ _ I'). left. split; [|left; auto]. destruct (T _ _ I') as [[-> _]|[-> _]]; reflexivity.
        -- destruct (T _ _ I') as [[H1 H2]|[H1 H2]]; [left; split; [exact H1|right; split; [discriminate|exact H2]]|right; split; [exact H1|]].
           intros [[_ Hs]|[_ Hs]]; [discriminate|contradiction].
      * intros t L NI. destruct b; [|apply Z; assumption]. rewrite starts_nth.
        destruct (existsb (Nat.eqb t) (map snd (lc_threads s))) eqn:Q; [apply existsb_exists in Q; destruct Q as (x & I & Hx); apply Nat.eqb_eq in Hx; subst; contradiction|].
        apply Z; [|exact NI]. clear - L. revert L. generalize (lc_all s). induction (map snd (lc_threads s)) as [|x ts IHt]; intros a L; cbn [fold_left] in L; [exact L|].
        apply IHt in L. unfold start1 in L. destruct (nth_error a x) as [[| |]|]; rewrite ?set_nth_length in L; exact L.
    + unfold life_inv. cbn [lc_threads lc_all lc_socks].
      assert (forall r', configured (l ++ [LRtrs r rtrs]) r' <-> configured l r') as HC.
      { intros r'. rewrite configured_app. split; [intros [H|[_ H]]; [discriminate|exact H]|]. intros H. right. split; [discriminate|exact H]. }
      assert (has_sockets (l ++ [LRtrs r rtrs]) <-> has_sockets l) as HS.
      { rewrite sockets_app. split; [intros [H|[_ H]]; [discriminate|exact H]|]. intros H; right; split; [discriminate|exact H]. }
      split; [exact D1|]. split; [exact D2|]. split; [intros r'; rewrite HC; apply C|]. split; [rewrite HS; exact S|]. split; [|exact Z].
      intros r' t' I'. rewrite started_app, HC, HS.
      assert (configured l r') as Cr' by (apply C, in_map_iff; exists (r', t'); auto).
      destruct (T _ _ I') as [[H1 H2]|[H1 H2]]; [left; split; [exact H1|right; split; [discriminate|exact H2]]|right; split; [exact H1|]].
      intros [[_ Hs]|[_ Hs]]; [|contradiction]. apply H2. exists l, []. rewrite app_nil_r. auto.
Qed.

(** C84: after any history of additions, removals and changes of the sockets, exactly the configured registrations have a
    thread, one of their own, which runs exactly if the node had sockets at some time since; every other thread ever made has
    been asked to stop *)
Theorem C84_threads l : let s := lc_run l in
  (forall r, configured l r <-> exists t, In (r, t) (lc_threads s)) /\
  (forall r t r' t', In (r, t) (lc_threads s) -> In (r', t') (lc_threads s) -> (r = r' <-> t = t')) /\
  (forall r t, In (r, t) (lc_threads s) ->
     (got_started l r -> nth_error (lc_all s) t = Some TRunning) /\ (~ got_started l r -> nth_error (lc_all s) t = Some TNew)) /\
  (forall t, (t < length (lc_all s))%nat -> (forall r, ~ In (r, t) (lc_threads s)) -> nth_error (lc_all s) t = Some TStopping).
Proof.
  cbn zeta. destruct (life_run l) as (D1 & D2 & C & _ & T & Z). split; [|split; [|split]].
  - intros r. rewrite <- C, in_map_iff. split; [intros ([a b] & <- & I); exists b; exact I|]. intros [t I]. exists (r, t). auto.
  - intros r t r' t' I I'. split; intros E; subst.
    + pose proof (in_nassoc _ _ _ D1 I). pose proof (in_nassoc _ _ _ D1 I'). congruence.
    + clear - D2 I I'. induction (lc_threads (lc_run l)) as [|x L IHL]; [destruct I|]. cbn [map] in D2. inversion D2 as [|? ? N D']; subst.
      destruct I as [I|I], I' as [I'|I']; [congruence| | |auto]; destruct N; apply in_map_iff; [exists (r', t')|exists (r, t')]; subst x; auto.
  - intros r t I. destruct (T _ _ I) as [[A B]|[A B]]; tauto.
  - intros t L N. apply Z; [exact L|]. intros I. apply in_map_iff in I. destruct I as ([a b] & <- & I). exact (N _ I).
Qed.
Lemma nput_in {A} k (x : A) l k' y : NoDup (map fst l) -> In (k', y) (nput k x l) <-> (k' = k /\ y = x) \/ (k' <> k /\ In (k', y) l).
Proof.
  induction l as [|[a b] l IH]; cbn [nput map fst].
  - intros _. cbn [In]. split; [intros [[= -> ->]|[]]; auto|]. intros [[-> ->]|[_ []]]. auto.
  - intros D. inversion D as [|? ? N D']; subst. destruct (Nat.eqb_spec a k) as [->|Na]; cbn [In].
    + split; [intros [[= -> ->]|I]; [auto|]|].
      * right. split; [intros ->; apply N, in_map_iff; exists (k, y); auto|auto].
      * intros [[-> ->]|[Nk [[= -> ->]|I]]]; [auto|destruct (Nk eq_refl)|auto].
    + rewrite IH by exact D'. split; [intros [[= -> ->]|[H|[H H']]]; auto|]. intros [H|[H [E|H']]]; auto.
Qed.
Lemma nput_keys {A} k (x : A) l : NoDup (map fst l) -> NoDup (map fst (nput k x l)).
Proof.
  induction l as [|[a b] l IH]; cbn [nput map fst]; [intros _; constructor; [intros []|constructor]|]. intros D. inversion D as [|? ? N D']; subst.
  destruct (Nat.eqb_spec a k) as [->|Na]; cbn [map fst]; constructor; auto. intros I. apply in_map_iff in I. destruct I as ([c d] & <- & I). cbn [fst] in *.
  apply nput_in in I; [|exact D']. destruct I as [[E _]|[_ I]]; [congruence|]. apply N, in_map_iff. exists (c, d). auto.
Qed.
Lemma dedup_in (l : list addr) : forall acc a, In a (fold_left (fun s x => set_add addr_same x s) l acc) <-> In a acc \/ In a l.
Proof.
  induction l as [|x l IH]; intros acc a; cbn [fold_left In]; [tauto|]. rewrite IH. unfold set_add. destruct (existsb (addr_same x) acc) eqn:E.
  - split; [tauto|]. intros [H|[<-|H]]; auto. left. apply existsb_exists in E. destruct E as (y & I & S). apply addr_same_eq in S. subst. exact I.
  - rewrite in_app_iff. cbn [In]. tauto.
Qed.
Lemma rtrs_run l : NoDup (map fst (lc_rtrs (lc_run l))) /\
  forall a r, (exists d, In (r, d) (lc_rtrs (lc_run l)) /\ In a d) <-> (exists rtrs, last_rtrs l r rtrs /\ In a rtrs).
Proof.
  induction l as [|o l IH] using rev_ind.
  - split; [constructor|]. intros a r. split; [intros (d & [] & _)|intros (x & H & _); destruct (atn_nil _ _ H)].
  - unfold lc_run in *. rewrite fold_left_app. cbn [fold_left]. set (s := fold_left lc_step l lc0) in *. clearbody s. destruct IH as [D IH].
    assert ((forall r x, o <> LRtrs r x) -> lc_rtrs (lc_step s o) = lc_rtrs s ->
      NoDup (map fst (lc_rtrs (lc_step s o))) /\
      forall a r, (exists d, In (r, d) (lc_rtrs (lc_step s o)) /\ In a d) <-> (exists rtrs, last_rtrs (l ++ [o]) r rtrs /\ In a rtrs)) as K.
    { intros N ->. split; [exact D|]. intros a r. rewrite IH. unfold last_rtrs. split; intros (x & L & I); exists x; (split; [|exact I]).
      - apply atn_app. right. split; [intros [y Hy]; exact (N _ _ Hy)|exact L].
      - apply atn_app in L. destruct L as [L|[_ L]]; [destruct (N _ _ L)|exact L]. }
    destruct o as [r|r|b|r rtrs].
    + apply K; [discriminate|]. cbn [lc_step]. destruct (nassoc r (lc_threads s)); reflexivity.
    + apply K; [discriminate|]. cbn [lc_step]. destruct (nassoc r (lc_threads s)); reflexivity.
    + apply K; [discriminate|]. reflexivity.
    + clear K. cbn [lc_step lc_rtrs]. split; [apply nput_keys; exact D|]. intros a r'. unfold last_rtrs. split.
      * intros (d & I & Ia). apply nput_in in I; [|exact D]. destruct I as [[-> ->]|[N I]].
        -- apply dedup_in in Ia. destruct Ia as [[]|Ia]. exists rtrs. split; [|exact Ia]. apply atn_app. left. reflexivity.
        -- destruct (proj1 (IH a r') (ex_intro _ d (conj I Ia))) as (x & L & Ix). exists x. split; [|exact Ix]. apply atn_app. right. split; [intros [y Hy]; congruence|exact L].
      * intros (x & L & Ix). apply atn_app in L. destruct L as [L|[N L]].
        -- injection L as -> ->. exists (fold_left (fun s x => set_add addr_same x s) x []). split; [apply nput_in; auto|]. apply dedup_in. right. exact Ix.
        -- assert (r' <> r) as Nr by (intros ->; apply N; exists rtrs; reflexivity).
           destruct (proj2 (IH a r') (ex_intro _ x (conj L Ix))) as (d & I & Ia). exists d. split; [|exact Ia]. apply nput_in; auto.
Qed.
(** the RTRs announced are those a registration reported last *)
Theorem C84_rtrs l a : announced (lc_run l) a <-> exists r rtrs, last_rtrs l r rtrs /\ In a rtrs.
Proof.
  destruct (rtrs_run l) as [_ H]. split.
  - intros (r & d & I & Ia). destruct (proj1 (H a r)) as (x & L & Ix); [exists d; auto|]. exists r, x. auto.
  - intros (r & x & L & Ix). destruct (proj2 (H a r)) as (d & I & Ia); [exists x; auto|]. exists r, d. auto.
Qed.
(** finding: the RTRs of a registration are announced for ever after it was removed *)
Theorem C84_refuted : ~ (forall l a, announced (lc_run l) a -> exists r rtrs, configured l r /\ last_rtrs l r rtrs /\ In a rtrs).
Proof.
  intros H. destruct (H [LSockets true; LAdd 1; LRtrs 1 [AIP V4 7]; LRemove 1] (AIP V4 7)) as (r & rtrs & C & _).
  - apply C84_rtrs. exists 1%nat, [AIP V4 7]. split; [|left; reflexivity]. exists [LSockets true; LAdd 1], [LRemove 1]. split; [reflexivity|]. intros x [<-|[]] [y Hy]. discriminate.
  - change [LSockets true; LAdd 1; LRtrs 1 [AIP V4 7]; LRemove 1] with ([LSockets true; LAdd 1; LRtrs 1 [AIP V4 7]] ++ [LRemove 1]) in C.
    apply configured_app in C. destruct C as [C|[N C]]; [discriminate|].
    change [LSockets true; LAdd 1; LRtrs 1 [AIP V4 7]] with (([LSockets true] ++ [LAdd 1]) ++ [LRtrs 1 [AIP V4 7]]) in C. apply configured_app in C. destruct C as [C|[_ C]]; [discriminate|].
    apply configured_app in C. destruct C as [C|[_ C]]; [injection C as <-; destruct (N eq_refl)|].
    change [LSockets true] with ([] ++ [LSockets true]) in C. apply configured_app in C. destruct C as [C|[_ C]]; [discriminate|]. destruct (atn_nil _ _ C).
Qed.
(** example: a registration added before there are sockets, removed and added again: the old thread is told to stop *)
Example C84_example : let s := lc_run [LAdd 1; LAdd 2; LAdd 1; LSockets true; LRemove 1; LAdd 1; LSockets false; LAdd 3] in
  lc_threads s = [(2, 1); (1, 2); (3, 3)]%nat /\ lc_all s = [TStopping; TRunning; TRunning; TNew].
Proof. split; reflexivity. Qed.
Print Assumptions C84_threads.
Print Assumptions C84_rtrs.
Print Assumptions C84_refuted.
