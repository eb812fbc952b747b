(** * Property C129: no change of the RTRs is missed *)
From Verif Require Import Base Afi Signals SpecSignals.

Lemma rtr_eqb_spec a b : rtr_eqb a b = true <-> a = b.
Proof.
  destruct a as [v x], b as [v' y]. unfold rtr_eqb. cbn [fst snd]. rewrite andb_true_iff, Z.eqb_eq.
  split; [intros [A ->]; f_equal; destruct v, v'; try discriminate; reflexivity|intros [= -> ->]; split; [destruct v'; reflexivity|reflexivity]].
Qed.
Lemma same_rtrs_spec a b : same_rtrs a b = true <-> (forall x, In x a <-> In x b).
Proof.
  unfold same_rtrs. rewrite andb_true_iff, !forallb_forall. split.
  - intros [A B] x. split; intros I; [apply A in I|apply B in I]; apply existsb_exists in I; destruct I as (y & I & E); apply rtr_eqb_spec in E; subst; exact I.
  - intros H. split; intros x I; apply existsb_exists; exists x; (split; [apply H, I|apply rtr_eqb_spec; reflexivity]).
Qed.
Lemma put_same {X} (f : nat -> X) k x : put f k x k = x.
Proof. unfold put. rewrite Nat.eqb_refl. reflexivity. Qed.
Lemma put_other {X} (f : nat -> X) k x j : j <> k -> put f k x j = f j.
Proof. intros N. unfold put. destruct (Nat.eqb_spec j k); [contradiction|reflexivity]. Qed.

Section P.
Variable regs : list nat.
Notation run := (sig_run regs).
Notation step := (sig_step regs).
Definition elems (o : option (list rtr)) (x : rtr) : Prop := exists s, o = Some s /\ In x s.
Definition alike (a b : option (list rtr)) : Prop := forall x, elems a x <-> elems b x.
Lemma alike_refl a : alike a a. Proof. intros x. tauto. Qed.
Lemma alike_trans a b c : alike a b -> alike b c -> alike a c. Proof. intros A B x. specialize (A x). specialize (B x). tauto. Qed.
(** what thread [a] announced, or is announcing *)
Definition view (w : signals) (a : nat) : option known :=
  match sg_at w a with
  | SResetting _ | SReading _ => None
  | SRegistering _ all => Some all
  | _ => match sg_said w a with Some (_, all) => Some all | None => None end
  end.
(** thread [b] is about to tell [a] that its RTRs are no more like [s] *)
Definition will_tell (w : signals) (a b : nat) (s : option (list rtr)) : Prop :=
  match sg_at w b with
  | SComparing _ old => alike s old
  | SSignalling l => In a l
  | _ => False
  end.
Record inv (w : signals) : Prop := {
  n_in : forall k, sg_at w k <> SIdle -> In k regs;
  n_old : forall k m o, sg_at w k = SStoring m o -> sg_rtrs w k = o;
  n_new : forall k m o, sg_at w k = SComparing m o -> sg_rtrs w k = Some m;
  n_own : forall k, match sg_at w k with
                    | SRegistering _ _ => True
                    | SGetting m | SStoring m _ => exists all, sg_said w k = Some (m, all)
                    | _ => forall m all, sg_said w k = Some (m, all) -> sg_rtrs w k = Some m end;
  n_told : forall a all, In a regs -> sg_need w a = false -> view w a = Some all -> forall b, alike (all b) (sg_rtrs w b) \/ will_tell w a b (all b) }.
Lemma inv0 : inv sig0.
Proof. constructor; cbn; intros; try congruence; discriminate. Qed.
Ltac cases k j := destruct (Nat.eq_dec j k) as [->|?]; [rewrite ?put_same in *|rewrite ?put_other in * by assumption].

(** a step of thread [k] that changes nothing but where it is *)
Lemma inv_at w k a : inv w -> sg_at w k <> SIdle \/ In k regs ->
  (forall m o, a = SStoring m o -> sg_rtrs w k = o) -> (forall m o, a = SComparing m o -> sg_rtrs w k = Some m) ->
  match a with
  | SRegistering _ _ => True
  | SGetting m | SStoring m _ => exists all, sg_said w k = Some (m, all)
  | _ => forall m all, sg_said w k = Some (m, all) -> sg_rtrs w k = Some m end ->
  (sg_need w k = false -> forall all, view (sig_to w k a) k = Some all -> view w k = Some all \/ forall b, alike (all b) (sg_rtrs w b)) ->
  (forall j s, In j regs -> will_tell w j k s -> alike s (sg_rtrs w k) \/ will_tell (sig_to w k a) j k s) ->
  inv (sig_to w k a).
Proof.
  intros [A B C D E] Hk Ho Hn Hw Hv Ht. constructor; cbn [sig_to sg_at sg_rtrs sg_need sg_said].
  - intros j. cases k j; [intros _; destruct Hk; auto|apply A].
  - intros j m o. cases k j; [apply Ho|apply B].
  - intros j m o. cases k j; [apply Hn|apply C].
  - intros j. cases k j; [exact Hw|apply D].
  - intros j all I N V b.
    assert (alike (all b) (sg_rtrs w b) \/ will_tell w j b (all b)) as G.
    { destruct (Nat.eq_dec j k) as [->|Nj].
      - destruct (Hv N all V) as [V'|V']; [apply E; assumption|left; apply V'].
      - apply E; auto. unfold view in *. cbn [sig_to sg_at sg_said] in V. rewrite put_other in V by assumption. exact V. }
    destruct G as [G|G]; [left; exact G|]. destruct (Nat.eq_dec b k) as [->|Nb]; [apply Ht; [exact I|exact G]|].
    right. unfold will_tell in *. cbn [sig_to sg_at]. rewrite put_other by assumption. exact G.
Qed.

Lemma inv_step w m : inv w -> (forall k, m <> SRaise k) -> inv (step w m).
Proof.
  intros I NR. pose proof I as [A B C D E]. destruct m as [k mine force|k|k]; [..|destruct (NR k eq_refl)]; cbn [sig_step].
  - destruct (sg_at w k) eqn:P; try exact I. destruct (existsb (Nat.eqb k) regs && (force || sg_need w k)) eqn:Q; [|exact I].
    apply andb_prop in Q. destruct Q as [Q _]. apply existsb_exists in Q. destruct Q as (i & Ii & Ei). apply Nat.eqb_eq in Ei. subst i.
    apply inv_at; auto; try discriminate.
    + pose proof (D k) as Dk. rewrite P in Dk. exact Dk.
    + intros _ all V. unfold view in V. cbn [sig_to sg_at] in V. rewrite put_same in V. discriminate.
    + intros j s Ij W. unfold will_tell in W. rewrite P in W. destruct W.
  - destruct (sg_at w k) as [|mine|mine|mine all|mine|mine old|mine old|l] eqn:P.
    + exact I.
    + assert (In k regs) as Ik by (apply A; congruence).
      assert (inv (sig_to w k (SReading mine))) as [A' B' C' D' E'].
      { apply inv_at; auto; try discriminate.
        - pose proof (D k) as Dk. rewrite P in Dk. exact Dk.
        - intros _ all V. unfold view in V. cbn [sig_to sg_at] in V. rewrite put_same in V. discriminate.
        - intros j s Ij W. unfold will_tell in W. rewrite P in W. destruct W. }
      constructor; auto. cbn [sg_need sg_rtrs]. intros a all Ia N V b. cases k a.
      * unfold view in V. cbn [sg_at] in V. rewrite put_same in V. discriminate.
      * exact (E' a all Ia N V b).
    + apply inv_at; auto; try discriminate; try exact Logic.I.
      * left. congruence.
      * intros _ all V. unfold view in V. cbn [sig_to sg_at] in V. rewrite put_same in V. injection V as <-. right. intros b. apply alike_refl.
      * intros j s Ij W. unfold will_tell in W. rewrite P in W. destruct W.
    + assert (In k regs) as Ik by (apply A; congruence).
      constructor; cbn [sg_at sg_rtrs sg_need sg_said].
      * intros j. cases k j; [auto|apply A].
      * intros j m o. cases k j; [discriminate|apply B].
      * intros j m o. cases k j; [discriminate|apply C].
      * intros j. cases k j; [eauto|apply D].
      * intros a al Ia N V b. assert (view w a = Some al) as V'.
        { unfold view in *. cbn [sg_at sg_said] in V. cases k a; [rewrite P; exact V|exact V]. }
        destruct (E a al Ia N V' b) as [G|G]; [left; exact G|right]. unfold will_tell in *. cbn [sg_at]. cases k b; [rewrite P in G; destruct G|exact G].
    + pose proof (D k) as Dk. rewrite P in Dk. apply inv_at; auto; try discriminate.
      * left. congruence.
      * intros m o [= _ <-]. reflexivity.
      * intros _ all V. left. unfold view in *. cbn [sig_to sg_at sg_said] in V. rewrite put_same in V. rewrite P. exact V.
      * intros j s Ij W. unfold will_tell in W. rewrite P in W. destruct W.
    + assert (In k regs) as Ik by (apply A; congruence). pose proof (B k mine old P) as Old. pose proof (D k) as Dk. rewrite P in Dk. destruct Dk as (al0 & Said).
      constructor; cbn [sg_at sg_rtrs sg_need sg_said].
      * intros j. cases k j; [auto|apply A].
      * intros j m o. cases k j; [discriminate|apply B].
      * intros j m o. cases k j; [intros [= <- _]; reflexivity|apply C].
      * intros j. cases k j; [intros m all S; congruence|apply D].
      * intros a al Ia N V b. assert (view w a = Some al) as V'.
        { unfold view in *. cbn [sg_at sg_said] in V. cases k a; [rewrite P; exact V|exact V]. }
        destruct (E a al Ia N V' b) as [G|G]; unfold will_tell in *; cbn [sg_at].
        -- cases k b; [right; rewrite <- Old; exact G|left; exact G].
        -- cases k b; [rewrite P in G; destruct G|right; exact G].
    + assert (In k regs) as Ik by (apply A; congruence). pose proof (C k mine old P) as New. pose proof (D k) as Dk. rewrite P in Dk.
      destruct (match old with Some o => same_rtrs o mine | None => false end) eqn:Q; apply inv_at; auto; try discriminate.
      * intros _ all V. left. unfold view in *. cbn [sig_to sg_at sg_said] in V. rewrite put_same in V. rewrite P. exact V.
      * intros j s Ij W. unfold will_tell in W. rewrite P in W. left. destruct old as [o|]; [|discriminate]. rewrite New. eapply alike_trans; [exact W|].
        pose proof (proj1 (same_rtrs_spec o mine) Q) as R. intros x. unfold elems. split; intros (s' & [= <-] & J); (eexists; split; [reflexivity|]); apply R, J.
      * intros _ all V. left. unfold view in *. cbn [sig_to sg_at sg_said] in V. rewrite put_same in V. rewrite P. exact V.
      * intros j s Ij W. right. unfold will_tell. cbn [sig_to sg_at]. rewrite put_same. exact Ij.
    + assert (In k regs) as Ik by (apply A; congruence). pose proof (D k) as Dk. rewrite P in Dk.
      destruct l as [|j l].
      * apply inv_at; auto; try discriminate.
        -- intros _ all V. left. unfold view in *. cbn [sig_to sg_at sg_said] in V. rewrite put_same in V. rewrite P. exact V.
        -- intros j s Ij W. unfold will_tell in W. rewrite P in W. destruct W.
      * constructor; cbn [sg_at sg_rtrs sg_need sg_said].
        -- intros i. cases k i; [auto|apply A].
        -- intros i m o. cases k i; [discriminate|apply B].
        -- intros i m o. cases k i; [discriminate|apply C].
        -- intros i. cases k i; [exact Dk|apply D].
        -- intros a al Ia N V b. cases j a; [discriminate|]. assert (view w a = Some al) as V'.
           { unfold view in *. cbn [sg_at sg_said] in V. cases k a; [rewrite P; exact V|exact V]. }
           destruct (E a al Ia N V' b) as [G|G]; [left; exact G|right]. unfold will_tell in *. cbn [sg_at]. cases k b; [|exact G].
           rewrite P in G. destruct G as [G|G]; [congruence|exact G].
Qed.

Lemma run_snoc h m : run (h ++ [m]) = step (run h) m. Proof. unfold sig_run. apply fold_left_app. Qed.
Lemma run_app h h2 : run (h ++ h2) = fold_left step h2 (run h). Proof. unfold sig_run. apply fold_left_app. Qed.
Lemma inv_run h : no_failure h -> inv (run h).
Proof.
  induction h as [|m h IH] using rev_ind; intros N; [exact inv0|]. rewrite run_snoc. apply inv_step.
  - apply IH. intros k I. apply (N k). apply in_or_app. left. exact I.
  - intros k ->. apply (N k). apply in_or_app. right. left. reflexivity.
Qed.
Lemma in_use_alike a b : (forall k, In k regs -> alike (a k) (b k)) -> forall x, in_use regs a x -> in_use regs b x.
Proof. intros H x (k & s & I & E & J). destruct (proj1 (H k I x)) as (s' & E' & J'); [exists s; split; assumption|]. exists k, s'. auto. Qed.

(** C129 (for histories in which no Map-Register is cut off by an exception): between the passes, a registration that has
    registered has either been told to register again, or its last Map-Register announced exactly the RTRs that are in use *)
Theorem C129_partial : forall h k, no_failure h -> quiet (run h) -> In k regs -> sg_said (run h) k <> None ->
  sg_need (run h) k = true \/ forall x, announced regs (run h) k x <-> in_use regs (sg_rtrs (run h)) x.
Proof.
  intros h k NF Q I S. destruct (inv_run h NF) as [_ _ _ D E]. destruct (sg_need (run h) k) eqn:N; [left; reflexivity|right]. intros x.
  destruct (sg_said (run h) k) as [[mine all]|] eqn:Sd; [|congruence]. pose proof (D k) as Dk. rewrite (Q k) in Dk. specialize (Dk mine all Sd).
  assert (forall b, alike (all b) (sg_rtrs (run h) b)) as Al.
  { intros b. destruct (E k all I N) with (b := b) as [G|G]; [unfold view; rewrite (Q k), Sd; reflexivity|exact G|]. unfold will_tell in G. rewrite (Q b) in G. destruct G. }
  unfold announced. rewrite Sd. split.
  - intros (mi & al & [= <- <-] & [J|J]); [exists k, mine; auto|]. eapply in_use_alike; [|exact J]. intros b _. apply Al.
  - intros J. exists mine, all. split; [reflexivity|right]. eapply in_use_alike; [|exact J]. intros b _ y. split; apply Al.
Qed.
(** … told: its next pass, whatever it finds, sends a Map-Register *)
Theorem C129_registers : forall h k mine, In k regs -> sg_at (run h) k = SIdle -> sg_need (run h) k = true ->
  exists all, sg_said (run (h ++ [SBegin k mine false; SGo k; SGo k; SGo k])) k = Some (mine, all).
Proof.
  intros h k mine I A N. exists (sg_rtrs (run h)). rewrite run_app. cbn [fold_left sig_step]. rewrite A.
  assert (existsb (Nat.eqb k) regs = true) as ->. { apply existsb_exists. exists k. split; [exact I|apply Nat.eqb_refl]. }
  rewrite N. cbn. rewrite !put_same. cbn. rewrite !put_same. cbn. rewrite !put_same. cbn. rewrite !put_same. reflexivity.
Qed.

(** ** When the NAT detections find nothing new *)
Lemma stored_said h : no_failure h -> forall k, sg_rtrs (run h) k <> None -> sg_said (run h) k <> None.
Proof.
  induction h as [|m h IH] using rev_ind; intros N k; [cbn; congruence|]. assert (no_failure h) as Nh by (intros j I; apply (N j); apply in_or_app; left; exact I).
  specialize (IH Nh). pose proof (inv_run h Nh) as [_ _ _ D _]. rewrite run_snoc. destruct m as [j mine f|j|j]; cbn [sig_step].
  - destruct (sg_at (run h) j); try apply IH. destruct (_ && _); apply IH.
  - specialize (D j). destruct (sg_at (run h) j) as [| | | | | |mine old|l]; try apply IH; cbn [sig_to sg_rtrs sg_said].
    + cases j k; [discriminate|apply IH].
    + destruct D as (al & Sd). cases j k; [congruence|apply IH].
    + destruct (match old with Some o => same_rtrs o mine | None => false end); apply IH.
    + destruct l; apply IH.
  - destruct (sg_at (run h) j); apply IH.
Qed.
Definition like (w : signals) (k : nat) (mine : list rtr) : Prop := exists s, sg_rtrs w k = Some s /\ forall x, In x mine <-> In x s.
Definition sim (a b : option (list rtr)) : Prop :=
  match a, b with Some s, Some t => forall x, In x s <-> In x t | None, None => True | _, _ => False end.
Lemma sim_trans a b c : sim a b -> sim b c -> sim a c.
Proof. destruct a, b, c; cbn; try contradiction; auto. intros A B x. rewrite A. apply B. Qed.
Lemma sim_sym a b : sim a b -> sim b a.
Proof. destruct a, b; cbn; auto. intros A x. symmetry. apply A. Qed.
Lemma sim_refl a : sim a a. Proof. destruct a; cbn; [reflexivity|exact Logic.I]. Qed.
Definition mine_of (a : sig_at) : option (list rtr) :=
  match a with SIdle | SSignalling _ => None | SResetting m | SReading m | SRegistering m _ | SGetting m | SStoring m _ | SComparing m _ => Some m end.
Record calm (w0 w : signals) (begun : list nat) : Prop := {
  c_mine : forall k m, mine_of (sg_at w k) = Some m -> sim (Some m) (sg_rtrs w0 k);
  c_sig : forall k l, sg_at w k <> SSignalling l;
  c_old : forall k m o, sg_at w k = SStoring m o \/ sg_at w k = SComparing m o -> sim o (sg_rtrs w0 k);
  c_rtrs : forall k, sim (sg_rtrs w k) (sg_rtrs w0 k);
  c_flag : forall k, sg_need w k = true -> sg_need w0 k = true;
  c_done : forall k, In k begun -> In k regs -> sg_need w k = false \/ exists m, sg_at w k = SResetting m;
  c_busy : forall k, sg_at w k <> SIdle -> In k begun }.
Definition begins (h : list sig_move) : list nat := flat_map (fun m => match m with SBegin k _ _ => [k] | _ => [] end) h.
(** the NAT detections of the passes in [h] find what is stored in [w0] *)
Definition nothing_new (w0 : signals) (h : list sig_move) : Prop :=
  forall k mine f, In (SBegin k mine f) h -> exists s, sg_rtrs w0 k = Some s /\ forall x, In x mine <-> In x s.

Lemma calm_at w0 w b b' k a : calm w0 w b -> In k b' -> (forall j, In j b -> In j b') -> (forall j, In j b' -> In j b \/ j = k) ->
  (forall m, mine_of a = Some m -> sim (Some m) (sg_rtrs w0 k)) -> (forall l, a <> SSignalling l) ->
  (forall m o, a = SStoring m o \/ a = SComparing m o -> sim o (sg_rtrs w0 k)) ->
  (In k regs -> sg_need w k = false \/ exists m, a = SResetting m) -> calm w0 (sig_to w k a) b'.
Proof.
  intros [A B C D E F G] Ik Hb Hb' Hm Hs Ho Hd. constructor; cbn [sig_to sg_at sg_rtrs sg_need]; auto; intros j; cases k j; auto; try solve [apply A|apply B|apply C].
  intros I. destruct (Hb' j I) as [I'|I']; [exact (F j I')|contradiction].
Qed.
Lemma calm_step w0 w b m : calm w0 w b -> inv w -> (forall k, m <> SRaise k) ->
  (forall k mine f, m = SBegin k mine f -> sim (Some mine) (sg_rtrs w0 k)) -> calm w0 (step w m) (b ++ begins [m]).
Proof.
  intros H IW NR NN. pose proof H as [A B C D E F G]. destruct m as [k mine f|k|k]; [..|destruct (NR k eq_refl)]; cbn [sig_step begins flat_map app].
  - assert (forall j, In j (b ++ [k]) -> In j b \/ j = k) as Hb by (intros j I; apply in_app_or in I; destruct I as [I|[<-|[]]]; auto).
    assert (forall j, In j b -> In j (b ++ [k])) as Hb' by (intros j I; apply in_or_app; auto).
    assert (In k (b ++ [k])) as Ik by (apply in_or_app; right; left; reflexivity).
    assert ((In k regs -> sg_need w k = false \/ exists m, sg_at w k = SResetting m) -> calm w0 w (b ++ [k])) as Same.
    { intros Hk. constructor; auto. intros j I Ir. destruct (Hb j I) as [I'| ->]; [apply F; assumption|apply Hk, Ir]. }
    destruct (sg_at w k) eqn:P; try solve [apply Same; intros Ir; rewrite <- P; apply F; [apply G; congruence|exact Ir]].
    destruct (existsb (Nat.eqb k) regs && (f || sg_need w k)) eqn:Q.
    + apply calm_at with (b := b); auto; try discriminate; eauto.
      * intros m [= <-]. eapply NN; reflexivity.
      * intros m o [X|X]; discriminate.
    + apply Same. intros Ir. left. assert (existsb (Nat.eqb k) regs = true) as R. { apply existsb_exists. exists k. split; [exact Ir|apply Nat.eqb_refl]. }
      rewrite R in Q. cbn in Q. apply orb_false_elim in Q. apply Q.
  - rewrite app_nil_r. destruct (sg_at w k) as [|mine|mine|mine all|mine|mine old|mine old|l] eqn:P.
    + exact H.
    + assert (In k b) as Ik by (apply G; congruence). assert (calm w0 (sig_to w k (SReading mine)) b -> True) as _ by auto.
      constructor; cbn [sg_at sg_rtrs sg_need]; intros j; try (cases k j; auto); try discriminate; try solve [apply A|apply B|apply C].
      * intros m [= <-]. apply A. rewrite P. reflexivity.
      * intros m o [X|X]; discriminate.
    + apply calm_at with (b := b); auto; try discriminate; [apply G; congruence|..].
      * intros m [= <-]. apply A. rewrite P. reflexivity.
      * intros m o [X|X]; discriminate.
      * intros Ir. destruct (F k) as [X|(m & X)]; auto; [apply G; congruence|congruence].
    + assert (In k b) as Ik by (apply G; congruence).
      constructor; cbn [sg_at sg_rtrs sg_need]; intros j; try (cases k j; auto); try discriminate; try solve [apply A|apply B|apply C].
      * intros m [= <-]. apply A. rewrite P. reflexivity.
      * intros m o [X|X]; discriminate.
      * intros I Ir. destruct (F k I Ir) as [X|(m & X)]; [left; exact X|congruence].
    + apply calm_at with (b := b); auto; try discriminate; [apply G; congruence|..].
      * intros m [= <-]. apply A. rewrite P. reflexivity.
      * intros m o [[= <- <-]|X]; [apply D|discriminate].
      * intros Ir. destruct (F k) as [X|(m & X)]; auto; [apply G; congruence|congruence].
    + assert (In k b) as Ik by (apply G; congruence). pose proof (A k mine) as Am. rewrite P in Am. specialize (Am eq_refl).
      constructor; cbn [sg_at sg_rtrs sg_need]; intros j; try (cases k j; auto); try discriminate; try solve [apply A|apply B|apply C].
      * intros m [= <-]. exact Am.
      * intros m o [X|[= <- <-]]; [discriminate|]. apply (C k mine). left. exact P.
      * intros I Ir. destruct (F k I Ir) as [X|(m & X)]; [left; exact X|congruence].
    + assert (In k b) as Ik by (apply G; congruence). pose proof (A k mine) as Am. rewrite P in Am. specialize (Am eq_refl).
      pose proof (C k mine old (or_intror P)) as Co. assert (sim old (Some mine)) as S by (eapply sim_trans; [exact Co|apply sim_sym; exact Am]).
      destruct old as [o|]; [|destruct S]. assert (same_rtrs o mine = true) as -> by (apply same_rtrs_spec; exact S).
      apply calm_at with (b := b); auto; try discriminate.
      * intros m o' [X|X]; discriminate.
      * intros Ir. destruct (F k) as [X|(m & X)]; auto. congruence.
    + destruct (B k l P).
Qed.
Lemma begins_app a b : begins (a ++ b) = begins a ++ begins b. Proof. apply flat_map_app. Qed.
Lemma calm_run h h2 : no_failure (h ++ h2) -> quiet (run h) -> nothing_new (run h) h2 -> calm (run h) (run (h ++ h2)) (begins h2).
Proof.
  induction h2 as [|m h2 IH] using rev_ind; intros NF Q NN.
  - rewrite app_nil_r. constructor; auto.
    + intros k m X. rewrite (Q k) in X. discriminate.
    + intros k l X. rewrite (Q k) in X. discriminate.
    + intros k m o X. rewrite (Q k) in X. destruct X; discriminate.
    + intros k. apply sim_refl.
    + intros k [].
    + intros k X. destruct (X (Q k)).
  - rewrite app_assoc in NF. assert (no_failure (h ++ h2)) as NF' by (intros j I; apply (NF j); apply in_or_app; left; exact I).
    rewrite app_assoc, run_snoc, begins_app. apply calm_step.
    + apply IH; auto. intros k mine f I. apply (NN k mine f). apply in_or_app. left. exact I.
    + apply inv_run, NF'.
    + intros k ->. apply (NF k). apply in_or_app. right. left. reflexivity.
    + intros k mine f ->. destruct (NN k mine f) as (s & -> & Hs); [apply in_or_app; right; left; reflexivity|]. exact Hs.
Qed.
Lemma in_begins k h : In k (begins h) <-> exists mine f, In (SBegin k mine f) h.
Proof.
  unfold begins. rewrite in_flat_map. split.
  - intros (m & I & J). destruct m as [j mine f| |]; [|destruct J..]. destruct J as [->|[]]. eauto.
  - intros (mine & f & I). exists (SBegin k mine f). split; [exact I|left; reflexivity].
Qed.
(** … and then it is over: once every registration has had a pass whose NAT detection found nothing new, all the last
    Map-Registers announced the same RTRs, those in use since before, and none is told to register again *)
Theorem C129_settles : forall h h2, no_failure (h ++ h2) -> quiet (run h) -> nothing_new (run h) h2 ->
  (forall k, In k regs -> exists mine f, In (SBegin k mine f) h2) -> quiet (run (h ++ h2)) ->
  forall k, In k regs -> content (run (h ++ h2)) k /\ forall x, announced regs (run (h ++ h2)) k x <-> in_use regs (sg_rtrs (run h)) x.
Proof.
  intros h h2 NF Q NN All Q2 k I. pose proof (calm_run h h2 NF Q NN) as [_ _ _ D _ F _].
  assert (sg_need (run (h ++ h2)) k = false) as N.
  { destruct (F k) as [X|(m & X)]; auto; [apply in_begins, All, I|]. rewrite (Q2 k) in X. discriminate. }
  assert (sg_said (run (h ++ h2)) k <> None) as S.
  { apply stored_said; [exact NF|]. destruct (All k I) as (mine & f & J). destruct (NN k mine f J) as (s & E & _). specialize (D k). rewrite E in D.
    destruct (sg_rtrs (run (h ++ h2)) k); [discriminate|destruct D]. }
  split; [split; assumption|]. intros x. destruct (C129_partial (h ++ h2) k NF Q2 I S) as [X|X]; [congruence|]. rewrite X.
  split; apply in_use_alike; intros j _ y; specialize (D j); unfold elems;
    destruct (sg_rtrs (run (h ++ h2)) j), (sg_rtrs (run h) j); cbn in D; try destruct D; split; intros (s & [= <-] & Y); eexists; (split; [reflexivity|]); apply D, Y.
Qed.
End P.

(** ** The limit: a Map-Register that is cut off by an exception

    The flag was reset before it (438), and the pass does not remember the failure: [last_registration_was_ok] keeps its value
    (442).  Until a minute has passed, the registration does not know that an RTR is in use. *)
Definition rtr1 : rtr := (V4, 3221225985).
Definition pass (k : nat) (mine : list rtr) (force : bool) (n : nat) : list sig_move := SBegin k mine force :: repeat (SGo k) n.
(** registrations 0 and 1 register, without RTRs, and again as they have told each other to; then 0 finds out that it is behind
    a NAT, and tells 1 *)
Definition story : list sig_move :=
  pass 0 [] true 9 ++ pass 1 [] true 9 ++ pass 0 [] false 9 ++ pass 1 [] false 9 ++ pass 0 [rtr1] true 9.
Ltac quietly := intros k; do 3 (destruct k as [|k]; [reflexivity|]); reflexivity.
Lemma story_quiet : quiet (sig_run [0; 1]%nat story). Proof. quietly. Qed.
Lemma raised_quiet : quiet (sig_run [0; 1]%nat (story ++ [SBegin 1 [] false; SGo 1; SGo 1; SRaise 1])). Proof. quietly. Qed.
Theorem C129_refuted : exists regs h k x, quiet (sig_run regs h) /\ In k regs /\ content (sig_run regs h) k /\
  ~ (announced regs (sig_run regs h) k x <-> in_use regs (sg_rtrs (sig_run regs h)) x).
Proof.
  exists [0; 1]%nat, (story ++ [SBegin 1 [] false; SGo 1; SGo 1; SRaise 1]), 1%nat, rtr1. split; [exact raised_quiet|]. split; [right; left; reflexivity|].
  split; [split; [vm_compute; discriminate|vm_compute; reflexivity]|]. intros H.
  assert (in_use [0; 1]%nat (sg_rtrs (sig_run [0; 1]%nat (story ++ [SBegin 1 [] false; SGo 1; SGo 1; SRaise 1]))) rtr1) as U.
  { exists 0%nat, [rtr1]. split; [left; reflexivity|]. split; [vm_compute; reflexivity|left; reflexivity]. }
  apply H in U. destruct U as (mine & all & S & [J|(k & s & I & E & J)]).
  - vm_compute in S. injection S as <- _. destruct J.
  - destruct I as [<-|[<-|[]]]; vm_compute in S; injection S as _ <-; vm_compute in E; injection E as <-; destruct J.
Qed.
(** the histories of the theorems: registration 1 has read [_rtrs] before 0 stored its RTR, and registers again *)
Definition crossing : list sig_move :=
  pass 0 [] true 9 ++ pass 1 [] true 9 ++ pass 0 [] false 9 ++ [SBegin 1 [] false; SGo 1; SGo 1] ++ pass 0 [rtr1] true 9 ++ repeat (SGo 1) 9.
Example C129_witness : no_failure (crossing ++ pass 1 [] false 9 ++ pass 0 [rtr1] false 9) /\ quiet (sig_run [0; 1]%nat crossing) /\
  nothing_new (sig_run [0; 1]%nat crossing) (pass 1 [] false 9 ++ pass 0 [rtr1] false 9) /\
  sg_need (sig_run [0; 1]%nat crossing) 1 = true /\
  quiet (sig_run [0; 1]%nat (crossing ++ pass 1 [] false 9 ++ pass 0 [rtr1] false 9)) /\
  announced [0; 1]%nat (sig_run [0; 1]%nat (crossing ++ pass 1 [] false 9 ++ pass 0 [rtr1] false 9)) 1 rtr1.
Proof.
  repeat split.
  - intros k. unfold not. vm_compute. intuition discriminate.
  - quietly.
  - intros k mine f I. vm_compute in I. repeat (destruct I as [I|I]; [try discriminate; injection I as <- <- <-|]); [..|destruct I].
    + exists []. split; [vm_compute; reflexivity|tauto].
    + exists [rtr1]. split; [vm_compute; reflexivity|tauto].
  - quietly.
  - eexists _, _. split; [vm_compute; reflexivity|]. right. exists 0%nat, [rtr1]. split; [left; reflexivity|]. split; [vm_compute; reflexivity|left; reflexivity].
Qed.
Print Assumptions C129_partial.
Print Assumptions C129_registers.
Print Assumptions C129_settles.
Print Assumptions C129_refuted.
