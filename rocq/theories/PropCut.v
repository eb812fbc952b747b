(** * Property C132: registrations that are cut short *)
From Verif Require Import Base BaseLemmas Afi Records Control Auth Tree MapServer Etr Packet Daemon Exchange SpecExch Race RaceInfo SpecRaceInfo PropRaceInfo PropRace SpecCut.

(** ** Counting places *)
Lemma at_most_le n m (P : nat -> Prop) : (n <= m)%nat -> at_most n P -> at_most m P.
Proof. intros L H l N F. specialize (H l N F). lia. Qed.
Lemma at_most_sub n (P Q : nat -> Prop) : (forall i, P i -> Q i) -> at_most n Q -> at_most n P.
Proof. intros S H l N F. apply H; auto. Qed.
(** the places in a run, by recursion *)
Fixpoint places {W M} (step : W -> M -> W) (c : W -> M -> bool) (w : W) (h : list M) (k : nat) : list nat :=
  match h with [] => [] | m :: h => (if c w m then [k] else []) ++ places step c (step w m) h (S k) end.
Lemma places_in {W M} (step : W -> M -> W) c h : forall w k h1 m h2, h = h1 ++ m :: h2 -> c (fold_left step h1 w) m = true ->
  In (k + length h1)%nat (places step c w h k).
Proof.
  induction h as [|x h IH]; intros w k h1 m h2 E C; [destruct h1; discriminate|]. cbn [places]. apply in_or_app. destruct h1 as [|y h1]; injection E as <- E.
  - left. cbn [fold_left] in C. rewrite C. left. cbn [length]. lia.
  - right. specialize (IH (step w x) (S k) h1 m h2 E C). cbn [length]. replace (k + S (length h1))%nat with (S k + length h1)%nat by lia. exact IH.
Qed.
Lemma at_most_places {W M} (step : W -> M -> W) c w h n (P : nat -> Prop) :
  (forall i, P i -> exists h1 m h2, h = h1 ++ m :: h2 /\ length h1 = i /\ c (fold_left step h1 w) m = true) ->
  (length (places step c w h 0) <= n)%nat -> at_most n P.
Proof.
  intros S L l N F. apply Nat.le_trans with (length (places step c w h 0)); [|exact L]. apply NoDup_incl_length; [exact N|].
  intros i I. destruct (S i (F i I)) as (h1 & m & h2 & E & <- & C). exact (places_in step c h w 0 h1 m h2 E C).
Qed.
Lemma places_rank {W M} (step : W -> M -> W) (c : W -> M -> bool) (ok : W -> Prop) (rank : W -> nat) :
  (forall w m, ok w -> ok (step w m)) -> (forall w m, ok w -> ((if c w m then 1 else 0) + rank (step w m) <= rank w)%nat) ->
  forall h w k, ok w -> (length (places step c w h k) <= rank w)%nat.
Proof.
  intros S R. induction h as [|m h IH]; intros w k O; cbn [places length]; [lia|]. rewrite app_length. specialize (IH (step w m) (Datatypes.S k) (S w m O)). specialize (R w m O).
  destruct (c w m); cbn [length] in *; lia.
Qed.
Lemma split_nth {M} (h : list M) k m : nth_error h k = Some m -> exists a b, h = a ++ m :: b /\ length a = k.
Proof. apply nth_error_split. Qed.

(** ** Map-Registers *)
Section R.
Variable hm : Z -> bytes -> bytes -> bytes.
Variable r : etrr.
Variable reg : mreg.
Notation step := (move_step hm r reg).
Notation race := (race hm r reg).
Definition is_send (w : pair) (m : move) : bool := match m, p_reg w with RegGoes _, Sending _ => true | _, _ => false end.
Definition rank (w : pair) : nat := match p_reg w with Sending k => S k | Waiting k | Stopping k | Looking k => k | _ => 0%nat end.
Definition rank_stop (w : pair) : nat := match p_reg w with Sending _ | Looking _ => 1%nat | _ => 0%nat end.
Lemma rank_step w m : ((if is_send w m then 1 else 0) + rank (step w m) <= rank w)%nat.
Proof.
  unfold is_send, rank. destruct m as [src n| | |s]; cbn [move_step].
  - destruct (p_main w); cbn [p_reg]; try lia. destruct (p_listed w); cbn [p_reg]; lia.
  - unfold main_goes. destruct (p_main w); cbn [p_reg]; lia.
  - cbn [p_reg]. lia.
  - unfold reg_goes. destruct (p_reg w) as [k|k|k|k| | |[v|u nx]|v] eqn:E; rewrite ?E; cbn [at_reg p_reg]; try lia.
    + destruct s; cbn [at_reg p_reg]; lia.
    + destruct (p_stop w); cbn [at_reg p_reg]; lia.
    + destruct (p_event w); [cbn [at_reg p_reg]; lia|]. destruct k; cbn [at_reg p_reg]; lia.
    + destruct (p_event w); cbn [at_reg p_reg]; lia.
    + destruct (p_notify w); cbn [at_reg p_reg]; lia.
Qed.
Lemma stop_stays w m : p_stop w = true -> p_stop (step w m) = true.
Proof.
  intros P. destruct m as [src n| | |s]; cbn [move_step].
  - destruct (p_main w); auto. destruct (p_listed w); auto.
  - unfold main_goes. destruct (p_main w); auto.
  - reflexivity.
  - unfold reg_goes. destruct (p_reg w) as [k|k|k|k| | |[v|u nx]|v]; cbn [at_reg p_stop]; auto.
    + destruct s; auto.
    + rewrite P. exact P.
    + destruct (p_event w); auto. destruct k; auto.
    + destruct (p_event w); auto.
    + destruct (p_notify w); auto.
Qed.
Lemma rank_stop_step w m : p_stop w = true -> ((if is_send w m then 1 else 0) + rank_stop (step w m) <= rank_stop w)%nat.
Proof.
  intros P. unfold is_send, rank_stop. destruct m as [src n| | |s]; cbn [move_step].
  - destruct (p_main w); cbn [p_reg]; try lia. destruct (p_listed w); cbn [p_reg]; lia.
  - unfold main_goes. destruct (p_main w); cbn [p_reg]; lia.
  - cbn [p_reg]. lia.
  - unfold reg_goes. destruct (p_reg w) as [k|k|k|k| | |[v|u nx]|v] eqn:E; rewrite ?E; cbn [at_reg p_reg]; try lia.
    + destruct s; cbn [at_reg p_reg]; lia.
    + rewrite P. cbn [at_reg p_reg]. lia.
    + destruct (p_event w); [cbn [at_reg p_reg]; lia|]. destruct k; cbn [at_reg p_reg]; lia.
    + destruct (p_event w); cbn [at_reg p_reg]; lia.
    + destruct (p_notify w); cbn [at_reg p_reg]; lia.
Qed.
Lemma sends_place h i : sends hm r reg h i -> exists h1 m h2, h = h1 ++ m :: h2 /\ length h1 = i /\ is_send (fold_left step h1 fresh) m = true.
Proof. intros (h1 & s & h2 & k & E & L & S). exists h1, (RegGoes s), h2. split; [exact E|]. split; [exact L|]. unfold is_send. unfold Race.race in S. rewrite S. reflexivity. Qed.
Lemma race_places h : (length (places step is_send fresh h 0) <= 3)%nat.
Proof. apply (places_rank step is_send (fun _ => True) rank); auto. intros w m _. apply rank_step. Qed.
Theorem C132_registers h : at_most 3 (sends hm r reg h).
Proof. apply (at_most_places step is_send fresh h 3 _ (sends_place h)), race_places. Qed.

Theorem C132_told_registers h k : told_at h k -> at_most 1 (from k (sends hm r reg h)).
Proof.
  intros T. destruct (split_nth h k AskStop T) as (a & b & -> & L).
  set (w := fold_left step (a ++ [AskStop]) fresh).
  assert (p_stop w = true) as P by (unfold w; rewrite fold_left_app; reflexivity).
  assert (length (places step is_send w b 0) <= 1)%nat as B.
  { apply Nat.le_trans with (rank_stop w).
    - apply (places_rank step is_send (fun w => p_stop w = true) rank_stop); auto using stop_stays, rank_stop_step.
    - unfold rank_stop. destruct (p_reg w); lia. }
  intros l N F. apply Nat.le_trans with (length (places step is_send w b (S k))).
  2: { replace (length (places step is_send w b (S k))) with (length (places step is_send w b 0)); [exact B|].
       clear. generalize 0%nat (S k) w. induction b as [|m b IH]; intros i j w0; cbn [places]; [reflexivity|]. rewrite !app_length. rewrite (IH (S i) (S j)). destruct (is_send w0 m); reflexivity. }
  apply NoDup_incl_length; [exact N|]. intros i I. destruct (F i I) as (K & h1 & s & h2 & j & E & Li & Sj).
  assert (exists b1, h1 = (a ++ [AskStop]) ++ b1 /\ b = b1 ++ RegGoes s :: h2) as (b1 & -> & Eb).
  { clear -E K L Li. subst i k. revert h1 E K. induction a as [|x a IH]; intros [|y h1] E K; cbn [app] in E.
    - discriminate.
    - injection E as <- E. exists h1. auto.
    - cbn [length] in K. lia.
    - injection E as <- E. cbn [length] in K. destruct (IH h1 E ltac:(lia)) as (b1 & -> & ->). exists b1. auto. }
  assert (i = S k + length b1)%nat as -> by (rewrite <- Li, <- L, !app_length; cbn [length]; lia).
  apply (places_in step is_send b w (S k) b1 (RegGoes s) h2 Eb). unfold is_send, w. rewrite <- fold_left_app. unfold Race.race in Sj. rewrite Sj. reflexivity.
Qed.

(** ** What it leaves in the list *)
Record kept (h : list move) (w : pair) : Prop := {
  k_list : match p_reg w with
           | Deciding | Checking _ => p_listed w = false
           | Done (Ok None) => p_listed w = true /\ p_stop w = true
           | Done (Ok (Some _)) => p_listed w = false
           | Done (Err _) => p_listed w = true <-> send_raises hm r reg h
           | _ => p_listed w = true
           end;
  k_none : match p_reg w with Done _ => True | _ => ~ send_raises hm r reg h end;
  k_some : match p_reg w with Done (Ok _) => ~ send_raises hm r reg h | _ => True end }.
Lemma race_snoc h m : race (h ++ [m]) = step (race h) m.
Proof. unfold Race.race. rewrite fold_left_app. reflexivity. Qed.
Lemma raises_snoc h m : send_raises hm r reg (h ++ [m]) <->
  send_raises hm r reg h \/ (exists e, m = RegGoes (Err e)) /\ exists k, p_reg (race h) = Sending k.
Proof.
  split.
  - intros (h1 & e & h2 & k & E & S). destruct h2 as [|x h2 _] using rev_ind.
    + apply app_inj_tail in E. destruct E as [<- ->]. right. eauto.
    + left. rewrite app_comm_cons, app_assoc in E. apply app_inj_tail in E. destruct E as [-> _]. exists h1, e, h2, k. auto.
  - intros [(h1 & e & h2 & k & -> & S)|((e & ->) & k & S)].
    + exists h1, e, (h2 ++ [m]), k. rewrite <- app_assoc. auto.
    + exists h, e, [], k. auto.
Qed.
Lemma not_raises h m : ~ send_raises hm r reg h -> (forall e, m <> RegGoes (Err e)) \/ (forall k, p_reg (race h) <> Sending k) -> ~ send_raises hm r reg (h ++ [m]).
Proof. intros N D. rewrite raises_snoc. intros [X|((e & ->) & k & S)]; [auto|]. destruct D as [D|D]; [exact (D e eq_refl)|exact (D k S)]. Qed.
Lemma same_kept h m w : kept h (race h) -> p_reg w = p_reg (race h) -> p_listed w = p_listed (race h) -> (p_stop (race h) = true -> p_stop w = true) -> (forall s, m <> RegGoes s) ->
  kept (h ++ [m]) w.
Proof.
  intros [A B C] E1 E2 E3 N. assert (send_raises hm r reg (h ++ [m]) <-> send_raises hm r reg h) as R.
  { rewrite raises_snoc. split; [intros [X|((e & ->) & _)]; [exact X|destruct (N _ eq_refl)]|auto]. }
  constructor; rewrite E1.
  - rewrite E2. destruct (p_reg (race h)) as [k|k|k|k| | |p|[[b|]|e]]; auto; [destruct A; auto|]. rewrite R. exact A.
  - destruct (p_reg (race h)); rewrite ?R; auto.
  - destruct (p_reg (race h)) as [k|k|k|k| | |p|[[b|]|e]]; rewrite ?R; auto.
Qed.
Lemma kept_race h : kept h (race h).
Proof.
  induction h as [|m h IH] using rev_ind.
  { constructor; cbn; auto. intros (h1 & e & h2 & k & E & _). destruct h1; discriminate. }
  rewrite race_snoc. destruct m as [src n| | |s]; cbn [move_step].
  - destruct (p_main (race h)) eqn:M; try (apply same_kept; auto; discriminate). destruct (p_listed (race h)) eqn:L; apply same_kept; auto; discriminate.
  - unfold main_goes. destruct (p_main (race h)); apply same_kept; auto; discriminate.
  - apply same_kept; auto; discriminate.
  - destruct IH as [A B C]. pose proof (not_raises h (RegGoes s)) as NR.
    unfold reg_goes. remember (p_reg (race h)) as g eqn:G. symmetry in G.
    destruct g as [k|k|k|k| | |[v|u nx]|v]; cbn beta iota in A, B, C.
    + destruct s as [f|e].
      * assert (~ send_raises hm r reg (h ++ [RegGoes (Ok f)])) by (apply NR; [exact B|left; discriminate]). constructor; cbn [at_reg p_reg p_listed p_stop]; auto.
      * constructor; cbn [at_reg p_reg p_listed p_stop]; auto. split; auto. intros _. apply raises_snoc. right. eauto.
    + assert (~ send_raises hm r reg (h ++ [RegGoes s])) by (apply NR; [exact B|right; congruence]). constructor; cbn [at_reg p_reg p_listed p_stop]; auto.
    + assert (~ send_raises hm r reg (h ++ [RegGoes s])) by (apply NR; [exact B|right; congruence]).
      destruct (p_stop (race h)) eqn:P; constructor; cbn [at_reg p_reg p_listed p_stop]; auto.
    + assert (~ send_raises hm r reg (h ++ [RegGoes s])) by (apply NR; [exact B|right; congruence]).
      destruct (p_event (race h)); [|destruct k]; constructor; cbn [at_reg p_reg p_listed p_stop]; auto.
    + assert (~ send_raises hm r reg (h ++ [RegGoes s])) by (apply NR; [exact B|right; congruence]). constructor; cbn [at_reg p_reg p_listed p_stop]; auto.
    + assert (~ send_raises hm r reg (h ++ [RegGoes s])) by (apply NR; [exact B|right; congruence]).
      destruct (p_event (race h)); constructor; cbn [at_reg p_reg p_listed p_stop]; auto.
    + assert (~ send_raises hm r reg (h ++ [RegGoes s])) by (apply NR; [exact B|right; congruence]).
      destruct v as [b|e]; cbn [bind]; constructor; cbn [at_reg p_reg p_listed p_stop]; auto. rewrite A. split; [discriminate|intros X; destruct (H X)].
    + assert (~ send_raises hm r reg (h ++ [RegGoes s])) by (apply NR; [exact B|right; congruence]).
      destruct (p_notify (race h)); constructor; cbn [at_reg p_reg p_listed p_stop]; auto. rewrite A. split; [discriminate|intros X; destruct (H X)].
    + assert (send_raises hm r reg (h ++ [RegGoes s]) <-> send_raises hm r reg h) as R.
      { rewrite raises_snoc. split; [intros [X|(_ & k & S)]; [exact X|congruence]|auto]. }
      constructor; rewrite G.
      * destruct v as [[b|]|e]; auto. rewrite R. exact A.
      * exact Logic.I.
      * destruct v; rewrite ?R; auto.
Qed.

Theorem C132_map_register_left_partial h v : p_reg (race h) = Done v ->
  (p_listed (race h) = true <-> send_raises hm r reg h \/ v = Ok None).
Proof.
  intros D. destruct (kept_race h) as [A _ C]. rewrite D in A, C. destruct v as [[b|]|e].
  - rewrite A. split; [discriminate|intros [X|X]; [destruct (C X)|discriminate]].
  - destruct A as [A _]. rewrite A. split; auto.
  - rewrite A. split; [auto|intros [X|X]; [exact X|discriminate]].
Qed.
(** without a value only when told to stop *)
Theorem C132_cut_short h : p_reg (race h) = Done (Ok None) -> In AskStop h.
Proof.
  intros D. destruct (kept_race h) as [A _ _]. rewrite D in A. destruct A as [_ P].
  assert (forall g w, p_stop (fold_left step g w) = true -> p_stop w = true \/ In AskStop g) as G.
  { induction g as [|m g IH]; intros w E; [left; exact E|]. cbn [fold_left] in E. destruct (IH _ E) as [S|I]; [|right; right; exact I].
    destruct m as [src n| | |s]; cbn [move_step] in S.
    - left. destruct (p_main w); auto. destruct (p_listed w); auto.
    - left. unfold main_goes in S. destruct (p_main w); auto.
    - right. left. reflexivity.
    - left. unfold reg_goes in S. destruct (p_reg w) as [k|k|k|k| | |[v|u nx]|v]; cbn [at_reg p_stop] in S; auto.
      + destruct s; cbn [at_reg p_stop] in S; auto.
      + destruct (p_stop w) eqn:X; cbn [at_reg p_stop] in S; auto; congruence.
      + destruct (p_event w); [auto|]. destruct k; auto.
      + destruct (p_event w); auto.
      + destruct (p_notify w); auto. }
  destruct (G h fresh P) as [X|X]; [discriminate|exact X].
Qed.

(** ** Told to stop, it stops *)
Definition left_to_go (w : pair) : nat := match p_reg w with Sending _ => 3 | Waiting _ => 2 | Stopping _ => 1 | Looking _ => 4 | _ => 0 end.
Lemma attempting_spec w : attempting w <-> left_to_go w <> 0%nat.
Proof. unfold attempting, left_to_go. destruct (p_reg w); split; auto; try discriminate; intros X; congruence. Qed.
Lemma left_step w m : p_stop w = true ->
  (left_to_go (step w m) <= left_to_go w)%nat /\ (match m with RegGoes _ => (left_to_go (step w m) <= left_to_go w - 1)%nat | _ => True end).
Proof.
  intros P. unfold left_to_go. destruct m as [src n| | |s]; cbn [move_step].
  - split; [|exact Logic.I]. destruct (p_main w); cbn [p_reg]; try lia. destruct (p_listed w); cbn [p_reg]; lia.
  - split; [|exact Logic.I]. unfold main_goes. destruct (p_main w); cbn [p_reg]; lia.
  - split; [cbn [p_reg]; lia|exact Logic.I].
  - unfold reg_goes. destruct (p_reg w) as [k|k|k|k| | |[v|u nx]|v] eqn:E; rewrite ?E; cbn [at_reg p_reg]; try lia.
    + destruct s; cbn [at_reg p_reg]; lia.
    + rewrite P. cbn [at_reg p_reg]. lia.
    + destruct (p_event w); [cbn [at_reg p_reg]; lia|]. destruct k; cbn [at_reg p_reg]; lia.
    + destruct (p_event w); cbn [at_reg p_reg]; lia.
    + destruct (p_notify w); cbn [at_reg p_reg]; lia.
Qed.
Lemma left_run h : forall w, p_stop w = true -> (left_to_go (fold_left step h w) <= left_to_go w - turns h)%nat.
Proof.
  induction h as [|m h IH]; intros w P; [cbn; lia|]. cbn [fold_left]. specialize (IH (step w m) (stop_stays w m P)). destruct (left_step w m P) as [L1 L2].
  unfold turns in *. cbn [filter]. destruct m; cbn [length]; lia.
Qed.
Theorem C132_told_ends a b : (4 <= turns b)%nat -> ~ attempting (race (a ++ AskStop :: b)).
Proof.
  intros T. rewrite attempting_spec. unfold Race.race. rewrite fold_left_app. cbn [fold_left]. set (w := step _ AskStop).
  pose proof (left_run b w eq_refl) as L. assert (left_to_go w <= 4)%nat by (unfold left_to_go; destruct (p_reg w); lia). lia.
Qed.
End R.

Print Assumptions C132_registers.
Print Assumptions C132_told_registers.
Print Assumptions C132_map_register_left_partial.
Print Assumptions C132_cut_short.
Print Assumptions C132_told_ends.
