(** * C120: the threads of nodes run until they are told to stop *)
From Verif Require Import Base BaseLemmas Afi Etr Daemon SpecLife PropLife ThreadLoop.

(** ** Specification *)
(** the thread was told to stop, by [stop()] or because its node was dropped *)
Definition told (h : list tl_event) : Prop := In Told h \/ In Deleted h.
(** the node was dropped *)
Definition gone (h : list tl_event) : Prop := In Freed h \/ In Deleted h.
(** the events of [l] happen in this order, perhaps with others before, between and after them *)
Fixpoint in_this_order {A} (l : list (A -> Prop)) (h : list A) : Prop :=
  match l with
  | [] => True
  | p :: l => exists h1 e h2, h = h1 ++ e :: h2 /\ p e /\ in_this_order l h2
  end.
Definition runs (e : tl_event) : Prop := exists o, e = Turn o.
Definition pass_over (e : tl_event) : Prop := exists o, e = Turn o /\ o <> GoesOn.

(** ** Proofs *)
Lemma tl_run_app h h' : tl_run (h ++ h') = fold_left tl_step h' (tl_run h).
Proof. apply fold_left_app. Qed.
Lemma tl_run_snoc h e : tl_run (h ++ [e]) = tl_step (tl_run h) e.
Proof. rewrite tl_run_app. reflexivity. Qed.

Lemma stop_iff h : (tl_stop (tl_run h) = true <-> told h) /\ (tl_node (tl_run h) = false <-> gone h) /\
  (tl_at (tl_run h) = Ended -> tl_stop (tl_run h) = true).
Proof.
  induction h as [|e h (A & B & C)] using rev_ind.
  - unfold told, gone. cbn. intuition discriminate.
  - rewrite tl_run_snoc. unfold told, gone in *. rewrite !in_app_iff. cbn [In].
    destruct (tl_run h) as [p st nd n a] eqn:E. cbn [tl_stop tl_node tl_at] in *.
    destruct e as [o| | | |]; unfold tl_step, at_place, told_to_stop; cbn [tl_stop tl_node tl_at tl_passes tl_acts].
    + destruct p; cbn [tl_stop tl_node tl_at]; try destruct st; try destruct nd; try destruct o; cbn [tl_stop tl_node tl_at]; intuition (try discriminate; try congruence).
    + destruct p; cbn [tl_stop tl_node tl_at]; intuition (try discriminate; try congruence).
    + intuition (try discriminate; try congruence).
    + intuition (try discriminate; try congruence).
    + intuition (try discriminate; try congruence).
Qed.

(** nothing but being told to stop ends the thread, whatever its passes come to *)
Theorem C120_only_when_told h : tl_at (tl_run h) = Ended -> told h.
Proof. intros E. destruct (stop_iff h) as (A & _ & C). apply A, C, E. Qed.

Lemma passes_mono h s : (tl_passes s <= tl_passes (fold_left tl_step h s))%nat.
Proof.
  revert s. induction h as [|e h IH]; intros s; [apply Nat.le_refl|]. cbn [fold_left]. eapply Nat.le_trans; [|apply IH].
  destruct s as [p st nd n a]. destruct e as [o| | | |]; unfold tl_step, at_place, told_to_stop; cbn [tl_stop tl_node tl_at tl_passes tl_acts]; try apply Nat.le_refl.
  - destruct p; try destruct st; try destruct nd; try destruct o; cbn [tl_passes]; lia.
  - destruct p; cbn [tl_passes]; lia.
Qed.
Lemma step_more e s : tl_at s <> Ended -> tl_stop s = false -> e <> Told -> e <> Deleted ->
  tl_stop (tl_step s e) = false /\ tl_at (tl_step s e) <> Ended /\
  ((tl_passes s < tl_passes (tl_step s e))%nat \/ (tl_passes (tl_step s e) = tl_passes s /\
    (tl_at s = InPass -> (tl_at (tl_step s e) = InPass \/ tl_at (tl_step s e) = Waiting) /\ (pass_over e -> tl_at (tl_step s e) = Waiting)) /\
    (tl_at s = Waiting -> (tl_at (tl_step s e) = Waiting /\ e <> Elapsed) \/ tl_at (tl_step s e) = LoopTop) /\
    (tl_at s = LoopTop -> tl_at (tl_step s e) = LoopTop /\ ~ runs e))).
Proof.
  intros N S T D. destruct s as [p st nd n a]. cbn [tl_at tl_stop tl_passes] in *. subst st.
  destruct e as [o| | | |]; unfold tl_step, at_place, told_to_stop; cbn [tl_stop tl_node tl_at tl_passes tl_acts]; try congruence.
  - destruct p; cbn [tl_stop tl_at tl_passes].
    + repeat split; try discriminate. left. lia.
    + destruct nd; [destruct o as [| |x]|]; cbn [tl_stop tl_at tl_passes at_place];
        (repeat split; try discriminate; right; repeat split; auto; try discriminate; intros (o & E & No); congruence).
    + repeat split; try discriminate. right. repeat split; try discriminate. left. split; [reflexivity|discriminate].
    + congruence.
  - destruct p; cbn [tl_stop tl_at tl_passes]; try congruence; (repeat split; try discriminate; right; repeat split; auto; try discriminate).
    + intros (o & E). discriminate.
    + intros (o & E & _). discriminate.
  - destruct p; try congruence; (repeat split; try discriminate; right; repeat split; auto; try discriminate).
    + intros (o & E). discriminate.
    + intros (o & E & _). discriminate.
    + left. split; [reflexivity|discriminate].
Qed.
Lemma seg_more h s : tl_at s <> Ended -> tl_stop s = false -> ~ told h ->
  tl_stop (fold_left tl_step h s) = false /\ tl_at (fold_left tl_step h s) <> Ended /\
  ((tl_passes s < tl_passes (fold_left tl_step h s))%nat \/ (tl_passes (fold_left tl_step h s) = tl_passes s /\
    (tl_at s = Waiting -> tl_at (fold_left tl_step h s) = Waiting \/ tl_at (fold_left tl_step h s) = LoopTop) /\
    (tl_at s = LoopTop -> tl_at (fold_left tl_step h s) = LoopTop))).
Proof.
  revert s. induction h as [|e h IH]; intros s N S T.
  - cbn [fold_left]. repeat split; auto.
  - cbn [fold_left]. assert (e <> Told /\ e <> Deleted /\ ~ told h) as (T1 & T2 & T3) by (unfold told in *; cbn [In] in T; repeat split; intuition congruence).
    destruct (step_more e s N S T1 T2) as (S' & N' & Q). destruct (IH _ N' S' T3) as (S2 & N2 & R). split; [exact S2|]. split; [exact N2|].
    pose proof (passes_mono h (tl_step s e)) as M.
    destruct Q as [Q|(Q & _ & Q2 & Q3)]; [left; lia|]. destruct R as [R|(R & R1 & R2)]; [left; lia|]. right. split; [congruence|]. split.
    + intros W. destruct (Q2 W) as [[W' _]|W']; [apply R1; exact W'|right; apply R2; exact W'].
    + intros W. apply R2. apply Q3. exact W.
Qed.

(** a thread that is not told to stop goes on: after the pass it may be in and the time of the wait there is another one *)
Theorem C120_goes_on h h' : ~ told (h ++ h') -> in_this_order [pass_over; (fun e => e = Elapsed); runs] h' ->
  (tl_passes (tl_run h) < tl_passes (tl_run (h ++ h')))%nat.
Proof.
  intros T (h1 & e1 & r1 & -> & P & h2 & e2 & r2 & -> & -> & h3 & e3 & r3 & -> & R & _).
  assert (forall x y, ~ told (x ++ y) -> ~ told x /\ ~ told y) as TA by (unfold told; intros x y; rewrite !in_app_iff; tauto).
  apply TA in T as [T0 T]. assert (tl_stop (tl_run h) = false) as S0.
  { destruct (tl_stop (tl_run h)) eqn:E; [|reflexivity]. destruct T0. apply stop_iff. exact E. }
  assert (tl_at (tl_run h) <> Ended) as N0 by (intros E; apply T0, C120_only_when_told, E).
  rewrite tl_run_app. set (s0 := tl_run h) in *. clearbody s0. clear T0 h.
  replace (h1 ++ e1 :: h2 ++ Elapsed :: h3 ++ e3 :: r3) with ((h1 ++ [e1]) ++ h2 ++ [Elapsed] ++ h3 ++ [e3] ++ r3) in * by (rewrite <- app_assoc; reflexivity).
  apply TA in T as [Ta T]. apply TA in T as [Tb T]. apply TA in T as [Tc T]. apply TA in T as [Td T]. apply TA in T as [Te _].
  rewrite !fold_left_app. cbn [fold_left].
  assert (forall s e, ~ told [e] -> tl_at s <> Ended -> tl_stop s = false -> e <> Told /\ e <> Deleted) as TE by (unfold told; intros s e X _ _; cbn [In] in X; intuition congruence).
  (* up to the end of the pass *)
  apply TA in Ta as [Ta Ta']. destruct (seg_more h1 s0 N0 S0 Ta) as (S1 & N1 & Q1). set (s1 := fold_left tl_step h1 s0) in *.
  destruct (TE s1 e1 Ta' N1 S1) as [X Y]. destruct (step_more e1 s1 N1 S1 X Y) as (S2 & N2 & Q2). set (s2 := tl_step s1 e1) in *.
  destruct (seg_more h2 s2 N2 S2 Tb) as (S3 & N3 & Q3). set (s3 := fold_left tl_step h2 s2) in *.
  destruct (TE s3 Elapsed Tc N3 S3) as [X3 Y3]. destruct (step_more Elapsed s3 N3 S3 X3 Y3) as (S4 & N4 & Q4). set (s4 := tl_step s3 Elapsed) in *.
  destruct (seg_more h3 s4 N4 S4 Td) as (S5 & N5 & Q5). set (s5 := fold_left tl_step h3 s4) in *.
  destruct (TE s5 e3 Te N5 S5) as [X5 Y5]. destruct (step_more e3 s5 N5 S5 X5 Y5) as (S6 & N6 & Q6). set (s6 := tl_step s5 e3) in *.
  pose proof (passes_mono r3 s6) as M6. pose proof (passes_mono h3 s4) as M5. pose proof (passes_mono [Elapsed] s3) as M4. cbn [fold_left] in M4. fold s4 in M4. fold s5 in M5.
  pose proof (passes_mono h2 s2) as M3. fold s3 in M3. pose proof (passes_mono [e1] s1) as M2. cbn [fold_left] in M2. fold s2 in M2.
  pose proof (passes_mono h1 s0) as M1. fold s1 in M1. pose proof (passes_mono [e3] s5) as M7. cbn [fold_left] in M7. fold s6 in M7.
  destruct Q1 as [Q1|(Q1 & _)]; [lia|]. destruct Q2 as [Q2|(Q2 & Q2a & Q2b & Q2c)]; [lia|].
  destruct Q3 as [Q3|(Q3 & Q3a & Q3b)]; [lia|]. destruct Q4 as [Q4|(Q4 & _ & Q4b & Q4c)]; [lia|]. destruct Q5 as [Q5|(Q5 & _ & Q5b)]; [lia|].
  destruct Q6 as [Q6|(Q6 & _ & _ & Q6c)]; [lia|]. exfalso.
  assert (tl_at s2 = Waiting \/ tl_at s2 = LoopTop) as W2.
  { destruct (tl_at s1) eqn:W1; [| | |congruence].
    - right. apply Q2c. reflexivity.
    - left. apply (Q2a eq_refl). exact P.
    - destruct (Q2b eq_refl) as [[W _]|W]; auto. }
  assert (tl_at s3 = Waiting \/ tl_at s3 = LoopTop) as W3 by (destruct W2 as [W|W]; auto).
  assert (tl_at s4 = LoopTop) as W4.
  { destruct W3 as [W|W]; [destruct (Q4b W) as [[_ Z]|Z]; [congruence|exact Z]|apply (Q4c W)]. }
  destruct (Q6c (Q5b W4)) as [_ Z]. apply Z, R.
Qed.

Lemma told_stays h s : tl_stop s = true -> tl_stop (fold_left tl_step h s) = true /\ tl_passes (fold_left tl_step h s) = tl_passes s /\
  (tl_at s = Ended -> tl_at (fold_left tl_step h s) = Ended) /\
  (tl_at s = LoopTop -> tl_at (fold_left tl_step h s) = LoopTop \/ tl_at (fold_left tl_step h s) = Ended) /\
  (tl_at s = Waiting -> tl_at (fold_left tl_step h s) <> InPass).
Proof.
  revert s. induction h as [|e h IH]; intros s S; [cbn [fold_left]; repeat split; auto; intros ->; discriminate|].
  cbn [fold_left]. assert (tl_stop (tl_step s e) = true /\ tl_passes (tl_step s e) = tl_passes s /\ (tl_at s = Ended -> tl_at (tl_step s e) = Ended) /\
    (tl_at s = LoopTop -> tl_at (tl_step s e) = LoopTop \/ tl_at (tl_step s e) = Ended) /\
    (tl_at s = Waiting -> tl_at (tl_step s e) = LoopTop \/ tl_at (tl_step s e) = Waiting)) as (A & B & C & D & E).
  { destruct s as [p st nd n a]. cbn [tl_stop] in S. subst st.
    destruct e as [o| | | |]; unfold tl_step, at_place, told_to_stop; cbn [tl_stop tl_node tl_at tl_passes tl_acts]; try (repeat split; auto; fail).
    - destruct p; try destruct nd; try destruct o; cbn [tl_stop tl_at tl_passes at_place]; repeat split; auto; discriminate.
    - destruct p; cbn [tl_stop tl_at tl_passes at_place]; repeat split; auto; discriminate. }
  destruct (IH _ A) as (A' & B' & C' & D' & E'). split; [exact A'|]. split; [congruence|]. split; [auto|]. split.
  - intros W. destruct (D W) as [W'|W']; auto.
  - intros W. destruct (E W) as [W'|W']; [|auto]. destruct (D' W') as [->| ->]; discriminate.
Qed.
(** once told to stop the thread begins no further pass, and ends when the pass it may be in is over: it only has to run *)
Theorem C120_told h h' : told h ->
  tl_passes (tl_run (h ++ h')) = tl_passes (tl_run h) /\
  (in_this_order [pass_over; runs; runs] h' -> tl_at (tl_run (h ++ h')) = Ended) /\
  (tl_at (tl_run h) = Waiting -> in_this_order [runs; runs] h' -> tl_at (tl_run (h ++ h')) = Ended).
Proof.
  intros T. assert (tl_stop (tl_run h) = true) as S by (apply (proj1 (stop_iff h)); exact T). rewrite tl_run_app. set (s0 := tl_run h) in *. clearbody s0.
  split; [apply told_stays; exact S|].
  assert (forall s e, tl_stop s = true -> runs e -> tl_at s = LoopTop -> tl_at (tl_step s e) = Ended) as L1.
  { intros [p st nd n a] e S1 (o & ->) E. cbn [tl_at tl_stop] in *. subst. reflexivity. }
  assert (forall s e, tl_stop s = true -> runs e -> tl_at s = Waiting -> tl_at (tl_step s e) = LoopTop) as L2.
  { intros [p st nd n a] e S1 (o & ->) E. cbn [tl_at tl_stop] in *. subst. reflexivity. }
  assert (forall s e, tl_stop s = true -> pass_over e -> tl_at s = InPass -> tl_at (tl_step s e) = Waiting) as L3.
  { intros [p st nd n a] e S1 (o & -> & No) E. cbn [tl_at tl_stop] in *. subst. unfold tl_step. cbn [tl_at tl_node]. destruct nd, o; try reflexivity. congruence. }
  assert (forall s h, tl_stop s = true -> tl_at s = LoopTop \/ tl_at s = Ended -> in_this_order [runs] h -> tl_at (fold_left tl_step h s) = Ended) as K1.
  { intros s k S1 W (h1 & e1 & r1 & -> & R & _). rewrite fold_left_app. cbn [fold_left]. destruct (told_stays h1 s S1) as (S2 & _ & C & D & _).
    set (s2 := fold_left tl_step h1 s) in *. destruct (told_stays [e1] s2 S2) as (S3 & _ & C3 & _ & _). cbn [fold_left] in *.
    destruct (told_stays r1 (tl_step s2 e1) S3) as (_ & _ & C4 & _ & _). apply C4. destruct W as [W|W]; [destruct (D W) as [X|X]|]; auto. }
  assert (forall s h, tl_stop s = true -> tl_at s <> InPass -> in_this_order [runs; runs] h -> tl_at (fold_left tl_step h s) = Ended) as K2.
  { intros s k S1 W (h1 & e1 & r1 & -> & R & R'). rewrite fold_left_app. cbn [fold_left]. destruct (told_stays h1 s S1) as (S2 & _ & C & D & E).
    set (s2 := fold_left tl_step h1 s) in *. destruct (told_stays [e1] s2 S2) as (S3 & _ & C3 & D3 & E3). cbn [fold_left] in *.
    apply K1; [exact S3| |exact R']. destruct (tl_at s2) eqn:P2; auto.
    exfalso. destruct (tl_at s) eqn:P; [destruct (D eq_refl); congruence|congruence|apply (E eq_refl); reflexivity|specialize (C eq_refl); congruence]. }
  split; [|intros W; apply K2; [exact S|congruence]].
  intros (h1 & e1 & r1 & -> & P & R). rewrite fold_left_app. cbn [fold_left]. destruct (told_stays h1 s0 S) as (S2 & _). set (s2 := fold_left tl_step h1 s0) in *.
  destruct (told_stays [e1] s2 S2) as (S3 & _ & C3 & D3 & E3). cbn [fold_left] in *. apply K2; [exact S3| |exact R].
  destruct (tl_at s2) eqn:P2.
  - destruct (D3 eq_refl) as [->| ->]; discriminate.
  - rewrite (L3 s2 e1 S2 P P2). discriminate.
  - apply E3. reflexivity.
  - rewrite (C3 eq_refl). discriminate.
Qed.
(** when the node is gone nothing more is done with it, even by a pass under way *)
Theorem C120_gone h h' : gone h -> tl_acts (tl_run (h ++ h')) = tl_acts (tl_run h).
Proof.
  intros G. assert (tl_node (tl_run h) = false) as S by (apply (proj1 (proj2 (stop_iff h))); exact G). rewrite tl_run_app. generalize dependent (tl_run h).
  clear G. induction h' as [|e h' IH]; intros s S; [reflexivity|]. cbn [fold_left]. destruct s as [p st nd n a]. cbn [tl_node] in S. subst nd.
  rewrite IH; destruct e as [o| | | |]; unfold tl_step, at_place, told_to_stop; cbn [tl_stop tl_node tl_at tl_passes tl_acts]; try reflexivity; destruct p; try destruct st; reflexivity.
Qed.

Lemma set_nth_length {A} i (x : A) l : length (set_nth i x l) = length l.
Proof.
  unfold set_nth. rewrite app_length, firstn_length. destruct (skipn i l) as [|y r] eqn:E.
  - pose proof (skipn_length i l) as L. rewrite E in L. cbn [length] in *. lia.
  - pose proof (skipn_length i l) as L. rewrite E in L. cbn [length] in *. lia.
Qed.
Lemma set_nth_at {A} i (x : A) l j : nth_error (set_nth i x l) j = if Nat.eqb i j then (if Nat.ltb i (length l) then Some x else None) else nth_error l j.
Proof.
  unfold set_nth. revert i j. induction l as [|y l IH]; intros i j.
  - rewrite firstn_nil, skipn_nil. cbn [app]. destruct (Nat.eqb_spec i j) as [->|]; [destruct j; reflexivity|reflexivity].
  - destruct i as [|i].
    + cbn. destruct j; reflexivity.
    + cbn [firstn skipn app length]. destruct j as [|j]; [reflexivity|]. cbn [nth_error]. rewrite IH. reflexivity.
Qed.
(** every thread an ETR node ever had has been told to stop when the node is dropped, and nothing else changes *)
Theorem C120_dropped l t : (t < length (lc_all (lc_run l)))%nat ->
  length (lc_drop (lc_run l)) = length (lc_all (lc_run l)) /\ nth_error (lc_drop (lc_run l)) t = Some TStopping.
Proof.
  intros Lt. destruct (C84_threads l) as (_ & _ & _ & Z). specialize (Z t Lt). unfold lc_drop. set (s := lc_run l) in *. clearbody s.
  set (ts := map snd (lc_threads s)). assert (In t ts \/ nth_error (lc_all s) t = Some TStopping) as D.
  { destruct (in_dec Nat.eq_dec t ts) as [I|I]; [auto|]. right. apply Z. intros r Hr. apply I. apply in_map_iff. exists (r, t). auto. }
  clear Z. clearbody ts. revert D Lt. generalize (lc_all s). clear s. induction ts as [|u ts IH]; intros a D Lt.
  - cbn [fold_left]. destruct D as [[]|D]. auto.
  - cbn [fold_left]. destruct (IH (set_nth u TStopping a)) as [L N].
    + rewrite set_nth_at. destruct (Nat.eqb_spec u t) as [->|Nu].
      * right. destruct (Nat.ltb_spec t (length a)); [reflexivity|lia].
      * destruct D as [[D|D]|D]; [congruence|auto|auto].
    + rewrite set_nth_length. exact Lt.
    + rewrite set_nth_length in L. auto.
Qed.

(** example: a thread whose first pass raises and whose node is dropped during the second *)
Example ex_thread : let h := [Turn Finishes; Turn GoesOn; Turn (RaisesExn EKey); Elapsed; Turn Finishes; Turn GoesOn] in
  ~ told h /\ tl_at (tl_run h) = InPass /\ tl_passes (tl_run h) = 2%nat /\ tl_acts (tl_run h) = 3%nat /\
  tl_at (tl_run (h ++ [Freed; Deleted])) = InPass /\ tl_at (tl_run (h ++ [Freed; Deleted; Turn Finishes; Turn Finishes; Turn Finishes])) = Ended /\
  (* the ReferenceError alone does not end it *)
  tl_at (tl_run (h ++ [Freed; Turn Finishes; Elapsed; Turn Finishes])) = InPass.
Proof. cbn zeta. split; [unfold told; cbn [In]; intuition discriminate|]. repeat split. Qed.
Example ex_dropped : lc_drop (lc_run [LAdd 1; LSockets true; LAdd 2; LRemove 1; LSockets false; LAdd 3]) = [TStopping; TStopping; TStopping].
Proof. reflexivity. Qed.

Print Assumptions C120_only_when_told.
Print Assumptions C120_goes_on.
Print Assumptions C120_told.
Print Assumptions C120_gone.
Print Assumptions C120_dropped.
