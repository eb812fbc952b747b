(** * Property C132, continued: NAT detection, and a whole pass *)
From Verif Require Import Base BaseLemmas Afi Records Control Auth Tree MapServer Etr Packet Daemon Exchange SpecExch PropExch Race RaceInfo SpecRaceInfo PropRaceInfo PropRace SpecCut PropCut.

Section I.
Variable r : etrr.
Variable nonce : bytes.
Notation step := (imove_step r nonce).
Notation race := (irace r nonce).
Definition is_ask (w : ipair) (m : imove) : bool := match m, ip_reg w with IRegGoes _, ISending _ => true | _, _ => false end.
Definition irank (w : ipair) : nat := match ip_reg w with ISending k => S k | IAssigning k _ | IWaiting k | IStopping k | ILooking k => k | _ => 0%nat end.
Definition irank_stop (w : ipair) : nat := match ip_reg w with ISending _ | ILooking _ => 1%nat | _ => 0%nat end.
Ltac fld := cbn [ireg_to main_at ip_from ip_replies ip_event ip_listed ip_stop ip_main ip_reg].
Lemma main_same w : ip_reg (imain_goes r nonce w) = ip_reg w /\ ip_stop (imain_goes r nonce w) = ip_stop w /\ ip_listed (imain_goes r nonce w) = ip_listed w.
Proof. unfold imain_goes. destruct (ip_main w); fld; auto. Qed.
Lemma hear_same w src m : ip_reg (step w (IHear src m)) = ip_reg w /\ ip_stop (step w (IHear src m)) = ip_stop w /\ ip_listed (step w (IHear src m)) = ip_listed w.
Proof. cbn [imove_step]. destruct (ip_main w); auto. destruct (ip_listed w) eqn:L; fld; auto. Qed.
Lemma irank_step w m : ((if is_ask w m then 1 else 0) + irank (step w m) <= irank w)%nat.
Proof.
  unfold is_ask, irank. destruct m as [src n| | |s].
  - destruct (hear_same w src n) as [-> _]. lia.
  - cbn [imove_step]. destruct (main_same w) as [-> _]. lia.
  - cbn [imove_step]. fld. lia.
  - cbn [imove_step]. unfold ireg_goes. destruct (ip_reg w) as [k|k f|k|k|k| | | |i|v] eqn:E; rewrite ?E; fld; try lia.
    + destruct s; fld; lia.
    + destruct (ip_stop w); fld; lia.
    + destruct (ip_event w); [fld; lia|]. destruct k; fld; lia.
    + destruct (ip_event w); fld; lia.
    + destruct (ip_replies w); fld; lia.
Qed.
Lemma istop_stays w m : ip_stop w = true -> ip_stop (step w m) = true.
Proof.
  intros P. destruct m as [src n| | |s].
  - destruct (hear_same w src n) as (_ & -> & _). exact P.
  - cbn [imove_step]. destruct (main_same w) as (_ & -> & _). exact P.
  - reflexivity.
  - cbn [imove_step]. unfold ireg_goes. destruct (ip_reg w) as [k|k f|k|k|k| | | |i|v]; fld; auto.
    + destruct s; auto.
    + rewrite P. exact P.
    + destruct (ip_event w); auto. destruct k; auto.
    + destruct (ip_event w); auto.
    + destruct (ip_replies w); auto.
Qed.
Lemma irank_stop_step w m : ip_stop w = true -> ((if is_ask w m then 1 else 0) + irank_stop (step w m) <= irank_stop w)%nat.
Proof.
  intros P. unfold is_ask, irank_stop. destruct m as [src n| | |s].
  - destruct (hear_same w src n) as [-> _]. lia.
  - cbn [imove_step]. destruct (main_same w) as [-> _]. lia.
  - cbn [imove_step]. fld. lia.
  - cbn [imove_step]. unfold ireg_goes. destruct (ip_reg w) as [k|k f|k|k|k| | | |i|v] eqn:E; rewrite ?E; fld; try lia.
    + destruct s; fld; lia.
    + rewrite P. fld. lia.
    + destruct (ip_event w); [fld; lia|]. destruct k; fld; lia.
    + destruct (ip_event w); fld; lia.
    + destruct (ip_replies w); fld; lia.
Qed.
Lemma asks_place h i : asks r nonce h i -> exists h1 m h2, h = h1 ++ m :: h2 /\ length h1 = i /\ is_ask (fold_left step h1 ifresh) m = true.
Proof. intros (h1 & s & h2 & k & E & L & S). exists h1, (IRegGoes s), h2. split; [exact E|]. split; [exact L|]. unfold is_ask. unfold irace in S. rewrite S. reflexivity. Qed.
Theorem C132_asks h : at_most 3 (asks r nonce h).
Proof. apply (at_most_places step is_ask ifresh h 3 _ (asks_place h)), (places_rank step is_ask (fun _ => True) irank); auto. intros w m _. apply irank_step. Qed.
Theorem C132_told_asks h k : itold_at h k -> at_most 1 (from k (asks r nonce h)).
Proof.
  intros T. destruct (split_nth h k IAskStop T) as (a & b & -> & L).
  set (w := fold_left step (a ++ [IAskStop]) ifresh).
  assert (ip_stop w = true) as P by (unfold w; rewrite fold_left_app; reflexivity).
  assert (length (places step is_ask w b (S k)) <= 1)%nat as B.
  { apply Nat.le_trans with (irank_stop w).
    - apply (places_rank step is_ask (fun w => ip_stop w = true) irank_stop); auto using istop_stays, irank_stop_step.
    - unfold irank_stop. destruct (ip_reg w); lia. }
  intros l N F. apply Nat.le_trans with (length (places step is_ask w b (S k))); [|exact B].
  apply NoDup_incl_length; [exact N|]. intros i I. destruct (F i I) as (K & h1 & s & h2 & j & E & Li & Sj).
  assert (exists b1, h1 = (a ++ [IAskStop]) ++ b1 /\ b = b1 ++ IRegGoes s :: h2) as (b1 & -> & Eb).
  { clear -E K L Li. subst i k. revert h1 E K. induction a as [|x a IH]; intros [|y h1] E K; cbn [app] in E.
    - discriminate.
    - injection E as <- E. exists h1. auto.
    - cbn [length] in K. lia.
    - injection E as <- E. cbn [length] in K. destruct (IH h1 E ltac:(lia)) as (b1 & -> & ->). exists b1. auto. }
  assert (i = S k + length b1)%nat as -> by (rewrite <- Li, <- L, !app_length; cbn [length]; lia).
  apply (places_in step is_ask b w (S k) b1 (IRegGoes s) h2 Eb). unfold is_ask, w. rewrite <- fold_left_app. unfold irace in Sj. rewrite Sj. reflexivity.
Qed.

(** ** What it leaves in the list *)
Definition quit (h : list imove) : Prop := ask_raises r nonce h \/ asking_stopped r nonce h.
Record ikept (h : list imove) (w : ipair) : Prop := {
  ik_list : match ip_reg w with
            | IDeciding | IFetching | IComparing _ => ip_listed w = false
            | IDone _ => ip_listed w = true <-> quit h
            | _ => ip_listed w = true
            end;
  ik_none : match ip_reg w with IDone _ => True | _ => ~ quit h end }.
Lemma irace_snoc h m : race (h ++ [m]) = step (race h) m.
Proof. unfold irace. rewrite fold_left_app. reflexivity. Qed.
Lemma quit_snoc h m : quit (h ++ [m]) <->
  quit h \/ ((exists e, m = IRegGoes (Err e)) /\ exists k, ip_reg (race h) = ISending k) \/
  ((exists s, m = IRegGoes s) /\ (exists k, ip_reg (race h) = IStopping k) /\ ip_stop (race h) = true).
Proof.
  unfold quit. split.
  - intros [(h1 & e & h2 & k & E & S)|(h1 & s & h2 & k & E & S & P)].
    + destruct h2 as [|x h2 _] using rev_ind.
      * apply app_inj_tail in E. destruct E as [<- ->]. right. left. eauto.
      * left. left. rewrite app_comm_cons, app_assoc in E. apply app_inj_tail in E. destruct E as [-> _]. exists h1, e, h2, k. auto.
    + destruct h2 as [|x h2 _] using rev_ind.
      * apply app_inj_tail in E. destruct E as [<- ->]. right. right. eauto.
      * left. right. rewrite app_comm_cons, app_assoc in E. apply app_inj_tail in E. destruct E as [-> _]. exists h1, s, h2, k. auto.
  - intros [[(h1 & e & h2 & k & -> & S)|(h1 & s & h2 & k & -> & S & P)]|[((e & ->) & k & S)|((s & ->) & (k & S) & P)]].
    + left. exists h1, e, (h2 ++ [m]), k. rewrite <- app_assoc. auto.
    + right. exists h1, s, (h2 ++ [m]), k. rewrite <- app_assoc. auto.
    + left. exists h, e, [], k. auto.
    + right. exists h, s, [], k. auto.
Qed.
Lemma same_ikept h m w : ikept h (race h) -> ip_reg w = ip_reg (race h) -> ip_listed w = ip_listed (race h) -> (forall s, m <> IRegGoes s) -> ikept (h ++ [m]) w.
Proof.
  intros [A B] E1 E2 N. assert (quit (h ++ [m]) <-> quit h) as R.
  { rewrite quit_snoc. split; [intros [X|[((e & ->) & _)|((s & ->) & _)]]; [exact X|destruct (N _ eq_refl)|destruct (N _ eq_refl)]|auto]. }
  constructor; rewrite E1.
  - rewrite E2. destruct (ip_reg (race h)); auto. rewrite R. exact A.
  - destruct (ip_reg (race h)); rewrite ?R; auto.
Qed.
Lemma ikept_race h : ikept h (race h).
Proof.
  induction h as [|m h IH] using rev_ind.
  { constructor; cbn; auto. intros [(h1 & e & h2 & k & E & _)|(h1 & e & h2 & k & E & _)]; destruct h1; discriminate. }
  rewrite irace_snoc. destruct m as [src n| | |s].
  - destruct (hear_same (race h) src n) as (E1 & _ & E2). apply same_ikept; auto; discriminate.
  - destruct (main_same (race h)) as (E1 & _ & E2). apply same_ikept; auto; discriminate.
  - apply same_ikept; auto; discriminate.
  - destruct IH as [A B]. pose proof (quit_snoc h (IRegGoes s)) as Q. cbn [imove_step].
    unfold ireg_goes. remember (ip_reg (race h)) as g eqn:G. symmetry in G.
    destruct g as [k|k f|k|k|k| | | |i|v]; cbn beta iota in A, B.
    + destruct s as [f|e].
      * assert (~ quit (h ++ [IRegGoes (Ok f)])) by (rewrite Q; intros [X|[((e & X) & _)|(_ & (k' & X) & _)]]; [auto|discriminate|congruence]).
        constructor; fld; auto.
      * constructor; fld; auto. split; auto. intros _. apply Q. right. left. split; eauto.
    + assert (~ quit (h ++ [IRegGoes s])) by (rewrite Q; intros [X|[(_ & k' & X)|(_ & (k' & X) & _)]]; [auto|congruence|congruence]). constructor; fld; auto.
    + assert (~ quit (h ++ [IRegGoes s])) by (rewrite Q; intros [X|[(_ & k' & X)|(_ & (k' & X) & _)]]; [auto|congruence|congruence]). constructor; fld; auto.
    + destruct (ip_stop (race h)) eqn:P.
      * constructor; fld; auto. split; auto. intros _. apply Q. right. right. eauto.
      * assert (~ quit (h ++ [IRegGoes s])) by (rewrite Q; intros [X|[(_ & k' & X)|(_ & _ & X)]]; [auto|congruence|discriminate]). constructor; fld; auto.
    + assert (~ quit (h ++ [IRegGoes s])) by (rewrite Q; intros [X|[(_ & k' & X)|(_ & (k' & X) & _)]]; [auto|congruence|congruence]).
      destruct (ip_event (race h)); [|destruct k]; constructor; fld; auto.
    + assert (~ quit (h ++ [IRegGoes s])) by (rewrite Q; intros [X|[(_ & k' & X)|(_ & (k' & X) & _)]]; [auto|congruence|congruence]). constructor; fld; auto.
    + assert (~ quit (h ++ [IRegGoes s])) by (rewrite Q; intros [X|[(_ & k' & X)|(_ & (k' & X) & _)]]; [auto|congruence|congruence]).
      destruct (ip_event (race h)); constructor; fld; auto. rewrite A. split; [discriminate|intros X; destruct (H X)].
    + assert (~ quit (h ++ [IRegGoes s])) by (rewrite Q; intros [X|[(_ & k' & X)|(_ & (k' & X) & _)]]; [auto|congruence|congruence]).
      destruct (ip_replies (race h)); constructor; fld; auto. rewrite A. split; [discriminate|intros X; destruct (H X)].
    + assert (~ quit (h ++ [IRegGoes s])) by (rewrite Q; intros [X|[(_ & k' & X)|(_ & (k' & X) & _)]]; [auto|congruence|congruence]).
      constructor; fld; auto. rewrite A. split; [discriminate|intros X; destruct (H X)].
    + assert (quit (h ++ [IRegGoes s]) <-> quit h) as R by (rewrite Q; split; [intros [X|[(_ & k' & X)|(_ & (k' & X) & _)]]; [auto|congruence|congruence]|auto]).
      constructor; rewrite G; [rewrite R; exact A|exact Logic.I].
Qed.
Theorem C132_info_request_left_partial h v : ip_reg (race h) = IDone v ->
  (ip_listed (race h) = true <-> ask_raises r nonce h \/ asking_stopped r nonce h).
Proof. intros D. destruct (ikept_race h) as [A _]. rewrite D in A. exact A. Qed.

(** ** Told to stop, it stops *)
Definition ileft (w : ipair) : nat := match ip_reg w with ISending _ => 4 | IAssigning _ _ => 3 | IWaiting _ => 2 | IStopping _ => 1 | ILooking _ => 5 | _ => 0 end.
Lemma asking_spec w : asking w <-> ileft w <> 0%nat.
Proof. unfold asking, ileft. destruct (ip_reg w); split; auto; try discriminate; intros X; congruence. Qed.
Lemma ileft_step w m : ip_stop w = true ->
  (ileft (step w m) <= ileft w)%nat /\ (match m with IRegGoes _ => (ileft (step w m) <= ileft w - 1)%nat | _ => True end).
Proof.
  intros P. unfold ileft. destruct m as [src n| | |s].
  - destruct (hear_same w src n) as [-> _]. split; [lia|exact Logic.I].
  - cbn [imove_step]. destruct (main_same w) as [-> _]. split; [lia|exact Logic.I].
  - cbn [imove_step]. fld. split; [lia|exact Logic.I].
  - cbn [imove_step]. unfold ireg_goes. destruct (ip_reg w) as [k|k f|k|k|k| | | |i|v] eqn:E; rewrite ?E; fld; try lia.
    + destruct s; fld; lia.
    + rewrite P. fld. lia.
    + destruct (ip_event w); [fld; lia|]. destruct k; fld; lia.
    + destruct (ip_event w); fld; lia.
    + destruct (ip_replies w); fld; lia.
Qed.
Lemma ileft_run h : forall w, ip_stop w = true -> (ileft (fold_left step h w) <= ileft w - iturns h)%nat.
Proof.
  induction h as [|m h IH]; intros w P; [cbn; lia|]. cbn [fold_left]. specialize (IH (step w m) (istop_stays w m P)). destruct (ileft_step w m P) as [L1 L2].
  unfold iturns in *. cbn [filter]. destruct m; cbn [length]; lia.
Qed.
Theorem C132_told_ends_asking a b : (5 <= iturns b)%nat -> ~ asking (race (a ++ IAskStop :: b)).
Proof.
  intros T. rewrite asking_spec. unfold irace. rewrite fold_left_app. cbn [fold_left]. set (w := step _ IAskStop).
  pose proof (ileft_run b w eq_refl) as L. assert (ileft w <= 5)%nat by (unfold ileft; destruct (ip_reg w); lia). lia.
Qed.
End I.

(** ** A whole pass *)
Theorem C132_one_pass hm r nonce reg hi hr : one_pass hi hr ->
  forall k, itold_at hi k -> at_most 1 (from k (asks r nonce hi)) /\ at_most 1 (sends hm r reg hr).
Proof.
  intros P k T. split; [apply C132_told_asks, T|].
  destruct P as [h ->]; [eapply nth_error_In; exact T|].
  apply (at_most_sub 1 _ (from 0 (sends hm r reg (AskStop :: h)))); [intros i S; split; [lia|exact S]|].
  apply C132_told_registers. reflexivity.
Qed.

(** ** Not so: a request stays behind if sending it raises, or if the thread is told to stop; and told to stop during NAT detection,
    the thread sends two messages more, although it has been told that there is a NAT the second of which is a Map-Register without *)
Definition ct_hi : list imove :=
  [ri_send; ri_go; ri_go; ri_go; IAskStop; ri_go; ri_send; IHear (V4, 1) ri_nat; ri_go; IMainGoes; IMainGoes; IMainGoes; IMainGoes; IMainGoes; ri_go; ri_go].
Definition ct_hr : list move := [AskStop; RegGoes (Ok (Some (V4, 10))); RegGoes (Ok None); RegGoes (Ok None)].
Definition ct_raise : list move := [RegGoes (Err ESock)].
Theorem C132_refuted hm reg : 
  (exists h e, p_reg (race hm ri_r reg h) = Done (Err e) /\ p_listed (race hm ri_r reg h) = true) /\
  (exists h, p_reg (race hm ri_r reg h) = Done (Ok None) /\ p_listed (race hm ri_r reg h) = true) /\
  (exists hi hr k i j, one_pass hi hr /\ itold_at hi k /\ (k < i)%nat /\ asks ri_r ri_nonce hi i /\ sends hm ri_r reg hr j /\
     nat_known ri_r ri_nonce hi /\ ip_reg (irace ri_r ri_nonce hi) = IDone (Ok None)).
Proof.
  split; [|split].
  - exists ct_raise, ESock. vm_compute. auto.
  - exists ct_hr. vm_compute. auto.
  - exists ct_hi, ct_hr, 4%nat, 6%nat, 1%nat. split; [intros _; exists (tl ct_hr); reflexivity|]. split; [reflexivity|]. split; [lia|].
    split; [|split; [|split]].
    + exists (firstn 6 ct_hi), (Ok (Some (V4, 10))), (skipn 7 ct_hi), 1%nat. split; [reflexivity|]. split; [reflexivity|]. vm_compute. reflexivity.
    + exists [AskStop], (Ok (Some (V4, 10))), (skipn 2 ct_hr), 2%nat. split; [reflexivity|]. split; reflexivity.
    + split; [vm_compute; reflexivity|]. exists 0%nat, (LNat 0 4342 (AIP V4 77) (AIP V4 1) (AIP V4 10) [AIP V4 5]). split.
      * eexists. split; vm_compute; reflexivity.
      * apply (seen_spec 0 4342 (AIP V4 77) (AIP V4 1) (AIP V4 10) [AIP V4 5]). reflexivity.
    + vm_compute. reflexivity.
Qed.
(** a registration that is not answered: three sendings, and nothing is left *)
Example C132_three hm reg : let h := repeat (RegGoes (Ok (Some (V4, 10)))) 14 in
  (exists i j k, i <> j /\ j <> k /\ i <> k /\ sends hm ri_r reg h i /\ sends hm ri_r reg h j /\ sends hm ri_r reg h k) /\
  p_reg (race hm ri_r reg h) = Done (Ok (Some false)) /\ p_listed (race hm ri_r reg h) = false.
Proof.
  cbv zeta. split; [|split; vm_compute; reflexivity]. exists 0%nat, 4%nat, 8%nat. repeat split; try lia.
  - exists [], (Ok (Some (V4, 10))), (repeat (RegGoes (Ok (Some (V4, 10)))) 13), 2%nat. repeat split.
  - exists (repeat (RegGoes (Ok (Some (V4, 10)))) 4), (Ok (Some (V4, 10))), (repeat (RegGoes (Ok (Some (V4, 10)))) 9), 1%nat. repeat split.
  - exists (repeat (RegGoes (Ok (Some (V4, 10)))) 8), (Ok (Some (V4, 10))), (repeat (RegGoes (Ok (Some (V4, 10)))) 5), 0%nat. repeat split.
Qed.

Print Assumptions C132_asks.
Print Assumptions C132_told_asks.
Print Assumptions C132_info_request_left_partial.
Print Assumptions C132_told_ends_asking.
Print Assumptions C132_one_pass.
Print Assumptions C132_refuted.
