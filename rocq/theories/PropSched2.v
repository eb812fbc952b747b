(** * Property C98, for threads that run at the same time: what the cleanup thread may and must remove, whatever the interleaving *)
From Verif Require Import Base BaseLemmas Afi Records Control Tree PropTree2 Dict MapServer SpecMs Sched SpecSched PropSched.

Lemma keep_run t l t' q s r : table_run t l t' -> t q s = Some r -> (forall r', ~ In (Store q s r') l) ->
  (forall now, In (Clean now) l -> now <= rg_deadline r) -> t' q s = Some r.
Proof.
  induction 1 as [t|t o t1 l t2 S R IH]; intros H NS NC; [exact H|]. apply IH.
  - destruct o as [q' s' r'|now]; cbn [table_step] in S.
    + destruct S as [_ S]. rewrite S; [exact H|]. intros E. injection E as -> ->. apply (NS r'). left. reflexivity.
    + apply S. split; [exact H|]. apply NC. left. reflexivity.
  - intros r' X. apply (NS r'). right. exact X.
  - intros now X. apply NC. right. exact X.
Qed.
Lemma stays_gone t l t' q s : table_run t l t' -> t q s = None -> (forall r', ~ In (Store q s r') l) -> t' q s = None.
Proof.
  induction 1 as [t|t o t1 l t2 S R IH]; intros H NS; [exact H|]. apply IH.
  - destruct o as [q' s' r'|now]; cbn [table_step] in S.
    + destruct S as [_ S]. rewrite S; [exact H|]. intros E. injection E as -> ->. apply (NS r'). left. reflexivity.
    + destruct (t1 q s) as [x|] eqn:X; [|reflexivity]. apply S in X. destruct X. congruence.
  - intros r' X. apply (NS r'). right. exact X.
Qed.
Lemma gone_run t l t' q s r now : table_run t l t' -> t q s = Some r -> (forall r', ~ In (Store q s r') l) ->
  In (Clean now) l -> rg_deadline r < now -> t' q s = None.
Proof.
  induction 1 as [t|t o t1 l t2 S R IH]; intros H NS IC L; [destruct IC|].
  assert (forall r', ~ In (Store q s r') l) as NS' by (intros r' X; apply (NS r'); right; exact X).
  destruct o as [q' s' r'|now']; cbn [table_step] in S.
  - destruct IC as [IC|IC]; [discriminate|]. apply IH; auto. destruct S as [_ S]. rewrite S; [exact H|]. intros E. injection E as -> ->. apply (NS r'). left. reflexivity.
  - destruct (t1 q s) as [x|] eqn:X.
    + pose proof X as Y. apply S in Y. destruct Y as [Y1 Y2]. rewrite H in Y1. injection Y1 as <-. destruct IC as [IC|IC]; [injection IC as ->; lia|]. apply IH; auto.
    + eapply stays_gone; eauto.
Qed.
(** A registration nobody replaces stays, whatever the threads do, as long as no thread cleans up with a time after its deadline *)
Theorem C98_interleaved_stays : forall d todo h q s r, regs_ok d -> table_of d q s = Some r ->
  (forall k r', ~ In (Store q s r') (todo k)) -> (forall k now, In (Clean now) (todo k) -> now <= rg_deadline r) ->
  let w := interleave d todo h in w_lock w = None -> table_of (w_regs w) q s = Some r.
Proof.
  intros d todo h q s r K H NS NC w L. destruct (C97_serialisable d todo h K) as [_ C]. destruct (C L) as (log & E & R & _).
  assert (forall o, In o (map snd log) -> exists k, In o (todo k)) as A.
  { intros o Ho. apply in_map_iff in Ho. destruct Ho as ([k o'] & <- & Ho). exists k. rewrite E. apply in_app_iff. left. unfold by_thread. apply in_map_iff.
    exists (k, o'). split; [reflexivity|]. apply filter_In. split; [exact Ho|apply Nat.eqb_refl]. }
  eapply keep_run; [exact R|exact H| |].
  - intros r' X. destruct (A _ X) as [k Y]. exact (NS k r' Y).
  - intros now X. destruct (A _ X) as [k Y]. exact (NC k now Y).
Qed.
(** and it is gone once a thread has cleaned up with a time after its deadline *)
Theorem C98_interleaved_goes : forall d todo h q s r k now, regs_ok d -> table_of d q s = Some r ->
  (forall j r', ~ In (Store q s r') (todo j)) -> In (Clean now) (todo k) -> rg_deadline r < now ->
  let w := interleave d todo h in w_lock w = None -> th_todo (w_thr w k) = [] -> table_of (w_regs w) q s = None.
Proof.
  intros d todo h q s r k now K H NS IC LD w L T. destruct (C97_serialisable d todo h K) as [_ C]. destruct (C L) as (log & E & R & _).
  assert (forall j o, In o (by_thread j log) -> In o (map snd log)) as A.
  { intros j o Ho. unfold by_thread in Ho. apply in_map_iff in Ho. destruct Ho as (x & <- & Ho). apply filter_In in Ho. apply in_map, Ho. }
  eapply gone_run; [exact R|exact H| | |exact LD].
  - intros r' X. apply in_map_iff in X. destruct X as ([j o'] & Eo & Ho). cbn [snd] in Eo. subst o'. apply (NS j r'). rewrite E. apply in_app_iff. left. unfold by_thread.
    apply in_map_iff. exists (j, Store q s r'). split; [reflexivity|]. apply filter_In. split; [exact Ho|apply Nat.eqb_refl].
  - apply (A k). specialize (E k). fold w in E. rewrite T, app_nil_r in E. rewrite <- E. exact IC.
Qed.
(** the example of C97: the two registrations of source 5 have expired at time 11, the one of source 6 has not *)
Example C98_interleaved_example : regs_ok ex_regs /\ let w := interleave ex_regs ex_todo ex_order in
  w_lock w = None /\ th_todo (w_thr w 1%nat) = [] /\ In (Clean 11) (ex_todo 1) /\
  table_of ex_regs p16 (SAddr V4 6) = Some fresh_reg /\ table_of (w_regs w) p16 (SAddr V4 6) = Some fresh_reg /\
  table_of ex_regs p16 (SAddr V4 5) = Some old_reg /\ table_of (w_regs w) p16 (SAddr V4 5) = None /\
  (forall k r', ~ In (Store p16 (SAddr V4 5) r') (ex_todo k)) /\ (forall k r', ~ In (Store p16 (SAddr V4 6) r') (ex_todo k)).
Proof.
  split; [apply C97_example|]. cbn zeta. split; [vm_compute; reflexivity|]. split; [vm_compute; reflexivity|]. split; [left; reflexivity|].
  split; [vm_compute; reflexivity|]. split; [vm_compute; reflexivity|]. split; [vm_compute; reflexivity|]. split; [vm_compute; reflexivity|].
  split; intros [|[|k]] r' X; cbn in X; try tauto; destruct X as [X|[]]; discriminate X.
Qed.
Print Assumptions C98_interleaved_stays.
Print Assumptions C98_interleaved_goes.
