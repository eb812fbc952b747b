(** * Property C106: what is configured is being registered, once the daemon runs *)
From Verif Require Import Base BaseLemmas Afi Records Tree SpecTree TreeProofs PropTree2 MapServer Etr Daemon SpecLife PropLife Main SpecMain PropMain Running.

Fixpoint nodes (n : node) : list node := match n with Node _ _ _ ch => n :: flat_map nodes ch end.
Lemma nodes_in x n : in_tree x n <-> In x (nodes n).
Proof.
  induction n as [i p c ch IH] using node_ind'. cbn [nodes]. split.
  - intros T. destruct (in_tree_inv _ _ T) as [->|(d & I & T')]; [left; reflexivity|]. right. apply in_flat_map. exists d. split; [exact I|]. apply (IH d I), T'.
  - intros [<-|I]; [apply it_self|]. apply in_flat_map in I. destruct I as (d & I & H). eapply it_below; [exact I|]. apply (IH d I), H.
Qed.
Definition one (b : bool) (w : lives) (n : node) : lives :=
  match n_cls n with NETR => set_life w (n_id n) (lc_step (w (n_id n)) (LSockets b)) | _ => w end.
Lemma fold_flat {A B C} (f : A -> B -> A) (g : C -> list B) l : forall w, fold_left f (flat_map g l) w = fold_left (fun w c => fold_left f (g c) w) l w.
Proof. induction l as [|c l IH]; intros w; cbn [flat_map fold_left]; [reflexivity|]. rewrite fold_left_app. apply IH. Qed.
Lemma fold_ext_in {A B} (f g : A -> B -> A) l : (forall w c, In c l -> f w c = g w c) -> forall w, fold_left f l w = fold_left g l w.
Proof. induction l as [|c l IH]; intros H w; cbn [fold_left]; [reflexivity|]. rewrite H by (left; reflexivity). apply IH. intros; apply H; right; assumption. Qed.
Lemma life_nodes b n : forall w, sockets_life b n w = fold_left (one b) (nodes n) w.
Proof.
  induction n as [i p c ch IH] using node_ind'. intros w. cbn [sockets_life nodes fold_left]. rewrite fold_flat.
  rewrite (fold_ext_in _ (fun w c => fold_left (one b) (nodes c) w)) by (intros w' d I; apply (IH d I)). unfold one at 3. cbn [n_cls n_id]. destruct c; reflexivity.
Qed.
Definition all_nodes (c : instances) : list node := flat_map (fun m => flat_map (fun t => nodes (snd t)) (snd m)) c.
Lemma all_nodes_in c n : configured_node c n <-> In n (all_nodes c).
Proof.
  unfold all_nodes, configured_node. rewrite in_flat_map. split.
  - intros (iid & m & afi & t & I1 & I2 & T). exists (iid, m). split; [exact I1|]. apply in_flat_map. exists (afi, t). split; [exact I2|]. apply nodes_in, T.
  - intros ([iid m] & I1 & H). apply in_flat_map in H. destruct H as ([afi t] & I2 & H). exists iid, m, afi, t. split; [exact I1|]. split; [exact I2|]. apply nodes_in, H.
Qed.
Lemma all_life_nodes b c w : all_life b c w = fold_left (one b) (all_nodes c) w.
Proof.
  unfold all_life, all_nodes. rewrite fold_flat. apply fold_ext_in. intros w' m _. rewrite fold_flat. apply fold_ext_in. intros w2 t _. apply life_nodes.
Qed.
(** every ETR node of the trees is given the sockets once for every place it has in them *)
Lemma times_given b l : forall (before : nat -> list lc_op) j, exists k, fold_left (one b) l (fun i => lc_run (before i)) j = lc_run (before j ++ repeat (LSockets b) k) /\
  ((0 < k)%nat <-> exists n, In n l /\ n_cls n = NETR /\ n_id n = j).
Proof.
  induction l as [|n l IH]; intros before j; cbn [fold_left].
  - exists O. rewrite app_nil_r. split; [reflexivity|]. split; [lia|intros (? & [] & _)].
  - destruct (n_cls n) eqn:C; cycle 1.
    all: try (unfold one at 2; rewrite C; destruct (IH before j) as (k & E & K); exists k; split; [exact E|]; rewrite K; split;
      [intros (m & I & H); exists m; split; [right; exact I|exact H]|intros (m & [->|I] & H & H'); [congruence|exists m; auto]]).
    all: pose (before' := fun i => if Nat.eqb i (n_id n) then before i ++ [LSockets b] else before i);
      destruct (IH before' j) as (k & E & K); unfold before' in E at 2.
    all: assert (forall i, one b (fun i => lc_run (before i)) n i = lc_run (before' i)) as X.
    all: try (intros i; unfold one, set_life, before'; rewrite C; destruct (Nat.eqb_spec i (n_id n)) as [->|]; [unfold lc_run; rewrite fold_left_app; reflexivity|reflexivity]).
    all: assert (forall l w w', (forall i, w i = w' i) -> forall i, fold_left (one b) l w i = fold_left (one b) l w' i) as Ext.
    all: try (clear; intros l; induction l as [|m l IH]; intros w w' H i; cbn [fold_left]; [apply H|]; apply IH; intros i'; unfold one, set_life; destruct (n_cls m); auto; rewrite H; destruct (Nat.eqb i' (n_id m)); auto).
    all: rewrite (Ext l _ _ X j), E; destruct (Nat.eqb_spec j (n_id n)) as [->|Nj].
    all: try (exists (S k); rewrite <- app_assoc; split; [reflexivity|]; split; [intros _; exists n; auto using in_eq|lia]).
    all: exists k; split; [reflexivity|]; rewrite K; split; [intros (m & I & H); exists m; split; [right; exact I|exact H]|intros (m & [->|I] & H & H'); [congruence|exists m; auto]].
Qed.

Lemma atn_split {A} (l l' : list A) o p : and_then_no (l ++ l') o p <-> and_then_no l' o p \/ ((forall x, In x l' -> ~ p x) /\ and_then_no l o p).
Proof.
  revert l'. apply (rev_ind (fun l' => and_then_no (l ++ l') o p <-> and_then_no l' o p \/ ((forall x, In x l' -> ~ p x) /\ and_then_no l o p))).
  - rewrite app_nil_r. split; [intros H; right; split; [intros x []|exact H]|intros [H|[_ H]]; [destruct (atn_nil _ _ H)|exact H]].
  - intros x l' IH. rewrite app_assoc, !atn_app, IH. split.
    + intros [->|(N & [H|[F H]])]; [auto|auto|]. right. split; [|exact H]. intros y Hy. apply in_app_or in Hy. destruct Hy as [Hy|[<-|[]]]; auto.
    + intros [[->|[N H]]|[F H]]; [auto|auto|]. right. split; [apply F, in_or_app; right; left; reflexivity|]. right. split; [|exact H]. intros y Hy. apply F, in_or_app. auto.
Qed.
Lemma configured_rep before k b later r : configured (before ++ repeat (LSockets b) k ++ later) r <-> configured (before ++ later) r.
Proof.
  assert (~ configured (repeat (LSockets b) k) r) as N. { intros (l1 & l2 & E & _). assert (In (LAdd r) (repeat (LSockets b) k)) as I by (rewrite E; apply in_elt). apply repeat_spec in I. discriminate. }
  assert (forall x, In x (repeat (LSockets b) k) -> x <> LRemove r) as N' by (intros x I; apply repeat_spec in I; congruence).
  unfold configured in *. rewrite !atn_split. split.
  - intros [[H|[F H]]|[F H]]; [auto|destruct (N H)|]. right. split; [|exact H]. intros x I. apply F, in_or_app. auto.
  - intros [H|[F H]]; [auto|]. right. split; [|exact H]. intros x I. apply in_app_or in I. destruct I; auto.
Qed.
(** C106: in a running daemon, whatever the settings did before and whatever is added and removed later, every ETR node of the trees has
    exactly one running thread for each registration it has, and no other *)
Theorem C106_running : forall nfq c ctl data queues w', start false nfq (Some c) no_sockets = Serve ctl data queues w' ->
  forall (before : nat -> list lc_op) n later, configured_node (cf_instances c) n -> n_cls n = NETR -> (forall b, ~ In (LSockets b) later) ->
  let s := fold_left lc_step later (start_life false nfq c (fun id => lc_run (before id)) (n_id n)) in
  (forall r, configured (before (n_id n) ++ later) r <-> exists t, In (r, t) (lc_threads s) /\ nth_error (lc_all s) t = Some TRunning) /\
  (forall r t r' t', In (r, t) (lc_threads s) -> In (r', t') (lc_threads s) -> (r = r' <-> t = t')) /\
  (forall t, nth_error (lc_all s) t = Some TRunning -> exists r, In (r, t) (lc_threads s)).
Proof.
  intros nfq c ctl data queues w' H before n later Cn En NS. cbv zeta. unfold start_life. change (fun _ : nat => ([], [])) with no_sockets. rewrite H.
  destruct (C94_serves _ _ _ _ _ _ _ H) as (Nl & Ectl & _). assert (match ctl with [] => false | _ => true end = true) as -> by (rewrite Ectl; destruct (cf_listen c); [contradiction|reflexivity]).
  rewrite all_life_nodes. destruct (times_given true (all_nodes (cf_instances c)) before (n_id n)) as (k & -> & K).
  assert (0 < k)%nat as Kp by (apply K; exists n; split; [apply all_nodes_in, Cn|auto]).
  assert (fold_left lc_step later (lc_run (before (n_id n) ++ repeat (LSockets true) k)) = lc_run (before (n_id n) ++ repeat (LSockets true) k ++ later)) as ->.
  { unfold lc_run. rewrite app_assoc, (fold_left_app _ (_ ++ _)). reflexivity. }
  set (l := before (n_id n) ++ repeat (LSockets true) k ++ later). destruct (C84_threads l) as (T1 & T2 & T3 & T4).
  assert (has_sockets l) as HS.
  { unfold l. destruct k as [|k]; [lia|]. exists (before (n_id n) ++ repeat (LSockets true) k), later. split; [|intros x I [b ->]; exact (NS b I)].
    rewrite <- app_assoc. f_equal. change (LSockets true :: later) with ([LSockets true] ++ later). rewrite app_assoc, <- repeat_cons. reflexivity. }
  assert (forall r, configured l r -> got_started l r) as ST by (intros r Cr; exists l, []; rewrite app_nil_r; auto).
  assert (forall r, configured l r <-> configured (before (n_id n) ++ later) r) as CR by (intros r; apply configured_rep).
  split; [|split; [exact T2|]].
  - intros r. rewrite <- CR, T1. split; [|intros (t & I & _); eauto]. intros (t & I). exists t. split; [exact I|]. apply (T3 r t I). apply ST, T1. eauto.
  - intros t R. assert (t < length (lc_all (lc_run l)))%nat as L by (apply nth_error_Some; congruence).
    assert ((exists r, In (r, t) (lc_threads (lc_run l))) \/ ~ (exists r, In (r, t) (lc_threads (lc_run l)))) as [D|D]; [|exact D|].
    { destruct (in_dec Nat.eq_dec t (map snd (lc_threads (lc_run l)))) as [I|I].
      - left. apply in_map_iff in I. destruct I as ([r t'] & <- & I). exists r. exact I.
      - right. intros [r J]. apply I. apply in_map_iff. exists (r, t). auto. }
    rewrite (T4 t L) in R; [discriminate|]. intros r J. apply D. eauto.
Qed.
(** C106: nothing runs before main() has got that far, nor ever for nodes that are not in the trees *)
Theorem C106_nothing_else : forall show nfq c (before : nat -> list lc_op) j later,
  (forall b, ~ In (LSockets b) (before j ++ later)) ->
  ((exists code, start show nfq (Some c) no_sockets = Exit code) \/ (forall n, configured_node (cf_instances c) n -> n_cls n = NETR -> n_id n <> j)) ->
  forall t, nth_error (lc_all (fold_left lc_step later (start_life show nfq c (fun id => lc_run (before id)) j))) t <> Some TRunning.
Proof.
  intros show nfq c before j later NS H t. assert (start_life show nfq c (fun id => lc_run (before id)) j = lc_run (before j)) as ->.
  { unfold start_life. change (fun _ : nat => ([], [])) with no_sockets. destruct (start show nfq (Some c) no_sockets) as [code|ctl data q w'] eqn:S; [reflexivity|]. destruct H as [[code H]|H]; [discriminate|].
    rewrite all_life_nodes. destruct (times_given (match ctl with [] => false | _ => true end) (all_nodes (cf_instances c)) before j) as (k & -> & K). destruct k as [|k]; [rewrite app_nil_r; reflexivity|].
    exfalso. destruct (proj1 K ltac:(lia)) as (n & I & C & E). exact (H n (proj2 (all_nodes_in _ _) I) C E). }
  assert (fold_left lc_step later (lc_run (before j)) = lc_run (before j ++ later)) as -> by (unfold lc_run; rewrite fold_left_app; reflexivity).
  set (l := before j ++ later) in *. intros R. destruct (C84_threads l) as (T1 & T2 & T3 & T4).
  assert (t < length (lc_all (lc_run l)))%nat as L by (apply nth_error_Some; congruence).
  destruct (in_dec Nat.eq_dec t (map snd (lc_threads (lc_run l)))) as [I|I].
  - apply in_map_iff in I. destruct I as ([r t'] & E & I). cbn in E. subst t'. destruct (T3 r t I) as [_ X]. rewrite X in R; [discriminate|].
    intros (l1 & l2 & E & _ & (a & b & Ea & _) & _). apply (NS true). rewrite E, Ea. apply in_or_app. left. apply in_elt.
  - rewrite (T4 t L) in R; [discriminate|]. intros r J. apply I, in_map_iff. exists (r, t). auto.
Qed.
(** example: the ETR node 1 of C94_example has two registrations, one is removed and another added while the daemon runs *)
Example C106_example : let before := fun id => if Nat.eqb id 1 then [LAdd 1; LAdd 2] else [] in
  (exists ctl data queues w, start false true (Some ex_conf) no_sockets = Serve ctl data queues w) /\
  configured_node (cf_instances ex_conf) (Node 1 (Pfx V4 167772160 16) NETR []) /\
  lc_all (start_life false true ex_conf (fun id => lc_run (before id)) 1%nat) = [TRunning; TRunning] /\
  lc_all (fold_left lc_step [LRemove 1; LAdd 3] (start_life false true ex_conf (fun id => lc_run (before id)) 1%nat)) = [TStopping; TRunning; TRunning].
Proof.
  split; [do 4 eexists; reflexivity|]. split; [|vm_compute; auto].
  exists 0, [(1, ex_root)], 1, ex_root. split; [left; reflexivity|]. split; [left; reflexivity|]. eapply it_below; [left; reflexivity|apply it_self].
Qed.
Print Assumptions C106_running.
Print Assumptions C106_nothing_else.
