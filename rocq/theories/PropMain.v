(** * Properties C94, C95: starting, serving and stopping *)
From Verif Require Import Base BaseLemmas Afi Records Control Auth Tree SpecTree TreeProofs MapServer Net Ddt Etr Packet Daemon Main SpecMain.

(** ** C94 *)
Lemma sockets_are pd l : create_sockets pd l = (map (fun a => (a, 4342)) l, if pd then map (fun a => (a, 4341)) l else []).
Proof. induction l as [|a l IH]; [destruct pd; reflexivity|]. cbn [create_sockets map]. rewrite IH. destruct pd; reflexivity. Qed.
Theorem C94_refuses : forall nfq c w, (exists code, start false nfq (Some c) w = Exit code) <-> unusable nfq c.
Proof.
  intros nfq c w. unfold start, unusable. rewrite sockets_are. destruct c as [l pd petr q4 q6 ins]. cbn [cf_listen cf_process_data cf_petr cf_queue4 cf_queue6 cf_instances].
  destruct pd, petr, q4, q6, nfq, l; cbn; split; intros H;
    try (eexists; reflexivity); try (destruct H as [? H]; discriminate H);
    try (left; reflexivity); try (right; split; [reflexivity|]; first [left; split; [discriminate|first [left; reflexivity|right; reflexivity]]|right; split; [reflexivity|first [left; discriminate|right; discriminate]]]);
    exfalso; destruct H as [H|(H & [(H1 & [H2|H2])|(H1 & [H2|H2])])]; congruence.
Qed.
Theorem C94_exit_codes : forall show nfq s w code, start show nfq s w = Exit code -> code = match s with None => 1 | Some _ => 2 end.
Proof.
  intros show nfq s w code H. unfold start in H. destruct s as [c|]; [|congruence]. destruct show; [congruence|].
  rewrite sockets_are in H.
  match type of H with (if ?b then _ else _) = _ => destruct b; [congruence|] end. match type of H with (if ?b then _ else _) = _ => destruct b; [congruence|] end.
  destruct (cf_listen c); cbn [map] in H; congruence.
Qed.
Lemma in_tree_inv x n : in_tree x n -> x = n \/ exists c, In c (n_ch n) /\ in_tree x c.
Proof. intros H; destruct H; [left; reflexivity|right; eauto]. Qed.
Definition named (j : nat) (n : node) : Prop := exists y, in_tree y n /\ n_id y = j.
Lemma classic_named j n : named j n \/ ~ named j n.
Proof.
  induction n as [i p c ch IH] using node_ind'. destruct (Nat.eq_dec i j) as [->|Ni]; [left; eexists; split; [apply it_self|reflexivity]|].
  assert ((exists c, In c ch /\ named j c) \/ ~ (exists c, In c ch /\ named j c)) as [(d & I & y & T & E)|N].
  { induction ch as [|d ch IHc]; [right; intros (? & [] & _)|]. destruct (IH d (or_introl eq_refl)) as [Y|N]; [left; exists d; split; [left; reflexivity|exact Y]|].
    destruct IHc as [(d' & I & Y)|N']; [intros; apply IH; right; assumption|left; exists d'; split; [right; exact I|exact Y]|].
    right. intros (d' & [->|I] & Y); [exact (N Y)|apply N'; eauto]. }
  - left. exists y. split; [eapply it_below; [exact I|exact T]|exact E].
  - right. intros (y & T & E). destruct (in_tree_inv _ _ T) as [->|(d & I & T')]; [exact (Ni E)|]. apply N. exists d. split; [exact I|]. exists y. auto.
Qed.
(** set_sockets reaches the nodes of the tree, and no others *)
Lemma given_in x l : forall w j, (forall c, In c l -> forall w, (named j c -> set_sockets x c w j = x) /\ (~ named j c -> set_sockets x c w j = w j)) ->
  ((exists c, In c l /\ named j c) \/ w j = x -> fold_left (fun w c => set_sockets x c w) l w j = x) /\
  (~ (exists c, In c l /\ named j c) -> fold_left (fun w c => set_sockets x c w) l w j = w j).
Proof.
  induction l as [|c l IH]; intros w j H; cbn [fold_left].
  - split; [intros [(? & [] & _)|E]; exact E|reflexivity].
  - assert (forall c', In c' l -> forall w, (named j c' -> set_sockets x c' w j = x) /\ (~ named j c' -> set_sockets x c' w j = w j)) as H' by (intros; apply H; right; assumption).
    destruct (IH (set_sockets x c w) j H') as [A N]. destruct (H c (or_introl eq_refl) w) as [A1 N1]. split.
    + intros [(c' & [->|I] & J)|E]; apply A; [right; apply A1, J|left; eauto|].
      destruct (classic_named j c) as [J|J]; right; [apply A1, J|rewrite N1 by exact J; exact E].
    + intros K. rewrite N, N1; [reflexivity| |]; intros J; apply K; [|destruct J as (c' & I & J)]; [exists c; split; [left; reflexivity|exact J]|exists c'; split; [right; exact I|exact J]].
Qed.
Lemma given x n : forall w j, (named j n -> set_sockets x n w j = x) /\ (~ named j n -> set_sockets x n w j = w j).
Proof.
  induction n as [i p c ch IH] using node_ind'. intros w j. cbn [set_sockets].
  destruct (given_in x ch (set_holds w i x) j (fun c I w => IH c I w j)) as [A N]. split.
  - intros (y & T & E). apply A. destruct (in_tree_inv _ _ T) as [->|(d & I & T')].
    + right. cbn in E. unfold set_holds. rewrite E, Nat.eqb_refl. reflexivity.
    + left. exists d. split; [exact I|]. exists y. auto.
  - intros K. rewrite N.
    + unfold set_holds. destruct (Nat.eqb j i) eqn:Ej; [|reflexivity]. apply Nat.eqb_eq in Ej. exfalso. apply K. eexists. split; [apply it_self|symmetry; exact Ej].
    + intros (d & I & y & T & E). apply K. exists y. split; [eapply it_below; [exact I|exact T]|exact E].
Qed.
Lemma fold_given {A} x (f : holds -> A -> holds) (P : A -> Prop) j l : forall w,
  (forall a, P a \/ ~ P a) -> (forall a w, In a l -> (P a -> f w a j = x) /\ (~ P a -> f w a j = w j)) ->
  ((exists a, In a l /\ P a) \/ w j = x -> fold_left f l w j = x) /\ (~ (exists a, In a l /\ P a) -> fold_left f l w j = w j).
Proof.
  induction l as [|c l IH]; intros w D H; cbn [fold_left].
  - split; [intros [(? & [] & _)|E]; exact E|reflexivity].
  - destruct (IH (f w c) D (fun a w I => H a w (or_intror I))) as [A1 N1]. destruct (H c w (or_introl eq_refl)) as [A2 N2]. split.
    + intros [(c' & [->|I] & J)|E]; apply A1; [right; apply A2, J|left; eauto|].
      destruct (D c) as [J|J]; right; [apply A2, J|rewrite N2 by exact J; exact E].
    + intros K. rewrite N1, N2; [reflexivity| |].
      * intros J. apply K. exists c. split; [left; reflexivity|exact J].
      * intros (c' & I & J). apply K. exists c'. split; [right; exact I|exact J].
Qed.
Lemma exists_dec {A} (P : A -> Prop) l : (forall a, P a \/ ~ P a) -> (exists a, In a l /\ P a) \/ ~ (exists a, In a l /\ P a).
Proof.
  intros D. induction l as [|a l IH]; [right; intros (? & [] & _)|]. destruct (D a) as [Y|N]; [left; exists a; split; [left; reflexivity|exact Y]|].
  destruct IH as [(a' & I & Y)|N']; [left; exists a'; split; [right; exact I|exact Y]|]. right. intros (a' & [->|I] & Y); [exact (N Y)|apply N'; eauto].
Qed.
Lemma all_given x c w j : ((exists n, configured_node c n /\ n_id n = j) -> set_all x c w j = x) /\
  (~ (exists n, configured_node c n /\ n_id n = j) -> set_all x c w j = w j).
Proof.
  unfold set_all.
  destruct (fold_given x (fun w (m : Z * list (Z * node)) => fold_left (fun w t => set_sockets x (snd t) w) (snd m) w) (fun m => exists t, In t (snd m) /\ named j (snd t)) j c w) as [A N].
  { intros m. apply exists_dec. intros t. apply classic_named. }
  { intros m w' _. destruct (fold_given x (fun w (t : Z * node) => set_sockets x (snd t) w) (fun t => named j (snd t)) j (snd m) w') as [A N].
    - intros t. apply classic_named.
    - intros t w2 _. apply given.
    - split; [intros K; apply A; left; exact K|exact N]. }
  split.
  - intros (n & (iid & m & afi & t & I1 & I2 & T) & E). apply A. left. exists (iid, m). split; [exact I1|]. exists (afi, t). split; [exact I2|]. exists n. auto.
  - intros K. apply N. intros ((iid & m) & I1 & (afi & t) & I2 & n & T & E). apply K. exists n. split; [exists iid, m, afi, t; auto|exact E].
Qed.
(** a control socket on every address to listen on, a data socket on each as well if data is processed, the configured queues,
    and every node of every tree has these sockets; other nodes are not touched *)
Theorem C94_serves : forall nfq c w ctl data queues w', start false nfq (Some c) w = Serve ctl data queues w' ->
  cf_listen c <> [] /\ ctl = map (fun a => (a, 4342)) (cf_listen c) /\
  data = (if cf_process_data c then map (fun a => (a, 4341)) (cf_listen c) else []) /\
  (forall v q, In (v, q) queues <-> cf_process_data c = true /\ (match v with V4 => cf_queue4 c | V6 => cf_queue6 c end) = Some q) /\
  (forall n, configured_node (cf_instances c) n -> w' (n_id n) = (ctl, data)) /\
  (forall j, (forall n, configured_node (cf_instances c) n -> n_id n <> j) -> w' j = w j).
Proof.
  intros nfq c w ctl data queues w' H. unfold start in H. rewrite sockets_are in H.
  match type of H with (if ?b then _ else _) = _ => destruct b; [discriminate|] end. match type of H with (if ?b then _ else _) = _ => destruct b; [discriminate|] end.
  destruct (cf_listen c) as [|a l] eqn:El; [discriminate|]. cbn [map] in H.
  injection H as <- <- <- <-. split; [discriminate|]. split; [reflexivity|]. split; [destruct (cf_process_data c); reflexivity|]. split; [|split].
  - intros v q. destruct (cf_process_data c); [|split; [intros []|intros [X _]; discriminate]].
    destruct (cf_queue4 c), (cf_queue6 c), v; cbn; split; intros X; intuition (try congruence).
  - intros n N. apply all_given. eauto.
  - intros j N. apply all_given. intros (n & Cn & E). exact (N n Cn E).
Qed.
(** finding: a node added to a container of a running daemon gets no sockets; an ETR node added that way never registers *)
Theorem C94_late_nodes : forall nfq c w ctl data queues w', start false nfq (Some c) w = Serve ctl data queues w' ->
  forall t n t', add t n = (t', Ok tt) -> (forall m, configured_node (cf_instances c) m -> n_id m <> n_id n) -> w' (n_id n) = w (n_id n).
Proof. intros nfq c w ctl data queues w' H t n t' _ F. apply (C94_serves _ _ _ _ _ _ _ H). exact F. Qed.
Definition ex_root : node := Node 0 (Pfx V4 167772160 8) NContainer [Node 1 (Pfx V4 167772160 16) NETR []; Node 2 (Pfx V4 167837696 16) NContainer [Node 3 (Pfx V4 167837696 24) NMapServer []]].
Definition ex_conf : conf := Cf [(V4, 3221225985); (V6, 1)] true (Some (V4, 3221225986)) (Some 4) (Some 6) [(0, [(1, ex_root)])].
Definition ex_late : node := Node 9 (Pfx V4 167968768 16) NETR [].
Theorem C94_refuted : ~ (forall nfq c ctl data queues w', start false nfq (Some c) no_sockets = Serve ctl data queues w' ->
  forall iid afi t n t', root_of (cf_instances c) iid afi = Some t -> add t n = (t', Ok tt) -> w' (n_id n) = (ctl, data)).
Proof.
  intros H. specialize (H true ex_conf _ _ _ _ eq_refl 0 1 ex_root ex_late (fst (add ex_root ex_late)) eq_refl eq_refl).
  vm_compute in H. discriminate.
Qed.
Example C94_example : (exists ctl data queues w, start false true (Some ex_conf) no_sockets = Serve ctl data queues w /\ length ctl = 2%nat /\ length data = 2%nat /\
    length queues = 2%nat /\ w 3%nat = (ctl, data)) /\
  configured_node (cf_instances ex_conf) (Node 3 (Pfx V4 167837696 24) NMapServer []) /\
  unusable false ex_conf /\ ~ unusable true ex_conf.
Proof.
  split; [do 4 eexists; split; [reflexivity|]; vm_compute; auto|]. split.
  - exists 0, [(1, ex_root)], 1, ex_root. split; [left; reflexivity|]. split; [left; reflexivity|].
    eapply it_below; [right; left; reflexivity|]. eapply it_below; [left; reflexivity|]. apply it_self.
  - split; [right; split; [reflexivity|]; right; split; [reflexivity|]; left; discriminate|].
    intros [H|(_ & [(_ & [H|H])|(H & _)])]; discriminate.
Qed.

(** ** C95 *)
Section Loop.
Variable hm : Z -> bytes -> bytes -> bytes.
Variable cfg : instances.
Variable socks : list (fam * Z).
Variable st0 : dm.
Notation run := (run hm cfg socks).
Lemma run_snoc l e : forall st, run st (l ++ [e]) =
  (fst (step hm cfg socks (fst (run st l)) e), snd (run st l) ++ [snd (step hm cfg socks (fst (run st l)) e)]).
Proof.
  induction l as [|x l IH]; intros st; cbn [app Daemon.run].
  - cbn [fst snd app]. destruct (step hm cfg socks st e) as [s o]. reflexivity.
  - destruct (step hm cfg socks st x) as [s o]. rewrite IH. destruct (run s l) as [s' os]. reflexivity.
Qed.
(** where the loop is, in terms of what has arrived *)
Definition at_loop (arr : nat -> list event) (thr : list event) (sgs : list sgn) (s : ml) : Prop :=
  exists trace read,
    run st0 (map snd trace) = (ml_st s, ml_out s) /\
    (forall i, arr i = of_socket i trace ++ grams (ml_q s i)) /\ thr = of_threads trace /\
    sgs = read ++ ml_pipe s /\ (ml_run s = false <-> exists sg, In sg read /\ stops sg) /\ ml_upd s = hups read.
Lemma flat_snoc {A C} (f : A -> list C) l x : flat_map f (l ++ [x]) = flat_map f l ++ f x.
Proof. rewrite flat_map_app. cbn [flat_map]. rewrite app_nil_r. reflexivity. Qed.
Lemma take_at i arr thr sgs s : at_loop arr thr sgs s -> at_loop arr thr sgs (take_one hm cfg socks i s).
Proof.
  intros (tr & rd & R & A & T & S & Z & U). unfold take_one. destruct (ml_q s i) as [|[e|] l] eqn:E.
  - exists tr, rd. auto 8.
  - unfold act. cbn [ml_st ml_q ml_pipe ml_run ml_out ml_upd]. destruct (step hm cfg socks (ml_st s) e) as [st' o] eqn:Es.
    exists (tr ++ [(FromSocket i, e)]), rd. cbn [ml_st ml_q ml_pipe ml_run ml_out ml_upd].
    split; [rewrite map_app; cbn [map snd]; rewrite run_snoc, R; cbn [fst snd]; rewrite Es; reflexivity|].
    split; [|split; [unfold of_threads; rewrite flat_snoc; cbn [fst snd]; rewrite app_nil_r; exact T|auto]].
    intros j. unfold of_socket, set_q. rewrite flat_snoc. cbn [fst snd]. rewrite (Nat.eqb_sym i j). rewrite A. unfold of_socket.
    destruct (Nat.eqb j i) eqn:Ej; [|rewrite app_nil_r; reflexivity]. apply Nat.eqb_eq in Ej. subst j. rewrite E. cbn [grams flat_map app]. rewrite <- app_assoc. reflexivity.
  - exists tr, rd. cbn [ml_st ml_q ml_pipe ml_run ml_out ml_upd]. split; [exact R|]. split; [|auto 8].
    intros j. rewrite A. unfold set_q. destruct (Nat.eqb j i) eqn:Ej; [|reflexivity]. apply Nat.eqb_eq in Ej. subst j. rewrite E. reflexivity.
Qed.
Lemma hups_snoc l x : hups (l ++ [x]) = (hups l + hups [x])%nat.
Proof. induction l as [|[] l IH]; cbn [hups app] in *; rewrite ?IH; reflexivity. Qed.
Lemma fd_at f arr thr sgs s : at_loop arr thr sgs s -> at_loop arr thr sgs (fst (handle_fd hm cfg socks f s)).
Proof.
  intros H. destruct f as [i|i|upd]; cbn [handle_fd fst].
  - apply take_at, H.
  - do 5 apply take_at. exact H.
  - destruct H as (tr & rd & R & A & T & S & Z & U). destruct (ml_pipe s) as [|sg l] eqn:E; [cbn [fst]; exists tr, rd; rewrite E; auto 8|].
    exists tr, (rd ++ [sg]).
    assert (sgs = (rd ++ [sg]) ++ l) as S' by (rewrite S, <- app_assoc; reflexivity).
    assert ((exists x, In x (rd ++ [sg]) /\ stops x) <-> (exists x, In x rd /\ stops x) \/ stops sg) as Q.
    { split; [intros (x & I & P); apply in_app_or in I; destruct I as [I|[->|[]]]; [left; eauto|right; exact P]|].
      intros [(x & I & P)|P]; [exists x|exists sg]; (split; [apply in_or_app|exact P]); [left; exact I|right; left; reflexivity]. }
    rewrite Q, hups_snoc, <- U, <- Z. destruct sg; cbn [fst ml_st ml_q ml_pipe ml_run ml_out ml_upd hups].
    + split; [exact R|]. split; [exact A|]. split; [exact T|]. split; [exact S'|]. split; [|lia]. split; [auto|]. intros [X|X]; [exact X|inversion X].
    + split; [exact R|]. split; [exact A|]. split; [exact T|]. split; [exact S'|]. split; [|lia]. split; [intros _; right; constructor|reflexivity].
    + split; [exact R|]. split; [exact A|]. split; [exact T|]. split; [exact S'|]. split; [|lia]. split; [intros _; right; constructor|reflexivity].
Qed.
Lemma ready_at l arr thr sgs : forall s, at_loop arr thr sgs s -> at_loop arr thr sgs (ready hm cfg socks l s).
Proof.
  induction l as [|f l IH]; intros s H; [exact H|]. cbn [ready]. pose proof (fd_at f _ _ _ _ H) as H1.
  destruct (handle_fd hm cfg socks f s) as [s' [[]|e]]; cbn [fst] in H1; [apply IH, H1|exact H1].
Qed.
Lemma serve_at h : at_loop (fun i => arrived i h) (by_threads h) (signals h) (serve hm cfg socks st0 h).
Proof.
  induction h as [|w h IH] using rev_ind.
  - exists [], []. repeat split; try reflexivity; [discriminate|]. intros (? & [] & _).
  - unfold serve in *. rewrite fold_left_app. cbn [fold_left]. set (s := fold_left (turn hm cfg socks) h (Ml st0 (fun _ => []) [] true [] 0)) in *. clearbody s.
    assert (forall i, arrived i (h ++ [w]) = arrived i h ++ match w with WArrive j (Gram e) => if Nat.eqb j i then [e] else [] | _ => [] end) as EA by (intros; unfold arrived; apply flat_snoc).
    assert (by_threads (h ++ [w]) = by_threads h ++ match w with WThread e => [e] | _ => [] end) as ET by (unfold by_threads; apply flat_snoc).
    assert (signals (h ++ [w]) = signals h ++ match w with WSignal x => [x] | _ => [] end) as ES by (unfold signals; apply flat_snoc).
    destruct w as [i x|sg|l|e]; cbn [turn].
    + destruct IH as (tr & rd & R & A & T & S & Z & U). exists tr, rd. cbn [ml_st ml_q ml_pipe ml_run ml_out ml_upd]. split; [exact R|].
      rewrite ET, ES, !app_nil_r. split; [|auto 8]. intros j. rewrite EA, A, <- app_assoc. f_equal. unfold set_q, grams. rewrite (Nat.eqb_sym i j).
      destruct (Nat.eqb j i) eqn:Ej; [|destruct x; apply app_nil_r]. apply Nat.eqb_eq in Ej. subst j. rewrite flat_snoc. reflexivity.
    + destruct IH as (tr & rd & R & A & T & S & Z & U). exists tr, rd. cbn [ml_st ml_q ml_pipe ml_run ml_out ml_upd]. split; [exact R|].
      rewrite ET, ES, app_nil_r. split; [intros j; rewrite EA, app_nil_r; apply A|]. split; [exact T|]. split; [rewrite S, <- app_assoc; reflexivity|auto].
    + assert (at_loop (fun i => arrived i (h ++ [WSelect l])) (by_threads (h ++ [WSelect l])) (signals (h ++ [WSelect l])) s) as K.
      { destruct IH as (tr & rd & R & A & T & S & Z & U). exists tr, rd. rewrite ET, ES, !app_nil_r. split; [exact R|]. split; [|auto 8].
        intros j. rewrite EA, app_nil_r. apply A. }
      destruct (ml_run s); [|exact K]. destruct l as [l|]; [|exact K]. apply ready_at, K.
    + destruct IH as (tr & rd & R & A & T & S & Z & U). unfold act. destruct (step hm cfg socks (ml_st s) e) as [st' o] eqn:Es.
      exists (tr ++ [(FromThread, e)]), rd. cbn [ml_st ml_q ml_pipe ml_run ml_out ml_upd].
      split; [rewrite map_app; cbn [map snd]; rewrite run_snoc, R; cbn [fst snd]; rewrite Es; reflexivity|].
      rewrite ET, ES, app_nil_r. split.
      { intros j. rewrite EA, app_nil_r, A. unfold of_socket. rewrite flat_snoc. cbn [fst]. rewrite app_nil_r. reflexivity. }
      split; [unfold of_threads in *; rewrite flat_snoc, <- T; reflexivity|auto].
Qed.
(** C95: whatever arrives, fails or interrupts: what the daemon has done is the outcome of handling one after the other,
    events that arrived (every socket's in the order of arrival, none twice, none left out but those still queued) and what
    its threads did; it has stopped exactly if it has read a SIGINT or SIGTERM, and has updated its addresses once per SIGHUP
    read; signals are read in the order they came *)
Theorem C95_every_event_once : forall h,
  let s := serve hm cfg socks st0 h in
  exists (trace : list (origin * event)) (read : list sgn),
    run st0 (map snd trace) = (ml_st s, ml_out s) /\
    (forall i, arrived i h = of_socket i trace ++ grams (ml_q s i)) /\
    by_threads h = of_threads trace /\
    signals h = read ++ ml_pipe s /\
    (ml_run s = false <-> exists sg, In sg read /\ stops sg) /\
    ml_upd s = hups read.
Proof. intros h. exact (serve_at h). Qed.
Lemma take_q i s j : ml_q (take_one hm cfg socks i s) j = (if Nat.eqb i j then skipn 1 (ml_q s j) else ml_q s j) /\ ml_pipe (take_one hm cfg socks i s) = ml_pipe s.
Proof.
  unfold take_one. rewrite (Nat.eqb_sym i j). destruct (ml_q s i) as [|[e|] l] eqn:E.
  - split; [|reflexivity]. destruct (Nat.eqb j i) eqn:Ej; [|reflexivity]. apply Nat.eqb_eq in Ej. subst. rewrite E. reflexivity.
  - unfold act. cbn [ml_st ml_q ml_pipe ml_run ml_out ml_upd]. destruct (step hm cfg socks (ml_st s) e) as [st' o]. cbn [ml_q ml_pipe]. split; [|reflexivity].
    unfold set_q. destruct (Nat.eqb j i) eqn:Ej; [|reflexivity]. apply Nat.eqb_eq in Ej. subst. rewrite E. reflexivity.
  - cbn [ml_q ml_pipe]. split; [|reflexivity]. unfold set_q. destruct (Nat.eqb j i) eqn:Ej; [|reflexivity]. apply Nat.eqb_eq in Ej. subst. rewrite E. reflexivity.
Qed.
Lemma skipn_plus {A} a b (l : list A) : skipn a (skipn b l) = skipn (b + a) l.
Proof. revert l. induction b as [|b IH]; intros l; [reflexivity|]. destruct l; [cbn [Nat.add]; rewrite !skipn_nil; reflexivity|]. apply IH. Qed.
Lemma iter_q i j n s : ml_q (Nat.iter n (take_one hm cfg socks i) s) j = (if Nat.eqb i j then skipn n (ml_q s j) else ml_q s j) /\
  ml_pipe (Nat.iter n (take_one hm cfg socks i) s) = ml_pipe s.
Proof.
  induction n as [|n [IH IH']]; [cbn; destruct (Nat.eqb i j); auto|]. cbn [Nat.iter nat_rect].
  destruct (take_q i (Nat.iter n (take_one hm cfg socks i) s) j) as [E E']. unfold Nat.iter in *. rewrite E, E', IH, IH'. split; [|reflexivity].
  destruct (Nat.eqb i j); [|reflexivity]. rewrite skipn_plus. f_equal. lia.
Qed.
(** in a round everything select() reported is served: one datagram per socket, up to five packets per NFQUEUE, one signal;
    unless updating the addresses after a SIGHUP fails, which leaves the rest of the list to the next round *)
Theorem C95_round : forall l s, exists l1 l2, l = l1 ++ l2 /\
  (forall i, ml_q (ready hm cfg socks l s) i = skipn (taken i l1) (ml_q s i)) /\ ml_pipe (ready hm cfg socks l s) = skipn (pipes l1) (ml_pipe s) /\
  (l2 = [] \/ exists l0 e, l1 = l0 ++ [FPipe (Err e)]).
Proof.
  induction l as [|f l IH]; intros s.
  - exists [], []. cbn. auto.
  - cbn [ready]. destruct (handle_fd hm cfg socks f s) as [s' [[]|e]] eqn:E.
    + destruct (IH s') as (l1 & l2 & -> & Q & P & D). exists (f :: l1), l2. split; [reflexivity|]. split; [|split].
      * intros i. rewrite Q. destruct f as [j|j|u]; cbn [handle_fd] in E; cbn [taken].
        -- injection E as <-. rewrite (proj1 (take_q j s i)). destruct (Nat.eqb j i); [apply skipn_plus|reflexivity].
        -- injection E as <-. pose proof (proj1 (iter_q j i 5 s)) as X. unfold Nat.iter in X. cbn [nat_rect] in X. unfold Nat.iter. cbn [nat_rect]. rewrite X. destruct (Nat.eqb j i); [apply skipn_plus|reflexivity].
        -- destruct (ml_pipe s) as [|[] r]; injection E as <-; reflexivity.
      * rewrite P. destruct f as [j|j|u]; cbn [handle_fd] in E; cbn [pipes].
        -- injection E as <-. rewrite (proj2 (take_q j s 0)). reflexivity.
        -- injection E as <-. pose proof (proj2 (iter_q j 0 5 s)) as X. unfold Nat.iter in *. cbn [nat_rect] in *. rewrite X. reflexivity.
        -- destruct (ml_pipe s) as [|[] r] eqn:Ep; injection E as <-; cbn [ml_pipe]; rewrite ?Ep; rewrite ?skipn_nil; reflexivity.
      * destruct D as [->|(l0 & e & ->)]; [left; reflexivity|right; exists (f :: l0), e; reflexivity].
    + destruct f as [j|j|u]; cbn [handle_fd] in E; try discriminate. exists [FPipe u], l. split; [reflexivity|]. cbn [taken pipes].
      destruct (ml_pipe s) as [|[] r] eqn:Ep; try discriminate. injection E as <- ->. cbn [ml_q ml_pipe]. split; [reflexivity|]. split; [reflexivity|]. right. exists [], e. reflexivity.
Qed.
(** once it has stopped, it takes nothing more *)
Theorem C95_stopped : forall h l, ml_run (serve hm cfg socks st0 h) = false ->
  serve hm cfg socks st0 (h ++ [WSelect l]) = serve hm cfg socks st0 h.
Proof. intros h l H. unfold serve in *. rewrite fold_left_app. cbn [fold_left turn]. rewrite H. reflexivity. Qed.
End Loop.
(** example: two datagrams, one of them rubbish, a failed select and an interrupted one, a SIGHUP during which an interface is
    gone, and a SIGTERM: the second datagram is handled after all *)
Definition ex_ar : arrival := Arr (V4, 3232235777) 4342 (V4, 3232235778).
Definition ex_world : list world :=
  [WArrive 0 (Gram (AtControl ex_ar (B [1; 2; 3]) (fun _ => 0))); WSignal SIGHUP; WArrive 1 (Gram (Queued (Some (V4, 1)) (B [69; 0]))); WSelect None;
   WSelect (Some [FSock 0; FPipe (Err EValue); FQueue 1]); WSignal SIGTERM; WSelect (Some [FQueue 1; FPipe (Ok tt)])].
Example C95_example : forall hm st, let s := serve hm (cf_instances ex_conf) [] st ex_world in
  ml_run s = false /\ length (ml_out s) = 2%nat /\ ml_pipe s = [] /\ ml_upd s = 1%nat /\ grams (ml_q s 1) = [].
Proof. intros hm st. vm_compute. auto. Qed.
Print Assumptions C94_refuses.
Print Assumptions C94_exit_codes.
Print Assumptions C94_serves.
Print Assumptions C94_late_nodes.
Print Assumptions C94_refuted.
Print Assumptions C95_every_event_once.
Print Assumptions C95_round.
Print Assumptions C95_stopped.
