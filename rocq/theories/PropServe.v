(** * Property C111: what a running daemon sends and knows comes from what arrived *)
From Verif Require Import Base BaseLemmas Afi Spec SpecEid Records Control SpecRec Auth SpecAuth PropAuth Tree SpecTree TreeProofs PropTree PropTree2 MapServer SpecMs PropMs PropMs2 Net SpecNet PropNet Ddt Etr Packet SpecPkt PacketProofs
  PropDdt PropDdt2 Daemon SpecDaemon PropDaemon PropDaemon2 PropDaemon3 Main SpecMain PropMain.

(** [effect e o]: sending [o] is what event [e] calls for: the answer to the control message it brings, the inner packet of a data packet
    to its own destination, or an outgoing packet to the proxy ETR *)
Inductive effect : event -> output -> Prop :=
| ef_answer e m ar clock o : brings e m ar clock -> answers ar m o -> effect e o
| ef_forward ar d clock p v a data : ~ control_instance d -> ip_payload_is true (skipn 8 d) p -> dst_of (skipn 8 d) p v a ->
    pkt_to_bytes p = Ok data -> effect (AtData ar d clock) (ORaw v a data)
| ef_encap x d : ip_packet d -> effect (Queued (Some x) d) (OMsg (PData no_flags (PRaw d)) VData [AIP (fst x) (snd x)] 4341).
(** at most one thing is sent for an event *)
Inductive sent_for : event -> list output -> Prop :=
| sf_nothing e : sent_for e []
| sf_one e o : effect e o -> sent_for e [o].

Section Serve.
Variable hm : Z -> bytes -> bytes -> bytes.
Variable cfg : instances.
Variable socks : list (fam * Z).
Lemma step_sent st e : sent_for e (snd (step hm cfg socks st e)).
Proof.
  destruct e as [ar d clock|ar d clock|petr d|id now|id x o]; cbn [step].
  - destruct (control_datagram hm cfg socks clock ar d st) as [st' outs] eqn:E. cbn [snd]. apply C73_control_datagram in E.
    destruct E as ([->|(m & o & Em & -> & A)] & _); constructor. econstructor; [constructor; exact Em|exact A].
  - destruct (data_datagram hm cfg socks clock ar d st) as [st' outs] eqn:E. cbn [snd].
    destruct (C73_data_datagram hm cfg socks _ _ _ _ _ _ E) as [(_ & [->|(v & a & data & ->)])|(m & Bm & _ & [->|(o & -> & A)])]; constructor.
    + destruct (C76_where_to hm cfg socks _ _ _ _ _ _ _ _ _ E (or_introl eq_refl)) as (N & p & P1 & P2 & P3). eapply ef_forward; eauto.
    + eapply ef_answer; eauto.
  - cbn [snd]. destruct (encapsulated petr d) as (data & _ & _ & Q1 & Q2). destruct petr as [x|]; [|rewrite Q2 by (left; reflexivity); constructor].
    assert (ip_packet d \/ ~ ip_packet d) as [I|I].
    { unfold ip_packet. destruct (Z.eq_dec (field 0 4 d) 4) as [E|E].
      - destruct (is_ok (pkt_from_bytes (KIPv4 false) d)) eqn:K; [left; left; auto|right]. intros [[_ X]|[X _]]; [congruence|rewrite E in X; discriminate].
      - destruct (Z.eq_dec (field 0 4 d) 6) as [E'|E']; [|right; intros [[X _]|[X _]]; congruence].
        destruct (is_ok (pkt_from_bytes (KIPv6 false) d)) eqn:K; [left; right; auto|right]. intros [[X _]|[_ X]]; congruence. }
    + rewrite (Q1 x eq_refl I). constructor. constructor. exact I.
    + rewrite Q2 by (right; exact I). constructor.
  - constructor.
  - constructor.
Qed.
Lemma run_sent h : forall st, Forall2 sent_for h (snd (run hm cfg socks st h)).
Proof.
  induction h as [|e h IH]; intros st; cbn [run]; [constructor|]. pose proof (step_sent st e) as H. destruct (step hm cfg socks st e) as [st1 o].
  specialize (IH st1). destruct (run hm cfg socks st1 h) as [st2 l]. cbn [snd] in *. constructor; assumption.
Qed.
(** C111: whatever arrives, fails, interrupts and is signalled, in whatever order select() reports it: what the daemon has handled are the
    events that arrived on its sockets (in the order of arrival per socket) and what its threads did, each once; for each it sent
    nothing or the one thing it calls for; and the registrations it has are those these events leave in force *)
Theorem C111_whole_run : forall P keys mores st0 h, good_cfg cfg P -> fresh_ms keys mores st0 ->
  let s := serve hm cfg socks st0 h in
  exists trace : list (origin * event),
    (forall i, arrived i h = of_socket i trace ++ grams (ml_q s i)) /\ by_threads h = of_threads trace /\
    Forall2 sent_for (map snd trace) (ml_out s) /\
    forall id q so rg, registered (dm_ms (ml_st s) id) q so = Some rg <-> d_in_force hm cfg keys mores (map snd trace) id q so rg.
Proof.
  intros P keys mores st0 h G F s. destruct (C95_every_event_once hm cfg socks st0 h) as (trace & read & R & A & T & _). fold s in R, A.
  exists trace. split; [exact A|]. split; [exact T|]. split.
  - pose proof (run_sent (map snd trace) st0) as S. rewrite R in S. exact S.
  - intros id q so rg. pose proof (C74_registered_iff_in_force hm cfg socks P keys mores st0 (map snd trace) id q so rg G F) as K. rewrite R in K. exact K.
Qed.
Lemma trace_in (trace : list (origin * event)) e : In e (map snd trace) -> (exists i, In e (of_socket i trace)) \/ In e (of_threads trace).
Proof.
  induction trace as [|[[i|] x] trace IH]; cbn [map snd]; [intros []| |]; intros [->|I].
  - left. exists i. unfold of_socket. cbn [flat_map fst snd]. rewrite Nat.eqb_refl. left. reflexivity.
  - destruct (IH I) as [[j H]|H]; [left; exists j|right; exact H]. unfold of_socket in *. cbn [flat_map]. apply in_or_app. right. exact H.
  - right. left. reflexivity.
  - destruct (IH I) as [[j H]|H]; [left; exists j|right; right; exact H]. unfold of_socket in *. cbn [flat_map fst app]. exact H.
Qed.
(** the inputs of a world: what arrived somewhere or a thread did *)
Definition happened (e : event) (h : list world) : Prop := (exists i, In e (arrived i h)) \/ In e (by_threads h).
(** the daemon never sends anything that nothing called for, and never has a registration no Map-Register it received made *)
Theorem C111_nothing_made_up : forall P keys mores st0 h, good_cfg cfg P -> fresh_ms keys mores st0 ->
  let s := serve hm cfg socks st0 h in
  (forall o, In o (concat (ml_out s)) -> exists e, happened e h /\ effect e o) /\
  (forall id q so rg, registered (dm_ms (ml_st s) id) q so = Some rg -> exists e, happened e h /\ SpecDaemon.registers hm cfg keys mores e id q so rg).
Proof.
  intros P keys mores st0 h G F s. destruct (C111_whole_run P keys mores st0 h G F) as (trace & A & T & S & R). fold s in A, S, R.
  assert (forall e, In e (map snd trace) -> happened e h) as K.
  { intros e I. destruct (trace_in _ _ I) as [[i J]|J]; [left; exists i; rewrite A; apply in_or_app; left; exact J|right; rewrite T; exact J]. }
  split.
  - clear -S K. intros o. remember (map snd trace) as l eqn:El. clear El. induction S as [|e outs l ls H S IH]; [intros []|]. cbn [concat]. intros I.
    apply in_app_or in I. destruct I as [I|I]; [|apply IH; [intros; apply K; right; assumption|exact I]].
    destruct H as [|e o' H]; [destruct I|]. destruct I as [<-|[]]. exists e. split; [apply K; left; reflexivity|exact H].
  - intros id q so rg X. apply R in X. destruct X as (h1 & e & h2 & E & X & _). exists e. split; [|exact X]. apply K. rewrite E. apply in_elt.
Qed.
Lemma split_at i (trace : list (origin * event)) : forall a1 e a2, of_socket i trace = a1 ++ e :: a2 ->
  exists t1 t2, trace = t1 ++ (FromSocket i, e) :: t2 /\ of_socket i t2 = a2.
Proof.
  induction trace as [|[[j|] x] trace IH]; intros a1 e a2 H; unfold of_socket in *; cbn [flat_map fst snd] in H.
  - destruct a1; discriminate H.
  - destruct (Nat.eqb j i) eqn:E.
    + destruct a1 as [|y a1]; cbn [app] in H; injection H as <- H.
      * apply Nat.eqb_eq in E. subst j. exists [], trace. auto.
      * destruct (IH a1 e a2 H) as (t1 & t2 & -> & K). exists ((FromSocket j, x) :: t1), t2. auto.
    + destruct (IH a1 e a2 H) as (t1 & t2 & -> & K). exists ((FromSocket j, x) :: t1), t2. auto.
  - destruct (IH a1 e a2 H) as (t1 & t2 & -> & K). exists ((FromThread, x) :: t1), t2. auto.
Qed.
(** cleanup passes are made by threads, they do not arrive *)
Definition real_arrivals (h : list world) : Prop := forall j id t, ~ In (Cleanup id t) (arrived j h).
(** the events that may come after [e] if [e] was followed by [a2] on its socket: those, what came on other sockets, and the threads *)
Definition maybe_after (i : nat) (a2 : list event) (h : list world) (e : event) : Prop :=
  In e a2 \/ (exists j, j <> i /\ In e (arrived j h)) \/ In e (by_threads h).
(** a Map-Register that has been taken from its socket counts: if it registers [q] then [q] is registered, by it or by a later one,
    as long as no cleanup pass is later than the deadline of one of these *)
Theorem C111_not_lost : forall P keys mores st0 h i a1 e a2 id q so rg, good_cfg cfg P -> fresh_ms keys mores st0 -> real_arrivals h ->
  let s := serve hm cfg socks st0 h in
  arrived i h = a1 ++ e :: a2 -> ml_q s i = [] -> SpecDaemon.registers hm cfg keys mores e id q so rg ->
  (forall e' rg' t, e' = e \/ maybe_after i a2 h e' -> SpecDaemon.registers hm cfg keys mores e' id q so rg' -> In (Cleanup id t) (by_threads h) -> t <= rg_deadline rg') ->
  exists rg', registered (dm_ms (ml_st s) id) q so = Some rg'.
Proof.
  intros P keys mores st0 h i a1 e a2 id q so rg G F RA s I Q X C. destruct (C111_whole_run P keys mores st0 h G F) as (trace & A & T & _ & R). fold s in A, R.
  pose proof (A i) as Ai. rewrite Q, I in Ai. cbn [grams flat_map] in Ai. rewrite app_nil_r in Ai.
  destruct (split_at i trace a1 e a2 (eq_sym Ai)) as (t1 & t2 & Et & E2).
  assert (forall e', In e' (map snd t2) -> maybe_after i a2 h e') as K.
  { intros e' I'. destruct (trace_in _ _ I') as [[j J]|J].
    - destruct (Nat.eq_dec j i) as [->|N]; [left; rewrite <- E2; exact J|right; left; exists j; split; [exact N|]]. rewrite A, Et. apply in_or_app. left. unfold of_socket in *. rewrite flat_map_app. apply in_or_app. right. cbn [flat_map]. apply in_or_app. right. exact J.
    - right. right. rewrite T, Et. unfold of_threads in *. rewrite flat_map_app. apply in_or_app. right. exact J. }
  assert (forall t, In (Cleanup id t) (map snd t2) -> In (Cleanup id t) (by_threads h)) as C'.
  { intros t It. destruct (K _ It) as [J|[(j & _ & J)|J]]; [exfalso|exfalso; exact (RA _ _ _ J)|exact J]. apply (RA i id t). rewrite I. apply in_or_app. right. right. exact J. }
  destruct (registered (dm_ms (ml_st s) id) q so) as [rg'|] eqn:E; [eauto|exfalso].
  assert (forall n h1 e1 h2 rg1, length h2 = n -> map snd trace = h1 ++ e1 :: h2 -> (forall x, In x h2 -> In x (map snd t2)) -> e1 = e \/ maybe_after i a2 h e1 ->
    SpecDaemon.registers hm cfg keys mores e1 id q so rg1 -> False) as L.
  { induction n as [n IH] using lt_wf_ind. intros h1 e1 h2 rg1 Ln Em Sub M X1. assert (registered (dm_ms (ml_st s) id) q so = Some rg1) as Y; [|congruence].
    apply R. exists h1, e1, h2. split; [exact Em|]. split; [exact X1|]. split.
    - intros e2 rg2 I2 X2. pose proof (K _ (Sub _ I2)) as M2. apply in_split in I2. destruct I2 as (h3 & h4 & ->). eapply (IH (length h4)) with (h1 := h1 ++ e1 :: h3); [|reflexivity| | |right; exact M2|exact X2].
      + rewrite <- Ln, app_length. cbn [length]. lia.
      + rewrite Em, <- app_assoc. reflexivity.
      + intros x Ix. apply Sub. apply in_or_app. right. right. exact Ix.
    - intros t It. apply (C e1 rg1 t M X1). apply C', Sub, It. }
  apply (L _ (map snd t1) e (map snd t2) rg eq_refl); [rewrite Et, map_app; reflexivity|auto|auto|exact X].
Qed.
End Serve.
(** example: a Map-Register and rubbish arrive on two sockets, select() fails, reports them in the wrong order, and a SIGTERM comes; a cleanup pass
    is made in between *)
Definition ex_reg : bytes := match mreg_to_bytes open_register with Ok d => d | Err _ => [] end.
Definition ex_run : list world :=
  [WArrive 0 (Gram (AtControl there ex_reg (fun _ => 5))); WArrive 1 (Gram (AtControl there (B [1; 2; 3]) (fun _ => 6))); WSelect None;
   WSelect (Some [FSock 1]); WSelect (Some [FSock 0]); WThread (Cleanup 7 100); WSignal SIGTERM; WSelect (Some [FPipe (Ok tt)])].
Example C111_example : good_cfg ms_cfg (fun id => if Nat.eqb id 7 then p8 else Pfx V4 0 0) /\ fresh_ms (fun _ => B [1;2]) (fun _ => true) PropDaemon2.start /\ real_arrivals ex_run /\
  (let s := serve toy_hm ms_cfg [] PropDaemon2.start ex_run in
   registered (dm_ms (ml_st s) 7%nat) p16 (SAddr V4 77) = Some (Reg open_record false (5 + 180 * sec)) /\ map (@length _) (ml_out s) = [0; 1; 0]%nat /\ ml_run s = false /\ ml_q s 0 = []).
Proof.
  split; [exact ms_cfg_good|]. split; [reflexivity|]. split.
  - intros j id t I. unfold arrived, ex_run in I. cbn [flat_map] in I. destruct (Nat.eqb 0 j), (Nat.eqb 1 j); cbn in I; intuition discriminate.
  - vm_compute. auto.
Qed.
Print Assumptions C111_whole_run.
Print Assumptions C111_nothing_made_up.
Print Assumptions C111_not_lost.
