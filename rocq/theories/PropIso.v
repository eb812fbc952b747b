(** * Property C123: Map-Servers do not disturb each other, and no answer depends on what was received before *)
From Verif Require Import Base BaseLemmas Afi AfiProofs Spec SpecLemmas SpecEid PropEid Records Control SpecRec RecordsProofs ControlProofs
  Packet PacketProofs PacketStack SpecPkt Auth SpecAuth PropAuth Tree SpecTree TreeProofs PropTree PropTree2
  Dict MapServer SpecMs PropMs PropMs2 Net Ddt Etr Daemon SpecDaemon PropDaemon PropDaemon2.

(** ** Specification *)
(** the event is a cleanup pass of Map-Server node [id], or brings a Map-Register with a record for that node *)
Definition concerns (cfg : instances) (id : nat) (e : event) : Prop :=
  (exists now, e = Cleanup id now) \/
  exists m ar clock i nd, brings e (PCtl (CReg m)) ar clock /\ lands cfg m i nd /\ n_id nd = id.
(** [h'] is [h] without some of the events that do not concern [id] *)
Inductive thinned (cfg : instances) (id : nat) : list event -> list event -> Prop :=
| th_nil : thinned cfg id [] []
| th_keep e h h' : thinned cfg id h h' -> thinned cfg id (e :: h) (e :: h')
| th_drop e h h' : ~ concerns cfg id e -> thinned cfg id h h' -> thinned cfg id (e :: h) h'.
(** keys and "more specifics" settings of the Map-Servers *)
Definition same_settings (a b : dm) : Prop :=
  forall id, ms_key (dm_ms a id) = ms_key (dm_ms b id) /\ ms_more (dm_ms a id) = ms_more (dm_ms b id).
Definition same_etrs (a b : dm) : Prop := forall id, dm_etr a id = dm_etr b id.
Definition by_threads (e : event) : bool := match e with EtrThread _ _ _ => true | _ => false end.

(** ** Two Map-Server states with the same settings *)
Lemma record_pair hm p s1 s2 m i src now s1' m1 o1 s2' m2 o2 : ms_key s1 = ms_key s2 -> ms_more s1 = ms_more s2 ->
  handle_record hm p s1 m i src now = (s1', m1, o1) -> handle_record hm p s2 m i src now = (s2', m2, o2) ->
  m1 = m2 /\ o1 = o2 /\ ms_key s1' = ms_key s1 /\ ms_more s1' = ms_more s1 /\ ms_key s2' = ms_key s2 /\ ms_more s2' = ms_more s2.
Proof.
  unfold handle_record. intros K M H1 H2. rewrite <- K, <- M in H2. destruct (verify hm (AReg m) (ms_key s1)) as [a ok].
  destruct ok as [[|]|]; [|injection H1 as <- <- <-; injection H2 as <- <- <-; repeat split|injection H1 as <- <- <-; injection H2 as <- <- <-; repeat split].
  destruct (nth_error _ _) as [r|]; [|injection H1 as <- <- <-; injection H2 as <- <- <-; repeat split].
  destruct (determine (mr_eid r)) as [[[iid afi] x]|]; [|injection H1 as <- <- <-; injection H2 as <- <- <-; repeat split].
  destruct x; try (injection H1 as <- <- <-; injection H2 as <- <- <-; repeat split; fail).
  destruct (_ || _); [injection H1 as <- <- <-; injection H2 as <- <- <-; repeat split|].
  destruct (_ && _); injection H1 as <- <- <-; injection H2 as <- <- <-; repeat split.
Qed.
Lemma loop_pair hm cfg src clock : forall k i w1 w2 m done key w1' m1 o1 w2' m2 o2, conf_same w1 w2 ->
  reg_loop hm cfg src clock k i w1 m done key = (w1', m1, o1) -> reg_loop hm cfg src clock k i w2 m done key = (w2', m2, o2) ->
  m1 = m2 /\ o1 = o2 /\ conf_same w1' w2' /\ conf_same w1 w1' /\ forall id, w1 id = w2 id -> w1' id = w2' id.
Proof.
  induction k as [|k IH]; intros i w1 w2 m done key w1' m1 o1 w2' m2 o2 C H1 H2; cbn [reg_loop] in H1, H2.
  { injection H1 as <- <- <-. injection H2 as <- <- <-. repeat split; auto; apply C. }
  assert (conf_same w1 w1) as C0 by (intros id; auto).
  destruct (nth_error (g_records m) i) as [r|]; [|injection H1 as <- <- <-; injection H2 as <- <- <-; repeat split; auto; apply C].
  destruct (determine (mr_eid r)) as [[[iid afi] a]|]; [|eapply IH; eassumption].
  destruct (pfx_of a) as [q|]; [|injection H1 as <- <- <-; injection H2 as <- <- <-; repeat split; auto; apply C].
  destruct (g_resolve cfg iid afi q) as [[nd|]|]; [|eapply IH; eassumption|injection H1 as <- <- <-; injection H2 as <- <- <-; repeat split; auto; apply C].
  destruct (n_cls nd); try (eapply IH; eassumption).
  destruct (handle_record hm (n_pfx nd) (w1 (n_id nd)) m i src (clock i)) as [[s1 x1] y1] eqn:E1.
  destruct (handle_record hm (n_pfx nd) (w2 (n_id nd)) m i src (clock i)) as [[s2 x2] y2] eqn:E2.
  destruct (C (n_id nd)) as [K M]. destruct (record_pair _ _ _ _ _ _ _ _ _ _ _ _ _ _ (eq_sym K) (eq_sym M) E1 E2) as (-> & -> & K1 & M1 & K2 & M2).
  assert (conf_same (set_ms w1 (n_id nd) s1) (set_ms w2 (n_id nd) s2)) as C'.
  { intros id. unfold set_ms. destruct (Nat.eqb id (n_id nd)); [split; congruence|apply C]. }
  assert (conf_same w1 (set_ms w1 (n_id nd) s1)) as C1.
  { intros id. unfold set_ms. destruct (Nat.eqb_spec id (n_id nd)) as [->|]; auto. }
  assert (forall id, w1 id = w2 id -> set_ms w1 (n_id nd) s1 id = set_ms w2 (n_id nd) s2 id) as Eq.
  { intros id Hid. unfold set_ms. destruct (Nat.eqb_spec id (n_id nd)) as [->|]; [|exact Hid]. rewrite Hid in E1. congruence. }
  destruct y2 as [|e|e].
  - assert (ms_key s1 = ms_key s2) as Ks by congruence. rewrite Ks in H1.
    destruct (IH _ _ _ _ _ _ _ _ _ _ _ _ C' H1 H2) as (-> & -> & A & B & D). repeat split; auto; try apply A.
    + destruct (B id) as [-> _]. apply C1.
    + destruct (B id) as [_ ->]. apply C1.
  - destruct (IH _ _ _ _ _ _ _ _ _ _ _ _ C' H1 H2) as (-> & -> & A & B & D). repeat split; auto; try apply A.
    + destruct (B id) as [-> _]. apply C1.
    + destruct (B id) as [_ ->]. apply C1.
  - injection H1 as <- <- <-. injection H2 as <- <- <-. repeat split; auto; try apply C'; apply C1.
Qed.
Lemma register_pair hm cfg src clock m w1 w2 w1' m1 o1 w2' m2 o2 : conf_same w1 w2 ->
  handle_map_register hm cfg w1 m src clock = (w1', m1, o1) -> handle_map_register hm cfg w2 m src clock = (w2', m2, o2) ->
  o1 = o2 /\ conf_same w1' w2' /\ conf_same w1 w1' /\ forall id, w1 id = w2 id -> w1' id = w2' id.
Proof.
  intros C H1 H2. unfold handle_map_register in H1, H2.
  destruct (reg_loop hm cfg src clock (length (g_records m)) 0 w1 m [] []) as [[v1 n1] p1] eqn:E1.
  destruct (reg_loop hm cfg src clock (length (g_records m)) 0 w2 m [] []) as [[v2 n2] p2] eqn:E2.
  destruct (loop_pair _ _ _ _ _ _ _ _ _ _ _ _ _ _ _ _ _ C E1 E2) as (-> & -> & A & B & D).
  destruct p2 as [[done key]|e].
  - destruct (_ && _).
    + destruct (insert _ _ _) as [[] []]; injection H1 as <- _ <-; injection H2 as <- _ <-; auto.
    + injection H1 as <- _ <-; injection H2 as <- _ <-; auto.
  - injection H1 as <- _ <-; injection H2 as <- _ <-; auto.
Qed.

(** ** One event *)
Section S.
Variable hm : Z -> bytes -> bytes -> bytes.
Variable cfg : instances.
Variable socks : list (fam * Z).
Notation step := (step hm cfg socks). Notation run := (run hm cfg socks).

Lemma request_ext w1 w2 q dest port : (forall id, w1 id = w2 id) -> handle_map_request cfg w1 socks q dest port = handle_map_request cfg w2 socks q dest port.
Proof.
  intros H. unfold handle_map_request. destruct (q_eids q) as [|eid []]; try reflexivity. destruct (determine eid) as [[[iid afi] a]|]; [|reflexivity].
  destruct (root_of cfg iid afi); [|reflexivity]. destruct (pfx_of a); [|reflexivity]. destruct (resolve_path _ _) as [[|x l]|]; cbn [bind]; try reflexivity.
  destruct (n_cls x); try reflexivity. rewrite H. reflexivity.
Qed.

(** the Map-Servers, whatever the ETRs do *)
Lemma ms_pair a b e : same_settings a b ->
  same_settings (fst (step a e)) (fst (step b e)) /\ same_settings a (fst (step a e)) /\
  forall id, dm_ms a id = dm_ms b id -> dm_ms (fst (step a e)) id = dm_ms (fst (step b e)) id.
Proof.
  intros C. unfold same_settings in *. destruct (step_ms hm cfg socks a e) as [(m & ar & clock & B & ->)|[N ->]].
  - destruct (step_ms hm cfg socks b e) as [(m' & ar' & clock' & B' & E)|[N' _]]; [|destruct (N' _ _ _ B)].
    rewrite E. destruct (brings_fun _ _ _ _ _ _ _ B B') as (E1 & -> & ->). injection E1 as <-.
    destruct (handle_map_register hm cfg (dm_ms a) m (ar_src ar') clock') as [[w1 m1] o1] eqn:H1.
    destruct (handle_map_register hm cfg (dm_ms b) m (ar_src ar') clock') as [[w2 m2] o2] eqn:H2. cbn [fst].
    assert (conf_same (dm_ms a) (dm_ms b)) as C' by (intros id; destruct (C id); auto).
    destruct (register_pair _ _ _ _ _ _ _ _ _ _ _ _ _ C' H1 H2) as (_ & X & Y & Z). split; [|split; [|exact Z]].
    + intros id. destruct (X id); auto.
    + intros id. destruct (Y id); auto.
  - destruct (step_ms hm cfg socks b e) as [(m' & ar' & clock' & B' & _)|[_ E]]; [destruct (N _ _ _ B')|].
    rewrite E. destruct e as [ar d clock|ar d clock|petr d|j now|j x o]; try (split; [exact C|split; [auto|auto]]).
    split; [|split].
    + intros id. unfold set_ms. destruct (Nat.eqb id j); [exact (C j)|exact (C id)].
    + intros id. unfold set_ms. destruct (Nat.eqb_spec id j) as [->|]; auto.
    + intros id Hid. unfold set_ms. destruct (Nat.eqb_spec id j) as [->|]; [rewrite Hid; reflexivity|exact Hid].
Qed.
Lemma settings_refl a : same_settings a a. Proof. intros id. auto. Qed.
Lemma settings_sym a b : same_settings a b -> same_settings b a. Proof. intros H id. destruct (H id). auto. Qed.
Lemma settings_trans a b c : same_settings a b -> same_settings b c -> same_settings a c.
Proof. intros H K id. destruct (H id) as [-> ->]. apply K. Qed.
Lemma step_settings a e : same_settings a (fst (step a e)).
Proof. apply (ms_pair a a e (settings_refl a)). Qed.

(** what is sent *)
Lemma message_out clock ar m inner a b : same_settings a b -> same_etrs a b ->
  snd (handle_message hm cfg socks clock ar m inner a) = snd (handle_message hm cfg socks clock ar m inner b).
Proof.
  intros C E. unfold handle_message. destruct m as [| | | | | | | | | |sec ddt rtr rel rsv p|c]; try reflexivity.
  - destruct inner as [[| | | | | | | | | | |[]]|]; try reflexivity. destruct ddt; reflexivity.
  - destruct c as [q|r|g|n|f|i]; try reflexivity.
    + cbn [snd]. rewrite (request_ext (dm_etr a) (dm_etr b)) by exact E. reflexivity.
    + destruct (handle_map_register hm cfg (dm_ms a) g (ar_src ar) clock) as [[w1 m1] o1] eqn:E1.
      destruct (handle_map_register hm cfg (dm_ms b) g (ar_src ar) clock) as [[w2 m2] o2] eqn:E2.
      assert (conf_same (dm_ms a) (dm_ms b)) as C' by (intros id; destruct (C id); auto).
      destruct (register_pair _ _ _ _ _ _ _ _ _ _ _ _ _ C' E1 E2) as (-> & _). reflexivity.
Qed.
Lemma control_out clock ar m a b : same_settings a b -> same_etrs a b ->
  snd (handle_control_message hm cfg socks clock ar m a) = snd (handle_control_message hm cfg socks clock ar m b).
Proof.
  intros C E. unfold handle_control_message. destruct (received (dm_ctr a) m) as [c1 r1] eqn:E1. destruct (received (dm_ctr b) m) as [c2 r2] eqn:E2.
  assert (r1 = r2) as -> by (unfold received in *; congruence).
  destruct r2; [|reflexivity]. apply message_out; assumption.
Qed.
Lemma step_out a b e : same_settings a b -> same_etrs a b -> snd (step a e) = snd (step b e) /\ same_etrs (fst (step a e)) (fst (step b e)).
Proof.
  intros C E. split.
  - destruct e as [ar d clock|ar d clock|petr d|id now|id x o]; cbn [Daemon.step]; try reflexivity.
    + unfold control_datagram. destruct (pkt_from_bytes KCtl d); [|reflexivity]. apply control_out; assumption.
    + unfold data_datagram. destruct (pkt_from_bytes (KData true) d) as [[| | | | | | | | |h p| |]|]; try reflexivity.
      destruct (match d_iid h with Some i => i =? 16777215 | None => false end); [|reflexivity].
      destruct (get_final_payload p) as [[n [| | | | | | | |s dp ck q| | |]]|]; try reflexivity.
      destruct (dp =? 4342); [|reflexivity]. apply control_out; assumption.
  - intros id. destruct e as [ar d clock|ar d clock|petr d|j now|j x o].
    5: { cbn [Daemon.step fst dm_etr]. destruct (Nat.eqb id j); [|apply E]. reflexivity. }
    1-4: rewrite 2 (fun e N => proj1 (step_etr hm cfg socks _ e id N)) by (intros; discriminate); apply E.
Qed.

(** ** Events that do not concern the node *)
Lemma aside P st e id : good_cfg cfg P -> ~ concerns cfg id e -> dm_ms (fst (step st e)) id = dm_ms st id.
Proof.
  intros G N. destruct (step_ms hm cfg socks st e) as [(m & ar & clock & B & ->)|[_ ->]].
  - destruct (handle_map_register hm cfg (dm_ms st) m (ar_src ar) clock) as [[w' m'] o] eqn:H. cbn [fst]. unfold handle_map_register in H.
    destruct (reg_loop hm cfg (ar_src ar) clock (length (g_records m)) 0 (dm_ms st) m [] []) as [[v n] p] eqn:E.
    destruct (loop_spec hm cfg P (ar_src ar) clock m (dm_ms st) G (brings_obj _ _ _ _ B) (length (g_records m)) 0%nat _ _ _ _ _ _ _ (or_introl eq_refl) (fun _ => conj eq_refl eq_refl) eq_refl E)
      as (_ & _ & (evs & E1 & E2 & _) & _).
    assert (w' = v) as ->.
    { destruct p as [[done key]|]; [|congruence]. destruct (_ && _); [|congruence]. destruct (insert _ _ _) as [[] []]; congruence. }
    rewrite E1. destruct (evs id) as [|ev l] eqn:Ev; [reflexivity|]. exfalso. apply N. right.
    destruct (E2 id ev) as (j & nd & _ & L & I); [rewrite Ev; left; reflexivity|]. exists m, ar, clock, j, nd. auto.
  - destruct e as [ar d clock|ar d clock|petr d|j now|j x o]; try reflexivity. unfold set_ms. destruct (Nat.eqb_spec id j) as [->|]; [|reflexivity].
    exfalso. apply N. left. eauto.
Qed.
Lemma run_fst st e h : fst (run st (e :: h)) = fst (run (fst (step st e)) h).
Proof. cbn [Daemon.run]. destruct (step st e) as [s o]. cbn [fst]. destruct (run s h) as [s' l]. reflexivity. Qed.
Lemma run_snd st e h : snd (run st (e :: h)) = snd (step st e) :: snd (run (fst (step st e)) h).
Proof. cbn [Daemon.run]. destruct (step st e) as [s o]. cbn [fst snd]. destruct (run s h) as [s' l]. reflexivity. Qed.

(** ** C123 *)
(** What a Map-Server holds in the end is unchanged when any events that do not concern it are left out of the history, even
    when the two daemons began with different registrations at every other Map-Server. *)
Theorem C123_isolated P id h h' : good_cfg cfg P -> thinned cfg id h h' -> forall a b, same_settings a b ->
  dm_ms a id = dm_ms b id -> dm_ms (fst (run a h)) id = dm_ms (fst (run b h')) id.
Proof.
  intros G T. induction T as [|e h h' T IH|e h h' N T IH]; intros a b C E.
  - exact E.
  - rewrite !run_fst. destruct (ms_pair a b e C) as (X & _ & Y). apply IH; auto.
  - rewrite run_fst. apply IH; [|rewrite (aside P a e id G N); exact E].
    eapply settings_trans; [apply settings_sym, step_settings|exact C].
Qed.
(** Everything the daemon sends in a history is the same for two daemons with the same settings and the same ETRs, whatever
    registrations they hold, and whatever their Map-Notify counters and outstanding nonces are. *)
Theorem C123_answers : forall h a b, same_settings a b -> same_etrs a b -> snd (run a h) = snd (run b h).
Proof.
  induction h as [|e h IH]; intros a b C E; [reflexivity|]. rewrite !run_snd.
  destruct (step_out a b e C E) as [-> E']. f_equal. apply IH; [apply ms_pair, C|exact E'].
Qed.
Lemma run_settings : forall h a, same_settings a (fst (run a h)).
Proof.
  induction h as [|e h IH]; intros a; [apply settings_refl|]. rewrite run_fst. eapply settings_trans; [apply step_settings|apply IH].
Qed.
Lemma run_etrs : forall h a b, same_etrs a b -> same_etrs (fst (run a h)) (fst (run b (filter by_threads h))).
Proof.
  induction h as [|e h IH]; intros a b E; [exact E|]. rewrite run_fst.
  assert (forall id, (forall x o, e <> EtrThread id x o) -> dm_etr (fst (step a e)) id = dm_etr a id) as K
    by (intros id N; apply (step_etr hm cfg socks a e id N)).
  destruct e as [ar d clock|ar d clock|petr d|j now|j x o]; cbn [filter by_threads].
  5: { rewrite run_fst. apply IH. intros id. cbn [Daemon.step fst dm_etr]. destruct (Nat.eqb id j); [reflexivity|apply E]. }
  1-4: apply IH; intros id; rewrite K by discriminate; apply E.
Qed.
(** The answer to the next event depends on the history only through what the ETRs' own threads did: every datagram received
    before, and every cleanup pass, can be forgotten, added or reordered. *)
Theorem C123_forgetful st h1 h2 e : filter by_threads h1 = filter by_threads h2 ->
  snd (step (fst (run st h1)) e) = snd (step (fst (run st h2)) e).
Proof.
  intros F. apply step_out.
  - eapply settings_trans; [apply settings_sym, run_settings|apply run_settings].
  - intros id. rewrite (run_etrs h1 st st (fun _ => eq_refl) id), (run_etrs h2 st st (fun _ => eq_refl) id), F. reflexivity.
Qed.
End S.

(** ** A concrete case: two Map-Servers, a Map-Register for each *)
Definition other_record := MRec 1440 0 true (repeat false 16) 0 (ANet V4 (11 * 2 ^ 24) 8) [].
Definition other_register :=
  MReg false false true [false] (repeat false 15) (repeat zero_byte 8) 0 [] [other_record] 0 0.
Definition bytes_or_nil (r : res bytes) : bytes := match r with Ok d => d | Err _ => [] end.
Definition ex_mine : event := AtControl there (bytes_or_nil (mreg_to_bytes open_register)) (fun _ => 5).
Definition ex_other : event := AtControl there (bytes_or_nil (mreg_to_bytes other_register)) (fun _ => 6).
Lemma ex_other_aside : ~ concerns two_cfg 7 ex_other.
Proof.
  intros [(now & E)|(m & ar & clock & i & nd & B & L & I)]; [discriminate|].
  assert (brings ex_other (PCtl (CReg other_register)) there (fun _ => 6)) as B' by (apply br_control; vm_compute; reflexivity).
  destruct (brings_fun _ _ _ _ _ _ _ B B') as (E & _ & _). injection E as ->.
  destruct L as (r & iid & afi & a & q & Hn & Hd & Hq & Hg & _). destruct i as [|[|i]]; try discriminate. injection Hn as <-.
  apply eid_named_spec in Hd. vm_compute in Hd. injection Hd as <- <- <-. injection Hq as <-. vm_compute in Hg. injection Hg as <-. discriminate.
Qed.
Example C123_example :
  thinned two_cfg 7 [ex_other; ex_mine; Cleanup 8 9] [ex_mine] /\
  (let a := fst (run toy_hm two_cfg [] start [ex_other; ex_mine]) in
   let b := fst (run toy_hm two_cfg [] start [ex_mine]) in
   registered (dm_ms a 7%nat) p16 (SAddr V4 77) = Some (Reg open_record false (5 + 180 * sec)) /\
   registered (dm_ms b 7%nat) p16 (SAddr V4 77) = Some (Reg open_record false (5 + 180 * sec)) /\
   registered (dm_ms a 8%nat) p11 (SAddr V4 77) = Some (Reg other_record false (6 + 180 * sec)) /\
   registered (dm_ms b 8%nat) p11 (SAddr V4 77) = None) /\
  map (@length _) (snd (run toy_hm two_cfg [] start [ex_other; ex_mine])) = [1; 1]%nat.
Proof.
  split; [|vm_compute; auto 10]. apply th_drop; [exact ex_other_aside|]. apply th_keep. apply th_drop; [|apply th_nil].
  intros [(now & E)|(m & ar & clock & i & nd & B & _)]; [discriminate|inversion B].
Qed.
Print Assumptions C123_isolated.
Print Assumptions C123_answers.
Print Assumptions C123_forgetful.
