(** * Property C138: a datagram that arrives twice counts once *)
From Verif Require Import Base BaseLemmas Afi AfiProofs Spec SpecEid PropEid Records Control SpecRec PropControl Packet SpecPkt PropPacket PropUdp PropPacket2 PropPacket3
  Auth SpecAuth PropAuth Tree SpecTree TreeProofs PropTree PropTree2 Dict MapServer SpecMs PropMs PropMs2 Net Ddt SpecDdt PropDdt2 Etr SpecEtr PropEtr PropEtr2
  Daemon SpecDaemon PropDaemon PropDaemon2 Exchange SpecExch PropExch SpecRoute PropRoute PropIso SpecTwice.

Lemma again_brings e c e' c' m ar k : again e c e' c' -> brings e m ar k -> k = c /\ brings e' m ar c'.
Proof. intros A B. destruct A; inversion B; subst; (split; [reflexivity|]); econstructor; eassumption. Qed.
Lemma again_sym e c e' c' : again e c e' c' -> again e' c' e c.
Proof. intros []; constructor. Qed.
Lemma good_again hm cfg keys mores m src c c' i id q so rg : good_record hm cfg keys mores m src c i id q so rg ->
  rg_deadline rg = c i + 180 * sec /\ good_record hm cfg keys mores m src c' i id q so (Reg (rg_record rg) (rg_proxy rg) (c' i + 180 * sec)).
Proof.
  intros (nd & L & Ei & Nb & r & r' & A1 & A2 & A3 & A4 & A5 & A6 & A7 & ->). split; [reflexivity|].
  exists nd. split; [exact L|]. split; [exact Ei|]. split; [exact Nb|]. exists r, r'. repeat (split; [assumption|]). reflexivity.
Qed.
Lemma registers_again hm cfg keys mores e c e' c' id q so rg : again e c e' c' -> registers hm cfg keys mores e id q so rg ->
  exists i, rg_deadline rg = c i + 180 * sec /\ registers hm cfg keys mores e' id q so (Reg (rg_record rg) (rg_proxy rg) (c' i + 180 * sec)).
Proof.
  intros A (m & ar & k & i & B & G & L). destruct (again_brings _ _ _ _ _ _ _ A B) as [-> B'].
  destruct (good_again _ _ _ _ _ _ _ c' _ _ _ _ _ G) as [D G']. exists i. split; [exact D|]. exists m, ar, c', i. split; [exact B'|]. split; [exact G'|].
  intros i' rg' Hi Hg. apply (L i' (Reg (rg_record rg') (rg_proxy rg') (c i' + 180 * sec)) Hi). apply (good_again _ _ _ _ _ _ _ c _ _ _ _ _ Hg).
Qed.
Lemma not_cleanup e c e' c' id t : again e c e' c' -> e' <> Cleanup id t.
Proof. intros []; discriminate. Qed.

(** Whatever is registered anywhere is the same after the second arrival as before it, for as long or longer. *)
Theorem C138_registrations : forall hm cfg socks P keys mores st h e c between e' c' id q so,
  good_cfg cfg P -> fresh_ms keys mores st -> again e c e' c' -> (forall i, c i <= c' i) -> quiet hm cfg keys mores id q so c between ->
  kept (registered (dm_ms (fst (run hm cfg socks st (h ++ e :: between))) id) q so)
       (registered (dm_ms (fst (run hm cfg socks st ((h ++ e :: between) ++ [e']))) id) q so).
Proof.
  intros hm cfg socks P keys mores st h e c between e' c' id q so G F A Hc [Q1 Q2].
  pose proof (fun l rg => C74_registered_iff_in_force hm cfg socks P keys mores st l id q so rg G F) as I.
  remember (h ++ e :: between) as H eqn:EH.
  destruct (registered (dm_ms (fst (run hm cfg socks st (H ++ [e']))) id) q so) as [rg'|] eqn:R'.
  - pose proof R' as X. apply I in X. destruct X as (h1 & x & h2 & E & Rx & N & C).
    destruct h2 as [|y h2] using rev_ind; [|clear IHh2].
    + apply app_inj_tail in E. destruct E as [_ <-]. destruct (registers_again _ _ _ _ _ _ _ c _ _ _ _ (again_sym _ _ _ _ A) Rx) as (i & D & Re).
      assert (registered (dm_ms (fst (run hm cfg socks st H)) id) q so = Some (Reg (rg_record rg') (rg_proxy rg') (c i + 180 * sec))) as ->.
      { apply I. exists h, e, between. split; [exact EH|]. split; [exact Re|]. split; [intros z rz Hz; apply Q1, Hz|]. intros t Ht. cbn [rg_deadline]. apply Q2, Ht. }
      cbn [kept rg_record rg_proxy rg_deadline]. split; [reflexivity|]. split; [reflexivity|]. rewrite D. specialize (Hc i). lia.
    + rewrite app_comm_cons, app_assoc in E. apply app_inj_tail in E. destruct E as [E ->].
      assert (registered (dm_ms (fst (run hm cfg socks st H)) id) q so = Some rg') as ->.
      { apply I. exists h1, x, h2. split; [exact E|]. split; [exact Rx|]. split.
        - intros z rz Hz. apply N, in_or_app. left. exact Hz.
        - intros t Ht. apply C, in_or_app. left. exact Ht. }
      cbn [kept]. repeat split. lia.
  - destruct (registered (dm_ms (fst (run hm cfg socks st H)) id) q so) as [rg|] eqn:R; [|exact Logic.I]. cbn [kept].
    apply I in R. destruct R as (h1 & x & h2 & E & Rx & N & C).
    assert (forall rz, ~ registers hm cfg keys mores e' id q so rz) as Ne.
    { intros rz Hz. assert (Some rz = None) as Y; [|discriminate]. rewrite <- R'. symmetry. apply I. exists H, e', []. split; [reflexivity|]. split; [exact Hz|]. split; [intros ? ? []|intros ? []]. }
    assert (Some rg = None) as Y; [|discriminate]. rewrite <- R'. symmetry. apply I. exists h1, x, (h2 ++ [e']).
    split; [rewrite E, <- app_assoc; reflexivity|]. split; [exact Rx|]. split.
    + intros z rz Hz. apply in_app_or in Hz. destruct Hz as [Hz|[<-|[]]]; [apply N, Hz|apply Ne].
    + intros t Ht. apply in_app_or in Ht. destruct Ht as [Ht|[Ht|[]]]; [apply C, Ht|]. destruct (not_cleanup _ _ _ _ _ _ A Ht).
Qed.

(** ** Map-Notifies and Info-Replies *)
Lemma first_twice {A} (P : A -> Prop) (f : A -> A) : (forall x, P x -> P (f x)) -> (forall x, f (f x) = f x) ->
  forall l l1 l2, first_changed P f l l1 -> first_changed P f l1 l2 -> l2 = l1.
Proof.
  intros HP Hf l l1 l2 H1 H2. inversion H1 as [l0 N E1 E2|a x b N Px E1 E2]; subst.
  - inversion H2 as [l0 N2 E1 E2|a x b N2 Px E1 E2]; subst; [reflexivity|]. destruct (N x); [apply in_or_app; right; left; reflexivity|exact Px].
  - inversion H2 as [l0 N2 E1 E2|a' y b' N2 Py E1 E2]; subst; [reflexivity|].
    assert (a' ++ f y :: b' = a ++ f x :: b /\ y = f x) as [E _]; [|rewrite E1; exact E].
    clear H1 H2. revert a' N2 E1. induction a as [|z a IH]; intros [|z' a'] N2 E1; cbn [app] in *.
    + injection E1 as -> ->. rewrite Hf. auto.
    + injection E1 as -> E1. destruct (N2 (f x)); [left; reflexivity|apply HP, Px].
    + injection E1 as -> E1. destruct (N z); [left; reflexivity|exact Py].
    + injection E1 as -> E1. destruct (IH (fun w Hw => N w (or_intror Hw)) a' (fun w Hw => N2 w (or_intror Hw)) E1) as [E ->]. split; [f_equal; exact E|reflexivity].
Qed.
Lemma got_info_twice m o : got_info m (got_info m o) = got_info m o.
Proof. unfold got_info. destruct o as [r n [f|] rep ev]; reflexivity. Qed.
Lemma belongs_dec cfg e id : belongs cfg e id \/ ~ belongs cfg e id.
Proof.
  unfold belongs. destruct (determine e) as [[[iid afi] a]|] eqn:D.
  2: { right. intros (iid & afi & a & q & nd & X & _). apply eid_named_spec in X. congruence. }
  assert (forall i f b, eid_named e i f b -> i = iid /\ f = afi /\ b = a) as U by (intros i f b X; apply eid_named_spec in X; repeat split; congruence).
  assert (eid_named e iid afi a) as EN by (apply eid_named_spec; exact D).
  destruct (pfx_of a) as [q|] eqn:Q.
  2: { right. intros (i & f & b & q & nd & X & Y & _). destruct (U _ _ _ X) as (-> & -> & ->). congruence. }
  destruct (g_resolve cfg iid afi q) as [[nd|]|] eqn:R.
  2, 3: right; intros (i & f & b & q' & nd & X & Y & Z & _); destruct (U _ _ _ X) as (-> & -> & ->); congruence.
  assert (forall c : ncls, c = NETR \/ c <> NETR) as Dc by (intros []; auto; right; discriminate).
  destruct (Dc (n_cls nd)) as [C|C].
  - destruct (Nat.eq_dec (n_id nd) id) as [I|I]; [left; exists iid, afi, a, q, nd; auto|].
    right. intros (i & f & b & q' & nd' & X & Y & Z & _ & W). destruct (U _ _ _ X) as (-> & -> & ->). congruence.
  - right. intros (i & f & b & q' & nd' & X & Y & Z & W & _). destruct (U _ _ _ X) as (-> & -> & ->). congruence.
Qed.
Lemma raises_dec cfg e : lookup_raises cfg e \/ ~ lookup_raises cfg e.
Proof.
  unfold lookup_raises. destruct (determine e) as [[[iid afi] a]|] eqn:D.
  2: { right. intros (iid & afi & a & q & x & X & _). apply eid_named_spec in X. congruence. }
  assert (forall i f b, eid_named e i f b -> i = iid /\ f = afi /\ b = a) as U by (intros i f b X; apply eid_named_spec in X; repeat split; congruence).
  assert (eid_named e iid afi a) as EN by (apply eid_named_spec; exact D).
  destruct (pfx_of a) as [q|] eqn:Q.
  2: { right. intros (i & f & b & q & nd & X & Y & _). destruct (U _ _ _ X) as (-> & -> & ->). congruence. }
  destruct (g_resolve cfg iid afi q) as [o|x] eqn:R; [|left; exists iid, afi, a, q, x; auto].
  right; intros (i & f & b & q' & nd & X & Y & Z); destruct (U _ _ _ X) as (-> & -> & ->); congruence.
Qed.
Lemma reaches_dec cfg l id : reaches cfg l id \/ ~ reaches cfg l id.
Proof.
  induction l as [|r l IH].
  - right. intros (pre & x & post & E & _). destruct pre; discriminate.
  - destruct (belongs_dec cfg (mr_eid r) id) as [B|B]; [left; exists [], r, l; split; [reflexivity|]; split; [exact B|intros ? []]|].
    destruct (raises_dec cfg (mr_eid r)) as [L|L].
    + right. intros (pre & x & post & E & Bx & Hp). destruct pre as [|y pre]; injection E as -> E; [contradiction|]. apply (Hp y); [left; reflexivity|exact L].
    + destruct IH as [(pre & x & post & E & Bx & Hp)|IH].
      * left. exists (r :: pre), x, post. split; [rewrite E; reflexivity|]. split; [exact Bx|]. intros y [<-|Hy]; auto.
      * right. intros (pre & x & post & E & Bx & Hp). destruct pre as [|y pre]; injection E as -> E; [contradiction|].
        apply IH. exists pre, x, post. split; [exact E|]. split; [exact Bx|]. intros z Hz. apply Hp. right. exact Hz.
Qed.
(** A Map-Notify or Info message that arrives again at once leaves everything as it is, and nothing is sent. *)
Theorem C138_replies : forall hm cfg socks st e c e' c' p ar k, again e c e' c' -> brings e p ar k ->
  (exists n, p = PCtl (CNot n)) \/ (exists m, p = PCtl (CInfo m)) ->
  let st1 := fst (step hm cfg socks st e) in let st2 := fst (step hm cfg socks st1 e') in
  snd (step hm cfg socks st e) = [] /\ snd (step hm cfg socks st1 e') = [] /\
  dm_ms st2 = dm_ms st1 /\ dm_etr st2 = dm_etr st1 /\
  forall id, no_regs (dm_out st2 id) = no_regs (dm_out st1 id) /\ no_infos (dm_out st2 id) = no_infos (dm_out st1 id).
Proof.
  intros hm cfg socks st e c e' c' p ar k A B Hp st1 st2. destruct (again_brings _ _ _ _ _ _ _ A B) as [-> B'].
  destruct (step hm cfg socks st e) as [s1 o1] eqn:E1. cbn [fst snd] in *. subst st1. destruct (step hm cfg socks s1 e') as [s2 o2] eqn:E2. cbn [fst snd] in *. subst st2.
  destruct Hp as [(n & ->)|(m & ->)].
  - destruct (C79_notify _ _ _ _ _ _ _ _ _ _ B E1) as (-> & _ & _ & H1). destruct (C79_notify _ _ _ _ _ _ _ _ _ _ B' E2) as (-> & M & T & H2).
    split; [reflexivity|]. split; [reflexivity|]. split; [exact M|]. split; [exact T|]. intros id. destruct (H1 id) as (_ & Y1 & N1), (H2 id) as (I2 & Y2 & N2). split; [|exact I2].
    destruct (reaches_dec cfg (n_records n) id) as [R|R]; [|rewrite (N2 R); reflexivity].
    eapply (first_twice (waits_notify (ar_src ar) n) (got_notify n)); [intros x Hx; exact Hx|reflexivity|apply Y1, R|apply Y2, R].
  - destruct (C80_info_reply _ _ _ _ _ _ _ _ _ _ B E1) as (-> & _ & _ & H1). destruct (C80_info_reply _ _ _ _ _ _ _ _ _ _ B' E2) as (-> & M & T & H2).
    split; [reflexivity|]. split; [reflexivity|]. split; [exact M|]. split; [exact T|]. intros id. destruct (H1 id) as (_ & Y1 & N1), (H2 id) as (I2 & Y2 & N2). split; [exact I2|].
    destruct (i_reply m) eqn:Ir; [|rewrite (N2 (or_introl eq_refl)); reflexivity].
    destruct (belongs_dec cfg (i_eid m) id) as [R|R]; [|rewrite (N2 (or_intror R)); reflexivity].
    eapply (first_twice (waits_info (ar_src ar) m) (got_info m)); [|apply got_info_twice|apply Y1; auto|apply Y2; auto].
    intros x Hx. unfold got_info, waits_info in *. destruct (oi_from x); exact Hx.
Qed.
(** ** Answers do not depend on the time *)
Lemma record_clocks hm p s1 s2 m i src t1 t2 s1' m1 o1 s2' m2 o2 : ms_key s1 = ms_key s2 -> ms_more s1 = ms_more s2 ->
  handle_record hm p s1 m i src t1 = (s1', m1, o1) -> handle_record hm p s2 m i src t2 = (s2', m2, o2) ->
  m1 = m2 /\ o1 = o2 /\ ms_key s1' = ms_key s1 /\ ms_more s1' = ms_more s1 /\ ms_key s2' = ms_key s2 /\ ms_more s2' = ms_more s2.
Proof.
  unfold handle_record. intros K M H1 H2. rewrite <- K, <- M in H2. destruct (verify hm (AReg m) (ms_key s1)) as [a ok].
  destruct ok as [[|]|]; [|injection H1 as <- <- <-; injection H2 as <- <- <-; repeat split|injection H1 as <- <- <-; injection H2 as <- <- <-; repeat split].
  destruct (nth_error _ _) as [r|]; [|injection H1 as <- <- <-; injection H2 as <- <- <-; repeat split].
  destruct (determine (mr_eid r)) as [[[iid afi] x]|]; [|injection H1 as <- <- <-; injection H2 as <- <- <-; repeat split].
  destruct x; try (injection H1 as <- <- <-; injection H2 as <- <- <-; repeat split; fail).
  destruct (_ || _); [injection H1 as <- <- <-; injection H2 as <- <- <-; repeat split|].
  destruct (_ && _); injection H1 as <- <- <-; injection H2 as <- <- <-; repeat split.
Qed.
Lemma loop_clocks hm cfg src c1 c2 : forall k i w1 w2 m done key w1' m1 o1 w2' m2 o2, conf_same w1 w2 ->
  reg_loop hm cfg src c1 k i w1 m done key = (w1', m1, o1) -> reg_loop hm cfg src c2 k i w2 m done key = (w2', m2, o2) ->
  m1 = m2 /\ o1 = o2.
Proof.
  induction k as [|k IH]; intros i w1 w2 m done key w1' m1 o1 w2' m2 o2 C H1 H2; cbn [reg_loop] in H1, H2.
  { injection H1 as <- <- <-. injection H2 as <- <- <-. auto. }
  destruct (nth_error (g_records m) i) as [r|]; [|injection H1 as <- <- <-; injection H2 as <- <- <-; auto].
  destruct (determine (mr_eid r)) as [[[iid afi] a]|]; [|eapply IH; eassumption].
  destruct (pfx_of a) as [q|]; [|injection H1 as <- <- <-; injection H2 as <- <- <-; auto].
  destruct (g_resolve cfg iid afi q) as [[nd|]|]; [|eapply IH; eassumption|injection H1 as <- <- <-; injection H2 as <- <- <-; auto].
  destruct (n_cls nd); try (eapply IH; eassumption).
  destruct (handle_record hm (n_pfx nd) (w1 (n_id nd)) m i src (c1 i)) as [[s1 x1] y1] eqn:E1.
  destruct (handle_record hm (n_pfx nd) (w2 (n_id nd)) m i src (c2 i)) as [[s2 x2] y2] eqn:E2.
  destruct (C (n_id nd)) as [K M]. destruct (record_clocks _ _ _ _ _ _ _ _ _ _ _ _ _ _ _ (eq_sym K) (eq_sym M) E1 E2) as (-> & -> & K1 & M1 & K2 & M2).
  assert (conf_same (set_ms w1 (n_id nd) s1) (set_ms w2 (n_id nd) s2)) as C'.
  { intros id. unfold set_ms. destruct (Nat.eqb id (n_id nd)); [split; congruence|apply C]. }
  destruct y2 as [|e|e].
  - assert (ms_key s1 = ms_key s2) as Ks by congruence. rewrite Ks in H1. exact (IH _ _ _ _ _ _ _ _ _ _ _ _ C' H1 H2).
  - exact (IH _ _ _ _ _ _ _ _ _ _ _ _ C' H1 H2).
  - injection H1 as <- <- <-. injection H2 as <- <- <-. auto.
Qed.
Lemma register_clocks hm cfg src c1 c2 m w : snd (handle_map_register hm cfg w m src c1) = snd (handle_map_register hm cfg w m src c2).
Proof.
  unfold handle_map_register.
  destruct (reg_loop hm cfg src c1 (length (g_records m)) 0 w m [] []) as [[v1 n1] p1] eqn:E1.
  destruct (reg_loop hm cfg src c2 (length (g_records m)) 0 w m [] []) as [[v2 n2] p2] eqn:E2.
  destruct (loop_clocks hm cfg src c1 c2 _ _ _ _ _ _ _ _ _ _ _ _ _ (fun id => conj eq_refl eq_refl) E1 E2) as (-> & ->).
  destruct p2 as [[done key]|e]; [|reflexivity]. destruct (_ && _); [|reflexivity]. destruct (insert _ _ _) as [[] []]; reflexivity.
Qed.
Lemma message_clocks hm cfg socks c1 c2 ar m inner st : snd (handle_message hm cfg socks c1 ar m inner st) = snd (handle_message hm cfg socks c2 ar m inner st).
Proof.
  unfold handle_message. destruct m as [| | | | | | | | | |sec ddt rtr rel rsv p|c]; try reflexivity. destruct c as [q|r|g|n|f|i]; try reflexivity.
  pose proof (register_clocks hm cfg (ar_src ar) c1 c2 g (dm_ms st)) as R.
  destruct (handle_map_register hm cfg (dm_ms st) g (ar_src ar) c1) as [[w1 m1] o1].
  destruct (handle_map_register hm cfg (dm_ms st) g (ar_src ar) c2) as [[w2 m2] o2]. cbn [snd] in *. rewrite R. reflexivity.
Qed.
Lemma control_clocks hm cfg socks c1 c2 ar m st : snd (handle_control_message hm cfg socks c1 ar m st) = snd (handle_control_message hm cfg socks c2 ar m st).
Proof. unfold handle_control_message. destruct (received _ _) as [ctr [inner|x]]; [|reflexivity]. apply message_clocks. Qed.
Lemma again_out hm cfg socks st e c e' c' : again e c e' c' -> snd (step hm cfg socks st e') = snd (step hm cfg socks st e).
Proof.
  intros []; cbn [step].
  - unfold control_datagram. destruct (pkt_from_bytes KCtl d); [|reflexivity]. apply control_clocks.
  - unfold data_datagram. destruct (pkt_from_bytes (KData true) d) as [[| | | | | | | | |h p| |]|]; try reflexivity.
    destruct (match d_iid h with Some i => i =? 16777215 | None => false end); [|reflexivity].
    destruct (get_final_payload p) as [[n [| | | | | | | |s dp ck q| | |]]|]; try reflexivity. destruct (dp =? 4342); [|reflexivity]. apply control_clocks.
Qed.
(** The same datagram gets the same answer again, whatever came in between and however much later, unless an ETR's own thread did something. *)
Theorem C138_answer : forall hm cfg socks st h e c e' c' between, again e c e' c' -> filter by_threads between = [] ->
  snd (step hm cfg socks (fst (run hm cfg socks st (h ++ e :: between))) e') = snd (step hm cfg socks (fst (run hm cfg socks st h)) e).
Proof.
  intros hm cfg socks st h e c e' c' between A N. rewrite (again_out _ _ _ _ _ _ _ _ A). apply C123_forgetful.
  rewrite filter_app. cbn [filter]. rewrite N. destruct A; apply app_nil_r.
Qed.
(** example: a Map-Register, then a cleanup pass, then rubbish, then the Map-Register again *)
Definition tw_bytes : bytes := match mreg_to_bytes open_register with Ok d => d | Err _ => [] end.
Definition tw_first : event := AtControl there tw_bytes (fun _ => 5).
Definition tw_again : event := AtControl there tw_bytes (fun _ => 50 * sec).
Definition tw_between : list event := [Cleanup 7 100; AtControl there (B [1;2;3]) (fun _ => 6)].
Example C138_example : good_cfg ms_cfg (fun id => if Nat.eqb id 7 then p8 else Pfx V4 0 0) /\ fresh_ms (fun _ => B [1;2]) (fun _ => true) PropDaemon2.start /\
  again tw_first (fun _ => 5) tw_again (fun _ => 50 * sec) /\
  quiet toy_hm ms_cfg (fun _ => B [1;2]) (fun _ => true) 7 p16 (SAddr V4 77) (fun _ => 5) tw_between /\
  registered (dm_ms (fst (run toy_hm ms_cfg [] PropDaemon2.start ([] ++ tw_first :: tw_between))) 7%nat) p16 (SAddr V4 77) = Some (Reg open_record false (5 + 180 * sec)) /\
  registered (dm_ms (fst (run toy_hm ms_cfg [] PropDaemon2.start (([] ++ tw_first :: tw_between) ++ [tw_again]))) 7%nat) p16 (SAddr V4 77) = Some (Reg open_record false (50 * sec + 180 * sec)).
Proof.
  split; [exact ms_cfg_good|]. split; [reflexivity|]. split; [constructor|]. split; [|split; vm_compute; reflexivity]. split.
  - intros x rg [<-|[<-|[]]] (m & ar & k & i & B & _); inversion B as [? ? ? ? E|? ? ? ? E]; subst. vm_compute in E. discriminate.
  - intros t i [E|[E|[]]]; [injection E as <-|discriminate]. vm_compute. discriminate.
Qed.
Print Assumptions C138_registrations.
Print Assumptions C138_replies.
Print Assumptions C138_answer.
