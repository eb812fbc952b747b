(** * C118: an ETR that counts its registration as confirmed is registered *)
From Verif Require Import Base BaseLemmas Afi AfiProofs Spec SpecEid PropEid Records Control SpecRec RecordsProofs ControlProofs PropControl
  Auth SpecAuth PropAuth Tree SpecTree TreeProofs PropTree PropTree2 Dict MapServer SpecMs PropMs PropMs2 Net Ddt Etr SpecEtr PropEtr PropEtr2 Packet SpecPkt Daemon SpecDaemon PropDaemon2 Exchange SpecHonest PropHonest.

(** the Map-Notify sent is an object *)
Lemma answer_obj hm cfg P w m src clock w' m' s : digests hm -> good_cfg cfg P -> obj_mreg m ->
  handle_map_register hm cfg w m src clock = (w', m', Ok (Some s)) -> obj_mnot (s_msg s).
Proof.
  intros HD G Ho H. unfold handle_map_register in H.
  destruct (reg_loop hm cfg src clock (length (g_records m)) 0 w m [] []) as [[w1 m1] out] eqn:EL.
  destruct (loop_spec hm cfg P src clock m w G Ho _ 0 w m [] [] w1 m1 out (or_introl eq_refl) (fun _ => conj eq_refl eq_refl) eq_refl EL)
    as (_ & N & _ & _).
  destruct out as [[js key]|e]; [|discriminate]. specialize (N _ eq_refl).
  destruct (_ && _); [|discriminate].
  match type of H with context[insert hm (ANot ?x) key] => set (n := x) in H end.
  assert (obj_mnot n) as On.
  { split; [reflexivity|]. cbn [n_records n]. rewrite Forall_forall. intros x Hx. apply in_flat_map in Hx. destruct Hx as (j & _ & Hx).
    destruct (nth_error (g_records m1) j) as [r|] eqn:Er; [|destruct Hx]. destruct Hx as [<-|[]].
    destruct (norm_obj _ _ Ho N) as (_ & _ & _ & F). rewrite Forall_forall in F. apply F. eapply nth_error_In; eauto. }
  clearbody n. destruct (insert hm (ANot n) key) as [a [[]|e]] eqn:EI; [|discriminate].
  destruct a as [|n'|]; try discriminate. injection H as _ _ <-. cbn [s_msg].
  change (obj_a (ANot n')). unfold insert, calculate in EI. cbn [a_key] in EI. destruct (n_key n =? 0).
  { injection EI as <-. exact On. }
  destruct (digest_len (n_key n)) as [k|]; [|discriminate].
  destruct (a_to_bytes (set_auth (ANot n) (repeat zero_byte k))) as [b|] eqn:Eb; [|discriminate].
  destruct (san_of_bytes _ _ Eb) as (x & S & _). rewrite (a_san_after _ _ S) in EI.
  assert (obj_a x) as Ox by (eapply a_san_obj; [|exact S]; exact On).
  injection EI as EI. rewrite <- EI. destruct x; exact Ox.
Qed.

(** a Map-Notify does not have the bytes of another message *)
Lemma type_differs_not n m0 z : (forall n0, m0 <> ANot n0) -> mnot_to_bytes n = Ok z -> a_to_bytes m0 = Ok z -> False.
Proof.
  intros N H H0. destruct m0 as [g0|n0|i]; [| exact (N _ eq_refl) |].
  - refine (type_differs g0 (ANot n) z _ H0 H). discriminate.
  - apply to_bytes_ok in H. cbn [a_to_bytes] in H0. apply to_bytes_ok in H0.
    unfold w_mnot in H. bo H n' E'. bo H t' Et'. bo H cnt' Ec'. bo H au' Ea'. bo H rs' Er'. bo H xs' Ex'. cbv in Et'. okinj Et'. okinj H.
    unfold w_info in H0. bo H0 n1 E1. bo H0 t1 Et1. bo H0 au1 Ea1. bo H0 ttl1 Er1. bo H0 x1 Ex1. bo H0 y1 Ey1. bo H0 z1 Ez1. bo H0 d1 Ed1. cbv in Et1. okinj Et1. okinj H0.
    rewrite <- H in H0. discriminate H0.
Qed.

(** the notify a request ends up with is one of those that reached it *)
Lemma arrive_notify l : forall o n, o_notify (arrive reg_arrives l o) = Some n -> o_notify o = Some n \/ exists src, In (src, n) l.
Proof.
  induction l as [|[src x] l IH]; intros o n H; cbn [arrive fold_left] in H; [auto|].
  destruct (IH _ _ H) as [H1|(s & H1)]; [|right; exists s; right; exact H1].
  unfold reg_arrives in H1. cbn [fst snd] in H1. destruct (set_notify_if_matches _ _ _ _); [|auto].
  cbn [o_notify] in H1. injection H1 as ->. right. exists src. left. reflexivity.
Qed.
Lemma attempts_notify l : forall o o' out used n,
  attempts (fun _ o => o) reg_arrives (fun o => match o_notify o with Some _ => true | None => false end) l o = (o', out, used) ->
  o_notify o' = Some n -> o_notify o = Some n \/ exists t src, In t l /\ (In (src, n) (a_before t) \/ In (src, n) (a_in t)).
Proof.
  induction l as [|t l IH]; intros o o' out used n H Hn; cbn [attempts] in H; [injection H as <- _ _; auto|].
  assert (forall o1, o1 = arrive reg_arrives (a_in t) (arrive reg_arrives (a_before t) o) -> o_notify o1 = Some n ->
    o_notify o = Some n \/ exists t0 src, In t0 (t :: l) /\ (In (src, n) (a_before t0) \/ In (src, n) (a_in t0))) as A.
  { intros o1 -> H1. destruct (arrive_notify _ _ _ H1) as [H2|(s & I)].
    - destruct (arrive_notify _ _ _ H2) as [H3|(s & I)]; [auto|]. right. exists t, s. split; [left; reflexivity|auto].
    - right. exists t, s. split; [left; reflexivity|auto]. }
  destruct (a_send t) as [f|e].
  - destruct (a_stop t); [injection H as <- _ _; eapply A; eauto|].
    destruct (match o_notify _ with Some _ => true | None => false end).
    { injection H as <- _ _. eapply A; eauto. }
    destruct (attempts _ _ _ l _) as [[o1 r1] u1] eqn:E. injection H as <- _ _.
    destruct (IH _ _ _ _ _ E Hn) as [H1|(t0 & s & I & J)]; [eapply A; eauto|]. right. exists t0, s. split; [right; exact I|exact J].
  - injection H as <- _ _. destruct (arrive_notify _ _ _ Hn) as [H3|(s & I)]; [auto|]. right. exists t, s. split; [left; reflexivity|auto].
Qed.

Lemma insert_fields hm m key m1 : digests hm -> insert hm (AReg m) key = (AReg m1, Ok tt) ->
  g_nonce m1 = g_nonce m /\ g_key m1 = g_key m /\ g_notify m1 = g_notify m.
Proof.
  intros HD EI. unfold insert, calculate in EI. cbn [a_key] in EI. destruct (g_key m =? 0).
  { injection EI as <-. auto. }
  destruct (digest_len (g_key m)) as [k|]; [|discriminate].
  destruct (a_to_bytes (set_auth (AReg m) (repeat zero_byte k))) as [b|] eqn:Eb; [|discriminate].
  destruct (san_of_bytes _ _ Eb) as (x & S & _). rewrite (a_san_after _ _ S) in EI. injection EI as EI.
  cbn [set_auth a_san] in S. bo S y Sy. injection S as <-. unfold sanitize_mreg in Sy. bo Sy u1 E1. bo Sy u2 E2. bo Sy u3 E3. bo Sy rs E5. okinj Sy.
  cbn [set_auth] in EI. injection EI as <-. cbn [g_nonce g_key g_notify]. auto.
Qed.

(** the core: an accepted Map-Notify *)
Lemma notify_means_registered hm cfg socks P keys mores st h key made used a0 g d n :
  digests hm -> good_cfg cfg P -> fresh_ms keys mores st ->
  holders made (answered hm cfg socks key st h) used -> unforged hm key used h -> fresh_nonces made ->
  made a0 -> tr_keyid (an_reg a0) <> 0 -> g_nonce g = an_nonce a0 -> g_key g = tr_keyid (an_reg a0) ->
  mnot_from_bytes d = Ok n -> unforged_notify hm key used n -> notify_content_ok hm key g (Some n) = Ok true ->
  exists h1 e h2 id so rg, h = h1 ++ e :: h2 /\ keys id = key /\ comes_from a0 (an_pfx a0) so rg /\
    registers hm cfg keys mores e id (an_pfx a0) so rg.
Proof.
  intros HD G F HO UF FN M0 K0 EN EK Hd UN H.
  apply (C59_accepts_partial hm key g d n Hd) in H. destruct H as (V & Hno & Hk & _).
  destruct (parsed_notify d n Hd) as (On & _ & _).
  assert (a_key (ANot n) <> 0) as Kn by (cbn [a_key]; congruence).
  destruct (verified_mac hm key (ANot n) HD On Kn V) as (k & out & D & Hout & MAC & Hz).
  destruct (UN _ _ D Hout MAC) as (m0 & U & H0).
  destruct (HO m0 U) as [(a & _ & _ & ->)|[(n0 & An & ->)|(i & ->)]].
  1,3: exfalso; refine (type_differs_not _ _ _ _ Hz H0); discriminate.
  destruct An as (h1 & e & h2 & m & ar & clock & -> & B & (w' & m' & s & EH & <-) & j & nd & AC & _ & EKY).
  set (w := dm_ms (fst (run hm cfg socks st h1))) in *.
  pose proof (brings_obj _ _ _ _ B) as O.
  pose proof (answer_obj _ _ _ _ _ _ _ _ _ _ HD G O EH) as Os.
  destruct (C54_notify_content hm cfg P w m (ar_src ar) clock w' m' _ HD G O EH) as (js & _ & _ & _ & _ & _ & _ & N1 & N2 & _ & _ & _ & _).
  (* same bytes, same nonce and key id *)
  cbn [set_auth a_to_bytes] in Hz, H0. apply to_bytes_ok in Hz. apply to_bytes_ok in H0.
  pose proof (fun W => mnot_rt _ _ W Hz) as R1. destruct (R1 On) as (rs1 & _ & _ & R1'). clear R1.
  pose proof (fun W => mnot_rt _ _ W H0) as R2. destruct (R2 Os) as (rs2 & _ & _ & R2'). clear R2.
  pose proof (R1' []) as R1. pose proof (R2' []) as R2. rewrite R1 in R2. injection R2 as _ ENo EKe _ _ _. clear R1' R2' R1.
  assert (g_nonce m = an_nonce a0) as NM by congruence.
  assert (g_key m <> 0) as KM by congruence.
  destruct AC as (L & q & so & rg & A). pose proof A as (_ & _ & Ha & _). fold w in EKY. rewrite EKY in Ha.
  destruct (daemon_invariant hm cfg socks P keys mores st h1 G F) as (HK & _ & _). destruct (HK (n_id nd)) as [HK1 HK2]. fold w in HK1, HK2.
  assert (In e (h1 ++ e :: h2)) as Hin by (apply in_or_app; right; left; reflexivity).
  destruct (genuine_register hm key m made used HD) as (a & Ma & Nn & _ & C); try assumption.
  { intros x Ux. destruct (HO x Ux) as [X|[(n1 & _ & ->)|(i & ->)]]; [left; exact X|right; discriminate|right; discriminate]. }
  { intros out' n' D' Ho' MAC'. exact (UF _ _ _ _ _ _ Hin B D' Ho' MAC'). }
  assert (a = a0) as -> by (apply FN; congruence).
  destruct (C _ _ _ _ _ _ _ _ _ A) as [-> CF]. pose proof (cf_pfx _ _ _ _ CF) as EQ. subst q.
  exists h1, e, h2, (n_id nd), so, rg. split; [reflexivity|]. split; [congruence|]. split; [exact CF|].
  exists m, ar, clock, 0%nat. split; [exact B|]. split.
  - exists nd. split; [exact L|]. split; [reflexivity|]. split; [intros j Hj; lia|]. rewrite <- HK1, <- HK2. exact A.
  - intros i' rg' Hi' (nd' & _ & _ & _ & A'). destruct (C _ _ _ _ _ _ _ _ _ A') as [-> _]. lia.
Qed.

(** [register] (etr_node.py:356-410) with a key, for a Map-Register that asks for a Map-Notify, returns True: then an event of
    the Map-Server's history registered this announcement, in a node with this key, and it is registered there from then on
    until another one of the same source replaces it or it expires. *)
Theorem C118_confirmed_is_registered : forall hm cfg socks P keys mores st h made used a0 g l late tried kept,
  let key := tr_key (an_reg a0) in
  digests hm -> good_cfg cfg P -> fresh_ms keys mores st ->
  holders made (answered hm cfg socks key st h) used -> unforged hm key used h -> received_genuine hm key used l late ->
  fresh_nonces made -> made a0 -> tr_keyid (an_reg a0) <> 0 -> g_notify (register_of a0) = true ->
  insert hm (AReg (register_of a0)) key = (AReg g, Ok tt) ->
  register hm (an_reg a0) g l late = (Ok (Some true), tried, kept) ->
  exists h1 e h2 id so rg, h = h1 ++ e :: h2 /\ keys id = key /\ comes_from a0 (an_pfx a0) so rg /\
    registered (dm_ms (fst (run hm cfg socks st (h1 ++ [e]))) id) (an_pfx a0) so = Some rg /\
    ((forall e' rg', In e' h2 -> ~ registers hm cfg keys mores e' id (an_pfx a0) so rg') ->
     (forall t, In (Cleanup id t) h2 -> t <= rg_deadline rg) ->
     registered (dm_ms (fst (run hm cfg socks st h)) id) (an_pfx a0) so = Some rg).
Proof.
  intros hm cfg socks P keys mores st h made used a0 g l late tried kept key HD G F HO UF RG FN M0 K0 WN EI ER.
  destruct (insert_fields _ _ _ _ HD EI) as (E1 & E2 & E3). rewrite WN in E3.
  unfold register in ER. rewrite E3 in ER. cbn [negb] in ER.
  destruct (attempts _ _ _ (firstn 3 l) _) as [[o out] used'] eqn:EA. destruct out; try discriminate.
  destruct (o_notify (arrive reg_arrives late o)) as [n|] eqn:EN; [|discriminate].
  destruct (notify_content_ok hm (tr_key (an_reg a0)) g (Some n)) as [b|] eqn:EC; [|discriminate]. cbn [bind] in ER. injection ER as -> _ _.
  assert ((exists d, mnot_from_bytes d = Ok n) /\ unforged_notify hm key used n) as [(d & Hd) UN].
  { destruct (arrive_notify _ _ _ EN) as [H1|(s & I)]; [|apply (RG (s, n)); auto].
    destruct (attempts_notify _ _ _ _ _ _ EA H1) as [H2|(t & s & I & J)]; [discriminate|].
    apply (RG (s, n)). right. exists t. split; [|exact J]. rewrite <- (firstn_skipn 3 l). apply in_or_app. auto. }
  destruct (notify_means_registered hm cfg socks P keys mores st h key made used a0 g d n) as (h1 & e & h2 & id & so & rg & -> & EKY & CF & R); auto.
  exists h1, e, h2, id, so, rg. split; [reflexivity|]. split; [exact EKY|]. split; [exact CF|]. split.
  - apply (C74_registered_iff_in_force hm cfg socks P keys mores); [exact G|exact F|].
    exists h1, e, []. split; [reflexivity|]. split; [exact R|]. split; intros; contradiction.
  - intros N1 N2. apply (C74_registered_iff_in_force hm cfg socks P keys mores); [exact G|exact F|].
    exists h1, e, h2. auto.
Qed.

(** ** Non-vacuity: the announcement of C117's example arrives, the answer of the Map-Server reaches the ETR in the second
    attempt, after a Map-Notify with another nonce *)
Definition ex_reg : mreg := match pkt_from_bytes KCtl ex_bytes with Ok (PCtl (CReg m)) => m | _ => ex_sent end.
Definition ex_answer : mnot := match handle_map_register toy_hm ms_cfg (dm_ms PropDaemon2.start) ex_reg (ar_src there) (fun _ => 5) with
  | (_, _, Ok (Some s)) => s_msg s | _ => MNot [] [] 0 [] [] 0 0 end.
Definition ex_dgram : bytes := match mnot_to_bytes ex_answer with Ok d => d | Err _ => [] end.
Definition ex_got : mnot := match mnot_from_bytes ex_dgram with Ok n => n | Err _ => ex_answer end.
Definition ex_used (m : amsg) : Prop := m = AReg (register_of ex_ann) \/ m = ANot ex_answer.
Definition ex_attempts : list (attempt mnot) :=
  [Att [] (Ok (Some (V4, 5))) [] false; Att [] (Ok (Some (V4, 5))) [((V4, 9), ex_got)] false].
Example C118_example :
  holders (eq ex_ann) (answered toy_hm ms_cfg [] (B [1;2]) PropDaemon2.start [ex_event]) ex_used /\
  unforged toy_hm (B [1;2]) ex_used [ex_event] /\ received_genuine toy_hm (B [1;2]) ex_used ex_attempts [] /\
  g_notify (register_of ex_ann) = true /\ insert toy_hm (AReg (register_of ex_ann)) (B [1;2]) = (AReg ex_sent, Ok tt) /\
  register toy_hm (an_reg ex_ann) ex_sent ex_attempts [] = (Ok (Some true), ex_attempts, false).
Proof.
  assert (pkt_from_bytes KCtl ex_bytes = Ok (PCtl (CReg ex_reg))) as Pm by (vm_compute; reflexivity).
  assert (brings ex_event (PCtl (CReg ex_reg)) there (fun _ => 5)) as B' by (constructor; exact Pm).
  destruct C117_example as (BB & UF & _). split; [|split; [|split; [|split; [|split]]]].
  - intros m [E|E]; subst m; [left; destruct (BB _ eq_refl) as [X|X]; [exact X|destruct (X _ eq_refl)]|right; left].
    exists ex_answer. split; [|reflexivity]. exists [], ex_event, [], ex_reg, there, (fun _ => 5). split; [reflexivity|]. split; [exact B'|].
    split.
    + assert (exists w' m' s, handle_map_register toy_hm ms_cfg (dm_ms PropDaemon2.start) ex_reg (ar_src there) (fun _ => 5) = (w', m', Ok (Some s)) /\ s_msg s = ex_answer) as X.
      { unfold ex_answer. destruct (handle_map_register _ _ _ _ _ _) as [[w' m'] [[s|]|e]] eqn:E; [eauto 10| |]; exfalso; vm_compute in E; discriminate E. }
      exact X.
    + destruct C117_example as (_ & _ & _ & X). destruct (registered _ p16 (SXtr 1 7)) as [rg|] eqn:R; [|destruct X]. clear X.
      apply (C74_registered_iff_in_force toy_hm ms_cfg [] _ (fun _ => B [1;2]) (fun _ => true) PropDaemon2.start [ex_event] 7%nat p16 (SXtr 1 7) rg ms_cfg_good eq_refl) in R.
      destruct R as (h1 & e & h2 & E & (m & ar & clock & i & Bm & (nd & L & Hid & _ & A) & _) & _).
      assert (In e [ex_event]) as He by (rewrite E; apply in_or_app; right; left; reflexivity). destruct He as [<-|He]; [|destruct He]. clear E.
      destruct (brings_fun _ _ _ _ _ _ _ Bm B') as (E1 & -> & ->).
      assert (forall a b : mreg, PCtl (CReg a) = PCtl (CReg b) -> a = b) as inj by (intros a b X; injection X; auto). apply inj in E1. subst m.
      exists i, nd. split; [split; [exact L|]|split].
      * exists p16, (SXtr 1 7), rg. rewrite Hid. exact A.
      * intros j' nd' ((r & ? & ? & ? & ? & Hr & _) & _). assert (length (g_records ex_reg) = 1%nat) as Ln by (vm_compute; reflexivity).
        assert (nth_error (g_records ex_reg) j' <> None) as X by congruence. apply nth_error_Some in X. lia.
      * reflexivity.
  - intros e m ar clock out n Hin Bm D Ho MAC. destruct (UF _ _ _ _ _ _ Hin Bm D Ho MAC) as (m0 & U & H0). exists m0. split; [left; auto|exact H0].
  - assert (mnot_from_bytes ex_dgram = Ok ex_got) as Pg by (vm_compute; reflexivity).
    assert (forall x : (fam * Z) * mnot, (In x [] \/ exists t, In t ex_attempts /\ (In x (a_before t) \/ In x (a_in t))) -> snd x = ex_got) as X.
    { intros x [I|(t & I & J)]; [destruct I|]. destruct I as [E|[E|I]]; [| |destruct I]; subst t; destruct J as [J|J]; cbn in J; try contradiction. destruct J as [J|J]; [subst x; reflexivity|destruct J]. }
    intros x Hx. rewrite (X x Hx). split; [exists ex_dgram; exact Pg|].
    intros out k D Ho _. exists (ANot ex_answer). split; [right; reflexivity|].
    destruct D as [[D _]|[_ ->]]; [vm_compute in D; discriminate D|].
    vm_compute in Ho. injection Ho as <-. vm_compute. reflexivity.
  - reflexivity.
  - vm_compute. reflexivity.
  - vm_compute. reflexivity.
Qed.

Print Assumptions C118_confirmed_is_registered.
