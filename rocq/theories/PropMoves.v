(** * Property C133: a change of address reaches the Map-Server *)
From Coq Require Import Permutation Sorted.
From Verif Require Import Base BaseLemmas Afi AfiProofs Spec SpecLemmas SpecEid PropEid Records Control SpecRec RecordsProofs ControlProofs
  PropControl Packet PacketProofs PacketStack SpecPkt PropPacket PropPacket3 PropPacket Auth SpecAuth PropAuth Tree SpecTree TreeProofs PropTree PropTree2
  Dict MapServer SpecMs PropMs PropMs2 Net Etr SpecEtr PropEtr PropEtr2 Daemon SpecDaemon PropDaemon PropDaemon2 SpecRoute PropRoute SpecAccept PropAccept PropLoop PropLoop2
  Sched SpecSched PropSched PropStay Collect SpecCollect PropCollect SpecMoves.

(** ** What an attempt that began after the change collects *)
Lemma collect_still_ext (e1 e2 : nat -> nat -> Z) : (forall t i, e1 t i = e2 t i) ->
  forall socks rtrs locs inc acc t, collect e1 socks rtrs locs inc acc t = collect e2 socks rtrs locs inc acc t.
Proof.
  intros E.
  assert (forall t l, addr_at e1 t l = addr_at e2 t l) as Ea by (intros t l; unfold addr_at; destruct (l_addr (cl_loc l)), (cl_auto l); try reflexivity; rewrite E; reflexivity).
  assert (forall socks l t, local_now e1 l socks t = local_now e2 l socks t) as El.
  { induction socks as [|s socks IH]; intros l t; cbn [local_now]; [reflexivity|]. rewrite Ea. destruct (addr_at e2 (S t) l); try reflexivity.
    unfold sock_at. destruct (cs_auto s); [rewrite E|]; (destruct (_ =? _); [reflexivity|apply IH]). }
  intros socks rtrs. induction locs as [|l locs IH]; intros inc acc t; cbn [collect]; [reflexivity|]. rewrite Ea.
  destruct (addr_at e2 t l); try reflexivity. destruct (_ =? 0); [apply IH|]. rewrite El. destruct (local_now e2 l socks (S t)) as [b u].
  destruct (b && nonempty rtrs); [destruct inc; apply IH|]. rewrite Ea. apply IH.
Qed.
Theorem C133_collected : forall rtr w T locs socks a ls, settled w T -> T <= a -> collected rtr w locs socks a ls -> current rtr w T locs ls.
Proof.
  intros rtr w T locs socks a ls S La (at_time & stored & tentative & n & Ha & Hr & Hc).
  set (env := fun _ : nat => w T).
  assert (collect_locators env locs stored socks tentative = Ok (ls, n)) as Hc'.
  { rewrite <- Hc. unfold collect_locators. destruct (get_rtrs stored); [|reflexivity]. cbn [bind]. apply collect_still_ext. intros t i. unfold env. symmetry. apply S. specialize (Ha t). lia. }
  assert (Forall ip_addr (all_rtrs stored tentative)) as Hi by (apply Forall_forall; intros x I; apply Hr, I).
  assert (forall k l v z, has_addr env k l v z <-> address_at w T l v z) as HA by (intros; reflexivity).
  split.
  - intros x I. destruct (C130_origin env locs stored socks tentative Hi ls n Hc' x I) as (l & k & v & z0 & A1 & A2 & A3 & A4 & A5).
    exists l. split; [exact A1|]. destruct A5 as [(u & z & B1 & B2 & B3 & _)|(r & B1 & B2 & _)].
    + split; [destruct B3; repeat split; assumption|]. left. exists v, z. split; [apply (HA u), B2|]. split; [|apply (an_addr _ _ _ _ B3)].
      destruct A3 as (y0 & Y1 & Y2), B2 as (y & Z1 & Z2). assert (y = y0) as -> by congruence. subst z0 z. unfold env in A4. exact A4.
    + split; [destruct B2; repeat split; assumption|]. right. rewrite (an_addr _ _ _ _ B2). apply Hr, B1.
  - intros l v z I A Nz. assert (always_up env n l) as U.
    { intros t v' z' _ (y & Y1 & Y2). destruct A as (y0 & Z1 & Z2). assert (y = y0) as -> by congruence. subst z z'. unfold env. exact Nz. }
    destruct (C130_announced env locs stored socks tentative Hi ls n Hc' l I U) as [(u & v' & z' & x & b & B1 & B2 & B3 & B4)|(B1 & B2 & l0 & B3 & B4 & B5)].
    + left. exists x. split; [exact B3|]. split; [destruct B4; repeat split; assumption|]. rewrite (an_addr _ _ _ _ B4).
      destruct B2 as (y & Y1 & Y2), A as (y0 & Z1 & Z2). assert (AIP v' y = AIP v y0) as Q by congruence. injection Q as -> ->. subst z z'. reflexivity.
    + right. destruct (concat stored ++ tentative) as [|r rs] eqn:E; [congruence|]. destruct (B5 r (or_introl eq_refl)) as (x & X1 & X2).
      exists x. split; [exact X1|]. rewrite (an_addr _ _ _ _ X2). apply Hr. left. reflexivity.
Qed.
Lemma current_perm rtr w T locs ls ls' : Permutation ls ls' -> current rtr w T locs ls -> current rtr w T locs ls'.
Proof.
  intros P [A B]. split.
  - intros x I. apply A. eapply Permutation_in; [symmetry; exact P|exact I].
  - intros l v z I H N. destruct (B l v z I H N) as [(x & X & R)|(x & X & R)]; [left|right]; (exists x; split; [eapply Permutation_in; [exact P|exact X]|exact R]).
Qed.
(** C133: such an attempt begins within a minute and [G] after the last change *)
Theorem C133_attempt : forall G l t1 t2 T, in_order l -> nat_works l -> runs_every G l t1 t2 -> t1 <= T + minute + G <= t2 ->
  exists a, attempt l a /\ T <= a <= T + minute + G.
Proof. intros G l t1 t2 T S N R H. destruct (C110_often G l t1 t2 S N R (T + minute + G) H) as (a & A & W). exists a. split; [exact A|lia]. Qed.

(** ** What the Map-Server stores of a Map-Register *)
Lemma register_of_stored hm p r xtr site rtr w locs socks a out g2 more q src now q' s rg i : digests hm -> wf_pfx p -> in_bits 128 xtr -> in_bits 64 site -> known_key_id (tr_keyid r) ->
  register_of hm p r xtr site rtr w locs socks a out -> pkt_from_bytes KCtl out = Ok (PCtl (CReg g2)) ->
  acceptable hm (tr_key r) more q g2 i src now q' s rg ->
  exists ls, collected rtr w locs socks a ls /\ Permutation ls (mr_locs (rg_record rg)).
Proof.
  intros HD Wp Rx Rs K (ls & rtrs & want & nonce & g0 & HC & HL & Ln & Lnon & EI0 & Eo0) Ep0 (r1 & r2 & _ & Nth & _ & _ & _ & _ & NR & ->). cbn [rg_record].
  exists ls. split; [exact HC|]. set (m := new_register p r ls rtrs want nonce xtr site) in *.
  assert (obj_mrec (new_mrec 0 p ls)) as Orec.
  { split; [reflexivity|]. split; [apply wf_pfx_addr, Wp|]. cbn [new_mrec mr_locs]. eapply Forall_impl; [|exact HL]. intros l Hl; apply Hl. }
  assert (good_mrec (new_mrec 0 p ls)) as Grec.
  { constructor; cbn [new_mrec mr_ttl mr_action mr_ver mr_eid mr_locs]; [unfold in_bits; lia|lia|unfold in_bits; lia|eauto|exact Ln|]. eapply Forall_impl; [|exact HL]. intros l Hl; apply Hl. }
  assert (obj_mreg m) as Om.
  { unfold m, new_register, obj_mreg. cbn [g_rsv1 g_rsv2 g_nonce g_records]. repeat split; auto. }
  assert (exists out0, mreg_to_bytes m = Ok out0) as (out0 & H0).
  { apply is_ok_iff. apply C91_map_register; [exact Om|]. unfold m, new_register. constructor; cbn [g_xtr g_site g_key g_authdata g_records length]; [auto|split; [exact K|cbn; lia]|]. split; [lia|]. auto. }
  destruct (insert_reg hm m (tr_key r) out0 HD Om H0) as (g & out' & g2' & EI & Eo & Ep & O2 & S2 & V2 & Fg & Fg2 & Mr & Rg).
  assert (g = g0) as -> by congruence. assert (out' = out) as -> by congruence. assert (g2' = g2) as -> by congruence.
  unfold m in Mr. cbn [new_register g_records mapM] in Mr. bo Mr rec Er. cbn [bind] in Mr. injection Mr as Mr. pose proof (sanitize_mrec_arrives _ _ Er) as AR.
  rewrite <- Mr in Nth. destruct i as [|i]; [|destruct i; discriminate]. cbn [nth_error] in Nth. injection Nth as <-.
  apply (Permutation_trans (l' := mr_locs rec)); [apply (proj1 (am_locs _ _ AR))|].
  destruct NR as [[_ ->]|[_ Er2]]; [reflexivity|apply (proj1 (am_locs _ _ (sanitize_mrec_arrives _ _ Er2)))].
Qed.
(** what is registered is from the last Map-Register, or a later one *)
Lemma last_one hm key more p t0 lc h T D E q s m i src now rg : wf_pfx p -> objects (up_to T h) ->
  Forall (fun x => 0 <= fst x <= D /\ 0 <= snd x <= E) lc -> history t0 lc h ->
  In (now, SpecMs.EvReg m i src now) h -> acceptable hm key more p m i src now q s rg -> now <= T <= now + 180 * sec ->
  exists rg' m' i' src' now', registered (ms_run hm p (new_ms key more) (up_to T h)) q s = Some rg' /\ T <= rg_deadline rg' /\
    In (now', SpecMs.EvReg m' i' src' now') h /\ acceptable hm key more p m' i' src' now' q s rg' /\ now <= now' <= T.
Proof.
  intros Wp Ob F HH I A W. destruct (stays_registered hm key more p t0 lc h T D E q s m i src now rg Wp Ob F HH I A W) as (rg' & R & Dl).
  pose proof R as R0. apply C51_store_refines in R; [|exact Wp|exact Ob]. destruct R as (h1 & m' & i' & src' & now' & h2 & Eh & A' & NA & NC).
  destruct HH as (HS & HC & HR). destruct (split_up_to _ _ _ _ _ Eh HS) as (l1 & t & l2 & Ef & -> & -> & Ht & B1 & B2 & I').
  destruct (HR _ _ _ _ _ I') as [-> H0]. exists rg', m', i', src', t. split; [exact R0|]. split; [exact Dl|]. split; [exact I'|]. split; [exact A'|]. split; [|exact Ht].
  assert (In (now, SpecMs.EvReg m i src now) (filter (fun e => fst e <=? T) h)) as If by (apply filter_In; split; [exact I|apply Z.leb_le; cbn; lia]).
  rewrite Ef in If. apply in_app_or in If. destruct If as [If|[If|If]].
  - apply B1 in If. cbn [fst] in If. exact If.
  - injection If as <- _ _ _. lia.
  - exfalso. apply (in_map snd) in If. cbn [snd] in If. exact (NA _ _ _ _ If _ A).
Qed.
(** C133: the addresses of the interfaces stop changing at [T].  The thread is never held up for longer than [G]; of the Map-Registers
    of every attempt after [T] one reaches the Map-Server within [d]; those of earlier ones arrive within [d] or never; and nobody
    else registers the prefix under this name.  Then at any time from [T + 60 s + G + 2 d] on, what the Map-Server has registered
    are the current addresses. *)
Theorem C133_reaches : forall hm p r xtr site src more q t0 lc D E h l G d t1 t2 rtr w locs socks T,
  digests hm -> wf_pfx p -> in_bits 128 xtr -> in_bits 64 site -> known_key_id (tr_keyid r) -> wf_pfx q -> inside p q -> (p = q \/ more = true) ->
  Forall (fun x => 0 <= fst x <= D /\ 0 <= snd x <= E) lc -> history t0 lc h -> (forall m i src now, In (now, SpecMs.EvReg m i src now) h -> obj_mreg m) ->
  in_order l -> nat_works l -> runs_every G l t1 t2 ->
  settled w T ->
  (forall a, attempt l a -> T <= a -> exists out m now, register_of hm p r xtr site rtr w locs socks a out /\ pkt_from_bytes KCtl out = Ok (PCtl (CReg m)) /\
     a <= now <= a + d /\ In (now, SpecMs.EvReg m 0 src now) h) ->
  (forall now m i src' rg, In (now, SpecMs.EvReg m i src' now) h -> acceptable hm (tr_key r) more q m i src' now p (who xtr site src) rg ->
     exists a out, attempt l a /\ register_of hm p r xtr site rtr w locs socks a out /\ pkt_from_bytes KCtl out = Ok (PCtl (CReg m)) /\ a <= now <= a + d) ->
  0 <= d -> minute + G + d <= 180 * sec ->
  forall X, T + minute + G + 2 * d <= X -> t1 + d <= X <= t2 + d ->
  exists rg, registered (ms_run hm q (new_ms (tr_key r) more) (up_to X h)) p (who xtr site src) = Some rg /\ X <= rg_deadline rg /\
    current rtr w T locs (mr_locs (rg_record rg)).
Proof.
  intros hm p r xtr site src more q t0 lc D E h l G d t1 t2 rtr w locs socks T HD Wp Rx Rs K Wq Hin Hm F HH Ob S N R St Net Only Hd B X HX Ht.
  destruct (C110_often G l t1 t2 S N R (X - d) ltac:(lia)) as (a & At & Wa). destruct (Net a At ltac:(lia)) as (out & m & now & RO & Ep & Wn & I).
  assert (register_bytes hm p r xtr site out) as RB by (destruct RO as (ls & rtrs & want & nonce & g & _ & R1); exists ls, rtrs, want, nonce, g; exact R1).
  destruct (register_acceptable hm p r xtr site out m more q src now HD Wp Rx Rs K Hin Hm RB Ep) as (Om & rec & A).
  assert (objects (up_to X h)) as Obx.
  { intros m' i' src' now' I'. unfold up_to in I'. apply in_map_iff in I'. destruct I' as ([t e] & Ee & I'). cbn [snd] in Ee. subst e. apply filter_In in I'. destruct I' as [I' _].
    destruct HH as (_ & _ & HR). destruct (HR _ _ _ _ _ I') as [-> _]. eapply Ob, I'. }
  assert (now <= X <= now + 180 * sec) as NX by lia.
  destruct (last_one hm (tr_key r) more q t0 lc h X D E p (who xtr site src) m 0%nat src now _ Wq Obx F HH I A NX) as (rg & m' & i' & src' & now' & Rg & Dl & I' & A' & W').
  exists rg. split; [exact Rg|]. split; [exact Dl|].
  destruct (Only _ _ _ _ _ I' A') as (a' & out' & At' & RO' & Ep' & Wa').
  destruct (register_of_stored hm p r xtr site rtr w locs socks a' out' m' more q src' now' p (who xtr site src) rg i' HD Wp Rx Rs K RO' Ep' A') as (ls & HC & P).
  eapply current_perm; [exact P|]. eapply C133_collected; [exact St| |exact HC]. lia.
Qed.

(** ** The hypotheses: the interface gets another address 10 seconds after the start; attempts at 0 and 80 seconds *)
Definition mv_T : Z := PropEtr2.start + 10 * sec.
Definition mv_old : Z := 3405803777.
Definition mv_new : Z := 3405803778.
Definition mv_w (t : Z) (i : nat) : Z := if t <? mv_T then mv_old else mv_new.
Definition mv_l : cloc := CLoc (Loc 1 100 255 0 (repeat false 13) false false false (AIP V4 0)) (Some 0%nat).
Definition mv_r : etrr := Etrr (V4, 5) 1 (B [1;2]) true None.
Definition mv_src : fam * Z := (V4, 7).
Definition mv_history (m1 m2 : mreg) : list (Z * SpecMs.ms_ev) :=
  [(PropEtr2.start + sec, SpecMs.EvReg m1 0 mv_src (PropEtr2.start + sec)); (PropEtr2.start + 81 * sec, SpecMs.EvReg m2 0 mv_src (PropEtr2.start + 81 * sec))].
Lemma mv_message z a : (z = mv_old \/ z = mv_new) -> (forall i, mv_w a i = z) -> exists out m,
  register_of toy_hm p16 mv_r 9 3 (fun _ => False) mv_w [mv_l] [] a out /\ pkt_from_bytes KCtl out = Ok (PCtl (CReg m)).
Proof.
  intros Hz Hw. set (x := new_loc (cl_loc mv_l) false (AIP V4 z)).
  assert (obj_loc x /\ good_locator x) as HL.
  { split; [reflexivity|]. constructor.
    + unfold octet, x. cbn. lia.
    + exists V4, z. split; [reflexivity|]. unfold in_bits. destruct Hz as [-> | ->]; unfold mv_old, mv_new; cbn; lia.
    + unfold x. cbn [new_loc l_addr]. intros F. destruct Hz as [-> | ->]; inversion F as [|z1 F1| |]; subst; unfold in_prefix in F1; vm_compute in F1; discriminate F1. }
  set (mm := new_register p16 mv_r [x] [] true (repeat zero_byte 8) 9 3).
  assert (exists g out m, insert toy_hm (AReg mm) (tr_key mv_r) = (AReg g, Ok tt) /\ mreg_to_bytes g = Ok out /\ pkt_from_bytes KCtl out = Ok (PCtl (CReg m))) as (g & out & m & E1 & E2 & E3).
  { unfold mm, x. clear - Hz. destruct (insert toy_hm (AReg (new_register p16 mv_r [new_loc (cl_loc mv_l) false (AIP V4 z)] [] true (repeat zero_byte 8) 9 3)) (tr_key mv_r)) as [[g| |] [[]|]] eqn:EI;
      try (destruct Hz as [-> | ->]; vm_compute in EI; discriminate).
    destruct (mreg_to_bytes g) as [out|] eqn:Eo; [|exfalso; destruct Hz as [-> | ->]; vm_compute in EI; injection EI as <-; vm_compute in Eo; discriminate].
    destruct (pkt_from_bytes KCtl out) as [pk|] eqn:Ep; [|exfalso; destruct Hz as [-> | ->]; vm_compute in EI; injection EI as <-; vm_compute in Eo; injection Eo as <-; vm_compute in Ep; discriminate].
    assert (exists m, pk = PCtl (CReg m)) as [m ->].
    { destruct Hz as [-> | ->]; vm_compute in EI; injection EI as <-; vm_compute in Eo; injection Eo as <-; vm_compute in Ep; injection Ep as <-; eauto. }
    exists g, out, m. auto. }
  exists out, m. split; [|exact E3]. exists [x], [], true, (repeat zero_byte 8), g.
  split; [|split; [constructor; [exact HL|constructor]|split; [cbn; lia|split; [reflexivity|split; [exact E1|exact E2]]]]].
  exists (fun _ => a), [], [], 2%nat. split; [intros; lia|]. split; [intros ? []|].
  unfold collect_locators. cbn [get_rtrs bind concat fold_left collect mv_l addr_at cl_loc cl_auto l_addr local_now]. rewrite Hw.
  destruct Hz as [-> | ->]; reflexivity.
Qed.
Example C133_example : exists m1 m2, let h := mv_history m1 m2 in
  in_order ex_thread3 /\ nat_works ex_thread3 /\ runs_every (40 * sec) ex_thread3 PropEtr2.start (PropEtr2.start + 120 * sec) /\ history 0 [] h /\
  (forall m i src now, In (now, SpecMs.EvReg m i src now) h -> obj_mreg m) /\ settled mv_w mv_T /\
  (forall a, attempt ex_thread3 a -> mv_T <= a -> exists out m now, register_of toy_hm p16 mv_r 9 3 (fun _ => False) mv_w [mv_l] [] a out /\
     pkt_from_bytes KCtl out = Ok (PCtl (CReg m)) /\ a <= now <= a + sec /\ In (now, SpecMs.EvReg m 0 mv_src now) h) /\
  (forall now m i src' rg, In (now, SpecMs.EvReg m i src' now) h -> acceptable toy_hm (tr_key mv_r) true p8 m i src' now p16 (who 9 3 mv_src) rg ->
     exists a out, attempt ex_thread3 a /\ register_of toy_hm p16 mv_r 9 3 (fun _ => False) mv_w [mv_l] [] a out /\ pkt_from_bytes KCtl out = Ok (PCtl (CReg m)) /\ a <= now <= a + sec) /\
  exists rg x, registered (ms_run toy_hm p8 (new_ms (tr_key mv_r) true) (up_to (PropEtr2.start + 121 * sec) h)) p16 (SXtr 3 9) = Some rg /\
    In x (mr_locs (rg_record rg)) /\ l_addr x = AIP V4 mv_new.
Proof.
  destruct (mv_message mv_old PropEtr2.start (or_introl eq_refl)) as (o1 & m1 & R1 & P1); [intros i; vm_compute; reflexivity|].
  destruct (mv_message mv_new (PropEtr2.start + 80 * sec) (or_intror eq_refl)) as (o2 & m2 & R2 & P2); [intros i; vm_compute; reflexivity|].
  exists m1, m2. set (h := mv_history m1 m2). cbv zeta.
  assert (wf_pfx p16 /\ inside p16 p8) as [W16 I16] by (split; [exact p16_wf|]; apply inside_interval; [exact p16_wf|exact p8_wf|]; vm_compute; repeat split; congruence).
  assert (in_bits 128 9 /\ in_bits 64 3 /\ known_key_id (tr_keyid mv_r)) as (B1 & B2 & B3) by (split; [unfold in_bits; lia|]; split; [unfold in_bits; lia|right; left; reflexivity]).
  assert (obj_mreg m1 /\ obj_mreg m2) as [O1 O2].
  { split; [destruct R1 as (ls & rt & wa & no & g & _ & R1)|destruct R2 as (ls & rt & wa & no & g & _ & R2)];
      eapply (register_acceptable toy_hm p16 mv_r 9 3 _ _ true p8 mv_src 0 toy_digests W16 B1 B2 B3 I16 (or_intror eq_refl)); try eassumption; exists ls, rt, wa, no, g; assumption. }
  assert (in_order ex_thread3) as A1 by (unfold ex_thread3, in_order, PropEtr2.start, minute, sec; repeat constructor; cbn; lia).
  assert (nat_works ex_thread3) as A2 by (repeat constructor).
  assert (runs_every (40 * sec) ex_thread3 PropEtr2.start (PropEtr2.start + 120 * sec)) as A3.
  { intros t Ht. destruct (Z_lt_ge_dec t (PropEtr2.start + 40 * sec)); [exists (go PropEtr2.start)|destruct (Z_lt_ge_dec t (PropEtr2.start + 80 * sec)); [exists (go (PropEtr2.start + 40 * sec))|exists (go (PropEtr2.start + 80 * sec))]];
      (split; [unfold ex_thread3; cbn [In]; auto|cbn [in_now go]; unfold PropEtr2.start, minute, sec in *; lia]). }
  assert (history 0 [] h) as A4.
  { split; [|split; [reflexivity|]].
    - unfold h, mv_history, PropEtr2.start, minute, sec. repeat constructor; cbn; lia.
    - intros t m' i src now [I|[I|[]]]; injection I as <- _ _ _ <-; unfold PropEtr2.start, minute, sec; split; lia || reflexivity. }
  assert (forall m' i src now, In (now, SpecMs.EvReg m' i src now) h -> obj_mreg m') as A5 by (intros m' i src now [I|[I|[]]]; injection I as _ <- _ _; assumption).
  assert (forall a, attempt ex_thread3 a <-> a = PropEtr2.start \/ a = PropEtr2.start + 80 * sec) as AT.
  { intros a. assert (thread_log ex_thread3 = [(go PropEtr2.start, [EvNat; EvReg true]); (go (PropEtr2.start + 40 * sec), []); (go (PropEtr2.start + 80 * sec), [EvReg false])]) as EL by (vm_compute; reflexivity).
    unfold attempt. rewrite EL. split.
    - intros (x & [<-|[<-|[<-|[]]]] & Rx & <-); cbn [fst in_now go]; [auto|destruct Rx as [f []]|auto].
    - intros [->| ->]; [exists (go PropEtr2.start, [EvNat; EvReg true])|exists (go (PropEtr2.start + 80 * sec), [EvReg false])]; (split; [cbn [In]; auto|split; [|reflexivity]]); [exists true; right; left; reflexivity|exists false; left; reflexivity]. }
  assert (settled mv_w mv_T) as A6.
  { intros t i L. unfold mv_w. rewrite Z.ltb_irrefl. destruct (Z.ltb_spec t mv_T); [lia|reflexivity]. }
  assert (forall a, attempt ex_thread3 a -> mv_T <= a -> exists out m now, register_of toy_hm p16 mv_r 9 3 (fun _ => False) mv_w [mv_l] [] a out /\
     pkt_from_bytes KCtl out = Ok (PCtl (CReg m)) /\ a <= now <= a + sec /\ In (now, SpecMs.EvReg m 0 mv_src now) h) as A7.
  { intros a Ha L. apply AT in Ha. destruct Ha as [->| ->]; [unfold mv_T, sec in L; lia|].
    exists o2, m2, (PropEtr2.start + 81 * sec). split; [exact R2|]. split; [exact P2|]. split; [unfold sec; lia|right; left; reflexivity]. }
  assert (forall now m i src' rg, In (now, SpecMs.EvReg m i src' now) h -> acceptable toy_hm (tr_key mv_r) true p8 m i src' now p16 (who 9 3 mv_src) rg ->
     exists a out, attempt ex_thread3 a /\ register_of toy_hm p16 mv_r 9 3 (fun _ => False) mv_w [mv_l] [] a out /\ pkt_from_bytes KCtl out = Ok (PCtl (CReg m)) /\ a <= now <= a + sec) as A8.
  { intros now m i src' rg [I|[I|[]]] _; injection I as <- <- <- <-.
    - exists PropEtr2.start, o1. split; [apply AT; auto|]. split; [exact R1|]. split; [exact P1|]. unfold PropEtr2.start, minute, sec; lia.
    - exists (PropEtr2.start + 80 * sec), o2. split; [apply AT; auto|]. split; [exact R2|]. split; [exact P2|]. unfold PropEtr2.start, minute, sec; lia. }
  repeat (split; [assumption|]).
  destruct (C133_reaches toy_hm p16 mv_r 9 3 mv_src true p8 0 [] 0 0 h ex_thread3 (40 * sec) sec PropEtr2.start (PropEtr2.start + 120 * sec) (fun _ => False) mv_w [mv_l] [] mv_T
    toy_digests W16 B1 B2 B3 p8_wf I16 (or_intror eq_refl)) with (X := PropEtr2.start + 121 * sec) as (rg & Hr & _ & _ & Hc); auto.
  - unfold PropEtr2.start, minute, sec; lia.
  - unfold minute, sec. lia.
  - unfold mv_T, minute, sec. lia.
  - unfold sec. lia.
  - destruct (Hc mv_l V4 mv_new) as [(x & X1 & _ & X2)|(x & _ & [])].
    + left. reflexivity.
    + exists 0. split; [reflexivity|]. vm_compute. reflexivity.
    + unfold mv_new. lia.
    + exists rg, x. auto.
Qed.
Print Assumptions C133_collected.
Print Assumptions C133_attempt.
Print Assumptions C133_reaches.
