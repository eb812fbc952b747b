(** * Property C110: an ETR that works stays registered *)
From Coq Require Import Permutation Sorted.
From Verif Require Import Base BaseLemmas Afi AfiProofs Spec SpecLemmas SpecEid PropEid Records Control SpecRec RecordsProofs ControlProofs
  PropControl Packet PacketProofs PacketStack SpecPkt PropPacket PropPacket3 PropPacket Auth SpecAuth PropAuth Tree SpecTree TreeProofs PropTree PropTree2
  Dict MapServer SpecMs PropMs PropMs2 Net Etr SpecEtr PropEtr PropEtr2 Daemon SpecDaemon PropDaemon PropDaemon2 SpecRoute PropRoute SpecAccept PropAccept PropLoop PropLoop2
  Sched SpecSched PropSched.

(** the iterations of a registration thread in the order of their times; NAT detection does not raise *)
Definition in_order (l : list inp) : Prop := StronglySorted (fun a b => in_now a <= in_now b) l.
Definition nat_works (l : list inp) : Prop := Forall (fun i => in_nat i = true) l.
(** from [t1] to [t2] the thread is never held up for longer than [G] *)
Definition runs_every (G : Z) (l : list inp) (t1 t2 : Z) : Prop :=
  forall t, t1 <= t <= t2 -> exists i, In i l /\ in_now i <= t <= in_now i + G.
(** the thread sent (or tried to send) a Map-Register at time [t] *)
Definition attempt (l : list inp) (t : Z) : Prop := exists x, In x (thread_log l) /\ SpecEtr.registers (snd x) /\ in_now (fst x) = t.

Lemma log_fst s l : map fst (SpecEtr.history s l) = l.
Proof. revert s. induction l as [|i l IH]; intros s; cbn [SpecEtr.history]; [reflexivity|]. destruct (iteration s i) as [s' e]. cbn [map fst]. rewrite IH. reflexivity. Qed.
(** an iteration that does not register follows one that did, at most a minute before *)
Lemma recent l : forall s (Q : Z -> Prop), nat_works l -> in_order l -> (forall t i, Q t -> In i l -> t <= in_now i) ->
  (r_ok s = true -> Q (r_reg s)) ->
  forall x, In x (SpecEtr.history s l) -> exists t, (Q t \/ exists y, In y (SpecEtr.history s l) /\ SpecEtr.registers (snd y) /\ in_now (fst y) = t) /\ t <= in_now (fst x) <= t + minute.
Proof.
  induction l as [|i l IH]; intros s Q N S B HQ x I; cbn [SpecEtr.history] in *; [destruct I|].
  destruct (iteration s i) as [s' e] eqn:E. inversion N as [|? ? Ni N']; subst. inversion S as [|? ? S' F]; subst.
  destruct (iteration_spec _ _ _ _ E) as (D & R & T & _ & _ & C & X & K).
  assert (SpecEtr.registers e \/ (quiet (i, e) /\ r_ok s = true /\ in_now i <= r_reg s + minute)) as [Re|(Qi & Ok1 & Rg)].
  { destruct (r_ok s) eqn:Eo; [|left; apply R; left; auto].
    destruct (Z_lt_ge_dec (r_nat s + 15 * minute) (in_now i)) as [L|L]; [left; apply R; left; auto|].
    destruct (Z_lt_ge_dec (r_reg s + minute) (in_now i)) as [L2|L2]; [left; apply R; right; split; [intros [|]; [discriminate|lia]|auto]|].
    destruct (r_need s) eqn:En; [left; apply R; right; split; [intros [|]; [discriminate|lia]|left; left; reflexivity]|].
    destruct (in_sig i) eqn:Es; [left; apply R; right; split; [intros [|]; [discriminate|lia]|left; right; reflexivity]|].
    right. split; [|split; [reflexivity|lia]]. intros Y. cbn [snd] in Y. apply R in Y. destruct Y as [[[|] _]|[_ [[|]|]]]; try discriminate; lia. }
  - destruct I as [<-|I]; [exists (in_now i); split; [right; exists (i, e); cbn [fst snd]; split; [left; reflexivity|auto]|cbn [fst]; unfold minute; lia]|].
    destruct (IH s' (fun t => Q t \/ t = in_now i) N' S') with (x := x) as (t & Ht & W).
    + intros t j [Qt| ->] Ij; [apply (B t j Qt); right; exact Ij|]. rewrite Forall_forall in F. exact (F j Ij).
    + intros Ok'. destruct (in_reg i) as [b|] eqn:Er.
      * destruct (C b) as (_ & -> & _); [split; assumption|]. right. reflexivity.
      * destruct X as (E1 & _ & X1 & X2); [split; assumption|]. left. rewrite E1. apply HQ.
        destruct (r_ok s) eqn:Eo; [reflexivity|]. rewrite (X1) in Ok'; [discriminate|]. split; [apply D; left; reflexivity|exact Ni].
    + exact I.
    + exists t. split; [|exact W]. destruct Ht as [[Qt| ->]|(y & Iy & Ry & Ey)]; [left; exact Qt|right; exists (i, e); cbn [fst snd]; split; [left; reflexivity|auto]|right; exists y; split; [right; exact Iy|auto]].
  - destruct (K Qi) as (E1 & E2 & _). destruct I as [<-|I].
    + exists (r_reg s). cbn [fst]. split; [left; apply HQ, Ok1|]. split; [|exact Rg]. apply (B _ i (HQ Ok1)). left. reflexivity.
    + destruct (IH s' Q N' S') with (x := x) as (t & Ht & W).
      * intros t j Qt Ij. apply (B t j Qt). right. exact Ij.
      * rewrite E1, E2. exact HQ.
      * exact I.
      * exists t. split; [|exact W]. destruct Ht as [Qt|(y & Iy & Ry & Ey)]; [left; exact Qt|right; exists y; split; [right; exact Iy|auto]].
Qed.
(** C110: whatever the registrations come to and whatever is signalled, the thread registers again within a minute and one iteration *)
Theorem C110_often : forall G l t1 t2, in_order l -> nat_works l -> runs_every G l t1 t2 ->
  forall t, t1 <= t <= t2 -> exists a, attempt l a /\ a <= t <= a + minute + G.
Proof.
  intros G l t1 t2 S N R t Ht. destruct (R t Ht) as (i & I & W).
  assert (exists x, In x (thread_log l) /\ fst x = i) as (x & Ix & <-).
  { rewrite <- (log_fst rs0 l) in I. apply in_map_iff in I. destruct I as (x & E & Ix). eauto. }
  destruct (recent l rs0 (fun _ => False) N S) with (x := x) as (a & [[]|(y & Iy & Ry & Ey)] & Wa); [intros ? ? []|discriminate|exact Ix|].
  exists a. split; [exists y; auto|]. lia.
Qed.

(** [out] are the bytes of a Map-Register the thread of registration [r] of prefix [p] sends (etr_node.py:356-374); the locators are
    good ones, the nonce is eight bytes, the rest does not matter *)
Definition register_bytes hm (p : pfx) (r : etrr) (xtr site : Z) (out : bytes) : Prop :=
  exists locs rtrs want nonce g, Forall (fun l => obj_loc l /\ good_locator l) locs /\ (length locs <= 255)%nat /\ length nonce = 8%nat /\
    insert hm (AReg (new_register p r locs rtrs want nonce xtr site)) (tr_key r) = (AReg g, Ok tt) /\ mreg_to_bytes g = Ok out.
Definition who (xtr site : Z) (src : fam * Z) : source := if xtr =? 0 then SAddr (fst src) (snd src) else SXtr site xtr.
Lemma register_acceptable hm p r xtr site out g2 more q src now : digests hm -> wf_pfx p -> in_bits 128 xtr -> in_bits 64 site -> known_key_id (tr_keyid r) ->
  inside p q -> (p = q \/ more = true) -> register_bytes hm p r xtr site out -> pkt_from_bytes KCtl out = Ok (PCtl (CReg g2)) ->
  obj_mreg g2 /\ exists rec, acceptable hm (tr_key r) more q g2 0 src now p (who xtr site src) (Reg rec (tr_proxy r) (now + 180 * sec)).
Proof.
  intros HD Wp Rx Rs K Hin Hmore (locs & rtrs & want & nonce & g0 & HL & Ln & Lnon & EI0 & Eo0) Ep0.
  set (m := new_register p r locs rtrs want nonce xtr site) in *.
  assert (obj_mrec (new_mrec 0 p locs)) as Orec.
  { split; [reflexivity|]. split; [apply wf_pfx_addr, Wp|]. cbn [new_mrec mr_locs]. eapply Forall_impl; [|exact HL]. intros l Hl; apply Hl. }
  assert (good_mrec (new_mrec 0 p locs)) as Grec.
  { constructor; cbn [new_mrec mr_ttl mr_action mr_ver mr_eid mr_locs]; [unfold in_bits; lia|lia|unfold in_bits; lia|eauto|exact Ln|]. eapply Forall_impl; [|exact HL]. intros l Hl; apply Hl. }
  assert (obj_mreg m) as Om.
  { unfold m, new_register, obj_mreg. cbn [g_rsv1 g_rsv2 g_nonce g_records]. repeat split; auto. }
  assert (exists out0, mreg_to_bytes m = Ok out0) as (out0 & H0).
  { apply is_ok_iff. apply C91_map_register; [exact Om|]. unfold m, new_register. constructor; cbn [g_xtr g_site g_key g_authdata g_records length]; [auto|split; [exact K|cbn; lia]|]. split; [lia|]. auto. }
  destruct (insert_reg hm m (tr_key r) out0 HD Om H0) as (g & out' & g2' & EI & Eo & Ep & O2 & S2 & V2 & Fg & Fg2 & Mr & Rg).
  assert (g = g0) as -> by congruence. assert (out' = out) as -> by congruence. assert (g2' = g2) as -> by congruence. clear EI0 Eo0 Ep0.
  unfold m in Fg, Fg2, Mr, Rg. cbn [new_register g_proxy g_notify g_nonce g_key g_xtr g_site g_records] in Fg, Fg2, Mr, Rg.
  cbn [mapM] in Mr. bo Mr rec Er. cbn [bind] in Mr. injection Mr as Mr. pose proof (sanitize_mrec_arrives _ _ Er) as AR.
  injection Fg2 as G1 G2 G3 G4 G5 G6.
  assert (mr_eid rec = ANet (x_fam p) (x_net p) (x_len p)) as Eeid by (destruct AR as []; cbn [new_mrec mr_eid] in *; congruence).
  assert (determine (mr_eid rec) = Some (0, match x_fam p with V4 => 1 | V6 => 2 end, ANet (x_fam p) (x_net p) (x_len p))) as Ed by (rewrite Eeid; destruct (x_fam p); reflexivity).
  split; [exact O2|]. exists rec. exists rec, rec. split; [exact V2|]. split; [rewrite <- Mr; reflexivity|]. split; [eexists _, _; apply eid_named_spec; exact Ed|].
  split; [exact Hin|]. split; [exact Hmore|]. split.
  - unfold sender, who. rewrite G5, G6. destruct (Z.eqb_spec xtr 0); auto.
  - split; [|rewrite G1; reflexivity]. destruct (Z.eq_dec (g_key g2) 0); [left; auto|right; split; [assumption|eapply sanitize_mrec_idem; eauto]].
Qed.
(** the last registration of a prefix and source in the last 180 seconds is there, whatever else happened *)
Lemma stays_registered hm key more p t0 lc h T D E q s m i src now rg : wf_pfx p -> objects (up_to T h) ->
  Forall (fun x => 0 <= fst x <= D /\ 0 <= snd x <= E) lc -> history t0 lc h ->
  In (now, SpecMs.EvReg m i src now) h -> acceptable hm key more p m i src now q s rg -> now <= T <= now + 180 * sec ->
  exists rg', registered (ms_run hm p (new_ms key more) (up_to T h)) q s = Some rg' /\ T <= rg_deadline rg'.
Proof.
  intros Wp Ob F HH I A W. destruct (registered (ms_run hm p (new_ms key more) (up_to T h)) q s) as [rg'|] eqn:R.
  - exists rg'. split; [reflexivity|]. apply C51_store_refines in R; [|exact Wp|exact Ob]. destruct R as (h1 & m' & i' & src' & now' & h2 & Eh & A' & NA & NC).
    pose proof A' as (r1 & r2 & _ & _ & _ & _ & _ & _ & _ & ->). cbn [rg_deadline].
    destruct HH as (HS & HC & HR). destruct (split_up_to _ _ _ _ _ Eh HS) as (l1 & t & l2 & Ef & -> & -> & Ht & B1 & B2 & I').
    destruct (HR _ _ _ _ _ I') as [-> H0].
    assert (In (now, SpecMs.EvReg m i src now) (filter (fun e => fst e <=? T) h)) as If by (apply filter_In; split; [exact I|apply Z.leb_le; cbn; lia]).
    rewrite Ef in If. apply in_app_or in If. destruct If as [If|[If|If]].
    + apply B1 in If. cbn [fst] in If. lia.
    + injection If as <- _ _ _. lia.
    + apply (in_map snd) in If. cbn [snd] in If. destruct (NA _ _ _ _ If _ A).
  - exfalso. assert (forall n h1 m i src now rg h2, length h2 = n -> up_to T h = h1 ++ SpecMs.EvReg m i src now :: h2 -> acceptable hm key more p m i src now q s rg -> T <= now + 180 * sec -> False) as K.
    { induction n as [n IH] using lt_wf_ind. intros h1 m1 i1 src1 now1 rg1 h2 L Eh A1 W1.
      assert (registered (ms_run hm p (new_ms key more) (up_to T h)) q s = Some rg1) as X; [|congruence].
      eapply (C98_not_early hm key more p t0 lc h T D E); eauto. intros m2 i2 src2 now2 I2 rg2 A2. apply in_split in I2. destruct I2 as (h3 & h4 & E2).
      apply (IH (length h4)) with (h1 := h1 ++ SpecMs.EvReg m1 i1 src1 now1 :: h3) (m := m2) (i := i2) (src := src2) (now := now2) (rg := rg2) (h2 := h4); auto.
      - rewrite <- L, E2, app_length. cbn [length]. lia.
      - rewrite Eh, E2, <- app_assoc. reflexivity.
      - destruct HH as (HS & HC & HR). destruct (split_up_to _ _ _ _ _ Eh HS) as (l1 & t & l2 & Ef & _ & El2 & Ht & B1 & B2 & I').
        assert (In (SpecMs.EvReg m2 i2 src2 now2) h2) as I2 by (rewrite E2; apply in_elt). rewrite El2 in I2. apply in_map_iff in I2. destruct I2 as ([t2 e2] & Ee & I2). cbn [snd] in Ee. subst e2.
        pose proof (B2 _ I2) as B. cbn [fst] in B. destruct (HR _ _ _ _ _ I') as [-> _].
        assert (In (t2, SpecMs.EvReg m2 i2 src2 now2) h) as I3. { assert (In (t2, SpecMs.EvReg m2 i2 src2 now2) (filter (fun e => fst e <=? T) h)) as Y by (rewrite Ef; apply in_or_app; right; right; exact I2). apply filter_In in Y. apply Y. }
        destruct (HR _ _ _ _ _ I3) as [-> _]. lia. }
    assert (In (SpecMs.EvReg m i src now) (up_to T h)) as Iu by (unfold up_to; apply in_map_iff; exists (now, SpecMs.EvReg m i src now); split; [reflexivity|]; apply filter_In; split; [exact I|apply Z.leb_le; cbn; lia]).
    apply in_split in Iu. destruct Iu as (h1 & h2 & Eh). apply (K _ h1 m i src now rg h2 eq_refl Eh A). lia.
Qed.
(** C110: the thread runs at least every [G], and of the Map-Registers of every attempt at least one reaches the Map-Server within [d].
    Then, from the first attempt on, the prefix is registered all the time, if a minute, [G] and [d] are not more than three minutes;
    whatever else is registered, by whomever, and whatever the cleanup thread does *)
Theorem C110_stays : forall hm p r xtr site src more q t0 lc D E h l G d t1 t2,
  digests hm -> wf_pfx p -> in_bits 128 xtr -> in_bits 64 site -> known_key_id (tr_keyid r) -> wf_pfx q -> inside p q -> (p = q \/ more = true) ->
  Forall (fun x => 0 <= fst x <= D /\ 0 <= snd x <= E) lc -> history t0 lc h -> (forall m i src now, In (now, SpecMs.EvReg m i src now) h -> obj_mreg m) ->
  in_order l -> nat_works l -> runs_every G l t1 t2 ->
  (forall a, attempt l a -> exists out m now, register_bytes hm p r xtr site out /\ pkt_from_bytes KCtl out = Ok (PCtl (CReg m)) /\
     a <= now <= a + d /\ In (now, SpecMs.EvReg m 0 src now) h) ->
  minute + G + d <= 180 * sec ->
  forall T, t1 + d <= T <= t2 + d ->
  exists rg, registered (ms_run hm q (new_ms (tr_key r) more) (up_to T h)) p (who xtr site src) = Some rg /\ T <= rg_deadline rg.
Proof.
  intros hm p r xtr site src more q t0 lc D E h l G d t1 t2 HD Wp Rx Rs K Wq Hin Hm F HH Ob S N R Net B T HT.
  destruct (C110_often G l t1 t2 S N R (T - d) ltac:(lia)) as (a & At & Wa). destruct (Net a At) as (out & m & now & RB & Ep & Wn & I).
  destruct (register_acceptable hm p r xtr site out m more q src now HD Wp Rx Rs K Hin Hm RB Ep) as (Om & rec & A).
  eapply (stays_registered hm (tr_key r) more q t0 lc h T D E); eauto; [|lia].
  intros m' i' src' now' I'. unfold up_to in I'. apply in_map_iff in I'. destruct I' as ([t e] & Ee & I'). cbn [snd] in Ee. subst e. apply filter_In in I'. destruct I' as [I' _].
  destruct HH as (_ & _ & HR). destruct (HR _ _ _ _ _ I') as [-> _]. eapply Ob, I'.
Qed.
(** example: iterations at 0, 40 and 80 seconds, attempts at 0 and 80, each arriving a second later *)
Definition ex_thread3 : list inp := [go PropEtr2.start; go (PropEtr2.start + 40 * sec); go (PropEtr2.start + 80 * sec)].
Definition ex_loc : loc := new_loc (Loc 1 100 255 0 (repeat false 13) true false true ANone) true (AIP V4 3405803777).
Example C110_example : let r := Etrr (V4, 5) 1 (B [1;2]) true None in exists out m,
  let h := [(PropEtr2.start + sec, SpecMs.EvReg m 0 (V4, 7) (PropEtr2.start + sec)); (PropEtr2.start + 81 * sec, SpecMs.EvReg m 0 (V4, 7) (PropEtr2.start + 81 * sec))] in
  in_order ex_thread3 /\ nat_works ex_thread3 /\ runs_every (40 * sec) ex_thread3 PropEtr2.start (PropEtr2.start + 120 * sec) /\ history 0 [] h /\
  (forall m' i src now, In (now, SpecMs.EvReg m' i src now) h -> obj_mreg m') /\
  register_bytes toy_hm p16 r 9 3 out /\ pkt_from_bytes KCtl out = Ok (PCtl (CReg m)) /\
  (forall a, attempt ex_thread3 a -> exists now, a <= now <= a + sec /\ In (now, SpecMs.EvReg m 0 (V4, 7) now) h) /\
  exists rg, registered (ms_run toy_hm p8 (new_ms (B [1;2]) true) (up_to (PropEtr2.start + 121 * sec) h)) p16 (SXtr 3 9) = Some rg.
Proof.
  intros r.
  assert (Forall (fun l => obj_loc l /\ good_locator l) [ex_loc]) as HL.
  { constructor; [|constructor]. split; [reflexivity|]. constructor.
    + unfold octet, ex_loc. cbn. lia.
    + exists V4, 3405803777. split; [reflexivity|]. unfold in_bits. cbn. lia.
    + intros F. inversion F as [|z F1| |]; subst. unfold in_prefix in F1. vm_compute in F1. discriminate F1. }
  set (mm := new_register p16 r [ex_loc] [] true (repeat zero_byte 8) 9 3).
  destruct (insert toy_hm (AReg mm) (tr_key r)) as [[g| |] [[]|]] eqn:EI; try (vm_compute in EI; discriminate).
  destruct (mreg_to_bytes g) as [out|] eqn:Eo; [|exfalso; vm_compute in EI; injection EI as <-; vm_compute in Eo; discriminate].
  destruct (pkt_from_bytes KCtl out) as [pk|] eqn:Ep; [|exfalso; vm_compute in EI; injection EI as <-; vm_compute in Eo; injection Eo as <-; vm_compute in Ep; discriminate].
  assert (exists m, pk = PCtl (CReg m)) as [m ->].
  { vm_compute in EI; injection EI as <-; vm_compute in Eo; injection Eo as <-; vm_compute in Ep. injection Ep as <-. eauto. }
  assert (register_bytes toy_hm p16 r 9 3 out) as RB by (exists [ex_loc], [], true, (repeat zero_byte 8), g; split; [exact HL|]; split; [cbn; lia|]; split; [reflexivity|]; split; [exact EI|exact Eo]).
  assert (wf_pfx p16 /\ inside p16 p8) as [W16 I16] by (split; [exact p16_wf|]; apply inside_interval; [exact p16_wf|exact p8_wf|]; vm_compute; repeat split; congruence).
  assert (in_bits 128 9 /\ in_bits 64 3 /\ known_key_id (tr_keyid r)) as (R1 & R2 & R3) by (split; [unfold in_bits; lia|]; split; [unfold in_bits; lia|right; left; reflexivity]).
  destruct (register_acceptable toy_hm p16 r 9 3 out m true p8 (V4, 7) 0 toy_digests W16 R1 R2 R3 I16 (or_intror eq_refl) RB Ep) as (Om & _).
  exists out, m. set (h := [_; _]). cbv zeta.
  assert (in_order ex_thread3) as A1 by (unfold ex_thread3, in_order, PropEtr2.start, minute, sec; repeat constructor; cbn; lia).
  assert (nat_works ex_thread3) as A2 by (repeat constructor).
  assert (runs_every (40 * sec) ex_thread3 PropEtr2.start (PropEtr2.start + 120 * sec)) as A3.
  { intros t Ht. destruct (Z_lt_ge_dec t (PropEtr2.start + 40 * sec)); [exists (go PropEtr2.start)|destruct (Z_lt_ge_dec t (PropEtr2.start + 80 * sec)); [exists (go (PropEtr2.start + 40 * sec))|exists (go (PropEtr2.start + 80 * sec))]];
      (split; [unfold ex_thread3; cbn [In]; auto|cbn [in_now go]; unfold PropEtr2.start, minute, sec in *; lia]). }
  assert (history 0 [] h) as A4.
  { split; [|split; [reflexivity|]].
    - unfold h, PropEtr2.start, minute, sec. repeat constructor; cbn; lia.
    - intros t m' i src now [I|[I|[]]]; injection I as <- _ _ _ <-; unfold PropEtr2.start, minute, sec; split; lia || reflexivity. }
  assert (forall m' i src now, In (now, SpecMs.EvReg m' i src now) h -> obj_mreg m') as A5 by (intros m' i src now [I|[I|[]]]; injection I as _ <- _ _; exact Om).
  assert (forall a, attempt ex_thread3 a -> exists now, a <= now <= a + sec /\ In (now, SpecMs.EvReg m 0 (V4, 7) now) h) as A6.
  { intros a (x & Ix & Rx & <-). assert (thread_log ex_thread3 = [(go PropEtr2.start, [EvNat; EvReg true]); (go (PropEtr2.start + 40 * sec), []); (go (PropEtr2.start + 80 * sec), [EvReg false])]) as EL by (vm_compute; reflexivity).
    rewrite EL in Ix. destruct Ix as [<-|[<-|[<-|[]]]]; cbn [fst in_now go].
    - exists (PropEtr2.start + sec). split; [unfold sec; lia|left; reflexivity].
    - destruct Rx as [f []].
    - exists (PropEtr2.start + 81 * sec). split; [unfold sec; lia|right; left; reflexivity]. }
  split; [exact A1|]. split; [exact A2|]. split; [exact A3|]. split; [exact A4|]. split; [exact A5|]. split; [exact RB|]. split; [exact Ep|]. split; [exact A6|].
  destruct (C110_stays toy_hm p16 r 9 3 (V4, 7) true p8 0 [] 0 0 h ex_thread3 (40 * sec) sec PropEtr2.start (PropEtr2.start + 120 * sec) toy_digests W16 R1 R2 R3 p8_wf I16 (or_intror eq_refl)) with (T := PropEtr2.start + 121 * sec) as (rg & Hr & _); auto.
  - intros a Ha. destruct (A6 a Ha) as (now & Hn & In1). exists out, m, now. auto.
  - unfold minute, sec. lia.
  - unfold sec. lia.
  - exists rg. exact Hr.
Qed.
Print Assumptions C110_often.
Print Assumptions C110_stays.
