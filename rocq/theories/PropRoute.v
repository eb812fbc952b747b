(** * Properties C79, C80, C83: Map-Notifies and Info-Replies reach the requests that wait for them *)
From Verif Require Import Base BaseLemmas Afi AfiProofs Spec SpecEid PropEid Records Control SpecRec PropControl Packet SpecPkt PropPacket PropUdp PropPacket2 PropPacket3
  Auth SpecAuth PropAuth Tree SpecTree TreeProofs Dict MapServer SpecMs PropMs PropMs2 Net Ddt SpecDdt PropDdt2 Etr SpecEtr PropEtr PropEtr2
  Daemon SpecDaemon PropDaemon PropDaemon2 Exchange SpecExch PropExch SpecRoute.

Lemma brings_step hm cfg socks st e m ar clock : brings e m ar clock -> step hm cfg socks st e = handle_control_message hm cfg socks clock ar m st.
Proof.
  intros B. inversion B as [ar' d c m' P|ar' d c h p n s ck q P I U]; subst; cbn [step].
  - unfold control_datagram. rewrite P. reflexivity.
  - unfold data_datagram. rewrite P, I. apply upper_final in U. cbn [Z.eqb Pos.eqb]. rewrite U. reflexivity.
Qed.
Lemma named_pfx e i afi a : eid_named e i afi a -> exists q, pfx_of a = Some q.
Proof. intros (_ & F & _). destruct F; cbn; eauto. Qed.
Lemma etr_for_spec cfg e : match etr_for cfg e with
  | Ok (Some id) => belongs cfg e id
  | Ok None => (forall id, ~ belongs cfg e id) /\ ~ lookup_raises cfg e
  | Err _ => lookup_raises cfg e /\ forall id, ~ belongs cfg e id
  end.
Proof.
  unfold etr_for. destruct (determine e) as [[[iid afi] a]|] eqn:D.
  - pose proof (proj1 (eid_named_spec _ _ _ _) D) as N. destruct (named_pfx _ _ _ _ N) as [q Q]. rewrite Q.
    assert (forall i' f' a', eid_named e i' f' a' -> i' = iid /\ f' = afi /\ a' = a) as U.
    { intros i' f' a' N'. apply eid_named_spec in N'. rewrite D in N'. injection N' as <- <- <-. auto. }
    assert (forall id, belongs cfg e id -> exists nd, g_resolve cfg iid afi q = Ok (Some nd) /\ n_cls nd = NETR /\ n_id nd = id) as B.
    { intros id (i' & f' & a' & q' & nd & N' & Q' & R & C). apply U in N'. destruct N' as (-> & -> & ->). assert (q' = q) as -> by congruence. eauto. }
    assert (lookup_raises cfg e -> exists x, g_resolve cfg iid afi q = Err x) as L.
    { intros (i' & f' & a' & q' & x & N' & Q' & R). apply U in N'. destruct N' as (-> & -> & ->). assert (q' = q) as -> by congruence. eauto. }
    destruct (g_resolve cfg iid afi q) as [[nd|]|x] eqn:R; cbn [bind].
    + destruct (n_cls nd) eqn:C; try (split; [intros id Hb; apply B in Hb; destruct Hb as (nd' & E & C' & _); congruence|intros Hl; apply L in Hl; destruct Hl; discriminate]).
      exists iid, afi, a, q, nd. auto.
    + split; [intros id Hb; apply B in Hb; destruct Hb as (nd' & E & _); discriminate|intros Hl; apply L in Hl; destruct Hl; discriminate].
    + split; [exists iid, afi, a, q, x; auto|]. intros id Hb; apply B in Hb; destruct Hb as (nd' & E & _); discriminate.
  - assert (forall i' f' a', ~ eid_named e i' f' a') as U by (intros i' f' a' N'; apply eid_named_spec in N'; congruence).
    split; [intros id (i' & f' & a' & q' & nd & N' & _); exact (U _ _ _ N')|intros (i' & f' & a' & q' & nd & N' & _); exact (U _ _ _ N')].
Qed.
Lemma notify_record_spec src n l : first_changed (waits_notify src n) (got_notify n) l (notify_record src n l).
Proof.
  induction l as [|o l IH]; cbn [notify_record]; [apply fc_none; intros x []|].
  assert (set_notify_if_matches (o_etrr o) (o_reg o) src n = true <-> waits_notify src n o) as S.
  { unfold set_notify_if_matches, waits_notify. rewrite andb_true_iff, same_src, bytes_eqb_spec. reflexivity. }
  destruct (set_notify_if_matches (o_etrr o) (o_reg o) src n).
  - exact (fc_first (waits_notify src n) (got_notify n) [] o l (fun y H => match H with end) (proj1 S eq_refl)).
  - assert (~ waits_notify src n o) as N by (intros X; apply S in X; discriminate).
    remember (notify_record src n l) as l' eqn:El. clear El. destruct IH as [l0 A|l1 x l2 A B].
    + apply fc_none. intros y [<-|I]; auto.
    + apply (fc_first (waits_notify src n) (got_notify n) (o :: l1) x l2); [|exact B]. intros y [<-|I]; auto.
Qed.
Lemma first_changed_fun {A} (P : A -> Prop) f l a b : first_changed P f l a -> first_changed P f l b -> a = b.
Proof.
  intros H H'. inversion H as [l0 N|l1 x l2 N Px]; subst.
  - inversion H' as [|l1 x l2 N' Px E]; subst; [reflexivity|]. destruct (N x); [apply in_app_iff; right; left; reflexivity|exact Px].
  - inversion H' as [l0 N' E|l1' x' l2' N' Px' E]; subst.
    + destruct (N' x); [apply in_app_iff; right; left; reflexivity|exact Px].
    + clear H H'. revert l1' N' E. induction l1 as [|y l1 IH]; intros [|y' l1'] N' E; cbn [app] in E.
      * injection E as -> ->. reflexivity.
      * injection E as -> _. destruct (N' x); [left; reflexivity|exact Px].
      * injection E as <- _. destruct (N x'); [left; reflexivity|exact Px'].
      * injection E as <- E. cbn [app]. f_equal. apply IH; [|intros z I; apply N'; right; exact I|exact E]. intros z I. apply N. right. exact I.
Qed.
Lemma record_idem src n l : notify_record src n (notify_record src n l) = notify_record src n l.
Proof.
  induction l as [|o l IH]; [reflexivity|]. cbn [notify_record]. destruct (set_notify_if_matches (o_etrr o) (o_reg o) src n) eqn:E; cbn [notify_record o_etrr o_reg]; rewrite E; [reflexivity|].
  rewrite IH. reflexivity.
Qed.
Fixpoint reachb cfg (l : list mrec) (id : nat) : bool :=
  match l with
  | [] => false
  | r :: l => match etr_for cfg (mr_eid r) with Err _ => false | Ok None => reachb cfg l id | Ok (Some k) => Nat.eqb id k || reachb cfg l id end
  end.
Lemma belongs_fun cfg e a b : belongs cfg e a -> belongs cfg e b -> a = b.
Proof.
  intros (i & f & x & q & nd & N & Q & R & C & D) (i' & f' & x' & q' & nd' & N' & Q' & R' & C' & D').
  apply eid_named_spec in N, N'. rewrite N in N'. injection N' as <- <- <-. assert (q' = q) as -> by congruence. congruence.
Qed.
Lemma belongs_looks_up cfg e a : belongs cfg e a -> ~ lookup_raises cfg e.
Proof.
  intros (i & f & x & q & nd & N & Q & R & C & D) (i' & f' & x' & q' & nd' & N' & Q' & R').
  apply eid_named_spec in N, N'. rewrite N in N'. injection N' as <- <- <-. assert (q' = q) as -> by congruence. congruence.
Qed.
Lemma reachb_spec cfg id : forall l, reachb cfg l id = true <-> reaches cfg l id.
Proof.
  induction l as [|r l IH]; cbn [reachb].
  - split; [discriminate|]. intros (pre & x & post & E & _). destruct pre; discriminate.
  - pose proof (etr_for_spec cfg (mr_eid r)) as S.
    assert (~ lookup_raises cfg (mr_eid r) -> reaches cfg l id -> reaches cfg (r :: l) id) as R1.
    { intros NL (pre & x & post & -> & Bx & L). exists (r :: pre), x, post. split; [reflexivity|]. split; [exact Bx|]. intros y [<-|I]; auto. }
    assert (reaches cfg (r :: l) id -> belongs cfg (mr_eid r) id \/ (~ lookup_raises cfg (mr_eid r) /\ reaches cfg l id)) as R2.
    { intros (pre & x & post & E & Bx & L). destruct pre as [|y pre]; cbn [app] in E; injection E as -> E; [left; exact Bx|right].
      split; [apply L; left; reflexivity|]. exists pre, x, post. split; [exact E|]. split; [exact Bx|]. intros z I. apply L. right. exact I. }
    destruct (etr_for cfg (mr_eid r)) as [[k|]|x].
    + rewrite orb_true_iff, Nat.eqb_eq, IH. split.
      * intros [->|R]; [exists [], r, l; split; [reflexivity|split; [exact S|intros y []]]|]. apply R1; [exact (belongs_looks_up _ _ _ S)|exact R].
      * intros R. destruct (R2 R) as [B|[_ R']]; [left; exact (belongs_fun _ _ _ _ B S)|right; exact R'].
    + rewrite IH. split; [apply R1; tauto|]. intros R. destruct (R2 R) as [B|[_ R']]; [destruct (proj1 S id B)|exact R'].
    + split; [discriminate|]. intros R. destruct (R2 R) as [B|[N _]]; [destruct (proj2 S id B)|destruct (N (proj1 S))].
Qed.
Lemma notify_loop_spec cfg src n : forall l w id,
  let w' := fst (notify_loop cfg src n l w) in
  no_infos (w' id) = no_infos (w id) /\
  no_regs (w' id) = if reachb cfg l id then notify_record src n (no_regs (w id)) else no_regs (w id).
Proof.
  induction l as [|r l IH]; intros w id; cbn [notify_loop reachb].
  - cbn [fst]. auto.
  - destruct (etr_for cfg (mr_eid r)) as [[k|]|x].
    + specialize (IH (set_out w k (NOut (notify_record src n (no_regs (w k))) (no_infos (w k)))) id). cbn zeta in *. destruct IH as (A & B). rewrite A, B. clear A B.
      unfold set_out. destruct (Nat.eqb_spec id k) as [->|Nk]; cbn [no_regs no_infos orb].
      * split; [reflexivity|]. destruct (reachb cfg l k); [apply record_idem|reflexivity].
      * split; reflexivity.
    + apply IH.
    + cbn [fst]. auto.
Qed.
Lemma info_record_spec src m l : first_changed (waits_info src m) (got_info m) l (fst (info_record src m l)).
Proof.
  induction l as [|o l IH]; cbn [info_record]; [apply fc_none; intros x []|].
  assert (match set_reply_if_matches src m o with Some (o', _) => waits_info src m o /\ o' = got_info m o | None => ~ waits_info src m o end) as S.
  { unfold set_reply_if_matches, waits_info. destruct (_ && _) eqn:E.
    - apply andb_true_iff in E. rewrite same_src, bytes_eqb_spec in E. unfold got_info. destruct (oi_from o) as [f|]; (split; [exact E|]); [|reflexivity].
      unfold set_private. reflexivity.
    - intros X. rewrite <- same_src, <- bytes_eqb_spec, <- andb_true_iff in X. congruence. }
  destruct (set_reply_if_matches src m o) as [[o' x]|].
  - destruct S as [S ->]. exact (fc_first (waits_info src m) (got_info m) [] o l (fun y H => match H with end) S).
  - destruct (info_record src m l) as [l' x]. cbn [fst] in *.
    destruct IH as [l0 A|l1 x' l2 A B].
    + apply fc_none. intros y [<-|I]; auto.
    + apply (fc_first (waits_info src m) (got_info m) (o :: l1) x' l2); [|exact B]. intros y [<-|I]; auto.
Qed.

(** C79: a Map-Notify is recorded, at each ETR node one of its records is for, with the first Map-Register waiting for it;
    nothing else changes and nothing is sent *)
Theorem C79_notify hm cfg socks st e n ar clock st' outs : brings e (PCtl (CNot n)) ar clock -> step hm cfg socks st e = (st', outs) ->
  outs = [] /\ dm_ms st' = dm_ms st /\ dm_etr st' = dm_etr st /\
  forall id, no_infos (dm_out st' id) = no_infos (dm_out st id) /\
    (reaches cfg (n_records n) id -> first_changed (waits_notify (ar_src ar) n) (got_notify n) (no_regs (dm_out st id)) (no_regs (dm_out st' id))) /\
    (~ reaches cfg (n_records n) id -> no_regs (dm_out st' id) = no_regs (dm_out st id)).
Proof.
  intros B H. rewrite (brings_step _ _ _ _ _ _ _ _ B) in H. unfold handle_control_message, received in H. cbn [is_control negb handle_message dm_ms dm_etr dm_out] in H.
  injection H as <- <-. cbn [dm_ms dm_etr dm_out]. split; [reflexivity|]. split; [reflexivity|]. split; [reflexivity|]. intros id.
  destruct (notify_loop_spec cfg (ar_src ar) n (n_records n) (dm_out st) id) as [A C]. split; [exact A|]. rewrite C. split.
  - intros R. apply reachb_spec in R. rewrite R. apply notify_record_spec.
  - intros R. destruct (reachb cfg (n_records n) id) eqn:E; [apply reachb_spec in E; contradiction|reflexivity].
Qed.
(** C80: an Info-Reply is recorded, at the ETR node its EID is for, with the first Info-Request waiting for it *)
Theorem C80_info_reply hm cfg socks st e m ar clock st' outs : brings e (PCtl (CInfo m)) ar clock -> step hm cfg socks st e = (st', outs) ->
  outs = [] /\ dm_ms st' = dm_ms st /\ dm_etr st' = dm_etr st /\
  forall id, no_regs (dm_out st' id) = no_regs (dm_out st id) /\
    (i_reply m = true -> belongs cfg (i_eid m) id ->
       first_changed (waits_info (ar_src ar) m) (got_info m) (no_infos (dm_out st id)) (no_infos (dm_out st' id))) /\
    (i_reply m = false \/ ~ belongs cfg (i_eid m) id -> no_infos (dm_out st' id) = no_infos (dm_out st id)).
Proof.
  intros B H. rewrite (brings_step _ _ _ _ _ _ _ _ B) in H. unfold handle_control_message, received in H. cbn [is_control negb handle_message dm_ms dm_etr dm_out] in H.
  injection H as <- <-. cbn [dm_ms dm_etr dm_out]. split; [reflexivity|]. split; [reflexivity|]. split; [reflexivity|]. intros id.
  unfold handle_info. destruct (i_reply m); cbn [negb fst].
  2: { split; [reflexivity|]. split; [discriminate|reflexivity]. }
  pose proof (etr_for_spec cfg (i_eid m)) as S. destruct (etr_for cfg (i_eid m)) as [[k|]|x]; cbn [fst].
  - destruct (info_record (ar_src ar) m (no_infos (dm_out st k))) as [l r] eqn:E. cbn [fst]. unfold set_out. destruct (Nat.eqb_spec id k) as [->|Nk]; cbn [no_regs no_infos].
    + split; [reflexivity|]. split; [|intros [X|X]; [discriminate|contradiction]]. intros _ _. pose proof (info_record_spec (ar_src ar) m (no_infos (dm_out st k))) as X. rewrite E in X. exact X.
    + split; [reflexivity|]. split; [|reflexivity]. intros _ X. destruct (Nk (belongs_fun _ _ _ _ X S)).
  - split; [reflexivity|]. split; [|reflexivity]. intros _ X. destruct (proj1 S id X).
  - split; [reflexivity|]. split; [|reflexivity]. intros _ X. destruct (proj2 S id X).
Qed.

(** C83: a Map-Notify from any other address than the Map-Server's, the outer source address of the datagram, changes no Map-Register: *)
Theorem C83_other_source hm cfg socks st e n ar clock id i o : brings e (PCtl (CNot n)) ar clock ->
  nth_error (no_regs (dm_out st id)) i = Some o -> tr_ms (o_etrr o) <> ar_src ar ->
  nth_error (no_regs (dm_out (fst (step hm cfg socks st e)) id)) i = Some o.
Proof.
  intros B H N. destruct (step hm cfg socks st e) as [st' outs] eqn:E. cbn [fst].
  destruct (C79_notify _ _ _ _ _ _ _ _ _ _ B E) as (_ & _ & _ & C). specialize (C id). destruct C as (_ & C1 & C2).
  destruct (reachb cfg (n_records n) id) eqn:R.
  - apply reachb_spec in R. specialize (C1 R). destruct C1 as [l _|l1 x l2 A Px]; [exact H|].
    destruct (Nat.lt_trichotomy i (length l1)) as [L|[L|L]].
    + rewrite nth_error_app1 in H |- * by exact L. exact H.
    + subst i. rewrite nth_error_app2 in H |- * by lia. rewrite Nat.sub_diag in *. cbn [nth_error] in *. injection H as ->. destruct Px as [Px _]. congruence.
    + rewrite nth_error_app2 in H |- * by lia. destruct (i - length l1)%nat eqn:D; [lia|]. exact H.
  - assert (~ reaches cfg (n_records n) id) as R' by (intros X; apply reachb_spec in X; congruence). rewrite (C2 R'). exact H.
Qed.

(** ** Examples *)
Definition waiting (o : outreg) : dm := Dm (fun _ => new_ms (B [1;2]) true) (fun _ => Etr [] [] []) (fun _ => NOut [OutReg (o_etrr o) (MReg false false true [false] (repeat false 15) (repeat zero_byte 8) 0 [] [] 0 0) None; o] [OutInfo (nat_r None) nat_nonce (Some (V4, 10)) None false]) 0.
Definition ex_o : outreg := OutReg ex_r (ex_g true) None.
Definition from_ms : arrival := Arr (V4, 3221225985) 4342 (V4, 10).
Definition ctl_bytes (m : pkt) : bytes := match pkt_to_bytes m with Ok d => d | Err _ => [] end.
(** the second of two waiting Map-Registers is the one that is answered *)
Example C79_example : let e := AtControl from_ms (ctl_bytes (PCtl (CNot ex_n))) (fun _ => 5) in
  brings e (PCtl (CNot ex_n)) from_ms (fun _ => 5) /\ reaches ex_etr_cfg (n_records ex_n) 1 /\
  nth_error (no_regs (dm_out (fst (step toy_hm ex_etr_cfg [] (waiting ex_o) e)) 1%nat)) 1 = Some (OutReg ex_r (ex_g true) (Some ex_n)).
Proof.
  cbn zeta. split; [constructor; vm_compute; reflexivity|]. split; [apply reachb_spec; vm_compute; reflexivity|]. vm_compute. reflexivity.
Qed.
Definition ex_reply : info := nat_reply (AIP V4 99) 4342 nat_nonce.
Example C80_example : let e := AtControl from_ms (ctl_bytes (PCtl (CInfo ex_reply))) (fun _ => 5) in
  brings e (PCtl (CInfo ex_reply)) from_ms (fun _ => 5) /\ belongs ex_etr_cfg (i_eid ex_reply) 1 /\
  no_infos (dm_out (fst (step toy_hm ex_etr_cfg [] (waiting ex_o) e)) 1%nat) =
    [OutInfo (nat_r None) nat_nonce (Some (V4, 10))
       (Some (Info true (repeat false 27) nat_nonce 0 [] 1440 (repeat false 8) (ANet V4 (10 * 2 ^ 24) 8)
                   (LNat 4342 4342 (AIP V4 99) (AIP V4 3221225985) (AIP V4 10) [AIP V4 7]))) true].
Proof.
  cbn zeta. split; [constructor; vm_compute; reflexivity|]. split; [|vm_compute; reflexivity].
  pose proof (etr_for_spec ex_etr_cfg (i_eid ex_reply)) as S. assert (etr_for ex_etr_cfg (i_eid ex_reply) = Ok (Some 1%nat)) as E by (vm_compute; reflexivity).
  rewrite E in S. exact S.
Qed.

(** ** Findings *)
(** a record that covers several configured prefixes keeps the Map-Notify from the nodes of the records after it *)
Definition two_etr_cfg : instances :=
  [(0, [(1, Node 0 (Pfx V4 0 0) NContainer [Node 1 (Pfx V4 (10 * 2 ^ 24) 8) NETR []; Node 2 (Pfx V4 (11 * 2 ^ 24) 8) NETR []])])].
Definition wide_n : mnot := MNot (repeat false 19) nat_nonce 0 [] (MRec 1440 0 true (repeat false 16) 0 (ANet V4 0 4) [] :: g_records (ex_g true)) 0 0.
Theorem C79_refuted : ~ (forall hm cfg socks st e n ar clock id r o, brings e (PCtl (CNot n)) ar clock -> In r (n_records n) ->
  belongs cfg (mr_eid r) id -> no_regs (dm_out st id) = [o] -> waits_notify (ar_src ar) n o ->
  no_regs (dm_out (fst (step hm cfg socks st e)) id) = [got_notify n o]).
Proof.
  intros H. specialize (H toy_hm two_etr_cfg [] (Dm (fun _ => new_ms (B [1;2]) true) (fun _ => Etr [] [] []) (fun _ => NOut [ex_o] []) 0)
    (AtControl from_ms (ctl_bytes (PCtl (CNot wide_n))) (fun _ => 5)) wide_n from_ms (fun _ => 5) 1%nat (nth 1 (n_records wide_n) (MRec 0 0 true [] 0 ANone [])) ex_o).
  assert (no_regs (dm_out (fst (step toy_hm two_etr_cfg [] (Dm (fun _ => new_ms (B [1;2]) true) (fun _ => Etr [] [] []) (fun _ => NOut [ex_o] []) 0)
    (AtControl from_ms (ctl_bytes (PCtl (CNot wide_n))) (fun _ => 5)))) 1%nat) = [ex_o]) as A by (vm_compute; reflexivity).
  rewrite A in H. assert ([ex_o] = [got_notify wide_n ex_o]) as C; [|discriminate].
  apply H; [constructor; vm_compute; reflexivity|right; left; reflexivity| |reflexivity|split; reflexivity].
  pose proof (etr_for_spec two_etr_cfg (mr_eid (nth 1 (n_records wide_n) (MRec 0 0 true [] 0 ANone [])))) as S.
  assert (etr_for two_etr_cfg (mr_eid (nth 1 (n_records wide_n) (MRec 0 0 true [] 0 ANone []))) = Ok (Some 1%nat)) as E by (vm_compute; reflexivity).
  rewrite E in S. exact S.
Qed.
(** the authentication data of an Info-Reply is not looked at: a reply without any is believed by a registration with a key *)
Theorem C80_refuted hm : ~ (forall cfg socks st e m ar clock id o o', brings e (PCtl (CInfo m)) ar clock ->
  no_infos (dm_out st id) = [o] -> no_infos (dm_out (fst (step hm cfg socks st e)) id) = [o'] -> oi_event o = false -> oi_event o' = true ->
  tr_keyid (oi_etrr o) <> 0 -> i_key m = tr_keyid (oi_etrr o)).
Proof.
  intros H. specialize (H ex_etr_cfg [] (waiting ex_o) (AtControl from_ms (ctl_bytes (PCtl (CInfo ex_reply))) (fun _ => 5)) ex_reply from_ms (fun _ => 5) 1%nat
    (OutInfo (nat_r None) nat_nonce (Some (V4, 10)) None false)).
  specialize (H (got_info ex_reply (OutInfo (nat_r None) nat_nonce (Some (V4, 10)) None false))).
  assert (i_key ex_reply = 1) as C; [|discriminate].
  apply H; [constructor; vm_compute; reflexivity|reflexivity|vm_compute; reflexivity|reflexivity|reflexivity|discriminate].
Qed.
(** the Map-Notify of a registration through an RTR arrives in a data packet from the RTR: it is not taken although it was
    the Map-Server that sent the inner packet *)
Definition relayed (n : mnot) : bytes :=
  match pkt_to_bytes (PData all_ones_iid (PIPv4 (V4H 0 0 false false 0 64 17 (AIP V4 3221225985) (AIP V4 10) []) (PUDP 4342 4342 0 (PCtl (CNot n))))) with
  | Ok d => d | Err _ => [] end.
Definition inner_src (d : bytes) : option addr :=
  match pkt_from_bytes (KData true) d with Ok (PData _ (PIPv4 h _)) => Some (h_src h) | _ => None end.
Theorem C83_refuted : ~ (forall hm cfg socks st d n ar clock id o, brings (AtData ar d clock) (PCtl (CNot n)) ar clock ->
  reaches cfg (n_records n) id -> no_regs (dm_out st id) = [o] ->
  inner_src d = Some (AIP (fst (tr_ms (o_etrr o))) (snd (tr_ms (o_etrr o)))) -> n_nonce n = g_nonce (o_reg o) ->
  no_regs (dm_out (fst (step hm cfg socks st (AtData ar d clock))) id) = [got_notify n o]).
Proof.
  intros H. set (st := Dm (fun _ => new_ms (B [1;2]) true) (fun _ => Etr [] [] []) (fun _ => NOut [ex_o] []) 0).
  specialize (H toy_hm ex_etr_cfg [] st (relayed ex_n) ex_n there (fun _ => 5) 1%nat ex_o).
  assert (no_regs (dm_out (fst (step toy_hm ex_etr_cfg [] st (AtData there (relayed ex_n) (fun _ => 5)))) 1%nat) = [ex_o]) as A by (vm_compute; reflexivity).
  rewrite A in H. assert ([ex_o] = [got_notify ex_n ex_o]) as C; [|discriminate].
  apply H; [|apply reachb_spec; vm_compute; reflexivity|reflexivity|vm_compute; reflexivity|reflexivity].
  destruct (pkt_from_bytes (KData true) (relayed ex_n)) as [x|] eqn:P; [|vm_compute in P; discriminate].
  pose proof P as P'. vm_compute in P'. injection P' as <-.
  econstructor; [exact P|reflexivity|]. apply upper_final. reflexivity.
Qed.
Print Assumptions C79_notify.
Print Assumptions C79_refuted.
Print Assumptions C80_info_reply.
Print Assumptions C80_refuted.
Print Assumptions C83_other_source.
Print Assumptions C83_refuted.
