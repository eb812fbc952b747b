(** * Property C146: how records are grouped into Map-Registers does not matter *)
From Verif Require Import Base BaseLemmas Afi AfiProofs Spec SpecEid PropEid Records Control SpecRec PropControl Packet SpecPkt PropPacket PropUdp PropPacket2 PropPacket3
  Auth SpecAuth PropAuth Tree SpecTree TreeProofs PropTree PropTree2 Dict MapServer SpecMs PropMs PropMs2 Net Ddt SpecDdt PropDdt2 Etr SpecEtr PropEtr PropEtr2
  Daemon SpecDaemon PropDaemon PropDaemon2 Exchange SpecExch PropExch SpecRoute PropRoute PropIso SpecReorder PropReorder SpecOthers PropOthers PropRestart SpecGroup.

Section Group.
Variable hm : Z -> bytes -> bytes -> bytes.
Variable cfg : instances.
Variable keys : nat -> bytes.
Variable mores : nat -> bool.
Lemma good_alone m ar clock r l c i id q so rg : alone hm m r l -> nth_error (g_records m) i = Some r -> c 0%nat = clock i ->
  (forall j, ~ blocks hm cfg keys m j) ->
  good_record hm cfg keys mores l (ar_src ar) c 0 id q so rg <-> good_record hm cfg keys mores m (ar_src ar) clock i id q so rg.
Proof.
  intros (Er & Ex & Es & Ep & Ek & Ea) Hn Hc NB. unfold good_record, acceptable, lands, sender, normal_record. rewrite Ex, Es, Ep, Ek, Er, Hc, Hn. cbn [nth_error]. split.
  - intros (nd & L & I & _ & r0 & r' & A & N & H). exists nd. split; [exact L|]. split; [exact I|]. split; [intros j _; apply NB|]. exists r0, r'. split; [apply Ea, A|]. auto.
  - intros (nd & L & I & _ & r0 & r' & A & N & H). exists nd. split; [exact L|]. split; [exact I|]. split; [intros j Hj; inversion Hj|]. exists r0, r'. split; [apply Ea, A|]. auto.
Qed.
Variables (m : mreg) (ar : arrival) (clock : nat -> Z) (es : list event) (e : event).
Hypothesis OO : one_by_one hm m ar clock es.
Hypothesis BE : brings e (PCtl (CReg m)) ar clock.
Hypothesis NB : forall j, ~ blocks hm cfg keys m j.
Lemma good_index i id q so rg : good_record hm cfg keys mores m (ar_src ar) clock i id q so rg -> exists x, nth_error es i = Some x.
Proof.
  intros (nd & _ & _ & _ & r & r' & _ & N & _). destruct OO as [L _]. destruct (nth_error es i) as [x|] eqn:E; [eauto|].
  apply nth_error_None in E. assert (i < length (g_records m))%nat as X by (apply nth_error_Some; rewrite N; discriminate). lia.
Qed.
Lemma registers_one i x id q so rg : nth_error es i = Some x ->
  registers hm cfg keys mores x id q so rg <-> good_record hm cfg keys mores m (ar_src ar) clock i id q so rg.
Proof.
  intros E. destruct OO as [L O]. destruct (nth_error (g_records m) i) as [r|] eqn:Er.
  2: { apply nth_error_None in Er. assert (i < length es)%nat as X by (apply nth_error_Some; rewrite E; discriminate). lia. }
  destruct (O _ _ _ E Er) as (l & c & A & B & Hc). split.
  - intros (m' & ar' & k' & j & B' & G & _). destruct (brings_fun _ _ _ _ _ _ _ B B') as (X & <- & <-). injection X as <-.
    assert (j = 0)%nat as ->.
    { destruct G as (nd & _ & _ & _ & r0 & r' & _ & N & _). destruct A as (Ar & _). rewrite Ar in N. destruct j as [|[|]]; [reflexivity|discriminate|discriminate]. }
    eapply good_alone; eassumption.
  - intros G. exists l, ar, c, 0%nat. split; [exact B|]. split; [eapply good_alone; eassumption|].
    intros j rz Hj (nd & _ & _ & _ & r0 & r' & _ & N & _). destruct A as (Ar & _). rewrite Ar in N. destruct j as [|[|]]; [lia|discriminate|discriminate].
Qed.
Lemma registers_all id q so rg : registers hm cfg keys mores e id q so rg <->
  exists i, good_record hm cfg keys mores m (ar_src ar) clock i id q so rg /\ forall j rz, (i < j)%nat -> ~ good_record hm cfg keys mores m (ar_src ar) clock j id q so rz.
Proof.
  split.
  - intros (m' & ar' & k' & i & B' & G). destruct (brings_fun _ _ _ _ _ _ _ BE B') as (X & <- & <-). injection X as <-. exists i. exact G.
  - intros (i & G). exists m, ar, clock, i. auto.
Qed.
Lemma es_brings x : In x es -> exists l c, brings x (PCtl (CReg l)) ar c.
Proof.
  intros I. apply In_nth_error in I. destruct I as [i E]. destruct OO as [L O]. destruct (nth_error (g_records m) i) as [r|] eqn:Er.
  - destruct (O _ _ _ E Er) as (l & c & _ & B & _). eauto.
  - apply nth_error_None in Er. assert (i < length es)%nat as X by (apply nth_error_Some; rewrite E; discriminate). lia.
Qed.
(** nothing in [es] registers if [e] does not, provided something good in the message has a last one *)
Lemma none_good id q so : (forall rg, ~ registers hm cfg keys mores e id q so rg) -> forall i rg, ~ good_record hm cfg keys mores m (ar_src ar) clock i id q so rg.
Proof.
  intros N. assert (forall k i rg, (length (g_records m) <= i + k)%nat -> ~ good_record hm cfg keys mores m (ar_src ar) clock i id q so rg) as K.
  { induction k as [|k IH]; intros i rg Hk G.
    - destruct G as (nd & _ & _ & _ & r0 & r' & _ & Hn & _). assert (i < length (g_records m))%nat as X by (apply nth_error_Some; rewrite Hn; discriminate). lia.
    - apply (N rg). apply registers_all. exists i. split; [exact G|]. intros j rz Hj. apply IH. lia. }
  intros i rg. apply (K (length (g_records m))). lia.
Qed.
Lemma group_force h1 h2 id q so rg : d_in_force hm cfg keys mores (h1 ++ e :: h2) id q so rg <-> d_in_force hm cfg keys mores (h1 ++ es ++ h2) id q so rg.
Proof.
  split.
  - intros (a & x & b & E & R & L & C). destruct (split_two _ _ _ _ _ E) as [(a' & -> & ->)|(b' & E' & ->)].
    + exists a, x, (a' ++ es ++ h2). split; [rewrite <- app_assoc; reflexivity|]. split; [exact R|].
      assert (forall i rz, ~ good_record hm cfg keys mores m (ar_src ar) clock i id q so rz) as NG.
      { apply none_good. intros rz. apply L, in_or_app. right. left. reflexivity. } split.
      * intros y rz I. apply in_app_or in I. destruct I as [I|I]; [apply L, in_or_app; left; exact I|]. apply in_app_or in I. destruct I as [I|I].
        -- apply In_nth_error in I. destruct I as [i Hi]. rewrite (registers_one i y) by exact Hi. apply NG.
        -- apply L, in_or_app. right. right. exact I.
      * intros t I. apply C. apply in_app_or in I. apply in_or_app. destruct I as [I|I]; [auto|]. apply in_app_or in I. destruct I as [I|I]; [|right; right; exact I].
        destruct (es_brings _ I) as (l & c & B). inversion B.
    + destruct b' as [|z b']; cbn [app] in E'; injection E' as <- E'.
      * subst b. apply registers_all in R. destruct R as (i & G & Last). destruct (good_index _ _ _ _ _ G) as [x Hx].
        pose proof Hx as Sx. apply nth_error_split in Sx. destruct Sx as (e1 & e2 & Ee & Li).
        exists (h1 ++ e1), x, (e2 ++ h2). split; [rewrite Ee, <- !app_assoc; reflexivity|]. split; [apply (registers_one i x _ _ _ _ Hx), G|]. split.
        -- intros y rz I. apply in_app_or in I. destruct I as [I|I]; [|apply L; exact I]. apply In_nth_error in I. destruct I as [j Hj].
           rewrite (registers_one (i + S j) y); [apply Last; lia|]. rewrite Ee, nth_error_app2 by lia. rewrite <- Li. replace (length e1 + S j - length e1)%nat with (S j) by lia. exact Hj.
        -- intros t I. apply in_app_or in I. destruct I as [I|I]; [|apply C; exact I]. assert (In (Cleanup id t) es) as I' by (rewrite Ee; apply in_or_app; right; right; exact I).
           destruct (es_brings _ I') as (l & c & B). inversion B.
      * subst h2. exists (h1 ++ es ++ b'), x, b. split; [rewrite <- !app_assoc; reflexivity|]. auto.
  - intros (a & x & b & E & R & L & C). destruct (split_two _ _ _ _ _ E) as [(a' & -> & ->)|(b' & E' & ->)].
    + exists a, x, (a' ++ e :: h2). split; [rewrite <- app_assoc; reflexivity|]. split; [exact R|]. split.
      * intros y rz I. apply in_app_or in I. destruct I as [I|[<-|I]]; [apply L, in_or_app; left; exact I| |apply L, in_or_app; right; apply in_or_app; right; exact I].
        intros Ry. apply registers_all in Ry. destruct Ry as (i & G & _). destruct (good_index _ _ _ _ _ G) as [y Hy].
        apply (L y rz); [apply in_or_app; right; apply in_or_app; left; eapply nth_error_In, Hy|]. apply (registers_one i y _ _ _ _ Hy), G.
      * intros t I. apply C. apply in_app_or in I. apply in_or_app. destruct I as [I|[->|I]]; [auto|inversion BE|]. right. apply in_or_app. right. exact I.
    + destruct (split_two _ _ _ _ _ E') as [(a' & Ee & ->)|(b'' & -> & ->)].
      * exists h1, e, h2. split; [reflexivity|]. assert (nth_error es (length b') = Some x) as Hx by (rewrite Ee, nth_error_app2, Nat.sub_diag by lia; reflexivity). split; [|split].
        -- apply registers_all. exists (length b'). split; [apply (registers_one _ x _ _ _ _ Hx), R|]. intros j rz Hj G. destruct (good_index _ _ _ _ _ G) as [y Hy].
           apply (L y rz); [|apply (registers_one j y _ _ _ _ Hy), G]. apply in_or_app. left. rewrite Ee, nth_error_app2 in Hy by lia.
           destruct (j - length b')%nat as [|n] eqn:Ej; [lia|]. eapply nth_error_In, Hy.
        -- intros y rz I. apply L, in_or_app. right. exact I.
        -- intros t I. apply C, in_or_app. right. exact I.
      * exists (h1 ++ e :: b''), x, b. split; [rewrite <- app_assoc; reflexivity|]. auto.
Qed.
End Group.
(** Sent one by one, the records of a Map-Register register what they register together. *)
Theorem C146_grouping : forall hm cfg socks P keys mores st h1 h2 m ar clock e es id q so, good_cfg cfg P -> fresh_ms keys mores st ->
  brings e (PCtl (CReg m)) ar clock -> one_by_one hm m ar clock es -> (forall j, ~ blocks hm cfg keys m j) ->
  registered (dm_ms (fst (run hm cfg socks st (h1 ++ e :: h2))) id) q so = registered (dm_ms (fst (run hm cfg socks st (h1 ++ es ++ h2))) id) q so.
Proof.
  intros hm cfg socks P keys mores st h1 h2 m ar clock e es id q so G F B O N.
  pose proof (fun l rg => C74_registered_iff_in_force hm cfg socks P keys mores st l id q so rg G F) as I.
  pose proof (fun rg => group_force hm cfg keys mores m ar clock es e O B N h1 h2 id q so rg) as K.
  destruct (registered (dm_ms (fst (run hm cfg socks st (h1 ++ e :: h2))) id) q so) as [rg|] eqn:R.
  - symmetry. apply I, K, I, R.
  - destruct (registered (dm_ms (fst (run hm cfg socks st (h1 ++ es ++ h2))) id) q so) as [rg|] eqn:R'; [|reflexivity].
    rewrite <- R. apply I, K, I, R'.
Qed.
(** example: a Map-Register with two records, and two Map-Registers with one record each *)
Definition gr_rec (n : Z) : mrec := MRec 1440 0 true (repeat false 16) 0 (ANet V4 (10 * 2 ^ 24 + n * 2 ^ 16) 16) [].
Definition gr_reg (l : list mrec) : mreg := MReg false false true [false] (repeat false 15) (repeat zero_byte 8) 0 [] l 0 0.
Definition gr_event (l : list mrec) (c : nat -> Z) : event := AtControl there (match mreg_to_bytes (gr_reg l) with Ok d => d | Err _ => [] end) c.
Definition gr_all : event := gr_event [gr_rec 5; gr_rec 6] (fun i => 5 + Z.of_nat i).
Definition gr_each : list event := [gr_event [gr_rec 5] (fun _ => 5); gr_event [gr_rec 6] (fun _ => 6)].
Example C146_example : brings gr_all (PCtl (CReg (gr_reg [gr_rec 5; gr_rec 6]))) there (fun i => 5 + Z.of_nat i) /\
  one_by_one toy_hm (gr_reg [gr_rec 5; gr_rec 6]) there (fun i => 5 + Z.of_nat i) gr_each /\
  (forall j, ~ blocks toy_hm ms_cfg (fun _ => B [1;2]) (gr_reg [gr_rec 5; gr_rec 6]) j) /\
  registered (dm_ms (fst (run toy_hm ms_cfg [] PropDaemon2.start ([] ++ gr_each ++ []))) 7%nat) (Pfx V4 (10 * 2 ^ 24 + 6 * 2 ^ 16) 16) (SAddr V4 77) = Some (Reg (gr_rec 6) false (6 + 180 * sec)).
Proof.
  split; [constructor; vm_compute; reflexivity|]. split; [split; [reflexivity|]|split; [|vm_compute; reflexivity]].
  - assert (forall r, alone toy_hm (gr_reg [gr_rec 5; gr_rec 6]) r (gr_reg [r])) as A.
    { intros r. unfold alone, gr_reg. cbn [g_records g_xtr g_site g_proxy g_key]. repeat split; intros _; reflexivity. }
    intros [|[|i]] x r E1 E2; try (destruct i; discriminate); injection E1 as <-; injection E2 as <-.
    + exists (gr_reg [gr_rec 5]), (fun _ => 5). split; [apply A|]. split; [constructor; vm_compute; reflexivity|reflexivity].
    + exists (gr_reg [gr_rec 6]), (fun _ => 6). split; [apply A|]. split; [constructor; vm_compute; reflexivity|reflexivity].
  - assert (forall n, n = 5 \/ n = 6 -> forall iid afi a, eid_named (mr_eid (gr_rec n)) iid afi a ->
      ~ (pfx_of a = None \/ (exists q e, pfx_of a = Some q /\ g_resolve ms_cfg iid afi q = Err e) \/ (exists nd : node, forall q, ~ eid_prefix (gr_rec n) q))) as K.
    { intros n Hn iid afi a Ea K. assert (eid_prefix (gr_rec n) (Pfx V4 (10 * 2 ^ 24 + n * 2 ^ 16) 16)) as EP.
      { exists 0, 1. apply eid_named_spec. destruct Hn as [-> | ->]; vm_compute; reflexivity. }
      apply eid_named_spec in Ea. destruct Hn as [-> | ->]; vm_compute in Ea; injection Ea as <- <- <-;
        (destruct K as [K|[(q & x & Q & K)|(nd & K)]]; [discriminate|injection Q as <-; vm_compute in K; discriminate|exact (K _ EP)]). }
    intros [|[|j]] (r & iid & afi & a & E & Ea & D); [| |destruct j; discriminate]; injection E as <-.
    + apply (K 5 (or_introl eq_refl) iid afi a Ea). destruct D as [D|[D|(nd & _ & _ & D)]]; eauto.
    + apply (K 6 (or_intror eq_refl) iid afi a Ea). destruct D as [D|[D|(nd & _ & _ & D)]]; eauto.
Qed.
(** without that condition: the record whose prefix is too short to be looked up (C74) takes the next one with it only when they share a message *)
Theorem C146_refuted : ~ (forall hm cfg socks P keys mores st h1 h2 m ar clock e es id q so, good_cfg cfg P -> fresh_ms keys mores st ->
  brings e (PCtl (CReg m)) ar clock -> one_by_one hm m ar clock es ->
  registered (dm_ms (fst (run hm cfg socks st (h1 ++ e :: h2))) id) q so = registered (dm_ms (fst (run hm cfg socks st (h1 ++ es ++ h2))) id) q so).
Proof.
  intros H.
  specialize (H toy_hm two_cfg [] _ (fun _ => B [1;2]) (fun _ => true) PropDaemon2.start [] [] mixed_register there (fun _ => 5)
    (AtControl there mixed_bytes (fun _ => 5)) [gr_event [short_record] (fun _ => 5); gr_event [open_record] (fun _ => 5)] 7%nat p16 (SAddr V4 77) two_cfg_good eq_refl).
  assert (brings (AtControl there mixed_bytes (fun _ => 5)) (PCtl (CReg mixed_register)) there (fun _ => 5)) as X by (constructor; vm_compute; reflexivity).
  assert (one_by_one toy_hm mixed_register there (fun _ => 5) [gr_event [short_record] (fun _ => 5); gr_event [open_record] (fun _ => 5)]) as O.
  { split; [reflexivity|].
    assert (forall r, alone toy_hm mixed_register r (gr_reg [r])) as A.
    { intros r. unfold alone, gr_reg, mixed_register. cbn [g_records g_xtr g_site g_proxy g_key]. repeat split; intros _; reflexivity. }
    intros [|[|i]] x r E1 E2; try (destruct i; discriminate); injection E1 as <-; injection E2 as <-.
    + exists (gr_reg [short_record]), (fun _ => 5). split; [apply A|]. split; [constructor; vm_compute; reflexivity|reflexivity].
    + exists (gr_reg [open_record]), (fun _ => 5). split; [apply A|]. split; [constructor; vm_compute; reflexivity|reflexivity]. }
  specialize (H X O). clear X O. vm_compute in H. discriminate H.
Qed.
Print Assumptions C146_grouping.
Print Assumptions C146_refuted.
