(** * Property C143: a Map-Server's memory is bounded by what it was asked to register in the last three minutes *)
From Verif Require Import Base BaseLemmas Afi AfiProofs Spec SpecEid PropEid Records Control SpecRec PropControl Packet SpecPkt PropPacket PropUdp PropPacket2 PropPacket3
  Auth SpecAuth PropAuth Tree SpecTree TreeProofs PropTree PropTree2 Dict MapServer SpecMs PropMs PropMs2 Net Ddt SpecDdt PropDdt2 Etr SpecEtr PropEtr PropEtr2
  Daemon SpecDaemon PropDaemon PropDaemon2 Exchange SpecExch PropExch SpecRoute PropRoute PropIso SpecReorder PropReorder SpecGrowth.

Lemma no_more {A B} (R : A -> B -> Prop) : (forall x y y', R x y -> R x y' -> y = y') ->
  forall l L, NoDup l -> (forall y, In y l -> exists x, In x L /\ R x y) -> (length l <= length L)%nat.
Proof.
  intros F. induction l as [|y l IH]; intros L N H; [apply Nat.le_0_l|]. inversion N as [|? ? Ny N']; subst.
  destruct (H y (or_introl eq_refl)) as (x & Ix & Rx). apply in_split in Ix. destruct Ix as (L1 & L2 & ->).
  specialize (IH (L1 ++ L2) N'). rewrite app_length in *. cbn [length]. rewrite Nat.add_succ_r. apply le_n_S, IH.
  intros z Iz. destruct (H z (or_intror Iz)) as (x' & Ix' & Rx'). exists x'. split; [|exact Rx'].
  apply in_app_or in Ix'. apply in_or_app. destruct Ix' as [I|[<-|I]]; auto. destruct Ny. rewrite (F _ _ _ Rx Rx'). exact Iz.
Qed.
Lemma kept_nodup d : dict_ok d -> NoDup (kept_entries d).
Proof.
  unfold dict_ok, kept_entries. induction d as [|[q i] d IH]; intros [N H]; cbn [flat_map fst snd]; [constructor|]. cbn [map fst] in N. inversion N as [|? ? Nq N']; subst.
  assert (forall (l1 l2 : list (pfx * source)), NoDup l1 -> NoDup l2 -> (forall x, In x l1 -> ~ In x l2) -> NoDup (l1 ++ l2)) as A.
  { clear. induction l1 as [|x l1 IH]; intros l2 N1 N2 D; [exact N2|]. inversion N1; subst. cbn. constructor.
    - intros I. apply in_app_or in I. destruct I as [I|I]; [contradiction|]. apply (D x); [left; reflexivity|exact I].
    - apply IH; auto. intros y I. apply D. right. exact I. }
  apply A.
  - destruct (H q i (or_introl eq_refl)) as [Ni _]. clear -Ni. induction i as [|[s r] i IH]; cbn [map fst] in *; [constructor|]. inversion Ni as [|? ? Ns N']; subst. constructor; [|apply IH, N'].
    intros I. apply in_map_iff in I. destruct I as ([s' r'] & E & I). injection E as ->. apply Ns. apply in_map_iff. exists (s, r'). auto.
  - apply IH. split; [exact N'|]. intros q' i' I. apply (H q' i'). right. exact I.
  - intros [q' s] I1 I2. apply in_map_iff in I1. destruct I1 as (? & E & _). injection E as <- _.
    apply in_flat_map in I2. destruct I2 as ([q2 i2] & I2 & I3). apply in_map_iff in I3. destruct I3 as (? & E & _). injection E as -> _.
    apply Nq. apply in_map_iff. exists (q, i2). auto.
Qed.
Lemma kept_registered s q so : dict_ok (ms_regs s) -> In (q, so) (kept_entries (ms_regs s)) -> exists rg, registered s q so = Some rg.
Proof.
  intros [N H] I. apply in_flat_map in I. destruct I as ([q' i] & I & J). apply in_map_iff in J. destruct J as ([so' rg] & E & J). injection E as <- <-.
  exists rg. unfold registered. cbn [fst snd] in *. rewrite (in_dget _ pfx_eqb_spec _ _ _ N I). destruct (H _ _ I) as [Ni _]. apply (in_dget _ source_eqb_ok _ _ _ Ni J).
Qed.
Definition asked (x : event * nat) (y : pfx * source) : Prop :=
  exists m ar clock r, brings (fst x) (PCtl (CReg m)) ar clock /\ nth_error (g_records m) (snd x) = Some r /\ eid_prefix r (fst y) /\ sender m (ar_src ar) (snd y).
Lemma asked_fun x y y' : asked x y -> asked x y' -> y = y'.
Proof.
  intros (m & ar & k & r & B & E & Q & S) (m' & ar' & k' & r' & B' & E' & Q' & S'). destruct (brings_fun _ _ _ _ _ _ _ B B') as (X & <- & _). injection X as <-.
  rewrite E in E'. injection E' as <-. destruct y as [q so], y' as [q' so']. cbn [fst snd] in *. f_equal; [exact (eid_prefix_fun _ _ _ Q Q')|].
  destruct S as [[X1 ->]|[X1 ->]], S' as [[X2 ->]|[X2 ->]]; congruence.
Qed.
(** The number of registrations a Map-Server holds after a cleanup pass for time [t] is at most the number of records in the
    Map-Registers handled at most 180 seconds before [t]. *)
Theorem C143_bounded : forall hm cfg socks P keys mores st h id t L, good_cfg cfg P -> fresh_ms keys mores st -> recent_records t h L ->
  (length (kept_entries (ms_regs (dm_ms (fst (run hm cfg socks st (h ++ [Cleanup id t]))) id))) <= length L)%nat.
Proof.
  intros hm cfg socks P keys mores st h id t L G F HL.
  destruct (daemon_invariant hm cfg socks P keys mores st (h ++ [Cleanup id t]) G F) as (_ & D & I). cbn zeta in D, I.
  apply (no_more asked asked_fun); [apply kept_nodup, D|]. intros [q so] K. destruct (kept_registered _ _ _ (D id) K) as [rg R].
  apply I in R. destruct R as (a & x & b & E & (m & ar & k & i & B & (nd & _ & _ & _ & A) & _) & _ & C).
  destruct A as (r & r' & _ & Hn & Q & _ & _ & S & _ & ->). cbn [rg_deadline] in C.
  assert (In x h) as Ix.
  { assert (In x (h ++ [Cleanup id t])) as Ix by (rewrite E; apply in_or_app; right; left; reflexivity). apply in_app_or in Ix.
    destruct Ix as [Ix|[<-|[]]]; [exact Ix|inversion B]. }
  assert (t <= k i + 180 * sec) as T.
  { apply C. destruct b as [|y b] using rev_ind; [apply app_inj_tail in E; destruct E as [_ <-]; inversion B|]. clear IHb.
    rewrite app_comm_cons, app_assoc in E. apply app_inj_tail in E. destruct E as [_ <-]. apply in_or_app. right. left. reflexivity. }
  exists (x, i). split; [|exists m, ar, k, r; auto].
  apply (HL x m ar k i Ix B); [|exact T]. apply nth_error_Some. rewrite Hn. discriminate.
Qed.
(** In particular nothing is left 180 seconds after the last Map-Register. *)
Corollary C143_empties : forall hm cfg socks P keys mores st h id t, good_cfg cfg P -> fresh_ms keys mores st ->
  (forall e m ar clock i, In e h -> brings e (PCtl (CReg m)) ar clock -> clock i + 180 * sec < t) ->
  kept_entries (ms_regs (dm_ms (fst (run hm cfg socks st (h ++ [Cleanup id t]))) id)) = [].
Proof.
  intros hm cfg socks P keys mores st h id t G F O. pose proof (C143_bounded hm cfg socks P keys mores st h id t [] G F) as B.
  destruct (kept_entries _); [reflexivity|]. cbn [length] in B. assert (S (length l) <= 0)%nat as X; [|inversion X].
  apply B. intros e m ar k i I Br _ T. specialize (O e m ar k i I Br). lia.
Qed.
(** ... and no empty table stays behind for a prefix. *)
Theorem C143_no_empty_tables : forall hm cfg socks P keys mores st h id q i, good_cfg cfg P -> fresh_ms keys mores st ->
  In (q, i) (ms_regs (dm_ms (fst (run hm cfg socks st h)) id)) -> i <> [].
Proof.
  intros hm cfg socks P keys mores st h id q i G F I. destruct (daemon_invariant hm cfg socks P keys mores st h G F) as (_ & D & _). cbn zeta in D. destruct (D id) as [_ H]. apply (H q i I).
Qed.
(** example: three Map-Registers of two hosts; one host's is too old *)
Example C143_example : let h := [ro_one; ro_two; AtControl there ro_bytes (fun _ => 50 * sec)] in
  recent_records (200 * sec) h [(AtControl there ro_bytes (fun _ => 50 * sec), 0%nat)] /\
  kept_entries (ms_regs (dm_ms (fst (run toy_hm ms_cfg [] PropDaemon2.start (h ++ [Cleanup 7 (200 * sec)]))) 7%nat)) = [(p16, SAddr V4 77)] /\
  kept_entries (ms_regs (dm_ms (fst (run toy_hm ms_cfg [] PropDaemon2.start h)) 7%nat)) = [(p16, SAddr V4 77); (p16, SAddr V4 78)].
Proof.
  cbn zeta. split; [|split; vm_compute; reflexivity].
  assert (exists g, pkt_from_bytes KCtl ro_bytes = Ok (PCtl (CReg g)) /\ length (g_records g) = 1%nat) as (g & Eg & Lg) by (eexists; split; [vm_compute; reflexivity|reflexivity]).
  intros e m ar k i [<-|[<-|[<-|[]]]] B Li T; inversion B as [? ? ? ? E|]; subst; rewrite Eg in E; injection E as <-; cbn beta in T; try (unfold sec in T; lia).
  rewrite Lg in Li. assert (i = 0)%nat as -> by lia. left. reflexivity.
Qed.
Print Assumptions C143_bounded.
Print Assumptions C143_empties.
Print Assumptions C143_no_empty_tables.
