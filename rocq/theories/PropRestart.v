(** * Property C141: a Map-Server that was restarted *)
From Verif Require Import Base BaseLemmas Afi AfiProofs Spec SpecEid PropEid Records Control SpecRec PropControl Packet SpecPkt PropPacket PropUdp PropPacket2 PropPacket3
  Auth SpecAuth PropAuth Tree SpecTree TreeProofs PropTree PropTree2 Dict MapServer SpecMs PropMs PropMs2 Net Ddt SpecDdt PropDdt2 Etr SpecEtr PropEtr PropEtr2
  Daemon SpecDaemon PropDaemon PropDaemon2 Exchange SpecExch PropExch SpecRoute PropRoute PropIso SpecReorder PropReorder SpecOthers PropOthers.

Lemma split_two {A} (h1 h2 a : list A) x b : h1 ++ h2 = a ++ x :: b ->
  (exists a', h1 = a ++ x :: a' /\ b = a' ++ h2) \/ (exists b', h2 = b' ++ x :: b /\ a = h1 ++ b').
Proof.
  revert a. induction h1 as [|y h1 IH]; intros a E; [right; exists a; auto|].
  destruct a as [|z a]; cbn [app] in E; [injection E as <- <-; left; exists h1; auto|]. injection E as <- E.
  destruct (IH a E) as [(a' & -> & ->)|(b' & -> & ->)]; [left; exists a'; auto|right; exists b'; auto].
Qed.
Section Restart.
Variable hm : Z -> bytes -> bytes -> bytes.
Variable cfg : instances.
Variable socks : list (fam * Z).
Variable P : nat -> pfx.
Variable keys : nat -> bytes.
Variable mores : nat -> bool.
Hypothesis G : good_cfg cfg P.
Lemma keep_right h1 h2 id q so rg : d_in_force hm cfg keys mores h2 id q so rg -> d_in_force hm cfg keys mores (h1 ++ h2) id q so rg.
Proof. intros (a & x & b & -> & R). exists (h1 ++ a), x, b. split; [rewrite app_assoc; reflexivity|exact R]. Qed.
Lemma from_right h1 h2 id q so rg : d_in_force hm cfg keys mores (h1 ++ h2) id q so rg ->
  (forall x a', In x h1 -> registers hm cfg keys mores x id q so rg -> (forall e rz, In e h2 -> ~ registers hm cfg keys mores e id q so rz) ->
     (forall t, In (Cleanup id t) (a' ++ h2) -> t <= rg_deadline rg) -> False) -> d_in_force hm cfg keys mores h2 id q so rg.
Proof.
  intros (a & x & b & E & R & L & C) K. destruct (split_two _ _ _ _ _ E) as [(a' & -> & ->)|(b' & -> & ->)].
  - destruct (K x a'); [apply in_or_app; right; left; reflexivity|exact R| |exact C]. intros e rz I. apply L, in_or_app. right. exact I.
  - exists b', x, b. auto.
Qed.
Lemma same_if h1 h2 st st' id q so : fresh_ms keys mores st -> fresh_ms keys mores st' ->
  (forall rg, d_in_force hm cfg keys mores (h1 ++ h2) id q so rg -> d_in_force hm cfg keys mores h2 id q so rg) ->
  registered (dm_ms (fst (run hm cfg socks st' h2)) id) q so = registered (dm_ms (fst (run hm cfg socks st (h1 ++ h2))) id) q so.
Proof.
  intros F F' K. pose proof (fun l rg => C74_registered_iff_in_force hm cfg socks P keys mores st l id q so rg G F) as I.
  pose proof (fun l rg => C74_registered_iff_in_force hm cfg socks P keys mores st' l id q so rg G F') as I'.
  destruct (registered (dm_ms (fst (run hm cfg socks st (h1 ++ h2))) id) q so) as [rg|] eqn:R.
  - apply I', K, I, R.
  - destruct (registered (dm_ms (fst (run hm cfg socks st' h2)) id) q so) as [rg|] eqn:R'; [|reflexivity].
    rewrite <- R. symmetry. apply I, keep_right, I', R'.
Qed.
(** [h1] happened before the restart, [h2] after it.  What has been registered again since is as if there had been no restart. *)
Theorem C141_registered_again : forall st st' h1 h2 id q so, fresh_ms keys mores st -> fresh_ms keys mores st' ->
  (exists e rg, In e h2 /\ registers hm cfg keys mores e id q so rg) ->
  registered (dm_ms (fst (run hm cfg socks st' h2)) id) q so = registered (dm_ms (fst (run hm cfg socks st (h1 ++ h2))) id) q so.
Proof.
  intros st st' h1 h2 id q so F F' (e & rz & I & R). apply same_if; [assumption..|]. intros rg D. eapply from_right; [exact D|].
  intros x a' _ _ N _. exact (N e rz I R).
Qed.
(** After a cleanup pass more than 180 seconds after the last datagram before the restart, everything is. *)
Theorem C141_after_a_while : forall st st' h1 h2 id t, fresh_ms keys mores st -> fresh_ms keys mores st' ->
  (forall e m ar clock i, In e h1 -> brings e m ar clock -> clock i + 180 * sec < t) -> In (Cleanup id t) h2 -> forall q so,
  registered (dm_ms (fst (run hm cfg socks st' h2)) id) q so = registered (dm_ms (fst (run hm cfg socks st (h1 ++ h2))) id) q so.
Proof.
  intros st st' h1 h2 id t F F' O Ct q so. apply same_if; [assumption..|]. intros rg D. eapply from_right; [exact D|].
  intros x a' Ix R _ C. specialize (C t (in_or_app _ _ _ (or_intror Ct))).
  destruct R as (m & ar & k & i & B & (nd & _ & _ & _ & A) & _). destruct A as (r & r' & _ & _ & _ & _ & _ & _ & _ & ->). cbn [rg_deadline] in C.
  specialize (O x _ _ _ i Ix B). lia.
Qed.
(** Until somebody registers it again, nothing is registered. *)
Theorem C141_until_then : forall st' h2 id q so, fresh_ms keys mores st' ->
  (forall e rg, In e h2 -> ~ registers hm cfg keys mores e id q so rg) ->
  registered (dm_ms (fst (run hm cfg socks st' h2)) id) q so = None.
Proof.
  intros st' h2 id q so F N. destruct (registered (dm_ms (fst (run hm cfg socks st' h2)) id) q so) as [rg|] eqn:R; [|reflexivity].
  apply (C74_registered_iff_in_force hm cfg socks P keys mores st' h2 id q so rg G F) in R. destruct R as (a & x & b & -> & R & _).
  destruct (N x rg); [apply in_or_app; right; left; reflexivity|exact R].
Qed.
End Restart.
(** example: two hosts were registered before the restart; one has registered again *)
Definition rs_again : event := AtControl there ro_bytes (fun _ => 50 * sec).
Example C141_example : good_cfg ms_cfg (fun id => if Nat.eqb id 7 then p8 else Pfx V4 0 0) /\ fresh_ms (fun _ => B [1;2]) (fun _ => true) PropDaemon2.start /\
  (let all := fst (run toy_hm ms_cfg [] PropDaemon2.start ([ro_one; ro_two] ++ [rs_again])) in
   let since := fst (run toy_hm ms_cfg [] PropDaemon2.start [rs_again]) in
   registered (dm_ms all 7%nat) p16 (SAddr V4 77) = Some (Reg open_record false (50 * sec + 180 * sec)) /\
   registered (dm_ms since 7%nat) p16 (SAddr V4 77) = Some (Reg open_record false (50 * sec + 180 * sec)) /\
   registered (dm_ms all 7%nat) p16 (SAddr V4 78) = Some (Reg open_record false (6 + 180 * sec)) /\
   registered (dm_ms since 7%nat) p16 (SAddr V4 78) = None) /\
  (let all := fst (run toy_hm ms_cfg [] PropDaemon2.start ([ro_one; ro_two] ++ [rs_again; Cleanup 7 (200 * sec)])) in
   let since := fst (run toy_hm ms_cfg [] PropDaemon2.start [rs_again; Cleanup 7 (200 * sec)]) in
   registered (dm_ms all 7%nat) p16 (SAddr V4 77) = registered (dm_ms since 7%nat) p16 (SAddr V4 77) /\
   registered (dm_ms all 7%nat) p16 (SAddr V4 78) = None).
Proof. split; [exact ms_cfg_good|]. split; [reflexivity|]. vm_compute. auto 10. Qed.
Print Assumptions C141_registered_again.
Print Assumptions C141_after_a_while.
Print Assumptions C141_until_then.
