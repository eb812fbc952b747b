(** * Property C142: how often the cleanup threads run *)
From Verif Require Import Base BaseLemmas Afi AfiProofs Spec SpecEid PropEid Records Control SpecRec PropControl Packet SpecPkt PropPacket PropUdp PropPacket2 PropPacket3
  Auth SpecAuth PropAuth Tree SpecTree TreeProofs PropTree PropTree2 Dict MapServer SpecMs PropMs PropMs2 Net Ddt SpecDdt PropDdt2 Etr SpecEtr PropEtr PropEtr2
  Daemon SpecDaemon PropDaemon PropDaemon2 Exchange SpecExch PropExch SpecRoute PropRoute PropIso SpecReorder PropReorder SpecOthers PropOthers PropRestart SpecPasses.

Lemma passes_sym t h h' : other_passes t h h' -> other_passes t h' h.
Proof. induction 1; [constructor|apply op_both; assumption|apply op_more; assumption|apply op_less; assumption]. Qed.
Lemma passes_in t h h' e : other_passes t h h' -> In e h' -> In e h \/ exists id u, e = Cleanup id u /\ u <= t.
Proof.
  induction 1 as [|x h h' S IH|id u h h' U S IH|id u h h' U S IH]; intros I.
  - destruct I.
  - destruct I as [<-|I]; [left; left; reflexivity|]. destruct (IH I) as [?|?]; [left; right; assumption|right; assumption].
  - destruct (IH I) as [?|?]; [left; right; assumption|right; assumption].
  - destruct I as [<-|I]; [right; eauto|]. apply IH, I.
Qed.
Lemma passes_split t h h' : other_passes t h h' -> forall a x b, h = a ++ x :: b -> (forall id u, x <> Cleanup id u) ->
  exists a' b', h' = a' ++ x :: b' /\ other_passes t b b'.
Proof.
  induction 1 as [|y h h' S IH|id u h h' U S IH|id u h h' U S IH]; intros a x b E R.
  - destruct a; discriminate.
  - destruct a as [|z a]; cbn [app] in E; injection E as <- E.
    + subst. exists [], h'. auto.
    + destruct (IH a x b E R) as (a' & b' & -> & S'). exists (y :: a'), b'. auto.
  - destruct a as [|z a]; cbn [app] in E; injection E as <- E; [destruct (R id u eq_refl)|]. apply (IH a x b E R).
  - destruct (IH a x b E R) as (a' & b' & -> & S'). exists (Cleanup id u :: a'), b'. auto.
Qed.
Lemma registers_no_pass hm cfg keys mores x id q so rg : registers hm cfg keys mores x id q so rg -> forall j u, x <> Cleanup j u.
Proof. intros (m & ar & k & i & B & _) j u ->. inversion B. Qed.
Lemma passes_force hm cfg keys mores t h h' id q so rg : other_passes t h h' ->
  d_in_force hm cfg keys mores (h ++ [Cleanup id t]) id q so rg -> d_in_force hm cfg keys mores (h' ++ [Cleanup id t]) id q so rg.
Proof.
  intros S (a & x & b & E & R & L & C). destruct (split_two _ _ _ _ _ E) as [(a0 & E0 & ->)|(b0 & E0 & _)].
  2: { destruct b0 as [|y [|]]; try discriminate. injection E0 as <- _. destruct (registers_no_pass _ _ _ _ _ _ _ _ _ R id t eq_refl). }
  destruct (passes_split _ _ _ S _ _ _ E0 (registers_no_pass _ _ _ _ _ _ _ _ _ R)) as (a' & b' & -> & S').
  exists a', x, (b' ++ [Cleanup id t]). split; [rewrite <- app_assoc; reflexivity|]. split; [exact R|].
  assert (t <= rg_deadline rg) as T by (apply C, in_or_app; right; left; reflexivity). split.
  - intros e rz I. apply in_app_or in I. destruct I as [I|I]; [|apply L, in_or_app; right; exact I].
    destruct (passes_in _ _ _ _ S' I) as [I'|(j & u & -> & _)]; [apply L, in_or_app; left; exact I'|]. intros Rz. destruct (registers_no_pass _ _ _ _ _ _ _ _ _ Rz j u eq_refl).
  - intros u I. apply in_app_or in I. destruct I as [I|[I|[]]]; [|injection I as <-; exact T].
    destruct (passes_in _ _ _ _ S' I) as [I'|(j & u' & E' & U)]; [apply C, in_or_app; left; exact I'|]. injection E' as <- <-. lia.
Qed.
(** After a pass of a node's cleanup thread, what is registered there does not depend on which passes were made before. *)
Theorem C142_registrations : forall hm cfg socks P keys mores st t h h' id, good_cfg cfg P -> fresh_ms keys mores st -> other_passes t h h' -> forall q so,
  registered (dm_ms (fst (run hm cfg socks st (h ++ [Cleanup id t]))) id) q so = registered (dm_ms (fst (run hm cfg socks st (h' ++ [Cleanup id t]))) id) q so.
Proof.
  intros hm cfg socks P keys mores st t h h' id G F S q so.
  pose proof (fun l rg => C74_registered_iff_in_force hm cfg socks P keys mores st l id q so rg G F) as I.
  destruct (registered (dm_ms (fst (run hm cfg socks st (h ++ [Cleanup id t]))) id) q so) as [rg|] eqn:R.
  - symmetry. apply I. eapply passes_force; [exact S|]. apply I, R.
  - destruct (registered (dm_ms (fst (run hm cfg socks st (h' ++ [Cleanup id t]))) id) q so) as [rg|] eqn:R'; [|reflexivity].
    rewrite <- R. apply I. eapply passes_force; [apply passes_sym, S|]. apply I, R'.
Qed.
(** No pass ever changes an answer. *)
Theorem C142_answers : forall hm cfg socks st t h h' e, other_passes t h h' ->
  snd (step hm cfg socks (fst (run hm cfg socks st h)) e) = snd (step hm cfg socks (fst (run hm cfg socks st h')) e).
Proof.
  intros hm cfg socks st t h h' e S. apply C123_forgetful. induction S as [|x h h' S IH|id u h h' U S IH|id u h h' U S IH]; cbn [filter by_threads]; [reflexivity| |exact IH|exact IH].
  destruct (by_threads x); [f_equal|]; exact IH.
Qed.
(** example: two passes less, one more; one registration survives, the other has expired *)
Example C142_example : let h := [ro_one; Cleanup 7 100; rs_again; ro_two; Cleanup 7 (20 * sec)] in let h' := [ro_one; rs_again; Cleanup 7 (30 * sec); ro_two] in
  other_passes (200 * sec) h h' /\
  registered (dm_ms (fst (run toy_hm ms_cfg [] PropDaemon2.start (h ++ [Cleanup 7 (200 * sec)]))) 7%nat) p16 (SAddr V4 77) = Some (Reg open_record false (50 * sec + 180 * sec)) /\
  registered (dm_ms (fst (run toy_hm ms_cfg [] PropDaemon2.start (h ++ [Cleanup 7 (200 * sec)]))) 7%nat) p16 (SAddr V4 78) = None /\
  registered (dm_ms (fst (run toy_hm ms_cfg [] PropDaemon2.start h)) 7%nat) p16 (SAddr V4 78) = Some (Reg open_record false (6 + 180 * sec)).
Proof.
  cbn zeta. split; [|vm_compute; auto]. apply op_both, op_less; [vm_compute; discriminate|]. apply op_both, op_more; [vm_compute; discriminate|].
  apply op_both, op_less; [vm_compute; discriminate|apply op_nil].
Qed.
Print Assumptions C142_registrations.
Print Assumptions C142_answers.
