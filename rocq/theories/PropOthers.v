(** * Property C140: lost or forged datagrams of others do not touch a sender's registrations *)
From Verif Require Import Base BaseLemmas Afi AfiProofs Spec SpecEid PropEid Records Control SpecRec PropControl Packet SpecPkt PropPacket PropUdp PropPacket2 PropPacket3
  Auth SpecAuth PropAuth Tree SpecTree TreeProofs PropTree PropTree2 Dict MapServer SpecMs PropMs PropMs2 Net Ddt SpecDdt PropDdt2 Etr SpecEtr PropEtr PropEtr2
  Daemon SpecDaemon PropDaemon PropDaemon2 Exchange SpecExch PropExch SpecRoute PropRoute PropIso SpecReorder PropReorder SpecOthers.

Lemma same_for_sym so h h' : same_for so h h' -> same_for so h' h.
Proof. induction 1; [constructor|apply sf_both; assumption|apply sf_added; assumption|apply sf_lost; assumption]. Qed.
(** what is in a history and concerns [so] is in the other one too *)
Lemma same_for_in so h h' e : same_for so h h' -> In e h' -> In e h \/ (is_datagram e /\ ~ register_from e so).
Proof.
  induction 1 as [|x h h' S IH|x h h' D N S IH|x h h' D N S IH]; intros I.
  - destruct I.
  - destruct I as [<-|I]; [left; left; reflexivity|]. destruct (IH I) as [?|?]; [left; right; assumption|right; assumption].
  - destruct (IH I) as [?|?]; [left; right; assumption|right; assumption].
  - destruct I as [<-|I]; [right; auto|]. apply IH, I.
Qed.
Lemma same_for_split so h h' : same_for so h h' -> forall a x b, h = a ++ x :: b -> register_from x so ->
  exists a' b', h' = a' ++ x :: b' /\ same_for so b b'.
Proof.
  induction 1 as [|y h h' S IH|y h h' D N S IH|y h h' D N S IH]; intros a x b E R.
  - destruct a; discriminate.
  - destruct a as [|z a]; cbn [app] in E; injection E as <- E.
    + subst. exists [], h'. auto.
    + destruct (IH a x b E R) as (a' & b' & -> & S'). exists (y :: a'), b'. auto.
  - destruct a as [|z a]; cbn [app] in E; injection E as <- E; [contradiction|]. apply (IH a x b E R).
  - destruct (IH a x b E R) as (a' & b' & -> & S'). exists (y :: a'), b'. auto.
Qed.
Lemma in_force_others hm cfg keys mores h h' id q so rg : same_for so h h' ->
  d_in_force hm cfg keys mores h id q so rg -> d_in_force hm cfg keys mores h' id q so rg.
Proof.
  intros S (a & x & b & E & R & L & C). destruct (same_for_split so h h' S a x b E) as (a' & b' & E' & S').
  { eapply registers_from, R. }
  exists a', x, b'. split; [exact E'|]. split; [exact R|]. split.
  - intros e' rg' I R'. destruct (same_for_in _ _ _ _ S' I) as [I'|[_ N]]; [exact (L _ _ I' R')|]. apply N. eapply registers_from, R'.
  - intros t I. destruct (same_for_in _ _ _ _ S' I) as [I'|[[] _]]. apply C, I'.
Qed.
(** The registrations of [so], everywhere, are what they would be without any of those datagrams. *)
Theorem C140_own_only : forall hm cfg socks P keys mores st h h' so, good_cfg cfg P -> fresh_ms keys mores st -> same_for so h h' ->
  forall id q, registered (dm_ms (fst (run hm cfg socks st h)) id) q so = registered (dm_ms (fst (run hm cfg socks st h')) id) q so.
Proof.
  intros hm cfg socks P keys mores st h h' so G F S id q.
  pose proof (fun l rg => C74_registered_iff_in_force hm cfg socks P keys mores st l id q so rg G F) as I.
  destruct (registered (dm_ms (fst (run hm cfg socks st h)) id) q so) as [rg|] eqn:R.
  - symmetry. apply I. eapply in_force_others; [exact S|]. apply I, R.
  - destruct (registered (dm_ms (fst (run hm cfg socks st h')) id) q so) as [rg|] eqn:R'; [|reflexivity].
    rewrite <- R. apply I. eapply in_force_others; [apply same_for_sym, S|]. apply I, R'.
Qed.
(** In particular: whoever does not claim to be [so] cannot remove, replace, prolong or add a registration of [so], even with the key. *)
Theorem C140_others_cannot : forall hm cfg socks P keys mores st h evil so, good_cfg cfg P -> fresh_ms keys mores st ->
  (forall e, In e evil -> is_datagram e /\ ~ register_from e so) ->
  forall id q, registered (dm_ms (fst (run hm cfg socks st (h ++ evil))) id) q so = registered (dm_ms (fst (run hm cfg socks st h)) id) q so.
Proof.
  intros hm cfg socks P keys mores st h evil so G F E id q. apply (C140_own_only hm cfg socks P keys mores st _ _ so G F).
  induction h as [|x h IH]; cbn [app]; [|apply sf_both, IH].
  induction evil as [|e evil IH]; [constructor|]. destruct (E e (or_introl eq_refl)) as [D N]. apply sf_lost; [exact D|exact N|]. apply IH. intros y I. apply E. right. exact I.
Qed.
(** example: what the other host sends is lost, and rubbish arrives instead *)
Example C140_example : same_for (SAddr V4 77) [ro_two; ro_one; Cleanup 7 100] [AtControl there (B [1;2;3]) (fun _ => 4); ro_one; Cleanup 7 100] /\ register_from ro_one (SAddr V4 77).
Proof.
  assert (exists g, pkt_from_bytes KCtl ro_bytes = Ok (PCtl (CReg g)) /\ g_xtr g = 0) as (g & Eg & Xg) by (eexists; split; [vm_compute; reflexivity|reflexivity]).
  split; [|exists g, there, (fun _ => 5); split; [constructor; exact Eg|right; auto]].
  apply sf_lost; [exact Logic.I| |apply sf_added; [exact Logic.I| |apply sf_both, sf_both, sf_nil]].
  - intros (m2 & a2 & k2 & B2 & S2). inversion B2 as [? ? ? ? E2|]; subst. rewrite Eg in E2. injection E2 as <-. destruct S2 as [[? _]|[_ S2]]; [contradiction|discriminate].
  - intros (m2 & a2 & k2 & B2 & S2). inversion B2 as [? ? ? ? E2|]; subst. vm_compute in E2. discriminate.
Qed.
Print Assumptions C140_own_only.
Print Assumptions C140_others_cannot.
