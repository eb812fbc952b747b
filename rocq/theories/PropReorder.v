(** * Property C139: the order in which datagrams of different senders arrive does not matter *)
From Coq Require Import Permutation.
From Verif Require Import Base BaseLemmas Afi AfiProofs Spec SpecEid PropEid Records Control SpecRec PropControl Packet SpecPkt PropPacket PropUdp PropPacket2 PropPacket3
  Auth SpecAuth PropAuth Tree SpecTree TreeProofs PropTree PropTree2 Dict MapServer SpecMs PropMs PropMs2 Net Ddt SpecDdt PropDdt2 Etr SpecEtr PropEtr PropEtr2
  Daemon SpecDaemon PropDaemon PropDaemon2 Exchange SpecExch PropExch SpecRoute PropRoute PropIso SpecReorder.

Lemma registers_from hm cfg keys mores e id q so rg : registers hm cfg keys mores e id q so rg -> register_from e so.
Proof.
  intros (m & ar & k & i & B & (nd & _ & _ & _ & A) & _). destruct A as (r & r' & _ & _ & _ & _ & _ & S & _). exists m, ar, k. auto.
Qed.
Lemma in_force_swap hm cfg keys mores h1 e1 e2 h2 id q so rg : is_datagram e1 -> is_datagram e2 ->
  (forall so, register_from e1 so -> ~ register_from e2 so) ->
  d_in_force hm cfg keys mores (h1 ++ e1 :: e2 :: h2) id q so rg -> d_in_force hm cfg keys mores (h1 ++ e2 :: e1 :: h2) id q so rg.
Proof.
  intros D1 D2 N (a & x & b & E & R & L & C).
  assert ((exists a', h1 = a ++ x :: a' /\ b = a' ++ e1 :: e2 :: h2) \/ (a = h1 /\ x = e1 /\ b = e2 :: h2) \/ (a = h1 ++ [e1] /\ x = e2 /\ b = h2) \/
          (exists b', h2 = b' ++ x :: b /\ a = h1 ++ e1 :: e2 :: b')) as K.
  { clear -E. revert a E. induction h1 as [|y h1 IH]; intros a E.
    - destruct a as [|z1 a]; cbn [app] in E; [injection E as <- <-; auto 9|]. injection E as <- E.
      destruct a as [|z2 a]; cbn [app] in E; [injection E as <- <-; auto 9|]. injection E as <- E.
      right. right. right. exists a. auto.
    - destruct a as [|z a]; cbn [app] in E; [injection E as <- <-; left; exists h1; auto 9|]. injection E as <- E.
      destruct (IH a E) as [(a' & -> & ->)|[(-> & -> & ->)|[(-> & -> & ->)|(b' & -> & ->)]]].
      + left. exists a'. split; reflexivity.
      + right. left. repeat split.
      + right. right. left. repeat split.
      + right. right. right. exists b'. split; reflexivity. }
  destruct K as [(a' & -> & ->)|[(-> & -> & ->)|[(-> & -> & ->)|(b' & -> & ->)]]].
  - exists a, x, (a' ++ e2 :: e1 :: h2). split; [rewrite <- app_assoc; reflexivity|]. split; [exact R|]. split.
    + intros e' rg' I. apply L. rewrite in_app_iff in I |- *. cbn [In] in *. tauto.
    + intros t I. apply C. rewrite in_app_iff in I |- *. cbn [In] in *. tauto.
  - exists (h1 ++ [e2]), e1, h2. split; [rewrite <- app_assoc; reflexivity|]. split; [exact R|]. split.
    + intros e' rg' I. apply L. right. exact I.
    + intros t I. apply C. right. exact I.
  - exists h1, e2, (e1 :: h2). split; [reflexivity|]. split; [exact R|]. split.
    + intros e' rg' [<-|I] R'; [|exact (L _ _ I R')]. eapply N; eapply registers_from; eassumption.
    + intros t [->|I]; [destruct D1|apply C, I].
  - exists (h1 ++ e2 :: e1 :: b'), x, b. split; [rewrite <- app_assoc; reflexivity|]. auto.
Qed.
(** Whatever overtakes what: the same prefixes are registered, with the same records, until the same time. *)
Theorem C139_registrations : forall hm cfg socks P keys mores st h h' id q so, good_cfg cfg P -> fresh_ms keys mores st -> overtaken h h' ->
  registered (dm_ms (fst (run hm cfg socks st h)) id) q so = registered (dm_ms (fst (run hm cfg socks st h')) id) q so.
Proof.
  intros hm cfg socks P keys mores st h h' id q so G F O. induction O as [h|h1 e1 e2 h2 D1 D2 N|a b c _ IH1 _ IH2]; [reflexivity| |congruence].
  pose proof (fun l rg => C74_registered_iff_in_force hm cfg socks P keys mores st l id q so rg G F) as I.
  assert (forall so0, register_from e2 so0 -> ~ register_from e1 so0) as N' by (intros s R2 R1; exact (N s R1 R2)).
  destruct (registered (dm_ms (fst (run hm cfg socks st (h1 ++ e1 :: e2 :: h2))) id) q so) as [rg|] eqn:R.
  - symmetry. apply I. apply in_force_swap; auto. apply I, R.
  - destruct (registered (dm_ms (fst (run hm cfg socks st (h1 ++ e2 :: e1 :: h2))) id) q so) as [rg|] eqn:R'; [|reflexivity].
    rewrite <- R. apply I. apply in_force_swap; auto. apply I, R'.
Qed.

Lemma run_split hm cfg socks st h1 h2 :
  run hm cfg socks st (h1 ++ h2) = (fst (run hm cfg socks (fst (run hm cfg socks st h1)) h2), snd (run hm cfg socks st h1) ++ snd (run hm cfg socks (fst (run hm cfg socks st h1)) h2)).
Proof.
  revert st. induction h1 as [|e h1 IH]; intros st; cbn [app run fst snd].
  - destruct (run hm cfg socks st h2); reflexivity.
  - destruct (step hm cfg socks st e) as [s o]. rewrite IH. destruct (run hm cfg socks s h1) as [s' l]. reflexivity.
Qed.
Lemma run_outs_forget hm cfg socks st h : forall p1 p2, filter by_threads p1 = filter by_threads p2 ->
  snd (run hm cfg socks (fst (run hm cfg socks st p1)) h) = snd (run hm cfg socks (fst (run hm cfg socks st p2)) h).
Proof.
  induction h as [|e h IH]; intros p1 p2 F; [reflexivity|]. cbn [run].
  pose proof (C123_forgetful hm cfg socks st p1 p2 e F) as O.
  assert (filter by_threads (p1 ++ [e]) = filter by_threads (p2 ++ [e])) as F' by (rewrite !filter_app, F; reflexivity).
  specialize (IH _ _ F'). rewrite !run_split in IH. cbn [run fst] in IH.
  destruct (step hm cfg socks (fst (run hm cfg socks st p1)) e) as [s1 o1]. destruct (step hm cfg socks (fst (run hm cfg socks st p2)) e) as [s2 o2].
  cbn [fst snd] in *. subst o2. destruct (run hm cfg socks s1 h) as [x1 l1]. destruct (run hm cfg socks s2 h) as [x2 l2]. cbn [snd] in *. congruence.
Qed.
Lemma datagram_no_thread e : is_datagram e -> by_threads e = false.
Proof. destruct e; cbn; intuition. Qed.
Lemma run_length hm cfg socks st h : length (snd (run hm cfg socks st h)) = length h.
Proof. revert st. induction h as [|e h IH]; intros st; [reflexivity|]. cbn [run]. destruct (step hm cfg socks st e) as [s o]. specialize (IH s). destruct (run hm cfg socks s h). cbn [snd length] in *. congruence. Qed.
(** And every datagram gets the same answer. *)
Theorem C139_answers : forall hm cfg socks st h h', overtaken h h' ->
  Permutation (combine h (snd (run hm cfg socks st h))) (combine h' (snd (run hm cfg socks st h'))).
Proof.
  intros hm cfg socks st h h' O. induction O as [h|h1 e1 e2 h2 D1 D2 _|a b c _ IH1 _ IH2]; [reflexivity| |etransitivity; eassumption].
  apply datagram_no_thread in D1, D2. rewrite !run_split. cbn [fst snd].
  assert (forall (l1 : list event) (m1 m2 : list (list output)) l2, length l1 = length m1 -> combine (l1 ++ l2) (m1 ++ m2) = combine l1 m1 ++ combine l2 m2) as CA.
  { clear. induction l1 as [|x l1 IH]; intros [|y m1] m2 l2 H; try discriminate; [reflexivity|]. cbn. rewrite IH by (injection H; auto). reflexivity. }
  rewrite !CA by (symmetry; apply run_length). apply Permutation_app_head.
  pose proof (run_outs_forget hm cfg socks st h2 (h1 ++ [e1; e2]) (h1 ++ [e2; e1])) as T.
  rewrite !filter_app in T. cbn [filter] in T. rewrite D1, D2 in T. specialize (T eq_refl).
  pose proof (C123_forgetful hm cfg socks st (h1 ++ [e2]) h1 e1) as S1. rewrite filter_app in S1. cbn [filter] in S1. rewrite D2, app_nil_r in S1. specialize (S1 eq_refl).
  pose proof (C123_forgetful hm cfg socks st (h1 ++ [e1]) h1 e2) as S2. rewrite filter_app in S2. cbn [filter] in S2. rewrite D1, app_nil_r in S2. specialize (S2 eq_refl).
  rewrite (run_split hm cfg socks st h1 [e1; e2]), (run_split hm cfg socks st h1 [e2; e1]) in T.
  rewrite (run_split hm cfg socks st h1 [e2]) in S1. rewrite (run_split hm cfg socks st h1 [e1]) in S2. cbn [fst] in T, S1, S2. set (s0 := fst (run hm cfg socks st h1)) in *. cbn [run] in *.
  destruct (step hm cfg socks s0 e1) as [s1 o1] eqn:X1. destruct (step hm cfg socks s0 e2) as [s2 o2] eqn:X2. cbn [fst snd] in *.
  destruct (step hm cfg socks s1 e2) as [s12 o12] eqn:X12. destruct (step hm cfg socks s2 e1) as [s21 o21] eqn:X21. cbn [fst snd] in *. subst o12 o21.
  destruct (run hm cfg socks s12 h2) as [z1 l1]. destruct (run hm cfg socks s21 h2) as [z2 l2]. cbn [fst snd combine] in *.
  subst l2. apply perm_swap.
Qed.
(** example: two hosts register the same prefix; their Map-Registers overtake each other *)
Definition ro_bytes : bytes := match mreg_to_bytes open_register with Ok d => d | Err _ => [] end.
Definition ro_one : event := AtControl there ro_bytes (fun _ => 5).
Definition ro_two : event := AtControl (Arr (V4, 78) 4001 (V4, 5)) ro_bytes (fun _ => 6).
Example C139_example : good_cfg ms_cfg (fun id => if Nat.eqb id 7 then p8 else Pfx V4 0 0) /\ fresh_ms (fun _ => B [1;2]) (fun _ => true) PropDaemon2.start /\
  register_from ro_one (SAddr V4 77) /\ register_from ro_two (SAddr V4 78) /\ overtaken [ro_one; ro_two; Cleanup 7 100] [ro_two; ro_one; Cleanup 7 100] /\
  registered (dm_ms (fst (run toy_hm ms_cfg [] PropDaemon2.start [ro_two; ro_one; Cleanup 7 100])) 7%nat) p16 (SAddr V4 77) = Some (Reg open_record false (5 + 180 * sec)) /\
  registered (dm_ms (fst (run toy_hm ms_cfg [] PropDaemon2.start [ro_two; ro_one; Cleanup 7 100])) 7%nat) p16 (SAddr V4 78) = Some (Reg open_record false (6 + 180 * sec)).
Proof.
  assert (exists g, pkt_from_bytes KCtl ro_bytes = Ok (PCtl (CReg g)) /\ g_xtr g = 0) as (g & Eg & Xg) by (eexists; split; [vm_compute; reflexivity|reflexivity]).
  split; [exact ms_cfg_good|]. split; [reflexivity|].
  split; [exists g, there, (fun _ => 5); split; [constructor; exact Eg|right; auto]|].
  split; [exists g, (Arr (V4, 78) 4001 (V4, 5)), (fun _ => 6); split; [constructor; exact Eg|right; auto]|].
  split; [|split; vm_compute; reflexivity].
  apply (ov_swap [] ro_one ro_two [Cleanup 7 100]); [exact Logic.I|exact Logic.I|].
  intros so (m1 & a1 & k1 & B1 & S1) (m2 & a2 & k2 & B2 & S2). inversion B1 as [? ? ? ? E1|]; inversion B2 as [? ? ? ? E2|]; subst.
  rewrite Eg in E1, E2. injection E1 as <-. injection E2 as <-. destruct S1 as [[? _]|[_ ->]]; [contradiction|]. destruct S2 as [[? _]|[_ S2]]; [contradiction|discriminate].
Qed.
Print Assumptions C139_registrations.
Print Assumptions C139_answers.
