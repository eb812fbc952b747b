(** * Properties C59-C61: Map-Notify validation, the registration loop, locator changes *)
From Coq Require Import Permutation.
From Verif Require Import Base BaseLemmas Afi AfiProofs Spec Records RecordsProofs Control ControlProofs SpecRec PropControl Auth SpecAuth PropAuth Tree MapServer Etr SpecEtr PropEtr.

(** ** C59 *)
Lemma mapM_same {A} (f : A -> res A) l : mapM f l = Ok l -> Forall (fun x => f x = Ok x) l.
Proof.
  induction l as [|x l IH]; intros H; [constructor|]. cbn [mapM] in H. bo H y E. bo H ys E2. injection H as -> ->. constructor; auto.
Qed.
Lemma after_mrecs_same l : Forall (fun r => sanitize_mrec r = Ok r) l -> after_mrecs l = l.
Proof. induction 1 as [|r l E _ IH]; [reflexivity|]. cbn [after_mrecs]. rewrite E, IH. reflexivity. Qed.

Lemma parsed_notify d n : mnot_from_bytes d = Ok n ->
  obj_mnot n /\ Forall (fun r => sanitize_mrec r = Ok r) (n_records n) /\ exists out, mnot_to_bytes n = Ok out.
Proof.
  intros H. apply from_bytes_ok in H. destruct H as [t H]. apply rd_mnot_stable in H. destruct H as (Hw & Hs & (b & Hb)).
  split; [exact Hw|]. split.
  - unfold sanitize_mnot in Hs. bo Hs u1 E1. bo Hs u2 E2. bo Hs u3 E3. bo Hs u4 E4. bo Hs rs E5. apply mapM_same. rewrite E5. f_equal. injection Hs as Hs. rewrite <- Hs. reflexivity.
  - destruct (al8_out b (al8_mnot _ _ Hw Hb)) as [out Ho]. exists out. unfold mnot_to_bytes, to_bytes. rewrite Hb. exact Ho.
Qed.

Lemma verify_parsed hm d n key : mnot_from_bytes d = Ok n -> exists b, verify hm (ANot n) key = (ANot n, Ok b).
Proof.
  intros H. destruct (parsed_notify d n H) as (Hw & _ & (out & Ho)).
  apply from_bytes_ok in H. destruct H as [t H]. apply rd_mnot_stable in H. destruct H as (_ & Hs & _).
  assert (a_san (ANot n) = Ok (ANot n)) as S by (cbn [a_san]; rewrite Hs; reflexivity).
  assert (a_to_bytes (ANot n) = Ok out) as Hb by exact Ho.
  destruct (key_known _ _ Hb) as [K|[k D]].
  - unfold verify, calculate. rewrite K, Z.eqb_refl. cbn [bind]. eauto.
  - destruct (calculate_known hm (ANot n) key out k (ANot n) Hw Hb D S) as (z & HZ & HC).
    unfold verify. rewrite HC. cbn [bind]. eauto.
Qed.

Lemma addr_same_net a b : is_net a = true -> addr_same a b = true <-> a = b.
Proof.
  intros N. split; [apply addr_same_eq|]. intros <-. destruct a; try discriminate. cbn. rewrite !Z.eqb_refl, !andb_true_r. apply fam_eqb_spec. reflexivity.
Qed.
Lemma rec_match_spec reg r : is_net (mr_eid r) = true -> rec_match reg r = true <-> same_header r reg.
Proof.
  intros N. unfold rec_match, same_header. rewrite !andb_true_iff, !Z.eqb_eq, Nat.eqb_eq, (addr_same_net _ _ N). tauto.
Qed.

(** what is accepted, exactly; [n] is a received Map-Notify *)
Definition accepted_notify (hm : Z -> bytes -> bytes -> bytes) (key : bytes) (reg : mreg) (n : mnot) : Prop :=
  snd (verify hm (ANot n) key) = Ok true /\ n_nonce n = g_nonce reg /\ n_key n = g_key reg /\
  (n_xtr n = 0 \/ n_xtr n = g_xtr reg) /\ (n_site n = 0 \/ n_site n = g_site reg) /\
  length (n_records n) = length (g_records reg) /\
  forall r, In r (g_records reg) -> exists r', In r' (n_records n) /\ same_header r' r.

Theorem C59_accepts_partial hm key reg d n : mnot_from_bytes d = Ok n ->
  notify_content_ok hm key reg (Some n) = Ok true <-> accepted_notify hm key reg n.
Proof.
  intros H. destruct (parsed_notify d n H) as (_ & HS & _). destruct (verify_parsed hm d n key H) as (b & V).
  assert (forall r, In r (n_records n) -> is_net (mr_eid r) = true) as HN.
  { intros r Hr. rewrite Forall_forall in HS. specialize (HS r Hr). apply sanitize_mrec_inv in HS. tauto. }
  assert (forallb (fun r => existsb (rec_match r) (n_records n)) (g_records reg) = true <->
          forall r, In r (g_records reg) -> exists r', In r' (n_records n) /\ same_header r' r) as HF.
  { rewrite forallb_forall. split; intros F r Hr; specialize (F r Hr).
    - apply existsb_exists in F. destruct F as (r' & Hr' & M). exists r'. split; [exact Hr'|]. apply rec_match_spec; auto.
    - apply existsb_exists. destruct F as (r' & Hr' & M). exists r'. split; [exact Hr'|]. apply rec_match_spec; auto. }
  unfold notify_content_ok, accepted_notify. rewrite V. cbn [bind snd].
  destruct b; cbn [negb]; [|split; [discriminate|intros ([=] & _)]].
  destruct (bytes_eqb (n_nonce n) (g_nonce reg)) eqn:E1; cbn [negb].
  2: { split; [discriminate|]. intros (_ & E & _). apply bytes_eqb_spec in E. congruence. }
  apply bytes_eqb_spec in E1.
  destruct (Z.eqb_spec (n_key n) (g_key reg)) as [E2|E2]; cbn [negb]; [|split; [discriminate|tauto]].
  destruct (Z.eqb_spec (n_xtr n) 0) as [E3|E3], (Z.eqb_spec (n_xtr n) (g_xtr reg)) as [E4|E4]; cbn [negb andb]; try (split; [discriminate|tauto]);
  destruct (Z.eqb_spec (n_site n) 0) as [E5|E5], (Z.eqb_spec (n_site n) (g_site reg)) as [E6|E6]; cbn [negb andb]; try (split; [discriminate|tauto]);
  (destruct (Nat.eqb_spec (length (n_records n)) (length (g_records reg))) as [E7|E7]; cbn [negb]; [|split; [discriminate|tauto]]);
  (split; [intros [= F]; pose proof (proj1 HF F); tauto|intros (_ & _ & _ & _ & _ & _ & F); f_equal; exact (proj2 HF F)]).
Qed.

(** the authentication (C42): with a key id of 1 or 2 the received bytes of the message carry its HMAC under the key of
    this registration; with key id 0 there is no authentication at all *)
Theorem C59_authentic hm key reg d n out k : digests hm -> mnot_from_bytes d = Ok n -> mnot_to_bytes n = Ok out ->
  notify_content_ok hm key reg (Some n) = Ok true -> digest_size (g_key reg) k ->
  auth_field k out = n_authdata n /\ auth_field k out = hm (g_key reg) key (zeroed k out).
Proof.
  intros HD H Ho Hok D. apply (C59_accepts_partial hm key reg d n H) in Hok. destruct Hok as (V & _ & EK & _).
  destruct (parsed_notify d n H) as (Hw & _). destruct (C42_verify_iff_mac hm (ANot n) key out HD Hw Ho) as (v & V' & _ & I).
  rewrite V in V'. injection V' as <-. cbn [a_key a_auth] in I. rewrite EK in I. destruct (proj1 (I k D) eq_refl) as (_ & ? & ?). auto.
Qed.
Theorem C59_key_zero_anyone hm key reg d n : mnot_from_bytes d = Ok n -> g_key reg = 0 -> n_key n = 0 -> n_authdata n = [] ->
  n_nonce n = g_nonce reg -> (n_xtr n = 0 \/ n_xtr n = g_xtr reg) -> (n_site n = 0 \/ n_site n = g_site reg) ->
  length (n_records n) = length (g_records reg) ->
  (forall r, In r (g_records reg) -> exists r', In r' (n_records n) /\ same_header r' r) ->
  notify_content_ok hm key reg (Some n) = Ok true.
Proof.
  intros H K1 K2 A N X S L R. apply (C59_accepts_partial hm key reg d n H). split.
  - unfold verify, calculate. cbn [a_key]. rewrite K2, Z.eqb_refl. cbn [bind snd a_auth]. rewrite A. reflexivity.
  - split; [exact N|]. split; [congruence|]. split; [exact X|]. split; [exact S|]. split; [exact L|exact R].
Qed.

(** a mismatch of the xTR-ID or Site-ID in an authentic notify raises *)
Theorem C59_mismatch_raises hm key reg d n : mnot_from_bytes d = Ok n -> snd (verify hm (ANot n) key) = Ok true ->
  n_nonce n = g_nonce reg -> n_key n = g_key reg ->
  (n_xtr n <> 0 /\ n_xtr n <> g_xtr reg) \/ (n_site n <> 0 /\ n_site n <> g_site reg) ->
  notify_content_ok hm key reg (Some n) = Err EKey.
Proof.
  intros H V N K M. destruct (verify_parsed hm d n key H) as (b & V'). rewrite V' in V. cbn [snd] in V. injection V as ->.
  unfold notify_content_ok. rewrite V'. cbn [bind negb]. apply bytes_eqb_spec in N. rewrite N, K, Z.eqb_refl. cbn [negb].
  destruct (Z.eqb_spec (n_xtr n) 0), (Z.eqb_spec (n_xtr n) (g_xtr reg)); cbn [negb andb]; try reflexivity;
  destruct (Z.eqb_spec (n_site n) 0), (Z.eqb_spec (n_site n) (g_site reg)); cbn [negb andb]; try reflexivity; exfalso; tauto.
Qed.

(** The locators are not compared: an authentic notify with quite different locators is accepted. *)
Definition ex_reg : mreg := new_register (Pfx V4 (10 * 2 ^ 24) 8) (Etrr (V4, 1) 1 (B [9]) false None) [new_loc (ex_l V4 10 1) true (AIP V4 10)] [] true (B [1;2;3;4;5;6;7;8]) 0 0.
Definition ex_other (a : bytes) : mnot :=
  MNot (repeat false 19) (B [1;2;3;4;5;6;7;8]) 1 a [new_mrec 0 (Pfx V4 (10 * 2 ^ 24) 8) [new_loc (ex_l V6 77 200) false (AIP V6 77)]] 0 0.
Theorem C59_refuted hm : digests hm -> exists key reg d n,
  mnot_from_bytes d = Ok n /\ notify_content_ok hm key reg (Some n) = Ok true /\
  ~ (forall r, In r (g_records reg) -> exists r', In r' (n_records n) /\ confirms r' r).
Proof.
  intros HD. set (key := B [9]).
  assert (exists o, a_to_bytes (ANot (ex_other [])) = Ok o) as (out0 & H0) by (eexists; vm_compute; reflexivity).
  assert (obj_a (ANot (ex_other []))) as Hw. { split; [reflexivity|]. constructor; [|constructor]. split; [reflexivity|]. split; [reflexivity|]. repeat constructor. }
  destruct (C41_inserted_verifies hm (ANot (ex_other [])) key out0 HD Hw H0) as (m1 & E1 & _ & (out & m2 & Ho & Hp & V)).
  assert (exists a, m1 = ANot (ex_other a)) as (a & ->).
  { unfold insert, calculate in E1. change (a_key (ANot (ex_other [])) =? 0) with false in E1.
    change (digest_len (a_key (ANot (ex_other [])))) with (Some 20%nat) in E1. cbv iota zeta in E1.
    destruct (a_to_bytes (set_auth (ANot (ex_other [])) (repeat zero_byte 20))) as [msg|e] eqn:E; [|discriminate].
    injection E1 as <-. eexists. vm_compute. reflexivity. }
  specialize (Hp []). rewrite app_nil_r in Hp. cbn [kind a_from_bytes] in Hp. bo Hp n En. injection Hp as <-.
  assert (obj_mnot (ex_other a)) as Hw1. { split; [reflexivity|]. exact (proj2 Hw). }
  destruct (C27_map_notify_roundtrip (ex_other a) out Hw1 Ho) as (n' & [A1 A2 A3 A4 A5] & Hn').
  specialize (Hn' []). rewrite app_nil_r in Hn'. assert (n' = n) as -> by congruence. clear Hn'.
  exists key, ex_reg, out, n. split; [exact En|].
  cbn [n_records ex_other] in A5. inversion A5 as [|r0 r' l l' Hr Hnil Er El]; subst. inversion Hnil; subst. clear Hnil.
  destruct Hr as [R1 R2 R3 R4 R5 R6 R7 R8]. cbn [mr_locs new_mrec mr_ttl mr_ver mr_eid] in *.
  assert (mr_locs r' = [new_loc (ex_l V6 77 200) false (AIP V6 77)]) as EL.
  { destruct R8 as (P & _). apply Permutation_length_1_inv in P. exact P. }
  split.
  - apply (C59_accepts_partial hm key ex_reg out n En). split; [exact V|]. cbn [a_key] in *.
    split; [exact A2|]. split; [apply A3|]. split; [left; apply A4|]. split; [left; apply A4|]. rewrite <- El. split; [reflexivity|].
    intros r [<-|[]]. exists r'. split; [left; reflexivity|]. unfold same_header. cbn [mr_locs new_mrec mr_ttl mr_ver mr_eid mr_action]. rewrite R1, R6, R7, EL.
    repeat split. apply R3. discriminate.
  - intros C. destruct (C _ (or_introl eq_refl)) as (r1 & Hr1 & (_ & C2)). destruct Hr1 as [<-|[]].
    destruct (C2 _ (or_introl eq_refl)) as (l2 & Hl2 & (P & _)). rewrite EL in Hl2. destruct Hl2 as [<-|[]]. discriminate.
Qed.
Print Assumptions C59_accepts_partial.
Print Assumptions C59_authentic.
Print Assumptions C59_key_zero_anyone.
Print Assumptions C59_mismatch_raises.
Print Assumptions C59_refuted.

(** ** C60 *)
Fixpoint state_after (s : rs) (l : list inp) : rs := match l with [] => s | i :: l => state_after (fst (iteration s i)) l end.
Lemma history_app l1 : forall s l2, history s (l1 ++ l2) = history s l1 ++ history (state_after s l1) l2.
Proof.
  induction l1 as [|i l1 IH]; intros s l2; [reflexivity|]. cbn [app history state_after]. destruct (iteration s i) as [s' e]. cbn [fst]. rewrite IH. reflexivity.
Qed.
Lemma history_split h1 : forall s l h2, history s l = h1 ++ h2 ->
  exists l1 l2, l = l1 ++ l2 /\ history s l1 = h1 /\ history (state_after s l1) l2 = h2.
Proof.
  induction h1 as [|x h1 IH]; intros s l h2 H.
  - exists [], l. auto.
  - destruct l as [|i l]; [discriminate|]. cbn [history] in H. destruct (iteration s i) as [s' e] eqn:E. cbn [app] in H. injection H as <- H.
    destruct (IH s' l h2 H) as (l1 & l2 & -> & H1 & H2). exists (i :: l1), l2. cbn [app history state_after]. rewrite E. cbn [fst]. rewrite H1. auto.
Qed.
Lemma history_one s l i e : history s l = [(i, e)] -> l = [i] /\ e = snd (iteration s i).
Proof.
  destruct l as [|i' [|i'' l]]; cbn [history]; [discriminate| |].
  - destruct (iteration s i') as [s' e'] eqn:E. intros [= <- <-]. rewrite E. auto.
  - destruct (iteration s i'). destruct (iteration _ i''). discriminate.
Qed.
Lemma history_cons s l x h : history s l = x :: h ->
  exists l', l = fst x :: l' /\ snd x = snd (iteration s (fst x)) /\ history (fst (iteration s (fst x))) l' = h.
Proof.
  destruct l as [|i l]; cbn [history]; [discriminate|]. destruct (iteration s i) as [s' e] eqn:E. intros [= <- <-]. exists l. cbn [fst snd]. rewrite E. auto.
Qed.

Lemma iteration_cases s i s' e : iteration s i = (s', e) ->
  let due := r_ok s = false \/ r_nat s + 15 * minute < in_now i in
  let need := r_need s = true \/ in_sig i = true in
  let still := RS (r_nat s) (r_reg s) (r_ok s) (r_need s || in_sig i) in
  (due /\ in_nat i = false /\ e = [EvNat] /\ s' = still) \/
  (due /\ in_nat i = true /\ e = [EvNat; EvReg true] /\
     s' = match in_reg i with None => RS (in_now i) (r_reg s) false (in_sig2 i) | Some b => RS (in_now i) (in_now i) b (in_sig2 i) end) \/
  (~ due /\ (need \/ r_reg s + minute < in_now i) /\ e = [EvReg false] /\
     s' = match in_reg i with None => RS (r_nat s) (r_reg s) (r_ok s) (in_sig2 i) | Some b => RS (r_nat s) (in_now i) b (in_sig2 i) end) \/
  (~ due /\ ~ (need \/ r_reg s + minute < in_now i) /\ e = [] /\ s' = still).
Proof.
  intros H due need still. unfold iteration in H. change (15 * 60 * second) with 900000000 in H. change (60 * second) with 60000000 in H.
  unfold due, need, still, minute. change (15 * 60000000) with 900000000.
  assert (negb (r_ok s) || (r_nat s + 900000000 <? in_now i) = true <-> (r_ok s = false \/ r_nat s + 900000000 < in_now i)) as HD.
  { rewrite orb_true_iff, negb_true_iff, Z.ltb_lt. tauto. }
  assert (r_need s || in_sig i = true <-> (r_need s = true \/ in_sig i = true)) as HN by apply orb_true_iff.
  assert ((r_reg s + 60000000 <? in_now i) = true <-> r_reg s + 60000000 < in_now i) as HL by apply Z.ltb_lt.
  assert (r_ok s = false -> r_ok s = false \/ r_nat s + 900000000 < in_now i) as HO by auto.
  destruct (negb (r_ok s) || _) eqn:Ed; cbn [andb] in H.
  - destruct (in_nat i); cbn [negb orb] in H.
    + right. left. destruct (in_reg i); injection H as <- <-; repeat split; tauto.
    + left. injection H as <- <-. repeat split; tauto.
  - right. right. destruct (r_ok s) eqn:Eo; [|destruct (proj1 (conj (proj2 HD) I)); [tauto|discriminate]|..].
    cbn [negb orb] in H. destruct (r_need s || in_sig i) eqn:En; cbn [orb] in H.
    + left. destruct (in_reg i); injection H as <- <-; repeat split; try tauto; intros X; apply HD in X; discriminate.
    + destruct (r_reg s + 60000000 <? in_now i) eqn:El.
      * left. destruct (in_reg i); injection H as <- <-; repeat split; try tauto; intros X; apply HD in X; discriminate.
      * right. injection H as <- <-. repeat split; try tauto; [intros X; apply HD in X; discriminate|].
        intros [X|X]; [apply HN in X|apply HL in X]; discriminate.
Qed.

(** one iteration, in terms of what can be seen *)
Lemma iteration_spec s i s' e : iteration s i = (s', e) ->
  let due := r_ok s = false \/ r_nat s + 15 * minute < in_now i in
  let need := r_need s = true \/ in_sig i = true in
  (detects e <-> due) /\
  (registers e <-> (due /\ in_nat i = true) \/ (~ due /\ (need \/ r_reg s + minute < in_now i))) /\
  (In (EvReg true) e <-> due /\ in_nat i = true) /\
  (detected (i, e) -> r_nat s' = in_now i) /\ (~ detected (i, e) -> r_nat s' = r_nat s) /\
  (forall b, completed (i, e) b -> r_ok s' = b /\ r_reg s' = in_now i /\ r_need s' = in_sig2 i) /\
  (raised (i, e) -> r_reg s' = r_reg s /\ r_need s' = in_sig2 i /\ (detected (i, e) -> r_ok s' = false) /\ (~ detected (i, e) -> r_ok s' = r_ok s)) /\
  (quiet (i, e) -> r_ok s' = r_ok s /\ r_reg s' = r_reg s /\ (r_need s' = true <-> need)).
Proof.
  intros H due need. apply iteration_cases in H. fold due need in H.
  unfold completed, raised, quiet, detected, detects, registers. cbn [fst snd].
  destruct H as [(D & N & -> & ->)|[(D & N & -> & ->)|[(D & N & -> & ->)|(D & N & -> & ->)]]]; cbn [r_nat r_reg r_ok r_need].
  - assert (~ (exists f, In (EvReg f) [EvNat])) as R by (intros (f & [|[]]); discriminate).
    assert (~ In (EvReg true) [EvNat]) as R' by (intros [|[]]; discriminate).
    assert (In EvNat [EvNat]) by (left; reflexivity). assert (in_nat i <> true) as NT by congruence.
    split; [tauto|]. split; [tauto|]. split; [tauto|]. split; [tauto|]. split; [reflexivity|]. split; [intros b [X _]; tauto|].
    split; [tauto|]. intros _. split; [reflexivity|]. split; [reflexivity|]. apply orb_true_iff.
  - assert (exists f, In (EvReg f) [EvNat; EvReg true]) as R by (eexists; right; left; reflexivity).
    assert (In (EvReg true) [EvNat; EvReg true]) as R' by (right; left; reflexivity).
    assert (In EvNat [EvNat; EvReg true]) by (left; reflexivity).
    split; [tauto|]. split; [tauto|]. split; [tauto|].
    destruct (in_reg i) as [b|]; cbn [r_nat r_reg r_ok r_need]; (split; [reflexivity|]; split; [tauto|]; split; [intros b' [_ E]|split; [intros [_ E]|intros Q; destruct (Q R)]]).
    + injection E as <-. auto.
    + discriminate.
    + discriminate.
    + repeat split. intros X; tauto.
  - assert (exists f, In (EvReg f) [EvReg false]) as R by (eexists; left; reflexivity).
    assert (~ In (EvReg true) [EvReg false]) as R' by (intros [|[]]; discriminate).
    assert (~ In EvNat [EvReg false]) as R2 by (intros [|[]]; discriminate).
    split; [tauto|]. split; [tauto|]. split; [tauto|].
    destruct (in_reg i) as [b|]; cbn [r_nat r_reg r_ok r_need]; (split; [tauto|]; split; [reflexivity|]; split; [intros b' [_ E]|split; [intros [_ E]|intros Q; destruct (Q R)]]).
    + injection E as <-. auto.
    + discriminate.
    + discriminate.
    + split; [reflexivity|]. split; [reflexivity|]. split; [tauto|reflexivity].
  - assert (~ (exists f, In (EvReg f) [])) as R by (intros (f & [])).
    assert (~ In (EvReg true) []) as R' by (intros []).
    assert (~ In EvNat []) as R2 by (intros []).
    split; [tauto|]. split; [tauto|]. split; [tauto|]. split; [tauto|]. split; [reflexivity|]. split; [intros b [X _]; tauto|].
    split; [tauto|]. intros _. split; [reflexivity|]. split; [reflexivity|]. apply orb_true_iff.
Qed.

Lemma state_after_app l1 : forall s l2, state_after s (l1 ++ l2) = state_after (state_after s l1) l2.
Proof. induction l1 as [|i l1 IH]; intros s l2; [reflexivity|]. cbn [app state_after]. apply IH. Qed.

Lemma last_detection_snoc h x t : last_detection (h ++ [x]) t ->
  (detected x /\ t = in_now (fst x)) \/ (~ detected x /\ last_detection h t).
Proof.
  intros H. remember (h ++ [x]) as k eqn:E. destruct H as [h' F|pre y post D F].
  - subst h'. apply Forall_app in F. destruct F as [F1 F2]. right. inversion F2; subst. split; [assumption|]. constructor. exact F1.
  - destruct post as [|z post] using rev_ind.
    + apply app_inj_tail in E. destruct E as [_ <-]. auto.
    + clear IHpost. rewrite app_comm_cons, app_assoc in E. apply app_inj_tail in E. destruct E as [<- <-].
      apply Forall_app in F. destruct F as [F1 F2]. inversion F2; subst. right. split; [assumption|]. constructor; assumption.
Qed.

Lemma nat_after l t : last_detection (thread_log l) t -> t = r_nat (state_after rs0 l).
Proof.
  unfold thread_log. revert t. induction l as [|i l IH] using rev_ind; intros t H.
  - cbn in *. inversion H as [h F Eh Et|pre x post D F Eh Et]; [reflexivity|]. destruct pre; discriminate.
  - rewrite history_app in H. cbn [history] in H. rewrite state_after_app. cbn [state_after].
    destruct (iteration (state_after rs0 l) i) as [s' e] eqn:E. cbn [fst].
    destruct (iteration_spec _ _ _ _ E) as (_ & _ & _ & N1 & N2 & _).
    apply last_detection_snoc in H. destruct H as [[D ->]|[D H]]; [rewrite (N1 D); reflexivity|]. rewrite (N2 D). apply IH, H.
Qed.

(** the state at the last iteration of a log *)
Lemma log_end l pre i e : thread_log l = pre ++ [(i, e)] ->
  exists l1, thread_log l1 = pre /\ iteration (state_after rs0 l1) i = (fst (iteration (state_after rs0 l1) i), e).
Proof.
  intros H. apply history_split in H. destruct H as (l1 & l2 & -> & H1 & H2). apply history_one in H2. destruct H2 as [-> ->].
  exists l1. split; [exact H1|]. destruct (iteration (state_after rs0 l1) i); reflexivity.
Qed.

Lemma quiet_run mid : forall s l, history s l = mid -> Forall quiet mid ->
  r_ok (state_after s l) = r_ok s /\ r_reg (state_after s l) = r_reg s /\
  (r_need (state_after s l) = true <-> r_need s = true \/ exists y, In y mid /\ in_sig (fst y) = true).
Proof.
  induction mid as [|x mid IH]; intros s l H F.
  - destruct l as [|i l]; [|cbn [history] in H; destruct (iteration s i); discriminate]. cbn. split; [reflexivity|]. split; [reflexivity|].
    split; [auto|]. intros [|(y & [] & _)]; assumption.
  - inversion F as [|x0 l0 Q F']; subst x0 l0. apply history_cons in H. destruct H as (l' & -> & Ex & H'). cbn [state_after].
    destruct (iteration s (fst x)) as [s' e] eqn:E. cbn [fst snd] in *. destruct x as [i e']. cbn [fst snd] in *. subst e'.
    destruct (iteration_spec _ _ _ _ E) as (_ & _ & _ & _ & _ & _ & _ & HQ). destruct (HQ Q) as (Q1 & Q2 & Q3).
    destruct (IH s' l' H' F') as (I1 & I2 & I3). rewrite I1, I2. split; [exact Q1|]. split; [exact Q2|]. rewrite I3, Q3. split.
    + intros [[|]|(y & Hy & S)]; [auto|right; exists (i, e); split; [left; reflexivity|assumption]|right; exists y; split; [right; exact Hy|exact S]].
    + intros [|(y & [<-|Hy] & S)]; [auto|auto|right; eauto].
Qed.

(** After a registration that succeeded, and while none was tried since: *)
Theorem C60_after_success l pre x mid i e t :
  thread_log l = (pre ++ x :: mid) ++ [(i, e)] -> completed x true -> Forall quiet mid -> last_detection (pre ++ x :: mid) t ->
  (detects e <-> t + 15 * minute < in_now i) /\
  (registers e <-> (t + 15 * minute < in_now i /\ in_nat i = true) \/
                   (~ t + 15 * minute < in_now i /\ (signalled x mid i \/ in_now (fst x) + minute < in_now i))) /\
  (In (EvReg true) e <-> t + 15 * minute < in_now i /\ in_nat i = true).
Proof.
  intros H C Q LD. apply log_end in H. destruct H as (l0 & H0 & E).
  pose proof LD as LD0. rewrite <- H0 in LD0. apply nat_after in LD0.
  apply history_split in H0. destruct H0 as (l1 & l2 & -> & H1 & H2). apply history_cons in H2. destruct H2 as (l3 & -> & Ex & H3).
  rewrite state_after_app in *. cbn [state_after] in *. set (s0 := state_after rs0 l1) in *. clearbody s0.
  destruct x as [ix ex]. cbn [fst snd] in *. destruct (iteration s0 ix) as [s1 e1] eqn:E1. cbn [fst snd] in *. subst ex.
  destruct (iteration_spec _ _ _ _ E1) as (_ & _ & _ & _ & _ & HC & _ & _). destruct (HC true C) as (C1 & C2 & C3).
  destruct (quiet_run mid s1 l3 H3 Q) as (Q1 & Q2 & Q3). set (s2 := state_after s1 l3) in *. clearbody s2. rewrite C1, C2, C3 in *.
  destruct (iteration_spec _ _ _ _ E) as (D & R & T & _). rewrite Q1, Q2, <- LD0 in *.
  assert (r_need s2 = true \/ in_sig i = true <-> signalled (ix, e1) mid i) as SG by (clear - Q3; unfold signalled; cbn [fst]; rewrite Q3; tauto).
  assert (true = false \/ t + 15 * minute < in_now i <-> t + 15 * minute < in_now i) as DU by (split; [intros [|]; [discriminate|assumption]|auto]).
  rewrite D, R, T, SG, DU. clear. tauto.
Qed.

(** As long as no registration has succeeded, and after a registration that did not succeed: every iteration starts with NAT
    detection, and when that works it registers and asks for a Map-Notify. *)
Lemma failing_run mid : forall s l, history s l = mid -> Forall (fun y => ~ completed y true) mid -> r_ok s = false -> r_ok (state_after s l) = false.
Proof.
  induction mid as [|x mid IH]; intros s l H F O.
  - destruct l as [|i l]; [|cbn [history] in H; destruct (iteration s i); discriminate]. exact O.
  - inversion F as [|x0 l0 Q F']; subst x0 l0. apply history_cons in H. destruct H as (l' & -> & Ex & H'). cbn [state_after].
    destruct x as [i e]. cbn [fst snd] in *. destruct (iteration s i) as [s' e'] eqn:E. cbn [fst snd] in *. subst e'.
    apply (IH s' l' H' F'). destruct (iteration_spec _ _ _ _ E) as (D & R & _ & _ & _ & HC & HR & HQ).
    destruct (in_nat i) eqn:En.
    + assert (registers e) as Re by (apply R; left; auto).
      destruct (in_reg i) as [[]|] eqn:Er.
      * destruct Q. split; assumption.
      * apply (HC false). split; assumption.
      * destruct HR as (_ & _ & HR & _); [split; assumption|]. apply HR. split; [apply D; auto|exact En].
    + rewrite <- O. apply HQ. unfold quiet. cbn [snd]. rewrite R. intuition congruence.
Qed.

Theorem C60_after_failure l pre x mid i e :
  thread_log l = (pre ++ x :: mid) ++ [(i, e)] -> completed x false \/ (raised x /\ detected x) -> Forall (fun y => ~ completed y true) mid ->
  detects e /\ (registers e <-> in_nat i = true) /\ (In (EvReg true) e <-> in_nat i = true).
Proof.
  intros H C Q. apply log_end in H. destruct H as (l0 & H0 & E).
  apply history_split in H0. destruct H0 as (l1 & l2 & -> & H1 & H2). apply history_cons in H2. destruct H2 as (l3 & -> & Ex & H3).
  rewrite state_after_app in *. cbn [state_after] in *. set (s0 := state_after rs0 l1) in *. clearbody s0.
  destruct x as [ix ex]. cbn [fst snd] in *. destruct (iteration s0 ix) as [s1 e1] eqn:E1. cbn [fst snd] in *. subst ex.
  destruct (iteration_spec _ _ _ _ E1) as (_ & _ & _ & _ & _ & HC & HR & _).
  assert (r_ok s1 = false) as O by (destruct C as [C|[C C']]; [apply (HC false C)|apply HR; assumption]).
  pose proof (failing_run mid s1 l3 H3 Q O) as O2. destruct (iteration_spec _ _ _ _ E) as (D & R & T & _).
  rewrite O2 in *. rewrite D, R, T. clear. tauto.
Qed.
Theorem C60_at_start l pre i e :
  thread_log l = pre ++ [(i, e)] -> Forall (fun y => ~ completed y true) pre ->
  detects e /\ (registers e <-> in_nat i = true) /\ (In (EvReg true) e <-> in_nat i = true).
Proof.
  intros H Q. apply log_end in H. destruct H as (l0 & H0 & E).
  pose proof (failing_run pre rs0 l0 H0 Q eq_refl) as O2. destruct (iteration_spec _ _ _ _ E) as (D & R & T & _).
  rewrite O2 in *. rewrite D, R, T. clear. tauto.
Qed.

(** What does not hold.  Times in microseconds; [go t] is an iteration at [t] where everything works. *)
Definition go (t : Z) : inp := Inp t false true (Some true) false.
Definition start : Z := 1000 * minute.
(** a signalled change is forgotten if the registration it starts raises: the next iteration, 5 seconds later, does nothing *)
Theorem C60_signal_lost_refuted :
  ~ (forall l pre x mid i e t, thread_log l = (pre ++ x :: mid) ++ [(i, e)] -> completed x true -> Forall (fun y => ~ completed y true) mid ->
       last_detection (pre ++ x :: mid) t -> ~ t + 15 * minute < in_now i -> signalled x mid i -> registers e).
Proof.
  intros H.
  set (l := [go start; Inp (start + 5000000) true true None false; Inp (start + 10000000) false true (Some true) false]).
  destruct (H l [] (go start, [EvNat; EvReg true]) [(Inp (start + 5000000) true true None false, [EvReg false])]
              (Inp (start + 10000000) false true (Some true) false) [] start) as (f & []).
  - vm_compute. reflexivity.
  - split; [eexists; right; left; reflexivity|reflexivity].
  - constructor; [|constructor]. intros [_ E]. discriminate.
  - cbn [app]. apply (ld_some [] (go start, [EvNat; EvReg true])); [split; [left; reflexivity|reflexivity]|]. constructor; [|constructor].
    intros [[E|[]] _]. discriminate.
  - cbn. unfold start, minute. lia.
  - right. left. eexists. split; [left; reflexivity|reflexivity].
Qed.
(** NAT detection that keeps raising holds up the registration, however old the last one is *)
Theorem C60_nat_blocks_refuted :
  ~ (forall l pre x mid i e, thread_log l = (pre ++ x :: mid) ++ [(i, e)] -> completed x true -> Forall quiet mid ->
       in_now (fst x) + minute < in_now i -> registers e).
Proof.
  intros H. destruct (H [go start; Inp (start + 20 * minute) false false (Some true) false] [] (go start, [EvNat; EvReg true]) []
                        (Inp (start + 20 * minute) false false (Some true) false) [EvNat]) as (f & [E|[]]).
  - vm_compute. reflexivity.
  - split; [eexists; right; left; reflexivity|reflexivity].
  - constructor.
  - cbn. unfold start, minute. lia.
  - discriminate.
Qed.
(** NAT detection is followed by a registration even if the last one is only seconds old *)
Theorem C60_not_earlier_refuted :
  ~ (forall l pre x mid i e, thread_log l = (pre ++ x :: mid) ++ [(i, e)] -> completed x true -> Forall quiet mid ->
       registers e -> signalled x mid i \/ in_now (fst x) + minute < in_now i).
Proof.
  intros H. set (s1 := go start). set (s2 := go (start + 15 * minute)). set (s3 := go (start + 15 * minute + 5000000)).
  destruct (H [s1; s2; s3] [(s1, [EvNat; EvReg true])] (s2, [EvReg false]) [] s3 [EvNat; EvReg true]) as [[X|[(y & [] & _)|X]]|X].
  - vm_compute. reflexivity.
  - split; [eexists; left; reflexivity|reflexivity].
  - constructor.
  - eexists. right. left. reflexivity.
  - discriminate.
  - discriminate.
  - cbn in X. unfold start, minute in X. lia.
Qed.
(** a run: success at the start, a change signalled 10 s later, then the periodic registration *)
Example ex_thread :
  map snd (thread_log [go start; go (start + 5000000); Inp (start + 10000000) true true (Some true) false;
                       go (start + 15000000); go (start + 70000000); go (start + 75000000)]) =
  [[EvNat; EvReg true]; []; [EvReg false]; []; []; [EvReg false]].
Proof. vm_compute. reflexivity. Qed.
Print Assumptions C60_after_success.
Print Assumptions C60_after_failure.
Print Assumptions C60_at_start.
Print Assumptions C60_signal_lost_refuted.
Print Assumptions C60_nat_blocks_refuted.
Print Assumptions C60_not_earlier_refuted.

(** ** C61 *)
(** Nothing that a change of address does reaches a registration thread ([targets]: the ETR nodes that asked to be told),
    so no later iteration of any thread differs. *)
Theorem C61_change_ignored targets w k : on_address_change targets w k = w k.
Proof.
  unfold on_address_change, send_notifications. revert w. induction targets as [|t l IH]; intros w; [reflexivity|].
  cbn [fold_left on_locator_change]. rewrite IH. destruct (Nat.eqb_spec k t) as [->|]; reflexivity.
Qed.
Theorem C61_refuted :
  ~ (forall targets w k r, In k targets -> nassoc r (e_flags (w k)) <> None ->
       nassoc r (e_flags (on_address_change targets w k)) = Some true).
Proof.
  intros H. specialize (H [0%nat] (fun _ => Etr [] [] [(0%nat, false)]) 0%nat 0%nat (or_introl eq_refl)).
  rewrite C61_change_ignored in H. cbn in H. assert (Some false = Some true) by (apply H; discriminate). discriminate.
Qed.
(** what does reach them: a change of the RTRs *)
Lemma flags_all (k : bool) r (l : list (nat * bool)) : nassoc r (map (fun x => (fst x, k)) l) = match nassoc r l with Some _ => Some k | None => None end.
Proof. induction l as [|[r' b] l IH]; [reflexivity|]. cbn. destruct (Nat.eqb r' r); [reflexivity|exact IH]. Qed.
Theorem C61_rtr_change k rtrs e old : nassoc k (e_rtrs e) = Some old ->
  (forall a, In a old -> ip_addr a) -> (forall a, In a rtrs -> ip_addr a) ->
  forall r, nassoc r (e_flags e) <> None ->
    (~ (forall a, In a old <-> In a rtrs) -> nassoc r (e_flags (set_rtrs k rtrs e)) = Some true) /\
    ((forall a, In a old <-> In a rtrs) -> nassoc r (e_flags (set_rtrs k rtrs e)) = nassoc r (e_flags e)).
Proof.
  intros Ho HO HR r Hr. unfold set_rtrs. rewrite Ho. set (new := fold_left _ rtrs []).
  assert (forall a, In a new <-> In a rtrs) as HN.
  { intros a. unfold new. rewrite (fold_add_in addr_same (fun x => x)) by exact addr_same_eq. split; [intros [[]|(y & Hy & ->)]; exact Hy|eauto]. }
  assert (same_set old new = true <-> forall a, In a old <-> In a rtrs) as HS.
  { unfold same_set. rewrite andb_true_iff, !forallb_forall. split.
    - intros [S1 S2] a. split; intros Ha.
      + specialize (S1 a Ha). apply existsb_exists in S1. destruct S1 as (b & Hb & E). apply addr_same_eq in E. subst b. apply HN, Hb.
      + apply HN in Ha. specialize (S2 a Ha). apply existsb_exists in S2. destruct S2 as (b & Hb & E). apply addr_same_eq in E. subst b. exact Hb.
    - intros S. split; intros a Ha; apply existsb_exists; exists a.
      + split; [apply HN, S, Ha|]. destruct (HO a Ha) as (v & z & ->). apply addr_same_ip.
      + apply HN in Ha. split; [apply S, Ha|]. destruct (HR a Ha) as (v & z & ->). apply addr_same_ip. }
  destruct (same_set old new) eqn:E; cbn [e_flags locators_have_changed].
  - split; [|reflexivity]. intros N. destruct N. apply HS. reflexivity.
  - rewrite flags_all. split; [intros _; destruct (nassoc r (e_flags e)); congruence|]. intros S. apply HS in S. discriminate.
Qed.
(** the first time every thread is told, even if there are no RTRs: the first registration is followed by a second one *)
Theorem C61_first_rtrs k rtrs e r : nassoc k (e_rtrs e) = None -> nassoc r (e_flags e) <> None ->
  nassoc r (e_flags (set_rtrs k rtrs e)) = Some true.
Proof. intros H Hr. unfold set_rtrs. rewrite H. cbn [e_flags locators_have_changed]. rewrite flags_all. destruct (nassoc r (e_flags e)); congruence. Qed.
Print Assumptions C61_change_ignored.
Print Assumptions C61_refuted.
Print Assumptions C61_rtr_change.
Print Assumptions C61_first_rtrs.
