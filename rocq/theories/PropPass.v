(** * Property C134: a registration uses a NAT detection that is not old *)
From Verif Require Import Base BaseLemmas Afi Records Control Auth Tree MapServer Etr SpecEtr PropEtr PropEtr2 Pass SpecPass.

Lemma passes_snoc l i s : passes s (l ++ [i]) = let '(s1, h) := passes s l in let '(s2, e) := pass s1 i in (s2, h ++ [(i, e)]).
Proof.
  revert s. induction l as [|j l IH]; intros s; cbn [app passes]; [destruct (pass s i); reflexivity|].
  destruct (pass s j) as [s1 e]. rewrite IH. destruct (passes s1 l) as [s2 h]. destruct (pass s2 i) as [s3 e3]. reflexivity.
Qed.
Definition due (s : tstate) (i : tinp) : Prop := r_ok (t_rs s) = false \/ r_nat (t_rs s) + 15 * minute < ti_now i.
Definition rset (l : list addr) : list addr := fold_left (fun s x => set_add addr_same x s) l [].
Lemma pass_cases s i s' e : pass s i = (s', e) ->
  (e = [TDetect] /\ due s i /\ (forall d, ti_nat i <> Ok d) /\ t_info s' = t_info s /\ t_rtrs s' = t_rtrs s /\
     r_nat (t_rs s') = r_nat (t_rs s) /\ r_ok (t_rs s') = r_ok (t_rs s)) \/
  (exists d, due s i /\ ti_nat i = Ok d /\ t_info s' = Some d /\ r_nat (t_rs s') = ti_now i /\
     ((exists x, ti_reg i = Err x /\ e = [TDetect; TRegister true d] /\ t_rtrs s' = t_rtrs s /\ r_ok (t_rs s') = false) \/
      (exists v, ti_reg i = Ok v /\ e = [TDetect; TRegister true d; TRecord (rtr_rlocs d)] /\ t_rtrs s' = Some (rset (rtr_rlocs d)) /\ (r_ok (t_rs s') = true <-> v = Some true)))) \/
  (~ due s i /\ t_info s' = t_info s /\ r_nat (t_rs s') = r_nat (t_rs s) /\
     ((t_info s = None /\ e = [] /\ t_rtrs s' = t_rtrs s) \/
      (exists d, t_info s = Some d /\
        ((exists x, ti_reg i = Err x /\ e = [TRegister false d] /\ t_rtrs s' = t_rtrs s /\ r_ok (t_rs s') = r_ok (t_rs s)) \/
         (exists v, ti_reg i = Ok v /\ e = [TRegister false d; TRecord (rtr_rlocs d)] /\ t_rtrs s' = Some (rset (rtr_rlocs d)) /\ (r_ok (t_rs s') = true <-> v = Some true)) \/
         (e = [] /\ t_rtrs s' = t_rtrs s /\ r_ok (t_rs s') = r_ok (t_rs s)))))).
Proof.
  intros H. unfold pass in H. change (15 * 60 * second) with 900000000 in H. unfold due, minute. change (15 * 60000000) with 900000000.
  assert (negb (r_ok (t_rs s)) || (r_nat (t_rs s) + 900000000 <? ti_now i) = true <-> (r_ok (t_rs s) = false \/ r_nat (t_rs s) + 900000000 < ti_now i)) as HD.
  { rewrite orb_true_iff, negb_true_iff, Z.ltb_lt. tauto. }
  assert (forall v : option bool, match v with Some b => b | None => false end = true <-> v = Some true) as HV by (intros [[]|]; split; congruence).
  destruct (negb (r_ok (t_rs s)) || _) eqn:Ed.
  - apply proj1 in HD. specialize (HD eq_refl). destruct (ti_nat i) as [d|x] eqn:En.
    + right. left. exists d. split; [exact HD|]. split; [reflexivity|]. cbn [negb orb] in H. destruct (ti_reg i) as [v|x]; injection H as <- <-; cbn [t_info t_rs r_nat r_ok t_rtrs app].
      * split; [reflexivity|]. split; [reflexivity|]. right. exists v. split; [reflexivity|]. split; [reflexivity|]. split; [reflexivity|apply HV].
      * split; [reflexivity|]. split; [reflexivity|]. left. exists x. auto.
    + left. injection H as <- <-. cbn [t_info t_rs r_nat r_ok t_rtrs]. split; [reflexivity|]. split; [exact HD|]. split; [congruence|]. auto.
  - right. right. assert (~ (r_ok (t_rs s) = false \/ r_nat (t_rs s) + 900000000 < ti_now i)) as ND by (intros X; apply HD in X; discriminate).
    split; [exact ND|]. assert (r_ok (t_rs s) = true) as Ok by (destruct (r_ok (t_rs s)); [reflexivity|exfalso; apply ND; auto]). rewrite Ok in *. cbn [negb] in H.
    destruct (_ || (r_reg (t_rs s) + 60 * second <? ti_now i)).
    + destruct (t_info s) as [d|].
      * destruct (ti_reg i) as [v|x]; injection H as <- <-; cbn [t_info t_rs r_nat r_ok t_rtrs app]; (split; [reflexivity|]; split; [reflexivity|]; right; exists d; split; [reflexivity|]).
        -- right. left. exists v. split; [reflexivity|]. split; [reflexivity|]. split; [reflexivity|apply HV].
        -- left. exists x. auto.
      * injection H as <- <-. cbn [t_info t_rs r_nat r_ok t_rtrs]. auto 10.
    + injection H as <- <-. cbn [t_info t_rs r_nat r_ok t_rtrs]. split; [reflexivity|]. split; [reflexivity|]. destruct (t_info s) as [d|]; [right; exists d; auto 10|left; auto].
Qed.

(** ** The invariant *)
Definition good_since (x : tinp * list tev) (post : list (tinp * list tev)) : Prop :=
  ~ raises x /\ forall y d v, (y = x \/ In y post) -> returned y d v -> v = Some true.
Record inv (s : tstate) (h : list (tinp * list tev)) : Prop := {
  iv_info : (t_info s = None /\ r_ok (t_rs s) = false /\ (forall y d, In y h -> ~ found y d)) \/
            (exists x d post, t_info s = Some d /\ last_found h x d post /\ r_nat (t_rs s) = ti_now (fst x) /\ (r_ok (t_rs s) = true -> good_since x post));
  iv_rtrs : match t_rtrs s with
            | None => forall y r, In y h -> ~ In (TRecord r) (snd y)
            | Some l => exists r, last_recorded h r /\ l = rset r
            end }.
Lemma last_found_more h x d post y : last_found h x d post -> (forall d', ~ found y d') -> last_found (h ++ [y]) x d (post ++ [y]).
Proof.
  intros ((pre & ->) & F & N) Q. split; [exists pre; rewrite <- app_assoc; reflexivity|]. split; [exact F|].
  intros z d' I. apply in_app_or in I. destruct I as [I|[<-|[]]]; [exact (N z d' I)|apply Q].
Qed.
Lemma recorded_more h r y : last_recorded h r -> (forall r', ~ In (TRecord r') (snd y)) -> last_recorded (h ++ [y]) r.
Proof.
  intros (pre & x & post & -> & F & N) Q. exists pre, x, (post ++ [y]). split; [rewrite <- app_assoc; reflexivity|]. split; [exact F|].
  intros z d' I. apply in_app_or in I. destruct I as [I|[<-|[]]]; [exact (N z d' I)|apply Q].
Qed.
Lemma rtrs_kept (t : option (list addr)) h y : match t with None => forall y r, In y h -> ~ In (TRecord r) (snd y) | Some l => exists r, last_recorded h r /\ l = rset r end ->
  (forall r', ~ In (TRecord r') (snd y)) ->
  match t with None => forall z r, In z (h ++ [y]) -> ~ In (TRecord r) (snd z) | Some l => exists r, last_recorded (h ++ [y]) r /\ l = rset r end.
Proof.
  intros H N. destruct t as [l|].
  - destruct H as (r & H & ->). exists r. split; [apply recorded_more; assumption|reflexivity].
  - intros z r I. apply in_app_or in I. destruct I as [I|[<-|[]]]; [apply H, I|apply N].
Qed.
Lemma recorded_now h y r : In (TRecord r) (snd y) -> last_recorded (h ++ [y]) r.
Proof. intros I. exists h, y, []. split; [reflexivity|]. split; [exact I|intros ? ? []]. Qed.
Ltac among I := cbn [In snd] in I; repeat match type of I with _ \/ _ => destruct I as [I|I]; [try discriminate; try (injection I as <- <-; auto)|] | False => destruct I end.
Ltac inlist := cbn [snd In]; intuition discriminate.
Lemma inv_step s h i s' e : inv s h -> pass s i = (s', e) -> inv s' (h ++ [(i, e)]).
Proof.
  intros [A B] H. apply pass_cases in H. destruct H as [(-> & D & NF & E1 & E2 & E3 & E4)|[(d & D & Ed & E1 & E2 & H)|(D & E1 & E2 & H)]].
  - assert (forall d, ~ found (i, [TDetect]) d) as Q by (intros d [_ F]; exact (NF d F)). split.
    + rewrite E1, E3, E4. destruct A as [(A1 & A2 & A3)|(x & d & post & A1 & A2 & A3 & A4)].
      * left. split; [exact A1|]. split; [exact A2|]. intros y d I. apply in_app_or in I. destruct I as [I|[<-|[]]]; [apply A3, I|apply Q].
      * right. exists x, d, (post ++ [(i, [TDetect])]). split; [exact A1|]. split; [apply last_found_more; auto|]. split; [exact A3|]. intros O. destruct (A4 O) as [G1 G2]. split; [exact G1|].
        intros y d' v [->|I]; [eapply G2; auto|]. apply in_app_or in I. destruct I as [I|[<-|[]]]; [eapply G2; auto|]. intros [(f & U) _]. cbn [snd In] in U. destruct U as [U|[]]; discriminate.
    + rewrite E2. apply rtrs_kept; [exact B|]. intros r. inlist.
  - assert (found (i, e) d) as F. { split; [|exact Ed]. destruct H as [(x & _ & -> & _)|(v & _ & -> & _)]; left; reflexivity. }
    split.
    + right. exists (i, e), d, []. split; [exact E1|]. split; [split; [exists h; reflexivity|split; [exact F|intros ? ? []]]|]. split; [exact E2|]. intros O.
      destruct H as [(x & _ & _ & _ & H)|(v & H1 & -> & _ & H2)]; [congruence|]. apply H2 in O. subst v. split.
      * intros [_ (x & X)]. cbn [fst] in X. congruence.
      * intros y d' v [->|[]] [_ X]. cbn [fst] in X. congruence.
    + destruct H as [(x & _ & -> & -> & _)|(v & _ & -> & -> & _)]; [apply rtrs_kept; [exact B|]; intros r; inlist|].
      eexists. split; [|reflexivity]. apply recorded_now. right. right. left. reflexivity.
  - assert (~ In TDetect e) as ND. { destruct H as [(_ & -> & _)|(d & _ & [(x & _ & -> & _)|[(v & _ & -> & _)|(-> & _)]])]; inlist. }
    assert (forall d, ~ found (i, e) d) as Q by (intros d [F _]; exact (ND F)). split.
    + rewrite E1, E2. destruct A as [(A1 & A2 & A3)|(x & d & post & A1 & A2 & A3 & A4)].
      * exfalso. apply D. left. exact A2.
      * assert (r_ok (t_rs s) = true) as O by (destruct (r_ok (t_rs s)) eqn:X; [reflexivity|exfalso; apply D; left; exact X]). destruct (A4 O) as [G1 G2].
        right. exists x, d, (post ++ [(i, e)]). split; [exact A1|]. split; [apply last_found_more; auto|]. split; [exact A3|]. intros O'. split; [exact G1|].
        intros y d' v [->|I]; [eapply G2; auto|]. apply in_app_or in I. destruct I as [I|[<-|[]]]; [eapply G2; auto|]. intros [(f & U) R]. cbn [snd fst] in *.
        destruct H as [(H & _)|(d2 & H0 & [(z & H1 & -> & _)|[(v2 & H1 & -> & _ & H2)|(-> & _)]])]; [congruence|congruence| |destruct U]. apply H2 in O'. congruence.
    + destruct H as [(_ & -> & ->)|(d & _ & [(x & _ & -> & -> & _)|[(v & _ & -> & -> & _)|(-> & -> & _)]])]; try (apply rtrs_kept; [exact B|]; intros r; inlist).
      eexists. split; [|reflexivity]. apply recorded_now. right. left. reflexivity.
Qed.
Lemma inv_all l : inv (fst (passes t0 l)) (pass_log l).
Proof.
  induction l as [|i l IH] using rev_ind.
  - split; [left; split; [reflexivity|split; [reflexivity|intros ? ? []]]|intros ? ? []].
  - unfold pass_log in *. rewrite passes_snoc. destruct (passes t0 l) as [s h]. cbn [fst snd] in IH. destruct (pass s i) as [s' e] eqn:E. cbn [fst snd]. eapply inv_step; eauto.
Qed.
Lemma log_split l h x : pass_log l = h ++ [x] -> exists l' i, l = l' ++ [i] /\ pass_log l' = h /\ fst x = i /\ exists s', pass (fst (passes t0 l')) i = (s', snd x).
Proof.
  destruct l as [|i l _] using rev_ind; intros H; [destruct h; discriminate|].
  unfold pass_log in *. rewrite passes_snoc in H. destruct (passes t0 l) as [s h'] eqn:E0. destruct (pass s i) as [s' e] eqn:E. cbn [snd] in H.
  apply app_inj_tail in H. destruct H as [<- <-]. exists l, i. rewrite E0. cbn [fst snd]. eauto 10.
Qed.

(** ** C134 *)
(** Whenever the thread registers, it uses the result of the last NAT detection that came to a result: of this very pass
    exactly if a Map-Notify is forced; otherwise of a pass at most 15 minutes ago whose registration did not raise, and
    every registration that returned since then succeeded. *)
Theorem C134_uses : forall l h x f d, pass_log l = h ++ [x] -> In (TRegister f d) (snd x) ->
  (f = true /\ found x d) \/
  (f = false /\ ~ In TDetect (snd x) /\ exists y post, last_found h y d post /\ ti_now (fst x) <= ti_now (fst y) + 15 * minute /\
     ~ raises y /\ forall z d' v, (z = y \/ In z post) -> returned z d' v -> v = Some true).
Proof.
  intros l h x f d H I. pose proof H as H0. apply log_split in H. destruct H as (l' & i & -> & El & <- & s' & Ep). destruct x as [i e]. cbn [fst snd] in *.
  pose proof (inv_all l') as [A _]. rewrite El in A. apply pass_cases in Ep.
  destruct Ep as [(-> & _)|[(d0 & D & Ed & E1 & E2 & Hc)|(D & E1 & E2 & Hc)]]; [destruct I as [I|[]]; discriminate|..].
  - assert (In TDetect e /\ f = true /\ d = d0) as (TD & -> & ->) by (destruct Hc as [(x & _ & -> & _)|(v & _ & -> & _)]; cbn [In]; among I).
    left. split; [reflexivity|]. split; assumption.
  - destruct Hc as [(_ & -> & _)|(d0 & Ei & Hc)]; [destruct I|].
    assert (f = false /\ d = d0 /\ ~ In TDetect e) as (-> & -> & ND).
    { destruct Hc as [(x & _ & -> & _)|[(v & _ & -> & _)|(-> & _)]]; among I; (split; [reflexivity|split; [reflexivity|inlist]]). }
    destruct A as [(A1 & _)|(y & d & post & A1 & A2 & A3 & A4)]; [congruence|]. assert (d = d0) as -> by congruence.
    assert (r_ok (t_rs (fst (passes t0 l'))) = true) as O by (destruct (r_ok (t_rs (fst (passes t0 l')))) eqn:X; [reflexivity|exfalso; apply D; left; exact X]).
    destruct (A4 O) as [G1 G2]. right. split; [reflexivity|]. split; [exact ND|]. exists y, post. split; [exact A2|].
    split; [rewrite <- A3; destruct (Z_le_gt_dec (ti_now i) (r_nat (t_rs (fst (passes t0 l'))) + 15 * minute)) as [L|L]; [exact L|exfalso; apply D; right; lia]|].
    split; [exact G1|]. exact G2.
Qed.
(** What the node has recorded for the registration are the RTRs that the last Map-Register that was not cut off by an
    exception was sent with. *)
Lemma rset_in l a : In a (rset l) <-> In a l.
Proof. unfold rset. rewrite (fold_add_in addr_same (fun x => x)) by exact addr_same_eq. split; [intros [[]|(r & I & ->)]; exact I|intros I; right; eauto]. Qed.
Lemma record_returned l : forall y, In y (pass_log l) -> forall r, In (TRecord r) (snd y) <-> exists d v, returned y d v /\ r = rtr_rlocs d.
Proof.
  induction l as [|i l IH] using rev_ind; intros y I r; [destruct I|]. unfold pass_log in *. rewrite passes_snoc in I.
  destruct (passes t0 l) as [s h]. destruct (pass s i) as [s' e] eqn:E. cbn [snd] in *. apply in_app_or in I. destruct I as [I|[<-|[]]]; [apply IH, I|].
  unfold returned, used. cbn [fst snd]. apply pass_cases in E.
  destruct E as [(-> & _)|[(d & _ & _ & _ & _ & [(x & R & -> & _)|(v & R & -> & _)])|(_ & _ & _ & [(_ & -> & _)|(d & _ & [(x & R & -> & _)|[(v & R & -> & _)|(-> & _)]])])]].
  - split; [intros I; among I|intros (d & v & ((f & I) & _) & _); among I].
  - split; [intros I; among I|intros (d' & v & (_ & Q) & _); congruence].
  - split; [intros I; among I; injection I as <-; exists d, v; split; [split; [exists true; right; left; reflexivity|exact R]|reflexivity]|].
    intros (d' & v' & ((f & I) & _) & ->). right. right. left. among I; reflexivity.
  - split; [intros []|intros (d & v & ((f & I) & _) & _); destruct I].
  - split; [intros I; among I|intros (d' & v & (_ & Q) & _); congruence].
  - split; [intros I; among I; injection I as <-; exists d, v; split; [split; [exists false; left; reflexivity|exact R]|reflexivity]|].
    intros (d' & v' & ((f & I) & _) & ->). right. left. among I; reflexivity.
  - split; [intros []|intros (d' & v & ((f & I) & _) & _); destruct I].
Qed.
Theorem C134_recorded : forall l,
  match t_rtrs (fst (passes t0 l)) with
  | Some s => exists d, last_returned (pass_log l) d /\ forall a, In a s <-> In a (rtr_rlocs d)
  | None => forall y d v, In y (pass_log l) -> ~ returned y d v
  end.
Proof.
  intros l. destruct (inv_all l) as [_ B]. pose proof (record_returned l) as R. destruct (t_rtrs _) as [s|].
  - destruct B as (r & (pre & x & post & E & I & N) & ->). rewrite E in R. destruct (proj1 (R x (in_elt _ _ _) r) I) as (d & v & Q & ->).
    exists d. split; [|intros a; apply rset_in]. exists pre, x, post, v. split; [exact E|]. split; [exact Q|]. intros y d' v' J Q'.
    apply (N y (rtr_rlocs d') J). apply R; [apply in_or_app; right; right; exact J|]. exists d', v'. auto.
  - intros y d v I Q. apply (B y (rtr_rlocs d) I). apply R; [exact I|]. exists d, v. auto.
Qed.
Definition changed (s : tstate) (d : option addr) : bool :=
  match t_rtrs s with None => true | Some old => negb (same_set old (rset (rtr_rlocs d))) end.
Lemma pass_return s i s' e d v : pass s i = (s', e) -> returned (i, e) d v ->
  r_need (t_rs s') = ti_sig2 i || changed s d /\ r_reg (t_rs s') = ti_now i /\ r_ok (t_rs s') = match v with Some b => b | None => false end /\ t_info s' = Some d.
Proof.
  intros H [(f & I) R]. cbn [snd fst] in *. unfold pass in H. rewrite R in H. unfold changed, rset.
  destruct (if negb (r_ok (t_rs s)) || _ then _ else _) as [[[info nat_t] ok]|].
  - destruct (_ || (r_reg (t_rs s) + 60 * second <? ti_now i)).
    + destruct info as [d0|].
      * injection H as <- <-. cbn [t_rs r_need r_reg r_ok t_info].
        assert (d = d0) as ->; [|auto]. destruct (_ || _) in I; cbn [app In] in I; among I; reflexivity.
      * exfalso. injection H as <- <-. destruct (_ || _) in I; among I.
    + exfalso. injection H as <- <-. destruct (_ || _) in I; among I.
  - exfalso. injection H as <- <-. destruct (_ || _) in I; among I.
Qed.
Lemma log_two l h x z : pass_log l = h ++ [x; z] -> exists l' s1 s2, pass_log l' = h /\ s1 = fst (passes t0 l') /\ pass s1 (fst x) = (s2, snd x) /\ exists s3, pass s2 (fst z) = (s3, snd z).
Proof.
  intros H. change ([x; z]) with ([x] ++ [z]) in H. rewrite app_assoc in H. apply log_split in H. destruct H as (l1 & i & -> & E1 & <- & s3 & P3).
  pose proof E1 as E1'. apply log_split in E1. destruct E1 as (l' & j & -> & E2 & <- & s2 & P2). exists l', (fst (passes t0 l')), s2. split; [exact E2|]. split; [reflexivity|]. split; [exact P2|].
  exists s3. rewrite passes_snoc in P3. destruct (passes t0 l') as [s1 h1]. cbn [fst] in P2. rewrite P2 in P3. exact P3.
Qed.
Lemma changed_spec l d : other_rtrs (pass_log l) d -> changed (fst (passes t0 l)) d = true.
Proof.
  intros O. unfold changed. pose proof (C134_recorded l) as R. destruct (t_rtrs _) as [old|]; [|reflexivity]. destruct R as (d0 & L & S).
  destruct (same_set old (rset (rtr_rlocs d))) eqn:E; [exfalso|reflexivity]. apply (O d0 L). intros a. rewrite <- S, <- (rset_in (rtr_rlocs d)).
  unfold same_set in E. apply andb_prop in E. destruct E as [S1 S2]. rewrite forallb_forall in S1, S2. split; intros Ha.
  - specialize (S1 a Ha). apply existsb_exists in S1. destruct S1 as (b & Hb & E). apply addr_same_eq in E. subst b. exact Hb.
  - specialize (S2 a Ha). apply existsb_exists in S2. destruct S2 as (b & Hb & E). apply addr_same_eq in E. subst b. exact Hb.
Qed.
Lemma one_call s i s' e d d' : pass s i = (s', e) -> used (i, e) d -> used (i, e) d' -> d = d'.
Proof.
  intros E (f & I) (f' & I'). apply pass_cases in E. cbn [snd] in *.
  destruct E as [(-> & _)|[(d0 & _ & _ & _ & _ & [(x & R & -> & _)|(v & R & -> & _)])|(_ & _ & _ & [(_ & -> & _)|(d0 & _ & [(x & R & -> & _)|[(v & R & -> & _)|(-> & _)]])])]];
    cbn [In] in I, I'; intuition congruence.
Qed.
Lemma log_one l : forall x, In x (pass_log l) -> forall d d', used x d -> used x d' -> d = d'.
Proof.
  induction l as [|i l IH] using rev_ind; intros y I d d'; [destruct I|]. unfold pass_log in *. rewrite passes_snoc in I.
  destruct (passes t0 l) as [s h]. destruct (pass s i) as [s' e] eqn:E. cbn [snd] in *. apply in_app_or in I. destruct I as [I|[<-|[]]]; [apply IH, I|eapply one_call, E].
Qed.
Lemma unchanged_spec l d d0 : last_returned (pass_log l) d0 -> Forall ip_addr (rtr_rlocs d) -> (forall a, In a (rtr_rlocs d0) <-> In a (rtr_rlocs d)) ->
  changed (fst (passes t0 l)) d = false.
Proof.
  intros L F Sm. unfold changed. pose proof (C134_recorded l) as R. rewrite Forall_forall in F. destruct (t_rtrs _) as [old|].
  - destruct R as (d1 & L1 & S).
    assert (forall a, In a (rtr_rlocs d1) <-> In a (rtr_rlocs d)) as Sm1.
    { destruct L as (p & x & q & v & E & Rx & N), L1 as (p1 & x1 & q1 & v1 & E1 & Rx1 & N1).
      assert (d1 = d0) as ->; [|exact Sm]. assert (In x (pass_log l)) as Ix by (rewrite E; apply in_elt). rewrite E in E1. clear E.
      assert (x = x1) as <-.
      { revert p1 E1. induction p as [|a p IH]; intros [|b p1] E1; cbn [app] in E1; injection E1 as -> E1; [reflexivity| | |apply (IH p1 E1)].
        - subst q. exfalso. exact (N x1 d1 v1 (in_elt _ _ _) Rx1).
        - subst q1. exfalso. exact (N1 x d0 v (in_elt _ _ _) Rx). }
      symmetry. apply (log_one l x); [exact Ix|apply Rx|apply Rx1]. }
    assert (same_set old (rset (rtr_rlocs d)) = true) as ->; [|reflexivity]. unfold same_set. rewrite andb_true_iff, !forallb_forall.
    split; intros a Ha; apply existsb_exists; exists a.
    + apply S, Sm1 in Ha. split; [apply (proj2 (rset_in _ a)), Ha|]. destruct (F a Ha) as (v & z & ->). apply addr_same_ip.
    + apply (proj1 (rset_in _ a)) in Ha. split; [apply S, Sm1, Ha|]. destruct (F a Ha) as (v & z & ->). apply addr_same_ip.
  - destruct L as (p & x & q & v & E & Rx & N). exfalso. apply (R x d0 v); [rewrite E; apply in_elt|exact Rx].
Qed.

(** A registration with other RTRs than the one before is followed by another one in the next pass, unless NAT detection
    raises. *)
Theorem C134_change_announced : forall l h x z d v, pass_log l = h ++ [x; z] -> returned x d v -> other_rtrs h d ->
  (exists d', used z d') \/ (In TDetect (snd z) /\ forall d', ti_nat (fst z) <> Ok d').
Proof.
  intros l h x z d v H R O. apply log_two in H. destruct H as (l' & s1 & s2 & E & -> & P1 & s3 & P2). rewrite <- E in O. apply changed_spec in O.
  destruct x as [i e], z as [j e2]. cbn [fst snd] in *. destruct (pass_return _ _ _ _ _ _ P1 R) as (N & _ & _ & Ei). rewrite O, orb_true_r in N.
  unfold used. cbn [snd]. unfold pass in P2. rewrite N, Ei in P2. cbn [orb] in P2. rewrite ?orb_true_r in P2. cbn [orb] in P2.
  destruct (negb (r_ok (t_rs s2)) || _) eqn:Ed.
  - destruct (ti_nat j) as [d'|er] eqn:En.
    + left. exists d'. cbn [negb orb] in P2. exists true. destruct (ti_reg j); injection P2 as <- <-; cbn [app In]; auto.
    + right. injection P2 as <- <-. split; [left; reflexivity|congruence].
  - left. exists d, (negb (r_ok (t_rs s2))). rewrite ?orb_true_r in P2. cbn [orb] in P2. destruct (ti_reg j); injection P2 as <- <-; cbn [app In]; auto.
Qed.
(** With the same RTRs as before, a success is followed by a pass that does nothing, if it comes within a minute and nobody
    else has signalled a change. *)
Theorem C134_no_needless : forall l h x z d d0 y post, pass_log l = h ++ [x; z] -> returned x d (Some true) ->
  last_returned h d0 -> (forall a, In a (rtr_rlocs d0) <-> In a (rtr_rlocs d)) -> Forall ip_addr (rtr_rlocs d) ->
  ti_sig2 (fst x) = false -> ti_sig (fst z) = false -> ti_now (fst z) <= ti_now (fst x) + minute ->
  last_found (h ++ [x]) y d post -> ti_now (fst z) <= ti_now (fst y) + 15 * minute ->
  snd z = [].
Proof.
  intros l h x z d d0 y post H R L Sm F S2 S1 T1 LF T2. pose proof H as H0. apply log_two in H. destruct H as (l' & s1 & s2 & E & -> & P1 & s3 & P2). rewrite <- E in L.
  pose proof (unchanged_spec _ _ _ L F Sm) as C. pose proof (inv_all l') as I1. rewrite E in I1. destruct x as [i e], z as [j e2]. cbn [fst snd] in *. apply (inv_step _ _ _ _ _ I1) in P1 as I2.
  destruct (pass_return _ _ _ _ _ _ P1 R) as (N & G & O & Ei). rewrite C, S2 in N. cbn [orb] in N.
  destruct I2 as [A _]. destruct A as [(A1 & _)|(y1 & d1 & post1 & A1 & A2 & A3 & _)]; [congruence|].
  assert (y1 = y) as ->.
  { destruct LF as ((pre & Q) & Fd & Nn), A2 as ((pre1 & Q1) & Fd1 & Nn1). rewrite Q in Q1. clear - Q1 Fd Nn Fd1 Nn1.
    revert pre1 Q1. induction pre as [|a pre IH]; intros [|b pre1] E1; cbn [app] in E1; injection E1 as E0 E1.
    - symmetry. exact E0.
    - subst post. exfalso. exact (Nn y1 d1 (in_elt _ _ _) Fd1).
    - subst post1. exfalso. exact (Nn1 y d (in_elt _ _ _) Fd).
    - apply (IH pre1 E1). }
  unfold pass in P2. change (15 * 60 * second) with 900000000 in P2. change (60 * second) with 60000000 in P2. unfold minute in *. change (15 * 60000000) with 900000000 in T2.
  rewrite N, O, S1, G, A3 in P2. cbn [negb orb] in P2.
  assert (ti_now (fst y) + 900000000 <? ti_now j = false) as B1 by (apply Z.ltb_ge; lia). assert (ti_now i + 60000000 <? ti_now j = false) as B2 by (apply Z.ltb_ge; lia).
  rewrite B1 in P2. rewrite ?O in P2. cbn [negb orb] in P2. rewrite B2 in P2. injection P2 as _ <-. reflexivity.
Qed.
(** The passes are those of C60: nothing else happens. *)
Lemma as_C60 l : forall s r, (t_info s = None -> r_ok (t_rs s) = false) -> t_rs s = r ->
  exists js, Forall2 (fun x y => seen_as (fst x) (fst y) /\ events_as (snd x) (snd y)) (snd (passes s l)) (SpecEtr.history r js).
Proof.
  induction l as [|i l IH]; intros s r U <-; cbn [passes].
  - exists []. constructor.
  - destruct (pass s i) as [s' e] eqn:E.
    assert (exists j, seen_as i j /\ fst (iteration (t_rs s) j) = t_rs s' /\ events_as e (snd (iteration (t_rs s) j)) /\ (t_info s' = None -> r_ok (t_rs s') = false)) as (j & J1 & J2 & J3 & J4).
    { pose (ch := match ti_nat i, t_info s with
                  | Ok d, _ => if negb (r_ok (t_rs s)) || (r_nat (t_rs s) + 15 * 60 * second <? ti_now i) then changed s d else match t_info s with Some d => changed s d | None => false end
                  | Err _, Some d => changed s d | _, _ => false end).
      assert (forall d, (if negb (r_ok (t_rs s)) || (r_nat (t_rs s) + 15 * 60 * second <? ti_now i) then ti_nat i = Ok d else t_info s = Some d) -> ch = changed s d) as Hch.
      { intros d Hd. unfold ch. destruct (negb (r_ok (t_rs s)) || _); rewrite Hd; [reflexivity|]. destruct (ti_nat i); reflexivity. }
      clearbody ch.
      exists (Inp (ti_now i) (ti_sig i) (match ti_nat i with Ok _ => true | Err _ => false end)
        (match ti_reg i with Ok (Some b) => Some b | Ok None => Some false | Err _ => None end)
        (ti_sig2 i || match ti_reg i with Ok _ => ch | Err _ => false end)).
      split. { split; [reflexivity|]. split; [reflexivity|]. split; [destruct (ti_nat i); cbn [in_nat]; split; try congruence; [eauto|intros (d & X); congruence]|]. split; [reflexivity|]. intros Hs. cbn [in_sig2]. rewrite Hs. reflexivity. }
      unfold events_as. revert E. unfold pass, iteration. cbn [in_now in_sig in_nat in_reg in_sig2]. 
      destruct (negb (r_ok (t_rs s)) || (r_nat (t_rs s) + 15 * 60 * second <? ti_now i)) eqn:Ed.
      - destruct (ti_nat i) as [d|er]; cbn [negb andb orb].
        + rewrite (Hch d eq_refl). unfold changed, rset. destruct (ti_reg i) as [[b|]|er]; intros [= <- <-]; cbn [t_rs t_info fst snd app]; rewrite ?orb_false_r; (split; [reflexivity|]); (split; [|discriminate]);
            (split; [cbn [In]; tauto|intros f; split; [intros (d0 & I); cbn [In] in I |- *; intuition congruence|intros I; cbn [In] in I |- *; exists d; intuition congruence]]).
        + intros [= <- <-]. cbn [t_rs t_info fst snd]. split; [reflexivity|]. split; [split; [cbn [In]; tauto|intros f; split; [intros (d0 & I); among I|intros I; cbn [In] in I; intuition congruence]]|exact U].
      - cbn [andb]. destruct (t_info s) as [d|] eqn:Ei.
        + destruct (_ || (r_reg (t_rs s) + 60 * second <? ti_now i)).
          * rewrite (Hch d eq_refl). unfold changed, rset.
            destruct (ti_reg i) as [[b|]|er]; intros [= <- <-]; cbn [t_rs t_info fst snd app]; rewrite ?orb_false_r; (split; [reflexivity|]); (split; [|discriminate]);
            (split; [cbn [In]; intuition congruence|intros f; split; [intros (d0 & I); cbn [In] in I |- *; intuition congruence|intros I; cbn [In] in I |- *; exists d; intuition congruence]]).
          * intros [= <- <-]. cbn [t_rs t_info fst snd]. split; [reflexivity|]. split; [|discriminate]. split; [cbn [In]; tauto|intros f; split; [intros (d0 & [])|intros []]].
        + exfalso. rewrite (U eq_refl) in Ed. discriminate. }
    destruct (IH s' (t_rs s') J4 eq_refl) as (js & F). exists (j :: js). destruct (passes s' l) as [s2 h]. cbn [SpecEtr.history snd] in *.
    destruct (iteration (t_rs s) j) as [r2 e2]. cbn [fst snd] in *. subst r2. constructor; [split; assumption|exact F].
Qed.
Theorem C134_as_C60 : forall l, exists js, Forall2 (fun x y => seen_as (fst x) (fst y) /\ events_as (snd x) (snd y)) (pass_log l) (thread_log js).
Proof. intros l. apply (as_C60 l t0 rs0); [reflexivity|reflexivity]. Qed.

(** A history that meets the hypotheses: NAT with an RTR is found and a registration through it succeeds; it is repeated
    in the next pass because the RTRs are new; then nothing needs to be done; after 16 minutes detection raises once, then
    finds that the NAT is gone. *)
Definition ex_rtr : addr := AIP V4 3325256714.
Definition ex_nat : addr := LNat 4342 50000 (AIP V4 3405803786) (AIP V4 3325256705) (AIP V4 3232235521) [ex_rtr].
Definition ex_at (t : Z) (n : res (option addr)) (r : res (option bool)) : tinp := TInp (t * second) false n r false.
Definition ex_passes : list tinp :=
  [ex_at 10000 (Ok (Some ex_nat)) (Ok (Some true)); ex_at 10005 (Err ESock) (Ok (Some true)); ex_at 10010 (Err ESock) (Ok (Some false));
   ex_at 10960 (Err ESock) (Ok (Some true)); ex_at 10965 (Ok None) (Err EType)].
Example C134_example :
  map snd (pass_log ex_passes) =
    [[TDetect; TRegister true (Some ex_nat); TRecord [ex_rtr]]; [TRegister false (Some ex_nat); TRecord [ex_rtr]]; []; [TDetect]; [TDetect; TRegister true None]] /\
  (exists x z, pass_log (firstn 2 ex_passes) = [] ++ [x; z] /\ returned x (Some ex_nat) (Some true) /\ other_rtrs [] (Some ex_nat) /\ used z (Some ex_nat)) /\
  (exists h y x z, pass_log (firstn 3 ex_passes) = h ++ [x; z] /\ returned x (Some ex_nat) (Some true) /\ last_returned h (Some ex_nat) /\
     Forall ip_addr (rtr_rlocs (Some ex_nat)) /\ last_found (h ++ [x]) y (Some ex_nat) [x] /\ ti_now (fst z) <= ti_now (fst x) + minute /\ snd z = []).
Proof.
  split; [vm_compute; reflexivity|]. split.
  - eexists _, _. split; [vm_compute; reflexivity|]. split; [split; [exists true; right; left; reflexivity|reflexivity]|]. split; [|exists false; left; reflexivity].
    intros d (pre & x & post & v & H & _). destruct pre; discriminate.
  - eexists [_], _, _, _. split; [vm_compute; reflexivity|]. split; [split; [exists false; left; reflexivity|reflexivity]|].
    split. { eexists [], _, [], _. split; [reflexivity|]. split; [split; [exists true; right; left; reflexivity|reflexivity]|intros ? ? ? []]. }
    split; [repeat constructor; do 2 eexists; reflexivity|]. split; [|split; [vm_compute; congruence|reflexivity]].
    split; [exists []; reflexivity|]. split; [split; [left; reflexivity|reflexivity]|]. intros y d' [<-|[]] [[I|[I|[]]] _]; discriminate.
Qed.
Print Assumptions C134_uses. Print Assumptions C134_recorded. Print Assumptions C134_change_announced. Print Assumptions C134_no_needless. Print Assumptions C134_as_C60. Print Assumptions C134_example.
