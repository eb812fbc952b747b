(** * Properties C96-C98: threads that run at the same time *)
From Coq Require Import Sorted.
From Verif Require Import Base BaseLemmas Afi AfiProofs Spec SpecEid Records Control SpecRec Auth SpecAuth PropAuth Tree SpecTree TreeProofs PropTree2 Dict MapServer
  SpecMs PropMs PropMs2 Etr SpecEtr Packet Daemon SpecDaemon PropDaemon SpecRoute Exchange PropExch PropRoute Sched SpecSched.

(** ** C96: searching a list that changes *)
Section Search.
Context {O : Type} (matches : O -> bool) (change : O -> O).
Notation run s h := (search matches change s h).

Lemma search_snoc s h t : run s (h ++ [t]) = sched_step matches change (run s h) t.
Proof. unfold search. rewrite fold_left_app. reflexivity. Qed.
Lemma added_app h1 h2 : added (h1 ++ h2) = added h1 ++ added h2.
Proof. induction h1 as [|[] h1 IH]; cbn [added app]; rewrite ?IH; reflexivity. Qed.
Lemma main_turns_app h1 h2 : main_turns (h1 ++ h2) = (main_turns h1 + main_turns h2)%nat.
Proof. induction h1 as [|[] h1 IH]; cbn [main_turns app]; rewrite ?IH; reflexivity. Qed.
Lemma remove1_in x y l : In y (remove1 x l) -> In y l.
Proof.
  induction l as [|z l IH]; cbn [remove1]; [tauto|]. destruct (Nat.eqb z x); [right; assumption|]. intros [<-|I]; [left; reflexivity|right; auto].
Qed.
Lemma remove1_len x l : (length (remove1 x l) <= length l)%nat.
Proof. induction l as [|z l IH]; cbn [remove1 length]; [lia|]. destruct (Nat.eqb z x); cbn [length]; lia. Qed.
Lemma remove1_app x l1 l2 : ~ In x l1 -> remove1 x (l1 ++ l2) = l1 ++ remove1 x l2.
Proof.
  induction l1 as [|z l1 IH]; cbn [app remove1]; [reflexivity|]. intros N. destruct (Nat.eqb_spec z x) as [->|_]; [destruct N; left; reflexivity|].
  rewrite IH; [reflexivity|]. intros I. apply N. right. exact I.
Qed.
Lemma remove1_keep x o l : In o l -> o <> x -> In o (remove1 x l).
Proof.
  induction l as [|z l IH]; cbn [remove1]; [tauto|]. intros [<-|I] N; destruct (Nat.eqb_spec z x) as [E|E].
  - congruence.
  - left. reflexivity.
  - exact I.
  - right. auto.
Qed.

(** everything the search sees was in the list *)
Definition known (s : @shared O) (h : list turn) (st : pc * @shared O) : Prop :=
  incl (sh_list (snd st)) (sh_list s ++ added h) /\
  match fst st with
  | Test _ x => In x (sh_list s ++ added h) /\ forall j, sh_heap (snd st) j = sh_heap s j
  | Fetch _ | Finished None => forall j, sh_heap (snd st) j = sh_heap s j
  | Finished (Some x) => In x (sh_list s ++ added h) /\ matches (sh_heap s x) = true /\
                         forall j, sh_heap (snd st) j = if Nat.eqb j x then change (sh_heap s x) else sh_heap s j
  end.
Lemma known_always s h : known s h (run s h).
Proof.
  induction h as [|t h IH] using rev_ind.
  - split; cbn; [rewrite app_nil_r; apply incl_refl|reflexivity].
  - rewrite search_snoc. destruct (run s h) as [p s']. destruct IH as [L P]. cbn [fst snd] in L, P.
    assert (incl (sh_list s ++ added h) (sh_list s ++ added (h ++ [t]))) as I.
    { rewrite added_app, app_assoc. apply incl_appl, incl_refl. }
    destruct t as [|y|y]; cbn [sched_step].
    + destruct p as [i|i x|o]; cbn [main_step].
      * destruct (nth_error (sh_list s') i) as [x|] eqn:N; (split; cbn [fst snd]; [intros z Hz; apply I, L, Hz|]); [|exact P].
        split; [apply I, L, (nth_error_In _ _ N)|exact P].
      * destruct P as [Px Ph]. destruct (matches (sh_heap s' x)) eqn:M; (split; cbn [fst snd sh_list]; [intros z Hz; apply I, L, Hz|]).
        -- split; [apply I, Px|]. rewrite Ph in M. split; [exact M|]. intros j. cbn [sh_heap]. unfold set_heap. rewrite !Ph. reflexivity.
        -- exact Ph.
      * split; cbn [fst snd]; [intros z Hz; apply I, L, Hz|]. destruct o as [x|]; [|exact P]. destruct P as (P1 & P2). split; [apply I, P1|exact P2].
    + split; cbn [fst snd sh_list sh_heap].
      * intros z Hz. apply in_app_iff in Hz. destruct Hz as [Hz|[<-|[]]]; [apply I, L, Hz|].
        rewrite added_app. cbn. rewrite !in_app_iff. right. right. left. reflexivity.
      * destruct p as [i|i x|[x|]]; try exact P; (destruct P as (P1 & P2); split; [apply I, P1|exact P2]).
    + split; cbn [fst snd sh_list sh_heap].
      * intros z Hz. apply remove1_in in Hz. apply I, L, Hz.
      * destruct p as [i|i x|[x|]]; try exact P; (destruct P as (P1 & P2); split; [apply I, P1|exact P2]).
Qed.

(** nothing is skipped unless something is taken away behind the iterator *)
Definition ahead (s : @shared O) (h : list turn) (o : nat) (st : pc * @shared O) : Prop :=
  let seen x := exists h1 h2 i, h = h1 ++ h2 /\ fst (run s h1) = Test i x in
  match fst st with
  | Fetch i => exists l1 l2, sh_list (snd st) = l1 ++ l2 /\ length l1 = i /\ In o l2 /\ forall x, In x l1 -> seen x
  | Test i x => (x = o \/ exists l1 l2, sh_list (snd st) = l1 ++ x :: l2 /\ length l1 = i /\ In o l2 /\ (forall x, In x l1 -> seen x)) /\ seen x
  | Finished _ => True
  end.
Lemma ahead_always s h o : In o (sh_list s) -> matches (sh_heap s o) = true ->
  ~ In (TRemove o) h -> ~ taken_behind (fun h => fst (run s h)) h -> ahead s h o (run s h).
Proof.
  intros Ho Hm. induction h as [|t h IH] using rev_ind; intros NR NT.
  - exists [], (sh_list s). cbn. repeat split; [exact Ho|intros x []].
  - assert (ahead s h o (run s h)) as A.
    { apply IH; [intros I; apply NR, in_app_iff; left; exact I|]. intros (h1 & h2 & h3 & x & i & E & T). apply NT.
      exists h1, h2, (h3 ++ [t]), x, i. subst h. rewrite <- !app_assoc. cbn [app]. auto. }
    pose proof (known_always s h) as K.
    assert (forall x, (exists h1 h2 i, h = h1 ++ h2 /\ fst (run s h1) = Test i x) ->
              exists h1 h2 i, h ++ [t] = h1 ++ h2 /\ fst (run s h1) = Test i x) as Lift.
    { intros x (h1 & h2 & i & E & T). exists h1, (h2 ++ [t]), i. subst h. rewrite <- app_assoc. auto. }
    rewrite search_snoc. pose proof (search_snoc s h t) as Esn. destruct (run s h) as [p s'] eqn:ER. unfold ahead in *. cbn [fst snd] in A.
    destruct t as [|y|y]; cbn [sched_step] in *.
    + destruct p as [i|i x|r]; cbn [main_step] in *.
      * destruct A as (l1 & l2 & E & Ln & I & S). destruct (nth_error (sh_list s') i) as [x|] eqn:N; cbn [fst snd]; [|exact Logic.I].
        rewrite E, nth_error_app2 in N by lia. replace (i - length l1)%nat with 0%nat in N by lia.
        destruct l2 as [|x' l2]; [discriminate|]. cbn in N. injection N as ->. split.
        -- destruct I as [<-|I]; [left; reflexivity|]. right. exists l1, l2. repeat split; auto.
        -- exists (h ++ [TMain]), [], i. rewrite app_nil_r, Esn. auto.
      * destruct A as [A Sx]. destruct K as [_ [_ Kh]]. cbn [snd] in Kh. destruct A as [->|(l1 & l2 & E & Ln & I & S)].
        -- rewrite Kh, Hm. exact Logic.I.
        -- destruct (matches (sh_heap s' x)); cbn [fst snd]; [exact Logic.I|]. exists (l1 ++ [x]), l2.
           rewrite <- app_assoc. cbn [app]. repeat split; auto; [rewrite app_length; cbn; lia|].
           intros z Hz. apply in_app_iff in Hz. destruct Hz as [Hz|[<-|[]]]; auto.
      * exact Logic.I.
    + destruct p as [i|i x|r]; cbn [fst snd sh_list] in *; [| |exact Logic.I].
      * destruct A as (l1 & l2 & E & Ln & I & S). exists l1, (l2 ++ [y]). rewrite E, <- app_assoc. repeat split; auto. apply in_app_iff. left. exact I.
      * destruct A as [A Sx]. split; [|auto]. destruct A as [->|(l1 & l2 & E & Ln & I & S)]; [left; reflexivity|]. right.
        exists l1, (l2 ++ [y]). rewrite E, <- app_assoc. repeat split; auto. apply in_app_iff. left. exact I.
    + assert (forall x, (exists h1 h2 i, h = h1 ++ h2 /\ fst (run s h1) = Test i x) -> x <> y) as Ny.
      { intros x (h1 & h2 & i & E & T) ->. apply NT. exists h1, h2, [], y, i. subst h. rewrite <- app_assoc. auto. }
      assert (o <> y) as No by (intros ->; apply NR, in_app_iff; right; left; reflexivity).
      destruct p as [i|i x|r]; cbn [fst snd sh_list] in *; [| |exact Logic.I].
      * destruct A as (l1 & l2 & E & Ln & I & S). exists l1, (remove1 y l2). rewrite E, remove1_app; [|intros Hy; exact (Ny _ (S _ Hy) eq_refl)].
        repeat split; auto. apply remove1_keep; auto.
      * destruct A as [A Sx]. split; [|auto]. destruct A as [->|(l1 & l2 & E & Ln & I & S)]; [left; reflexivity|]. right.
        exists l1, (remove1 y l2). rewrite E. change (l1 ++ x :: l2) with (l1 ++ ([x] ++ l2)). rewrite app_assoc, remove1_app, <- app_assoc.
        -- repeat split; auto. apply remove1_keep; auto.
        -- intros Hy. apply in_app_iff in Hy. destruct Hy as [Hy|[Hy|[]]]; [exact (Ny _ (S _ Hy) eq_refl)|exact (Ny _ Sx Hy)].
Qed.

(** it ends *)
Lemma ends_always s h :
  (length (sh_list (snd (run s h))) <= length (sh_list s) + length (added h))%nat /\
  match fst (run s h) with
  | Fetch i => (main_turns h = 2 * i /\ i <= length (sh_list s) + length (added h))%nat
  | Test i _ => (main_turns h = 2 * i + 1 /\ i < length (sh_list s) + length (added h))%nat
  | Finished _ => True
  end.
Proof.
  induction h as [|t h IH] using rev_ind; [cbn; lia|]. rewrite search_snoc, main_turns_app, added_app, app_length.
  destruct (run s h) as [p s']. cbn [fst snd] in IH. destruct IH as [L P]. destruct t as [|y|y]; cbn [sched_step main_turns added length].
  - destruct p as [i|i x|r]; cbn [main_step].
    + destruct (nth_error (sh_list s') i) eqn:N; cbn [fst snd]; (split; [lia|]); [|exact I].
      assert (i < length (sh_list s'))%nat by (apply nth_error_Some; congruence). lia.
    + destruct (matches (sh_heap s' x)); cbn [fst snd sh_list]; (split; [lia|]); [exact I|lia].
    + cbn [fst snd]. split; [lia|exact I].
  - cbn [fst snd sh_list]. rewrite app_length. cbn [length]. split; [lia|]. destruct p; try exact I; lia.
  - cbn [fst snd sh_list]. pose proof (remove1_len y (sh_list s')). split; [lia|]. destruct p; try exact I; lia.
Qed.

(** undisturbed, it does what the atomic step of the daemon's model does *)
Fixpoint first_only (l : list O) : list O :=
  match l with [] => [] | o :: l => if matches o then change o :: l else o :: first_only l end.
Lemma finished_stays r s k : fold_left (sched_step matches change) (repeat TMain k) (Finished r, s) = (Finished r, s).
Proof. induction k as [|k IH]; [reflexivity|]. cbn [repeat fold_left sched_step main_step]. exact IH. Qed.
Lemma alone_from l2 : forall l1 hp k, NoDup (l1 ++ l2) -> (2 * length l2 < k)%nat ->
  let st := fold_left (sched_step matches change) (repeat TMain k) (Fetch (length l1), Sh (l1 ++ l2) hp) in
  sh_list (snd st) = l1 ++ l2 /\ map (sh_heap (snd st)) l2 = first_only (map hp l2) /\ forall x, In x l1 -> sh_heap (snd st) x = hp x.
Proof.
  induction l2 as [|x l2 IH]; intros l1 hp k ND Hk.
  - destruct k as [|k]; [lia|]. cbn [repeat fold_left sched_step main_step sh_list]. rewrite app_nil_r.
    rewrite (proj2 (nth_error_None _ _)) by lia. rewrite finished_stays. cbn. auto.
  - destruct k as [|[|k]]; [lia|cbn [length] in Hk; lia|]. cbn [repeat fold_left sched_step main_step sh_list].
    rewrite nth_error_app2, Nat.sub_diag by lia. cbn [nth_error]. cbn [sched_step main_step sh_heap sh_list].
    assert (~ In x (l1 ++ l2)) as Nx by (apply NoDup_remove_2, ND). destruct (matches (hp x)) eqn:M.
    + rewrite finished_stays. cbn [snd sh_list sh_heap map first_only]. rewrite M. split; [reflexivity|]. split.
      * unfold set_heap at 1. rewrite Nat.eqb_refl. f_equal. apply map_ext_in. intros z Hz. unfold set_heap.
        destruct (Nat.eqb_spec z x) as [->|_]; [|reflexivity]. destruct Nx. apply in_app_iff. right. exact Hz.
      * intros z Hz. unfold set_heap. destruct (Nat.eqb_spec z x) as [->|_]; [|reflexivity]. destruct Nx. apply in_app_iff. left. exact Hz.
    + specialize (IH (l1 ++ [x]) hp k). rewrite app_length, <- app_assoc in IH. cbn [length app] in IH.
      rewrite Nat.add_1_r in IH. cbn zeta in IH. destruct (IH ND) as (I1 & I2 & I3); [cbn [length] in Hk; lia|].
      split; [exact I1|]. cbn [map first_only]. rewrite M, I2. split.
      * f_equal. apply I3, in_app_iff. right. left. reflexivity.
      * intros z Hz. apply I3, in_app_iff. left. exact Hz.
Qed.

(** the search in terms of [W] (who waits) and [G] (what the answer does) *)
Variables (W : O -> Prop) (G : O -> O).
Hypothesis matches_ok : forall o, matches o = true <-> W o.
Hypothesis change_ok : forall o, matches o = true -> change o = G o.
Lemma never_wrong s h : let '(p, s') := run s h in
  (exists x, p = Finished (Some x) /\ In x (sh_list s ++ added h) /\ W (sh_heap s x) /\
     sh_heap s' x = G (sh_heap s x) /\ forall j, j <> x -> sh_heap s' j = sh_heap s j) \/
  ((forall x, p <> Finished (Some x)) /\ forall j, sh_heap s' j = sh_heap s j).
Proof.
  pose proof (known_always s h) as [_ K]. destruct (run s h) as [p s']. cbn [fst snd] in K. destruct p as [i|i x|[x|]].
  - right. split; [discriminate|exact K].
  - right. split; [discriminate|apply K].
  - left. exists x. destruct K as (K1 & K2 & K3). rewrite <- matches_ok, <- change_ok by exact K2.
    repeat split; auto; [rewrite K3, Nat.eqb_refl; reflexivity|]. intros j N. rewrite K3. apply Nat.eqb_neq in N. rewrite N. reflexivity.
  - right. split; [discriminate|exact K].
Qed.
Lemma ends s h : (2 * (length (sh_list s) + length (added h)) < main_turns h)%nat -> exists r, fst (run s h) = Finished r.
Proof.
  intros H. pose proof (ends_always s h) as [_ E]. destruct (fst (run s h)) as [i|i x|r]; [lia|lia|eauto].
Qed.
Lemma delivered s h o : In o (sh_list s) -> W (sh_heap s o) ->
  (forall x, In x (sh_list s ++ added h) -> W (sh_heap s x) -> x = o) ->
  ~ In (TRemove o) h -> ~ taken_behind (fun h => fst (run s h)) h ->
  (2 * (length (sh_list s) + length (added h)) < main_turns h)%nat ->
  fst (run s h) = Finished (Some o) /\ sh_heap (snd (run s h)) o = G (sh_heap s o).
Proof.
  intros Ho Hw Hu NR NT Hn. destruct (ends s h Hn) as [r E].
  pose proof (known_always s h) as [_ K]. rewrite E in K.
  assert (r <> None) as Hr.
  { intros ->. clear K Hn. revert E NR NT. induction h as [|t h IH] using rev_ind; intros E NR NT; [discriminate|].
    assert (~ In (TRemove o) h) as NR' by (intros I; apply NR, in_app_iff; left; exact I).
    assert (~ taken_behind (fun h => fst (run s h)) h) as NT'.
    { intros (h1 & h2 & h3 & x & i & Eh & T). apply NT. exists h1, h2, (h3 ++ [t]), x, i. subst h. rewrite <- !app_assoc. cbn [app]. auto. }
    assert (forall x, In x (sh_list s ++ added h) -> W (sh_heap s x) -> x = o) as Hu'.
    { intros x Hx. apply Hu. rewrite added_app, app_assoc. apply in_app_iff. left. exact Hx. }
    pose proof (ahead_always s h o Ho (proj2 (matches_ok _) Hw) NR' NT') as A.
    rewrite search_snoc in E. destruct (run s h) as [p s'] eqn:ER. unfold ahead in A. cbn [fst snd] in A.
    destruct t as [|y|y]; cbn [sched_step fst] in E.
    - destruct p as [i|i x|r]; cbn [main_step] in E.
      + destruct A as (l1 & l2 & El & Ln & I & _). destruct (nth_error (sh_list s') i) eqn:N; [discriminate|].
        apply nth_error_None in N. rewrite El, app_length in N. destruct l2 as [|z l2]; [destruct I|cbn [length] in N; lia].
      + destruct (matches (sh_heap s' x)); discriminate.
      + apply (IH Hu'); auto.
    - apply (IH Hu'); auto.
    - apply (IH Hu'); auto. }
  destruct r as [x|]; [|congruence]. destruct K as (K1 & K2 & K3).
  assert (x = o) as -> by (apply Hu; [exact K1|apply matches_ok, K2]). split; [exact E|]. rewrite K3, Nat.eqb_refl. apply change_ok. exact K2.
Qed.

End Search.

Lemma notify_matches src n o : set_notify_if_matches (o_etrr o) (o_reg o) src n = true <-> waits_notify src n o.
Proof. unfold set_notify_if_matches, waits_notify. rewrite andb_true_iff, PropExch.same_src, bytes_eqb_spec. reflexivity. Qed.
Lemma info_matches src m o : match set_reply_if_matches src m o with
  | Some (o', _) => waits_info src m o /\ o' = got_info m o | None => ~ waits_info src m o end.
Proof.
  unfold set_reply_if_matches, waits_info. destruct (_ && _) eqn:E.
  - apply andb_true_iff in E. rewrite PropExch.same_src, bytes_eqb_spec in E. unfold got_info. destruct (oi_from o) as [f|]; (split; [exact E|reflexivity]).
  - intros X. rewrite <- PropExch.same_src, <- bytes_eqb_spec, <- andb_true_iff in X. congruence.
Qed.
Lemma info_matches1 src m o : (match set_reply_if_matches src m o with Some _ => true | None => false end) = true <-> waits_info src m o.
Proof. pose proof (info_matches src m o) as H. destruct (set_reply_if_matches src m o) as [[o' r]|]; [tauto|]. split; [discriminate|tauto]. Qed.
Lemma info_matches2 src m o : (match set_reply_if_matches src m o with Some _ => true | None => false end) = true ->
  (match set_reply_if_matches src m o with Some (o', _) => o' | None => o end) = got_info m o.
Proof. pose proof (info_matches src m o) as H. destruct (set_reply_if_matches src m o) as [[o' r]|]; [tauto|discriminate]. Qed.

(** ** C96 *)
(** Whatever the registration threads do meanwhile: an answer is never given to a request that does not wait for it, and
    nothing else is touched. *)
Theorem C96_never_wrong src n s h : let '(p, s') := notify_search src n s h in
  (exists x, p = Finished (Some x) /\ In x (sh_list s ++ added h) /\ waits_notify src n (sh_heap s x) /\
     sh_heap s' x = got_notify n (sh_heap s x) /\ forall j, j <> x -> sh_heap s' j = sh_heap s j) \/
  ((forall x, p <> Finished (Some x)) /\ forall j, sh_heap s' j = sh_heap s j).
Proof. apply never_wrong; [apply notify_matches|reflexivity]. Qed.
Theorem C96_never_wrong_info src m s h : let '(p, s') := info_search src m s h in
  (exists x, p = Finished (Some x) /\ In x (sh_list s ++ added h) /\ waits_info src m (sh_heap s x) /\
     sh_heap s' x = got_info m (sh_heap s x) /\ forall j, j <> x -> sh_heap s' j = sh_heap s j) \/
  ((forall x, p <> Finished (Some x)) /\ forall j, sh_heap s' j = sh_heap s j).
Proof. apply never_wrong; [apply info_matches1|apply info_matches2]. Qed.
(** The search ends, however many requests are added. *)
Theorem C96_ends src n m s s' h : (2 * (length (sh_list s) + length (added h)) < main_turns h)%nat ->
  length (sh_list s) = length (sh_list s') ->
  (exists r, fst (notify_search src n s h) = Finished r) /\ exists r, fst (info_search src m s' h) = Finished r.
Proof. intros H E. split; [apply ends; exact H|]. apply ends. rewrite <- E. exact H. Qed.
(** The request that waits gets its answer, unless some thread takes a request off the list that the main thread has
    already come to. *)
Theorem C96_delivered_partial src n s h o : In o (sh_list s) -> waits_notify src n (sh_heap s o) ->
  (forall x, In x (sh_list s ++ added h) -> waits_notify src n (sh_heap s x) -> x = o) ->
  ~ In (TRemove o) h -> ~ taken_behind (fun h => fst (notify_search src n s h)) h ->
  (2 * (length (sh_list s) + length (added h)) < main_turns h)%nat ->
  fst (notify_search src n s h) = Finished (Some o) /\
  sh_heap (snd (notify_search src n s h)) o = got_notify n (sh_heap s o).
Proof. apply delivered; [apply notify_matches|reflexivity]. Qed.
Theorem C96_delivered_info_partial src m s h o : In o (sh_list s) -> waits_info src m (sh_heap s o) ->
  (forall x, In x (sh_list s ++ added h) -> waits_info src m (sh_heap s x) -> x = o) ->
  ~ In (TRemove o) h -> ~ taken_behind (fun h => fst (info_search src m s h)) h ->
  (2 * (length (sh_list s) + length (added h)) < main_turns h)%nat ->
  fst (info_search src m s h) = Finished (Some o) /\
  sh_heap (snd (info_search src m s h)) o = got_info m (sh_heap s o).
Proof. apply delivered; [apply info_matches1|apply info_matches2]. Qed.
(** Undisturbed, the search is the step the model of the daemon takes at once. *)
Theorem C96_atomic src n m l (hp : nat -> outreg) (hi : nat -> outinfo) k : NoDup l -> (2 * length l < k)%nat ->
  map (sh_heap (snd (notify_search src n (Sh l hp) (repeat TMain k)))) l = notify_record src n (map hp l) /\
  map (sh_heap (snd (info_search src m (Sh l hi) (repeat TMain k)))) l = fst (info_record src m (map hi l)).
Proof.
  intros ND Hk. split.
  - pose proof (alone_from (fun o => set_notify_if_matches (o_etrr o) (o_reg o) src n) (fun o => OutReg (o_etrr o) (o_reg o) (Some n)) l [] hp k ND Hk) as (_ & A & _).
    cbn [app length] in A. unfold notify_search, search. etransitivity; [exact A|]. generalize (map hp l) as u. induction u as [|o u IH]; [reflexivity|].
    cbn [first_only notify_record]. destruct (set_notify_if_matches _ _ _ _); [reflexivity|]. rewrite IH. reflexivity.
  - pose proof (alone_from (fun o => match set_reply_if_matches src m o with Some _ => true | None => false end)
      (fun o => match set_reply_if_matches src m o with Some (o', _) => o' | None => o end) l [] hi k ND Hk) as (_ & A & _).
    cbn [app length] in A. unfold info_search, search. etransitivity; [exact A|]. generalize (map hi l) as u. induction u as [|o u IH]; [reflexivity|].
    cbn [first_only info_record]. destruct (set_reply_if_matches src m o) as [[o' r]|]; [reflexivity|].
    destruct (info_record src m u) as [l' r]. cbn [fst] in *. rewrite IH. reflexivity.
Qed.
(** Taking a request off the list makes the main thread skip the next one: its answer is lost although it waits all the
    time and is the only one that does. *)
Definition race_reg (nonce : Z) : outreg := OutReg PropExch.ex_r (MReg false false true [] [] (B [nonce; 0; 0; 0; 0; 0; 0; 0]) 0 [] [] 0 0) None.
Definition race_heap (x : nat) : outreg := race_reg (Z.of_nat x).
Definition race_notify : mnot := MNot (repeat false 19) (B [2; 0; 0; 0; 0; 0; 0; 0]) 0 [] [] 0 0.
Theorem C96_refuted : exists src n s h o, In o (sh_list s) /\ NoDup (sh_list s) /\ waits_notify src n (sh_heap s o) /\
  (forall x, In x (sh_list s ++ added h) -> waits_notify src n (sh_heap s x) -> x = o) /\
  ~ In (TRemove o) h /\ In o (sh_list (snd (notify_search src n s h))) /\
  fst (notify_search src n s h) = Finished None /\ forall j, sh_heap (snd (notify_search src n s h)) j = sh_heap s j.
Proof.
  exists (V4, 3221225985), race_notify, (Sh [1; 2] race_heap)%nat, [TMain; TRemove 1; TMain; TMain]%nat, 2%nat.
  split; [right; left; reflexivity|]. split; [repeat constructor; cbn; intuition discriminate|]. split; [split; reflexivity|].
  split; [intros x [<-|[<-|[]]]; [|reflexivity]; intros [_ E]; discriminate E|].
  split; [cbn; intuition discriminate|]. split; [vm_compute; auto|]. split; [vm_compute; reflexivity|]. reflexivity.
Qed.
(** a run with requests added and taken away in which the answer arrives *)
Example C96_example : let s := Sh [1; 2; 3]%nat race_heap in let h := [TMain; TAppend 4; TMain; TRemove 3; TMain; TMain; TMain; TMain; TMain; TMain; TMain]%nat in
  let src := (V4, 3221225985) in
  fst (notify_search src race_notify s h) = Finished (Some 2%nat) /\ ~ taken_behind (fun h => fst (notify_search src race_notify s h)) h /\
  (2 * (length (sh_list s) + length (added h)) < main_turns h)%nat.
Proof.
  cbn zeta. split; [vm_compute; reflexivity|]. split; [|vm_compute; lia].
  intros (h1 & h2 & h3 & x & i & E & T). match type of E with ?l = _ => set (h := l) in * end.
  assert (In (TRemove x) h) as I by (rewrite E, !in_app_iff; right; right; left; reflexivity).
  assert (x = 3%nat) as -> by (cbn in I; intuition congruence).
  assert (h1 = firstn (length h1) h) as E1 by (rewrite E, firstn_app, Nat.sub_diag, firstn_all; cbn [firstn]; rewrite app_nil_r; reflexivity).
  assert (length h1 <= 11)%nat as L by (apply (f_equal (@length turn)) in E; rewrite !app_length in E; cbn [length h] in E; lia).
  assert (forallb (fun k => match fst (notify_search (V4, 3221225985) race_notify (Sh [1; 2; 3]%nat race_heap) (firstn k h)) with Test _ 3 => false | _ => true end) (seq 0 12) = true) as F by (vm_compute; reflexivity).
  rewrite forallb_forall in F. specialize (F (length h1)). rewrite <- E1, T in F. discriminate F. apply in_seq. lia.
Qed.

(** ** C97: the registrations of a Map-Server under their lock *)
Definition apply_op (d : regs) (o : op) : regs := match o with Store q s r => store d q s r | Clean now => cleanup now d end.
(** what a thread that is inside would still do, undisturbed *)
Definition del1 (q : pfx) (s : source) (d : regs) : res regs :=
  let* i := dget_exn pfx_eqb q d in let* i := ddel source_eqb s i in Ok (dput pfx_eqb q i d).
Definition tidy (q : pfx) (d : regs) : res regs :=
  let* i := dget_exn pfx_eqb q d in match i with [] => ddel pfx_eqb q d | _ => Ok d end.
Fixpoint del_sources (now : Z) (q : pfx) (ss : list source) (d : regs) : res regs :=
  match ss with
  | [] => Ok d
  | s :: ss => let* r := (let* i := dget_exn pfx_eqb q d in dget_exn source_eqb s i) in
               if now >? rg_deadline r then let* d := del1 q s d in del_sources now q ss d else del_sources now q ss d
  end.
Fixpoint clean_ps (now : Z) (ps : list pfx) (d : regs) : res regs :=
  match ps with
  | [] => Ok d
  | q :: ps => let* i := dget_exn pfx_eqb q d in
               let* d := del_sources now q (map fst i) d in let* d := tidy q d in clean_ps now ps d
  end.
Definition finish (a : at_) (d : regs) : res regs :=
  match a with
  | Outside => Ok d
  | S1 q s r => let d := if dhas pfx_eqb q d then d else dput pfx_eqb q [] d in
                let* i := dget_exn pfx_eqb q d in Ok (dput pfx_eqb q (dput source_eqb s r i) d)
  | S2 q s r => let* i := dget_exn pfx_eqb q d in Ok (dput pfx_eqb q (dput source_eqb s r i) d)
  | C1 now => clean_ps now (map fst d) d
  | C2 now ps => clean_ps now ps d
  | C3 now q ss ps => let* d := del_sources now q ss d in let* d := tidy q d in clean_ps now ps d
  | C4 now q s ss ps => let* d := del1 q s d in let* d := del_sources now q ss d in let* d := tidy q d in clean_ps now ps d
  | C5 now q ps => let* d := tidy q d in clean_ps now ps d
  | Leave (Ok _) => Ok d
  | Leave (Err e) => Err e
  end.
Lemma bind_assoc {A B C} (x : res A) (f : A -> res B) (g : B -> res C) : bind (bind x f) g = bind x (fun a => bind (f a) g).
Proof. destruct x; reflexivity. Qed.
Lemma step_finish a d : let '(a', d') := inside_step a d in finish a' d' = finish a d.
Proof.
  destruct a as [|q s r|q s r|now|now [|q ps]|now q [|s ss] ps|now q s ss ps|now q ps|r]; cbn [inside_step]; try reflexivity.
  - destruct (dget_exn pfx_eqb q d) as [i|e] eqn:E; cbn [finish]; rewrite E; reflexivity.
  - destruct (dget_exn pfx_eqb q d) as [i|e] eqn:E; cbn [finish clean_ps]; rewrite E; reflexivity.
  - cbn [finish del_sources]. destruct (let* i := dget_exn pfx_eqb q d in dget_exn source_eqb s i) as [r|e] eqn:E; cbn [bind].
    + destruct (now >? rg_deadline r); [cbn [finish]; rewrite bind_assoc; reflexivity|reflexivity].
    + reflexivity.
  - cbn [finish]. unfold del1. destruct (let* i := dget_exn pfx_eqb q d in let* i0 := ddel source_eqb s i in Ok (dput pfx_eqb q i0 d)) as [r|e] eqn:E; reflexivity.
  - cbn [finish]. unfold tidy. destruct (let* i := dget_exn pfx_eqb q d in match i with [] => ddel pfx_eqb q d | _ => Ok d end) as [r|e] eqn:E; reflexivity.
Qed.

(** undisturbed, a pass does what [cleanup] says *)
Section D.
Context {K V : Type} (eqb : K -> K -> bool) (eqb_ok : forall a b, eqb a b = true <-> a = b).
Lemma dget_mid k (v : V) l1 l2 : ~ In k (map fst l1) -> dget eqb k (l1 ++ (k, v) :: l2) = Some v.
Proof.
  induction l1 as [|[k' v'] l1 IH]; cbn [app dget map fst].
  - intros _. rewrite (eqb_rf _ eqb_ok). reflexivity.
  - intros N. destruct (eqb k' k) eqn:E; [apply eqb_ok in E; subst; destruct N; left; reflexivity|]. apply IH. intros I. apply N. right. exact I.
Qed.
Lemma dput_mid k (v v' : V) l1 l2 : ~ In k (map fst l1) -> dput eqb k v' (l1 ++ (k, v) :: l2) = l1 ++ (k, v') :: l2.
Proof.
  induction l1 as [|[k' w] l1 IH]; cbn [app dput map fst].
  - intros _. rewrite (eqb_rf _ eqb_ok). reflexivity.
  - intros N. destruct (eqb k' k) eqn:E; [apply eqb_ok in E; subst; destruct N; left; reflexivity|]. f_equal. apply IH. intros I. apply N. right. exact I.
Qed.
Lemma ddel_mid k (v : V) l1 l2 : ~ In k (map fst l1) -> ddel eqb k (l1 ++ (k, v) :: l2) = Ok (l1 ++ l2).
Proof.
  induction l1 as [|[k' w] l1 IH]; cbn [app ddel map fst].
  - intros _. rewrite (eqb_rf _ eqb_ok). reflexivity.
  - intros N. destruct (eqb k' k) eqn:E; [apply eqb_ok in E; subst; destruct N; left; reflexivity|]. rewrite IH; [reflexivity|]. intros I. apply N. right. exact I.
Qed.
End D.
Definition keeps (now : Z) (x : source * reg) : bool := negb (now >? rg_deadline (snd x)).
Lemma filter_keys_in {K V} (f : K * V -> bool) k d : In k (map fst (filter f d)) -> In k (map fst d).
Proof. rewrite !in_map_iff. intros (x & E & I). exists x. apply filter_In in I. tauto. Qed.
Lemma cleanup_keys now q d : In q (map fst (cleanup now d)) -> In q (map fst d).
Proof.
  unfold cleanup. intros I. apply filter_keys_in in I. rewrite (map_snd_keys (fun i => filter (keeps now) i)) in I. exact I.
Qed.
Lemma del_sources_ok now q d1 d2 i2 : forall i1, ~ In q (map fst d1) -> NoDup (map fst (i1 ++ i2)) ->
  del_sources now q (map fst i2) (d1 ++ (q, filter (keeps now) i1 ++ i2) :: d2) = Ok (d1 ++ (q, filter (keeps now) (i1 ++ i2)) :: d2).
Proof.
  induction i2 as [|[s r] i2 IH]; intros i1 N ND; cbn [map del_sources fst].
  - rewrite !app_nil_r. reflexivity.
  - assert (~ In s (map fst (filter (keeps now) i1))) as Ns.
    { intros I. apply filter_keys_in in I. rewrite map_app in ND. cbn [map fst] in ND. apply NoDup_remove_2 in ND. apply ND, in_app_iff. left. exact I. }
    unfold dget_exn. rewrite (dget_mid _ pfx_eqb_spec) by exact N. cbn [bind]. rewrite (dget_mid _ source_eqb_ok) by exact Ns. cbn [bind].
    specialize (IH (i1 ++ [(s, r)]) N). rewrite <- !app_assoc in IH. cbn [app] in IH. specialize (IH ND). rewrite filter_app in IH.
    cbn [filter] in IH. unfold keeps at 2 in IH. cbn [snd] in IH. destruct (now >? rg_deadline r) eqn:E; cbn [negb] in IH.
    + unfold del1, dget_exn. rewrite (dget_mid _ pfx_eqb_spec) by exact N. cbn [bind]. rewrite (ddel_mid _ source_eqb_ok) by exact Ns. cbn [bind].
      rewrite (dput_mid _ pfx_eqb_spec) by exact N. rewrite app_nil_r in IH. exact IH.
    + rewrite <- app_assoc in IH. exact IH.
Qed.
Lemma cleanup_app now a b : cleanup now (a ++ b) = cleanup now a ++ cleanup now b.
Proof. unfold cleanup. rewrite map_app, filter_app. reflexivity. Qed.
Lemma clean_ps_ok now d2 : forall d1, dict_ok (d1 ++ d2) -> clean_ps now (map fst d2) (cleanup now d1 ++ d2) = Ok (cleanup now (d1 ++ d2)).
Proof.
  induction d2 as [|[q i] d2 IH]; intros d1 [ND NI]; cbn [map clean_ps fst].
  - rewrite !app_nil_r. reflexivity.
  - assert (~ In q (map fst (cleanup now d1))) as N.
    { intros I. apply cleanup_keys in I. rewrite map_app in ND. cbn [map fst] in ND. apply NoDup_remove_2 in ND. apply ND, in_app_iff. left. exact I. }
    unfold dget_exn at 1. rewrite (dget_mid _ pfx_eqb_spec) by exact N. cbn [bind].
    pose proof (del_sources_ok now q (cleanup now d1) d2 i [] N) as DS. cbn [filter app] in DS. rewrite DS by (apply (NI q i), in_app_iff; right; left; reflexivity).
    cbn [bind app]. unfold tidy, dget_exn. rewrite (dget_mid _ pfx_eqb_spec) by exact N. cbn [bind].
    specialize (IH (d1 ++ [(q, i)])). rewrite <- app_assoc in IH. cbn [app] in IH. specialize (IH (conj ND NI)). rewrite cleanup_app in IH.
    assert (cleanup now [(q, i)] = match filter (keeps now) i with [] => [] | j => [(q, j)] end) as E.
    { unfold cleanup. cbn [map filter fst snd]. fold (keeps now). change (fun x => negb (now >? rg_deadline (snd x))) with (keeps now). destruct (filter (keeps now) i); reflexivity. }
    rewrite E in IH. destruct (filter (keeps now) i) as [|x j]; cbn [nonempty].
    + rewrite (ddel_mid _ pfx_eqb_spec) by exact N. cbn [bind]. rewrite app_nil_r in IH. exact IH.
    + cbn [bind]. rewrite <- app_assoc in IH. exact IH.
Qed.
Lemma finish_enter o d : dict_ok d -> finish (enter o) d = Ok (apply_op d o).
Proof.
  intros D. destruct o as [q s r|now]; cbn [enter finish apply_op].
  - unfold dhas, store, dget_exn. destruct (dget pfx_eqb q d) as [i|] eqn:E.
    + rewrite E. reflexivity.
    + rewrite (dget_put_same _ pfx_eqb_spec). cbn [bind]. f_equal. clear D E. induction d as [|[k v] d IH]; cbn [dput].
      * rewrite (eqb_rf _ pfx_eqb_spec). reflexivity.
      * destruct (pfx_eqb k q) eqn:E; cbn [dput]; rewrite E; [reflexivity|]. f_equal. exact IH.
  - exact (clean_ps_ok now d [] D).
Qed.
Lemma apply_op_ok d o : dict_ok d -> dict_ok (apply_op d o).
Proof. destruct o; [apply store_ok|apply cleanup_ok]. Qed.
Lemma apply_all_ok l d : dict_ok d -> dict_ok (fold_left apply_op l d).
Proof. revert d. induction l as [|o l IH]; intros d D; [exact D|]. apply IH, apply_op_ok, D. Qed.

(** the invariant of all interleavings *)
Definition entered (a : at_) : Prop := a <> Outside.
Definition lock_inv (d0 : regs) (todo : nat -> list op) (w : world) (log : list (nat * op)) : Prop :=
  (forall k, th_raised (w_thr w k) = false) /\
  (forall k, todo k = by_thread k log ++ th_todo (w_thr w k)) /\
  match w_lock w with
  | None => (forall k, th_at (w_thr w k) = Outside) /\ w_regs w = fold_left apply_op (map snd log) d0
  | Some k => (forall j, j <> k -> th_at (w_thr w j) = Outside) /\ th_at (w_thr w k) <> Outside /\
              finish (th_at (w_thr w k)) (w_regs w) = Ok (fold_left apply_op (map snd log) d0)
  end.
Lemma by_thread_snoc k j o log : by_thread k (log ++ [(j, o)]) = by_thread k log ++ if Nat.eqb j k then [o] else [].
Proof. unfold by_thread. rewrite filter_app, map_app. cbn [filter fst]. destruct (Nat.eqb j k); reflexivity. Qed.
Lemma set_thr_same w k t : set_thr w k t k = t. Proof. unfold set_thr. rewrite Nat.eqb_refl. reflexivity. Qed.
Lemma set_thr_other w k t j : j <> k -> set_thr w k t j = w j.
Proof. intros N. unfold set_thr. apply Nat.eqb_neq in N. rewrite N. reflexivity. Qed.
Lemma inside_stays a d : a <> Outside -> fst (inside_step a d) <> Outside.
Proof.
  destruct a as [|q s r|q s r|now|now [|q ps]|now q [|s ss] ps|now q s ss ps|now q ps|r]; cbn [inside_step]; intros H; try congruence; try discriminate.
  - destruct (dget_exn _ _ _); discriminate.
  - destruct (dget_exn _ _ _); discriminate.
  - destruct (bind _ _); [|discriminate]. destruct (_ >? _); discriminate.
  - destruct (bind _ _); discriminate.
  - destruct (bind _ _); discriminate.
Qed.
Lemma lock_inv_step d0 todo w log k : dict_ok d0 -> lock_inv d0 todo w log -> exists log', lock_inv d0 todo (thread_step w k) log'.
Proof.
  intros D0 (R & T & L).
  assert (forall a d', th_at (w_thr w k) <> Outside -> inside_step (th_at (w_thr w k)) (w_regs w) = (a, d') ->
    lock_inv d0 todo (Wd d' (w_lock w) (set_thr (w_thr w) k (Thr a (th_todo (w_thr w k)) (th_raised (w_thr w k))))) log) as Inside.
  { intros a d' Ne E. assert (w_lock w = Some k) as Lk.
    { destruct (w_lock w) as [k'|] eqn:El; [|destruct L as [L _]; rewrite L in Ne; congruence].
      destruct (Nat.eq_dec k' k) as [->|Nk]; [reflexivity|]. destruct L as [L _]. rewrite L in Ne by congruence. congruence. }
    rewrite Lk in L. destruct L as (L1 & L2 & L3). unfold lock_inv. cbn [w_thr w_lock w_regs]. rewrite Lk. split; [|split; [|split; [|split]]].
    - intros j. destruct (Nat.eq_dec j k) as [->|Nj]; [rewrite set_thr_same; exact (R k)|rewrite set_thr_other by exact Nj; auto].
    - intros j. destruct (Nat.eq_dec j k) as [->|Nj]; [rewrite set_thr_same; exact (T k)|rewrite set_thr_other by exact Nj; auto].
    - intros j Nj. rewrite set_thr_other by exact Nj. auto.
    - rewrite set_thr_same. cbn [th_at]. pose proof (inside_stays (th_at (w_thr w k)) (w_regs w) Ne) as I. rewrite E in I. exact I.
    - rewrite set_thr_same. cbn [th_at]. pose proof (step_finish (th_at (w_thr w k)) (w_regs w)) as F. rewrite E in F. rewrite F. exact L3. }
  unfold thread_step. destruct (th_at (w_thr w k)) as [|q s r|q s r|now|now ps|now q ss ps|now q s ss ps|now q ps|r] eqn:A;
    try (exists log; pose proof (fun H => Inside _ _ H (surjective_pairing _)) as X; destruct (inside_step _ _) as [a d']; apply X; discriminate).
  - destruct (th_todo (w_thr w k)) as [|o rest] eqn:E; [exists log; split; auto|].
    destruct (w_lock w) as [k'|] eqn:Lk; [exists log; split; [auto|split; [auto|rewrite Lk; exact L]]|].
    exists (log ++ [(k, o)]). destruct L as [L1 L2]. unfold lock_inv. cbn [w_thr w_lock w_regs]. split; [|split; [|split; [|split]]].
    + intros j. destruct (Nat.eq_dec j k) as [->|Nj]; [rewrite set_thr_same; exact (R k)|rewrite set_thr_other by exact Nj; auto].
    + intros j. rewrite by_thread_snoc. destruct (Nat.eq_dec j k) as [->|Nj].
      * rewrite set_thr_same, Nat.eqb_refl, <- app_assoc. cbn [th_todo app]. rewrite <- E. apply T.
      * rewrite set_thr_other by exact Nj. rewrite (proj2 (Nat.eqb_neq k j)) by congruence. rewrite app_nil_r. apply T.
    + intros j Nj. rewrite set_thr_other by exact Nj. auto.
    + rewrite set_thr_same. cbn [th_at]. destruct o; discriminate.
    + rewrite set_thr_same. cbn [th_at]. rewrite map_app, fold_left_app. cbn [map fold_left snd]. rewrite <- L2. apply finish_enter. rewrite L2. apply apply_all_ok, D0.
  - assert (w_lock w = Some k) as Lk.
    { destruct (w_lock w) as [k'|] eqn:El; [|destruct L as [L _]; rewrite L in A; discriminate].
      destruct (Nat.eq_dec k' k) as [->|Nk]; [reflexivity|]. destruct L as [L _]. rewrite L in A by congruence. discriminate. }
    rewrite Lk in L. destruct L as (L1 & L2 & L3). rewrite A in L3. cbn [finish] in L3. destruct r as [u|e]; [|discriminate]. injection L3 as L3.
    exists log. unfold lock_inv. cbn [w_thr w_lock w_regs]. split; [|split; [|split]].
    + intros j. destruct (Nat.eq_dec j k) as [->|Nj]; [rewrite set_thr_same; cbn [th_raised]; rewrite (R k); reflexivity|rewrite set_thr_other by exact Nj; auto].
    + intros j. destruct (Nat.eq_dec j k) as [->|Nj]; [rewrite set_thr_same; exact (T k)|rewrite set_thr_other by exact Nj; auto].
    + intros j. destruct (Nat.eq_dec j k) as [->|Nj]; [rewrite set_thr_same; reflexivity|rewrite set_thr_other by exact Nj; auto].
    + exact L3.
Qed.
Lemma lock_inv_run d todo h : dict_ok d -> exists log, lock_inv d todo (interleave d todo h) log.
Proof.
  intros D. induction h as [|k h IH] using rev_ind.
  - exists []. split; [reflexivity|]. split; [intros k; reflexivity|]. cbn. auto.
  - destruct IH as [log I]. unfold interleave. rewrite fold_left_app. cbn [fold_left]. exact (lock_inv_step _ _ _ _ _ D I).
Qed.
Lemma table_step_ok d o : dict_ok d -> table_step (table_of d) o (table_of (apply_op d o)).
Proof.
  intros D. destruct o as [q s r|now]; cbn [table_step apply_op].
  - split.
    + change (look (store d q s r) q s = Some r). rewrite look_store, (eqb_rf _ pfx_eqb_spec), (eqb_rf _ source_eqb_ok). reflexivity.
    + intros q' s' N. change (look (store d q s r) q' s' = look d q' s'). rewrite look_store.
      destruct (pfx_eqb q q') eqn:E1; [|reflexivity]. destruct (source_eqb s s') eqn:E2; [|reflexivity].
      apply pfx_eqb_spec in E1. apply source_eqb_ok in E2. congruence.
  - intros q s r. change (look (cleanup now d) q s = Some r <-> look d q s = Some r /\ now <= rg_deadline r).
    rewrite look_cleanup by exact D. destruct (look d q s) as [r'|]; [|split; [discriminate|intros [? _]; discriminate]].
    destruct (now >? rg_deadline r') eqn:E; rewrite Z.gtb_ltb in E; [apply Z.ltb_lt in E|apply Z.ltb_ge in E];
      (split; [intros H|intros [H1 H2]]; try congruence).
    + injection H1 as ->. lia.
    + injection H as ->. auto.
Qed.
Lemma table_run_ok l d : dict_ok d -> table_run (table_of d) l (table_of (fold_left apply_op l d)).
Proof.
  revert d. induction l as [|o l IH]; intros d D; [constructor|]. econstructor; [apply table_step_ok, D|]. apply IH, apply_op_ok, D.
Qed.

(** Any number of threads with any operations to do, run in any order: nobody gets a KeyError, and whenever the lock is free
    the registrations are what the operations begun so far make of the table one after the other; every thread's own
    operations come in its order. *)
Theorem C97_serialisable d todo h : regs_ok d -> let w := interleave d todo h in
  (forall k, th_raised (w_thr w k) = false) /\
  (w_lock w = None -> exists log,
     (forall k, todo k = by_thread k log ++ th_todo (w_thr w k)) /\
     table_run (table_of d) (map snd log) (table_of (w_regs w)) /\ regs_ok (w_regs w)).
Proof.
  intros D w. destruct (lock_inv_run d todo h D) as (log & R & T & L). fold w in R, T, L. split; [exact R|]. intros E. rewrite E in L.
  destruct L as [_ L]. exists log. split; [exact T|]. rewrite L. split; [apply table_run_ok, D|apply apply_all_ok, D].
Qed.
(** At most one thread is inside at a time. *)
Theorem C97_exclusive d todo h i j : regs_ok d -> let w := interleave d todo h in
  th_at (w_thr w i) <> Outside -> th_at (w_thr w j) <> Outside -> i = j.
Proof.
  intros D w Hi Hj. destruct (lock_inv_run d todo h D) as (log & _ & _ & L). fold w in L. destruct (w_lock w) as [k|].
  - destruct L as [L _]. destruct (Nat.eq_dec i k) as [->|Ni]; [|rewrite L in Hi by exact Ni; congruence].
    destruct (Nat.eq_dec j k) as [->|Nj]; [reflexivity|]. rewrite L in Hj by exact Nj. congruence.
  - destruct L as [L _]. rewrite L in Hi. congruence.
Qed.

Definition istep (x : at_ * regs) : at_ * regs := inside_step (fst x) (snd x).
Definition leaves (x : at_ * regs) : Prop := exists n r d, Nat.iter n istep x = (Leave r, d).
Lemma iter_r {A} (f : A -> A) n x : Nat.iter n f (f x) = Nat.iter (S n) f x.
Proof. induction n as [|n IH]; [reflexivity|]. change (f (Nat.iter n f (f x)) = f (Nat.iter (S n) f x)). rewrite IH. reflexivity. Qed.
Lemma leaves_back x : leaves (istep x) -> leaves x.
Proof. intros (n & r & d & E). exists (S n), r, d. rewrite <- iter_r. exact E. Qed.
Lemma leaves_now r d : leaves (Leave r, d). Proof. exists 0%nat, r, d. reflexivity. Qed.
Lemma leaves_C2 now ps : forall d, leaves (C2 now ps, d).
Proof.
  induction ps as [|q ps IH]; intros d; apply leaves_back; cbn [istep fst snd inside_step]; unfold istep; cbn [fst snd inside_step]; [apply leaves_now|].
  destruct (dget_exn pfx_eqb q d) as [i|e]; [|apply leaves_now]. generalize (map fst i) as ss. clear i.
  intros ss. revert d. induction ss as [|s ss IHs]; intros d; apply leaves_back; unfold istep; cbn [fst snd inside_step].
  - apply leaves_back. unfold istep. cbn [fst snd inside_step]. destruct (bind _ _); [apply IH|apply leaves_now].
  - destruct (bind _ _) as [r|e]; [|apply leaves_now]. destruct (_ >? _); [|apply IHs].
    apply leaves_back. unfold istep. cbn [fst snd inside_step]. destruct (bind _ _); [apply IHs|apply leaves_now].
Qed.
Lemma leaves_C3 now q ps ss : forall d, leaves (C3 now q ss ps, d).
Proof.
  induction ss as [|s ss IHs]; intros d; apply leaves_back; unfold istep; cbn [fst snd inside_step].
  - apply leaves_back. unfold istep. cbn [fst snd inside_step]. destruct (bind _ _); [apply leaves_C2|apply leaves_now].
  - destruct (bind _ _) as [r|e]; [|apply leaves_now]. destruct (_ >? _); [|apply IHs].
    apply leaves_back. unfold istep. cbn [fst snd inside_step]. destruct (bind _ _); [apply IHs|apply leaves_now].
Qed.
Lemma leaves_all a d : a <> Outside -> leaves (a, d).
Proof.
  destruct a as [|q s r|q s r|now|now ps|now q ss ps|now q s ss ps|now q ps|r]; intros N; [congruence|..].
  - apply leaves_back; unfold istep; cbn [fst snd inside_step]. apply leaves_back; unfold istep; cbn [fst snd inside_step]. destruct (dget_exn _ _ _); apply leaves_now.
  - apply leaves_back; unfold istep; cbn [fst snd inside_step]. destruct (dget_exn _ _ _); apply leaves_now.
  - apply leaves_back; unfold istep; cbn [fst snd inside_step]. apply leaves_C2.
  - apply leaves_C2.
  - apply leaves_C3.
  - apply leaves_back; unfold istep; cbn [fst snd inside_step]. destruct (bind _ _); [apply leaves_C3|apply leaves_now].
  - apply leaves_back; unfold istep; cbn [fst snd inside_step]. destruct (bind _ _); [apply leaves_C2|apply leaves_now].
  - apply leaves_now.
Qed.
Lemma leave_release n : forall w k, th_at (w_thr w k) <> Outside -> (exists r d, Nat.iter n istep (th_at (w_thr w k), w_regs w) = (Leave r, d)) ->
  exists h, w_lock (fold_left thread_step h w) = None /\ forall j, th_todo (w_thr (fold_left thread_step h w) j) = th_todo (w_thr w j).
Proof.
  assert (forall w k, (exists r, th_at (w_thr w k) = Leave r) -> exists h, w_lock (fold_left thread_step h w) = None /\ forall j, th_todo (w_thr (fold_left thread_step h w) j) = th_todo (w_thr w j)) as Now.
  { intros w k [r E]. exists [k]. cbn [fold_left]. unfold thread_step. rewrite E. cbn [w_lock w_thr]. split; [reflexivity|]. intros j.
    destruct (Nat.eq_dec j k) as [->|Nj]; [rewrite set_thr_same|rewrite set_thr_other by exact Nj]; reflexivity. }
  induction n as [|n IH]; intros w k Ne (r & d & E).
  - cbn in E. injection E as E _. apply (Now w k). eauto.
  - rewrite <- iter_r in E.
    assert ((exists r, th_at (w_thr w k) = Leave r) \/ (forall r, th_at (w_thr w k) <> Leave r)) as [H|H].
    { destruct (th_at (w_thr w k)); [right; discriminate..|left; eauto]. }
    { apply (Now w k H). }
    set (w1 := thread_step w k).
    assert ((th_at (w_thr w1 k), w_regs w1) = istep (th_at (w_thr w k), w_regs w) /\ forall j, th_todo (w_thr w1 j) = th_todo (w_thr w j)) as [E1 E2].
    { unfold w1, thread_step, istep. cbn [fst snd].
      destruct (th_at (w_thr w k)) as [|q s x|q s x|now|now ps|now q ss ps|now q s ss ps|now q ps|x]; [congruence|..|exfalso; apply (H x); reflexivity];
        (destruct (inside_step _ _) as [a d']; cbn [w_thr w_regs]; rewrite set_thr_same; split; [reflexivity|];
         intros j; destruct (Nat.eq_dec j k) as [->|Nj]; [rewrite set_thr_same|rewrite set_thr_other by exact Nj]; reflexivity). }
    rewrite <- E1 in E. destruct (IH w1 k) as (h & L & T).
    + pose proof (inside_stays (th_at (w_thr w k)) (w_regs w) Ne) as I. unfold istep in E1. cbn [fst snd] in E1. rewrite <- E1 in I. exact I.
    + eauto.
    + exists (k :: h). cbn [fold_left]. split; [exact L|]. intros j. rewrite T. apply E2.
Qed.
(** No deadlock: from wherever the threads are, a thread that has something to do can get to it, and the lock comes free. *)
Theorem C97_no_deadlock d todo h k : regs_ok d ->
  exists h', let w := interleave d todo h in let w' := interleave d todo (h ++ h') in
    w_lock w' = None /\ th_todo (w_thr w' k) = tl (th_todo (w_thr w k)).
Proof.
  intros D.
  assert (forall h, exists h', let w := interleave d todo h in let w' := interleave d todo (h ++ h') in
    w_lock w' = None /\ forall j, th_todo (w_thr w' j) = th_todo (w_thr w j)) as Free.
  { intros h0. destruct (lock_inv_run d todo h0 D) as (log & _ & _ & L). destruct (w_lock (interleave d todo h0)) as [j|] eqn:Lk.
    - destruct L as (_ & Ne & _). destruct (leaves_all _ (w_regs (interleave d todo h0)) Ne) as (n & r & d' & E).
      destruct (leave_release n _ j Ne) as (h' & A & B); [eauto|]. exists h'. cbn zeta. replace (interleave d todo (h0 ++ h')) with (fold_left thread_step h' (interleave d todo h0)) by (unfold interleave; rewrite fold_left_app; reflexivity). split; [exact A|exact B].
    - exists []. rewrite app_nil_r. auto. }
  destruct (Free h) as (h1 & L1 & T1). cbn zeta in L1, T1.
  destruct (th_todo (w_thr (interleave d todo h) k)) as [|o rest] eqn:E.
  - exists h1. cbn zeta. split; [exact L1|]. rewrite T1, E. reflexivity.
  - destruct (Free (h ++ h1 ++ [k])) as (h2 & L2 & T2). exists ((h1 ++ [k]) ++ h2). cbn zeta in *. rewrite app_assoc. split; [exact L2|].
    rewrite T2. clear L2 T2. rewrite app_assoc. unfold interleave at 1. rewrite fold_left_app. cbn [fold_left]. fold (interleave d todo (h ++ h1)).
    destruct (lock_inv_run d todo (h ++ h1) D) as (log & _ & _ & L). rewrite L1 in L. destruct L as [L _].
    unfold thread_step. rewrite (L k), (T1 k), E, L1. cbn [w_thr]. rewrite set_thr_same. reflexivity.
Qed.

(** ** C98: expired registrations go in time *)
Lemma passes_period D E l : forall now t, Forall (fun x => 0 <= fst x <= D /\ 0 <= snd x <= E) l -> 0 <= D -> 0 <= E ->
  now <= t -> t + 30 * sec + D + E < wakes now l ->
  exists a b, In (a, b) (passes now l) /\ t < a <= t + 30 * sec + D + E /\ a <= b <= a + D.
Proof.
  unfold sec. induction l as [|[k e] l IH]; intros now t F HD HE Hn Ht; cbn [wakes passes] in *; [lia|].
  inversion F as [|? ? [F1 F2] F']; subst. cbn [fst snd] in *. unfold sec in *.
  destruct (Z_le_gt_dec (now + k + 30 * 1000000 + e) t) as [G|G].
  - destruct (IH _ t F' HD HE G Ht) as (a & b & I & A & B). exists a, b. split; [right; exact I|auto].
  - destruct l as [|[k' e'] l]; cbn [wakes passes] in *.
    + lia.
    + inversion F' as [|? ? [G1 G2] G']; subst. cbn [fst snd] in *. eexists _, _. split; [right; left; reflexivity|]. lia.
Qed.
Lemma passes_done D E l : forall now a b, Forall (fun x => 0 <= fst x <= D /\ 0 <= snd x <= E) l -> In (a, b) (passes now l) -> a <= b.
Proof.
  induction l as [|[k e] l IH]; intros now a b F; cbn [passes]; [intros []|]. inversion F as [|? ? [F1 F2] F']; subst. cbn [fst snd] in *.
  intros [H|H]; [injection H as <- <-; lia|]. eapply IH; eauto.
Qed.
Lemma sorted_split {A} (R : A -> A -> Prop) l1 x l2 : StronglySorted R (l1 ++ x :: l2) -> Forall (fun y => R y x) l1 /\ Forall (R x) l2.
Proof.
  induction l1 as [|y l1 IH]; cbn [app]; intros S; inversion S as [|? ? S1 F]; subst.
  - split; [constructor|exact F].
  - destruct (IH S1) as [P1 P2]. split; [|exact P2]. constructor; [|exact P1]. rewrite Forall_forall in F. apply F, in_app_iff. right. left. reflexivity.
Qed.
Lemma sorted_filter {A} (R : A -> A -> Prop) f l : StronglySorted R l -> StronglySorted R (filter f l).
Proof.
  induction 1 as [|x l S IH F]; cbn [filter]; [constructor|]. destruct (f x); [|exact IH]. constructor; [exact IH|].
  rewrite Forall_forall in *. intros y Hy. apply filter_In in Hy. apply F, Hy.
Qed.
Lemma split_up_to h T h1 e h2 : up_to T h = h1 ++ e :: h2 -> StronglySorted (fun a b => fst a <= fst b) h ->
  exists l1 t l2, filter (fun e => fst e <=? T) h = l1 ++ (t, e) :: l2 /\ h1 = map snd l1 /\ h2 = map snd l2 /\ t <= T /\
    (forall x, In x l1 -> fst x <= t) /\ (forall x, In x l2 -> t <= fst x <= T) /\ In (t, e) h.
Proof.
  intros E S. apply map_eq_app in E. destruct E as (l1 & l' & E1 & E2 & E3). apply map_eq_cons in E3. destruct E3 as ([t e'] & l2 & E4 & E5 & E6).
  cbn [snd] in E5. subst. exists l1, t, l2. split; [exact E1|]. pose proof (sorted_filter _ (fun e => fst e <=? T) _ S) as SF. rewrite E1 in SF.
  apply sorted_split in SF. cbn [fst] in SF. destruct SF as [A B]. rewrite Forall_forall in A, B.
  assert (forall x, In x (l1 ++ (t, e) :: l2) -> In x h /\ fst x <= T) as G.
  { intros x Hx. rewrite <- E1 in Hx. apply filter_In in Hx. destruct Hx as [Hx L]. apply Z.leb_le in L. auto. }
  split; [reflexivity|]. split; [reflexivity|].
  destruct (G (t, e)) as [G1 G2]; [apply in_app_iff; right; left; reflexivity|]. split; [exact G2|]. split; [exact A|]. split; [|exact G1].
  intros x Hx. split; [apply B, Hx|]. apply G, in_app_iff. right. right. exact Hx.
Qed.
(** the history of a node: events in the order of their times, the cleanup thread's passes among them; registrations carry
    the time at which they happen, and the node was created before *)
Definition history (t0 : Z) (l : list (Z * Z)) (h : timed) : Prop :=
  StronglySorted (fun a b => fst a <= fst b) h /\ filter (fun e => is_clean (snd e)) h = clean_events (passes t0 l) /\
  forall t m i src now, In (t, SpecMs.EvReg m i src now) h -> now = t /\ t0 <= t.
(** If a pass takes at most [D] and the thread wakes up at most [E] late, then half a minute (and 2D+E) after its deadline
    a registration is gone. *)
Theorem C98_gone_in_time hm key more p t0 l h T D E q s rg : wf_pfx p -> objects (up_to T h) -> 0 <= D -> 0 <= E ->
  Forall (fun x => 0 <= fst x <= D /\ 0 <= snd x <= E) l -> history t0 l h -> T <= wakes t0 l ->
  registered (ms_run hm p (new_ms key more) (up_to T h)) q s = Some rg ->
  T <= rg_deadline rg + 30 * sec + 2 * D + E.
Proof.
  intros Hp Ho HD HE F (HS & HC & HR) HT H. apply C51_store_refines in H; auto. destruct H as (h1 & m & i & src & now & h2 & Eh & A & _ & NC).
  destruct (split_up_to _ _ _ _ _ Eh HS) as (l1 & t & l2 & Ef & -> & -> & Ht & B1 & B2 & I). destruct (HR _ _ _ _ _ I) as [-> H0].
  destruct A as (r & r' & _ & _ & _ & _ & _ & _ & _ & ->). cbn [rg_deadline].
  destruct (Z_le_gt_dec T (t + 180 * sec + 30 * sec + 2 * D + E)) as [G|G]; [exact G|exfalso].
  destruct (passes_period D E l t0 (t + 180 * sec) F HD HE) as (a & b & Ip & Ra & Rb); [unfold sec; lia|unfold sec in *; lia|].
  assert (In (b, EvClean a) (filter (fun e => fst e <=? T) h)) as If.
  { apply filter_In. split; [|cbn [fst]; apply Z.leb_le; unfold sec in *; lia].
    assert (In (b, EvClean a) (filter (fun e => is_clean (snd e)) h)) as Ic.
    { rewrite HC. unfold clean_events. apply in_map_iff. exists (a, b). auto. }
    apply filter_In in Ic. apply Ic. }
  rewrite Ef in If. apply in_app_iff in If. destruct If as [If|[If|If]].
  - apply B1 in If. cbn [fst] in If. unfold sec in *. lia.
  - discriminate If.
  - assert (a <= t + 180 * sec) as L by (apply NC; change (EvClean a) with (snd (b, EvClean a)); apply in_map; exact If). lia.
Qed.
(** Until its deadline it stays: an accepted registration that is not replaced is there for 180 seconds. *)
Theorem C98_not_early hm key more p t0 l h T D E q s rg h1 m i src now h2 : wf_pfx p -> objects (up_to T h) ->
  Forall (fun x => 0 <= fst x <= D /\ 0 <= snd x <= E) l -> history t0 l h ->
  up_to T h = h1 ++ SpecMs.EvReg m i src now :: h2 -> acceptable hm key more p m i src now q s rg ->
  (forall m' i' src' now', In (SpecMs.EvReg m' i' src' now') h2 -> forall rg', ~ acceptable hm key more p m' i' src' now' q s rg') ->
  T <= now + 180 * sec ->
  registered (ms_run hm p (new_ms key more) (up_to T h)) q s = Some rg.
Proof.
  intros Hp Ho F (HS & HC & HR) Eh A NA HT. apply C51_store_refines; auto. exists h1, m, i, src, now, h2. repeat split; auto.
  intros a Ia. destruct (split_up_to _ _ _ _ _ Eh HS) as (l1 & t & l2 & Ef & -> & -> & Ht & B1 & B2 & I).
  apply in_map_iff in Ia. destruct Ia as ([b e] & Ee & Ib). cbn [snd] in Ee. subst e. pose proof (B2 _ Ib) as Bb. cbn [fst] in Bb.
  assert (In (b, EvClean a) h) as Ih.
  { assert (In (b, EvClean a) (filter (fun e => fst e <=? T) h)) as X by (rewrite Ef; apply in_app_iff; right; right; exact Ib). apply filter_In in X. apply X. }
  assert (In (b, EvClean a) (clean_events (passes t0 l))) as Ic by (rewrite <- HC; apply filter_In; auto).
  unfold clean_events in Ic. apply in_map_iff in Ic. destruct Ic as ([a' b'] & Ee & Ip). cbn [fst snd] in Ee. injection Ee as -> ->.
  pose proof (passes_done D E l t0 a b F Ip). lia.
Qed.

(** ** Examples *)
(** the cleanup thread (1) is stopped in the middle of its pass while the main thread (0) wants to store; thread 0 gets in later *)
Definition old_reg : reg := Reg open_record false 10.
Definition fresh_reg : reg := Reg open_record false 900.
Definition ex_regs : regs := [(p16, [(SAddr V4 5, old_reg); (SAddr V4 6, fresh_reg)]); (p8, [(SAddr V4 5, old_reg)])].
Definition ex_todo (k : nat) : list op := match k with 0%nat => [Store p8 (SAddr V4 9) fresh_reg] | 1%nat => [Clean 11] | _ => [] end.
Definition ex_order : list nat := ([1; 1; 0; 1; 0; 1; 1; 0; 0; 1; 1; 1; 1; 1; 1; 0; 1; 1; 0; 1; 1; 0; 0; 1; 0; 0])%nat.
Example C97_example : regs_ok ex_regs /\ let w := interleave ex_regs ex_todo ex_order in
  w_lock w = None /\ th_todo (w_thr w 0%nat) = [] /\ th_todo (w_thr w 1%nat) = [] /\
  w_regs w = [(p16, [(SAddr V4 6, fresh_reg)]); (p8, [(SAddr V4 9, fresh_reg)])].
Proof.
  split.
  - split; [repeat constructor; cbn; intuition discriminate|]. intros q i [H|[H|[]]]; injection H as <- <-; (split; [repeat constructor; cbn; intuition discriminate|discriminate]).
  - vm_compute. repeat split.
Qed.
(** a registration at second 40, passes at 0, 31, 62, ..., seen from second 224 *)
Definition ex_passes : list (Z * Z) := repeat (0, 1 * sec) 8.
Definition ex_history : timed :=
  [(0, EvClean 0); (31 * sec, EvClean (31 * sec)); (40 * sec, SpecMs.EvReg open_register 0 (V4, 77) (40 * sec));
   (62 * sec, EvClean (62 * sec)); (93 * sec, EvClean (93 * sec)); (124 * sec, EvClean (124 * sec));
   (155 * sec, EvClean (155 * sec)); (186 * sec, EvClean (186 * sec)); (217 * sec, EvClean (217 * sec))].
Example C98_example : history 0 ex_passes ex_history /\ Forall (fun x => 0 <= fst x <= 0 /\ 0 <= snd x <= 1 * sec) ex_passes /\
  220 * sec <= wakes 0 ex_passes /\ objects (up_to (220 * sec) ex_history) /\
  registered (ms_run toy_hm p8 (new_ms (B [1;2]) true) (up_to (220 * sec) ex_history)) p16 (SAddr V4 77) = Some (Reg open_record false (220 * sec)).
Proof.
  split; [|split; [|split; [|split]]].
  - split; [|split; [reflexivity|]].
    + unfold ex_history. repeat (constructor; [|repeat (constructor; [cbn; unfold sec; lia|]); constructor]). constructor.
    + intros t m i src now H. unfold ex_history in H. cbn [In] in H. repeat destruct H as [H|H]; try discriminate H; [|destruct H].
      injection H as <- _ _ _ <-. split; [reflexivity|unfold sec; lia].
  - unfold ex_passes. apply Forall_forall. intros x Hx. apply repeat_spec in Hx. subst x. cbn. unfold sec. lia.
  - vm_compute. discriminate.
  - intros m i src now H. unfold up_to in H.
    apply in_map_iff in H. destruct H as ([t e] & Ee & H). cbn [snd] in Ee. subst e. apply filter_In in H. destruct H as [H _].
    repeat destruct H as [H|H]; try discriminate H; [|destruct H]. injection H as _ <- _ _ _. exact open_register_obj.
  - vm_compute. reflexivity.
Qed.
Print Assumptions C96_never_wrong. Print Assumptions C96_never_wrong_info. Print Assumptions C96_ends. Print Assumptions C96_delivered_partial.
Print Assumptions C96_delivered_info_partial. Print Assumptions C96_atomic. Print Assumptions C96_refuted. Print Assumptions C97_serialisable.
Print Assumptions C97_exclusive. Print Assumptions C97_no_deadlock. Print Assumptions C98_gone_in_time. Print Assumptions C98_not_early.
