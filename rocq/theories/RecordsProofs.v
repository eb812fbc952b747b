(** * Records: sorting, normalisation, round trips. *)
From Coq Require Import Permutation Sorted.
From Verif Require Import Base BaseLemmas Afi AfiProofs Spec Records SpecRec.

(** ** Counted reads *)
Lemma rd_n_app {A} (rd : bits -> res (A * bits)) ys bs t :
  Forall2 (fun y b => forall t, rd (b ++ t) = Ok (y, t)) ys bs ->
  rd_n rd (length ys) (concat bs ++ t) = Ok (ys, t).
Proof.
  induction 1 as [|y b ys bs Hy Hl IH]; [reflexivity|].
  cbn [length rd_n concat]. rewrite <- app_assoc, Hy. cbn [bind]. rewrite IH. reflexivity.
Qed.

Lemma rd_n_inv {A} (rd : bits -> res (A * bits)) n s l r :
  rd_n rd n s = Ok (l, r) ->
  length l = n /\ Forall (fun y => exists s r, rd s = Ok (y, r)) l.
Proof.
  revert s l; induction n as [|n IH]; intros s l H; cbn [rd_n] in H.
  - okinj H. auto.
  - bo H [y s1] E1. bo H [ys s2] E2. okinj H. apply IH in E2. destruct E2 as [<- E2].
    split; [reflexivity|]. constructor; eauto.
Qed.

Lemma checkM_ok {A} (f : A -> res unit) l u :
  checkM f l = Ok u <-> (u = tt /\ Forall (fun x => f x = Ok tt) l).
Proof.
  unfold checkM. split.
  - intros H. bo H us E. okinj H. split; [reflexivity|]. apply mapM_Forall2 in E.
    induction E as [|x y l us Hx Hl IH]; constructor; auto. destruct y; exact Hx.
  - intros [-> H]. assert (exists us, mapM f l = Ok us) as [us Hu].
    { induction H as [|x l Hx Hl [us IH]]; [exists []; reflexivity|].
      exists (tt :: us). cbn [mapM]. rewrite Hx. cbn [bind]. rewrite IH. reflexivity. }
    rewrite Hu. reflexivity.
Qed.

(** ** Sorting *)
Definition key_le (x y : Z * loc) : Prop := fst x <= fst y.

Lemma ins_perm x l : Permutation (ins x l) (x :: l).
Proof.
  induction l as [|y l IH]; cbn; [reflexivity|]. destruct (fst x <=? fst y); [reflexivity|].
  rewrite IH. apply perm_swap.
Qed.
Lemma isort_perm l : Permutation (isort l) l.
Proof. induction l as [|x l IH]; cbn; [reflexivity|]. rewrite ins_perm. constructor. exact IH. Qed.

Lemma ins_sorted x l : StronglySorted key_le l -> StronglySorted key_le (ins x l).
Proof.
  induction 1 as [|y l Hs IH Hf]; cbn; [repeat constructor|].
  destruct (fst x <=? fst y) eqn:E.
  - constructor; [constructor; assumption|]. constructor; [unfold key_le; lia|].
    eapply Forall_impl; [|exact Hf]. unfold key_le. intros; lia.
  - constructor; [exact IH|]. rewrite Forall_forall. intros z Hz.
    apply (Permutation_in _ (ins_perm x l)) in Hz. destruct Hz as [<-|Hz]; [unfold key_le; lia|].
    rewrite Forall_forall in Hf. auto.
Qed.
Lemma isort_sorted l : StronglySorted key_le (isort l).
Proof. induction l as [|x l IH]; cbn; [constructor|]. apply ins_sorted. exact IH. Qed.

Lemma ins_id x l : Forall (key_le x) l -> ins x l = x :: l.
Proof.
  intros H. destruct l as [|y l]; [reflexivity|]. inversion H; subst. cbn.
  unfold key_le in *. destruct (fst x <=? fst y) eqn:E; [reflexivity|lia].
Qed.
Lemma isort_id l : StronglySorted key_le l -> isort l = l.
Proof.
  induction 1 as [|x l Hs IH Hf]; [reflexivity|]. change (isort (x :: l)) with (ins x (isort l)).
  rewrite IH. apply ins_id. exact Hf.
Qed.

(** stability: the elements of one key keep their order *)
Lemma ins_filter k x l :
  StronglySorted key_le l ->
  filter (fun y => fst y =? k) (ins x l) = filter (fun y => fst y =? k) (x :: l).
Proof.
  induction 1 as [|y l Hs IH Hf]; [reflexivity|]. cbn [ins].
  destruct (fst x <=? fst y) eqn:E; [reflexivity|].
  cbn [filter] in *. rewrite IH.
  destruct (fst x =? k) eqn:E1; destruct (fst y =? k) eqn:E2; try reflexivity. lia.
Qed.
Lemma isort_filter k l : filter (fun y => fst y =? k) (isort l) = filter (fun y => fst y =? k) l.
Proof.
  induction l as [|x l IH]; [reflexivity|]. change (isort (x :: l)) with (ins x (isort l)).
  rewrite ins_filter by apply isort_sorted. cbn [filter]. rewrite IH. reflexivity.
Qed.

(** sorting only depends on the multiset when the keys are distinct *)
Lemma sorted_unique l1 l2 :
  StronglySorted key_le l1 -> StronglySorted key_le l2 -> Permutation l1 l2 ->
  NoDup (map fst l1) -> l1 = l2.
Proof.
  intros H1. revert l2. induction H1 as [|x l1 Hs IH Hf]; intros l2 H2 HP HN.
  - apply Permutation_nil in HP. auto.
  - destruct l2 as [|y l2]; [symmetry in HP; apply Permutation_nil in HP; discriminate|].
    inversion H2; subst. inversion HN as [|? ? Hni HN']; subst.
    assert (x = y) as ->.
    { assert (In y (x :: l1)) as Hy by (eapply Permutation_in; [symmetry; exact HP|left; reflexivity]).
      assert (In x (y :: l2)) as Hx by (eapply Permutation_in; [exact HP|left; reflexivity]).
      destruct Hy as [|Hy]; [assumption|]. destruct Hx as [|Hx]; [auto|]. exfalso.
      rewrite Forall_forall in Hf. specialize (Hf y Hy).
      match goal with H : Forall (key_le y) l2 |- _ => rewrite Forall_forall in H; specialize (H x Hx); rename H into Hyx end.
      unfold key_le in *. apply Hni. assert (fst x = fst y) as -> by lia. apply in_map. exact Hy. }
    f_equal. apply IH; auto. eapply Permutation_cons_inv; exact HP.
Qed.

(** ** Locators *)
Notation loc_num := locator_number (only parsing).
Definition loc_ip (l : loc) : Prop := exists v z, l_addr l = AIP v z.

Lemma sanitize_loc_cases l :
  sanitize_loc l = Ok tt ->
  (exists v z, l_addr l = AIP v z) \/ (is_lcaf (l_addr l) = true /\ get_addresses (l_addr l) = []).
Proof.
  unfold sanitize_loc. intros H. mon H. destruct (l_addr l) eqn:Ea; try discriminate; eauto; right;
    cbn [is_lcaf] in *; apply guard_ok in H; (split; [reflexivity|]);
    match type of H with negb (nonempty ?x) = true => destruct x; [reflexivity|discriminate] end.
Qed.

Lemma sort_key_ip l k :
  sanitize_loc l = Ok tt -> sort_key l = Ok k -> loc_ip l /\ k = loc_num l.
Proof.
  intros Hs Hk. apply sanitize_loc_cases in Hs. unfold sort_key, determine in Hk. unfold loc_ip, locator_number.
  destruct Hs as [[v [z E]]|[E1 E2]].
  - rewrite E in *. destruct v; cbn in Hk; okinj Hk; eauto.
  - rewrite E1, E2 in Hk. discriminate.
Qed.

Lemma sort_key_of_ip l v z : l_addr l = AIP v z -> sort_key l = Ok (loc_num l).
Proof. unfold sort_key, determine, locator_number. intros ->. destruct v; reflexivity. Qed.

Definition keyed (l : loc) : Z * loc := (loc_num l, l).

Lemma keyed_map l : Forall loc_ip l ->
  mapM (fun x => let* k := sort_key x in Ok (k, x)) l = Ok (map keyed l).
Proof.
  induction 1 as [|x l [v [z Hx]] Hl IH]; [reflexivity|]. cbn [mapM map].
  rewrite (sort_key_of_ip _ _ _ Hx). cbn [bind]. rewrite IH. reflexivity.
Qed.

Lemma sort_locs_eq l : Forall loc_ip l -> sort_locs l = Ok (map snd (isort (map keyed l))).
Proof. intros H. unfold sort_locs. rewrite keyed_map by exact H. reflexivity. Qed.

Lemma sort_locs_ok l l' :
  Forall (fun x => sanitize_loc x = Ok tt) l -> sort_locs l = Ok l' ->
  Forall loc_ip l /\ l' = map snd (isort (map keyed l)).
Proof.
  intros Hs H. assert (Forall loc_ip l) as Hi.
  { unfold sort_locs in H. bo H kl E. clear H. apply mapM_Forall2 in E.
    induction E as [|x y l kl Hx Hl IH]; constructor; inversion Hs; subst; auto.
    bo Hx k Ek. okinj Hx. eapply sort_key_ip; eauto. }
  split; [exact Hi|]. rewrite sort_locs_eq in H by exact Hi. okinj H. reflexivity.
Qed.

Lemma in_isort_keyed l x : In x (isort (map keyed l)) -> x = keyed (snd x) /\ In (snd x) l.
Proof.
  intros H. apply (Permutation_in _ (isort_perm _)) in H. apply in_map_iff in H.
  destruct H as [y [<- H]]. auto.
Qed.

Lemma sorted_keyed l : map keyed (map snd (isort (map keyed l))) = isort (map keyed l).
Proof.
  rewrite map_map. rewrite <- (map_id (isort (map keyed l))) at 2. apply map_ext_in.
  intros x Hx. apply in_isort_keyed in Hx. destruct Hx as [Hx _]. symmetry. exact Hx.
Qed.

Lemma sort_perm l : Permutation (map snd (isort (map keyed l))) l.
Proof.
  transitivity (map snd (map keyed l)); [apply Permutation_map, isort_perm|].
  rewrite map_map. cbn. rewrite map_id. reflexivity.
Qed.

Lemma sort_Forall (P : loc -> Prop) l : Forall P l -> Forall P (map snd (isort (map keyed l))).
Proof. intros H. eapply Permutation_Forall; [symmetry; apply sort_perm|exact H]. Qed.

Lemma sort_locs_idem l l' :
  Forall (fun x => sanitize_loc x = Ok tt) l -> sort_locs l = Ok l' ->
  sort_locs l' = Ok l' /\ Permutation l' l.
Proof.
  intros Hs H. destruct (sort_locs_ok _ _ Hs H) as [Hi ->].
  split; [|apply sort_perm].
  rewrite sort_locs_eq by (apply sort_Forall; exact Hi).
  rewrite sorted_keyed. rewrite isort_id by apply isort_sorted. reflexivity.
Qed.

(** ** Round trip of a locator *)
Notation wf_loc := obj_loc (only parsing).

Lemma loc_rt l b :
  wf_loc l -> loc_ip l -> w_loc l = Ok b -> forall t, rd_loc (b ++ t) = Ok (l, t).
Proof.
  intros Hw [v [z Ha]] H t. unfold w_loc in H. bo H [] Es.
  destruct l as [p w mp mw rsv lo pr re a]; cbn [l_prio l_weight l_mprio l_mweight l_rsv l_local l_probed l_reach l_addr] in *.
  mon H. winv. okinj H. unfold obj_loc in Hw; cbn in Hw.
  unfold rd_loc. rewrite <- !app_assoc.
  do 4 (rewrite rd_uint_enc by assumption; cbn [bind]).
  rewrite rd_bits_app by exact Hw. cbn [bind app rd_bool].
  rewrite (afi_roundtrip a) by (subst; auto). cbn [bind]. rewrite Es. reflexivity.
Qed.

Lemma loc_w_total l v z :
  l_addr l = AIP v z -> 0 <= z < 2 ^ wz v -> sanitize_loc l = Ok tt -> exists b, w_loc l = Ok b.
Proof.
  intros Ha Hz Hs. unfold w_loc. rewrite Hs. cbn [bind]. unfold sanitize_loc in Hs. mon Hs. winv.
  wrun. rewrite Ha, w_ip_enc by exact Hz. cbn [bind]. eauto.
Qed.

(** an address read from the wire is in range *)
Lemma rd_uint_range n s z r : rd_uint n s = Ok (z, r) -> 0 <= z < 2 ^ Z.of_nat n.
Proof. intros H. rinv. assumption. Qed.

Lemma read_afi_plain pl s a r :
  read_afi pl s = Ok (a, r) -> is_lcaf a = false ->
  match pl with
  | None => a = ANone \/ exists v z, a = AIP v z /\ 0 <= z < 2 ^ wz v
  | Some n => (a = ANone /\ n = 0) \/ exists v z, a = ANet v z n /\ wf_ip a = true
  end.
Proof.
  intros H Hl. rewrite read_afi_eq in H. unfold afi_body in H. bo H [afi s1] E1.
  destruct (afi =? 0) eqn:E0.
  { destruct pl as [n|]; [destruct (n =? 0) eqn:En|]; try discriminate; okinj H; left;
      [split; [reflexivity|lia] | reflexivity]. }
  assert (forall v z a', 0 <= z < 2 ^ wz v -> with_prefix (AIP v z) pl = Ok a' ->
     match pl with
     | None => a' = ANone \/ exists v z, a' = AIP v z /\ 0 <= z < 2 ^ wz v
     | Some n => (a' = ANone /\ n = 0) \/ exists v z, a' = ANet v z n /\ wf_ip a' = true
     end) as Hx.
  { intros v z a' Hz Hp. apply with_prefix_inv in Hp. destruct pl as [n|].
    - destruct Hp as [v' [z' [Hp [-> [Hn Hm]]]]]. injection Hp as <- <-. right. exists v, z. split; [reflexivity|].
      cbn [wf_ip]. rewrite !andb_true_iff. rewrite fits_spec. unfold wz in *; repeat split; lia.
    - subst. right. eauto. }
  destruct (afi =? 1).
  { bo H [z s2] E2. bo H a' E3. okinj H. eapply Hx; [|exact E3]. apply rd_uint_range in E2. exact E2. }
  destruct (afi =? 2).
  { bo H [z s2] E2. bo H a' E3. okinj H. eapply Hx; [|exact E3]. apply rd_uint_range in E2. exact E2. }
  destruct (afi =? AFI_LCAF); [|discriminate].
  mon H. okinj H. exfalso.
  match goal with E : lcaf_from_data _ _ _ _ _ = Ok _ |- _ => unfold lcaf_from_data in E; rename E into El end.
  repeat match type of El with (if ?c then _ else _) = _ => destruct c end; try discriminate;
    mon El; okinj El; try discriminate.
Qed.

Lemma rd_loc_sane s l r :
  rd_loc s = Ok (l, r) -> wf_loc l /\ sanitize_loc l = Ok tt /\
  (forall v z, l_addr l = AIP v z -> 0 <= z < 2 ^ wz v).
Proof.
  unfold rd_loc. intros H.
  bo H [p s1] E1. bo H [w s2] E2. bo H [mp s3] E3. bo H [mw s4] E4. bo H [rsv s5] E5.
  bo H [lo s6] E6. bo H [pr s7] E7. bo H [re s8] E8. bo H [a s9] E9. bo H [] E10. okinj H.
  repeat split.
  - apply rd_bits_ok in E5. unfold obj_loc. cbn. tauto.
  - exact E10.
  - cbn in H. subst. apply read_afi_plain in E9; [|reflexivity].
    destruct E9 as [|[v' [z' [E9 Hz]]]]; [discriminate|]. injection E9 as <- <-. lia.
  - cbn in H. subst. apply read_afi_plain in E9; [|reflexivity].
    destruct E9 as [|[v' [z' [E9 Hz]]]]; [discriminate|]. injection E9 as <- <-. lia.
Qed.

Lemma locs_rt l : Forall wf_loc l -> Forall loc_ip l -> forall b, concatM w_loc l = Ok b ->
  forall t, rd_n rd_loc (length l) (b ++ t) = Ok (l, t).
Proof.
  intros Hw Hi b H t. apply concatM_ok in H. destruct H as [bs [H ->]]. apply rd_n_app.
  induction H as [|x y l bs Hx Hl IH]; constructor; inversion Hw; inversion Hi; subst; auto.
  apply loc_rt; auto.
Qed.

Lemma concatM_total {A B} (f : A -> res (list B)) l :
  Forall (fun x => exists b, f x = Ok b) l -> exists b, concatM f l = Ok b.
Proof.
  intros H. assert (exists bs, mapM f l = Ok bs) as [bs Hb].
  { induction H as [|x l [b Hx] Hl [bs IH]]; [exists []; reflexivity|].
    exists (b :: bs). cbn [mapM]. rewrite Hx. cbn [bind]. rewrite IH. reflexivity. }
  unfold concatM. rewrite Hb. cbn [bind]. eauto.
Qed.

(** ** Map-Reply records *)
Notation wf_mrec := obj_mrec (only parsing).

Lemma nonempty_perm {A} (l l' : list A) : Permutation l l' -> nonempty l = nonempty l'.
Proof.
  intros H. apply Permutation_length in H. destruct l, l'; cbn in *; congruence || lia.
Qed.

Lemma sanitize_mrec_inv r r' :
  sanitize_mrec r = Ok r' ->
  0 <= mr_ttl r <= 4294967295 /\ 0 <= (if nonempty (mr_locs r) then 0 else mr_action r) <= 3 /\ 0 <= mr_ver r < 4096 /\
  is_net (mr_eid r) = true /\ Forall (fun l => sanitize_loc l = Ok tt) (mr_locs r) /\
  sort_locs (mr_locs r) = Ok (mr_locs r') /\
  r' = MRec (mr_ttl r) (if nonempty (mr_locs r) then 0 else mr_action r) (mr_auth r) (mr_rsv r)
            (mr_ver r) (mr_eid r) (mr_locs r').
Proof.
  unfold sanitize_mrec. intros H. cbn zeta in H. mon H. winv. okinj H. cbn [mr_action mr_locs].
  match goal with E : checkM _ _ = Ok _ |- _ => apply checkM_ok in E; destruct E as [_ E] end.
  repeat split; auto; lia.
Qed.

Lemma sanitize_mrec_idem r r' : sanitize_mrec r = Ok r' -> sanitize_mrec r' = Ok r'.
Proof.
  intros H. apply sanitize_mrec_inv in H. destruct H as (Ht & Ha & Hv & He & Hl & Hs & ->).
  cbn [mr_action mr_locs] in *. destruct (sort_locs_idem _ _ Hl Hs) as [Hs' HP].
  unfold sanitize_mrec. cbn [mr_ttl mr_action mr_auth mr_rsv mr_ver mr_eid mr_locs].
  rewrite (nonempty_perm _ _ HP).
  replace (if nonempty (mr_locs r) then 0 else if nonempty (mr_locs r) then 0 else mr_action r)
    with (if nonempty (mr_locs r) then 0 else mr_action r) by (destruct (nonempty (mr_locs r)); reflexivity).
  unfold guard. 
  replace ((0 <=? mr_ttl r) && (mr_ttl r <=? 4294967295)) with true by lia.
  replace ((0 <=? mr_ver r) && (mr_ver r <? 4096)) with true by lia. rewrite He. cbn [bind].
  set (act := if nonempty (mr_locs r) then 0 else mr_action r) in *. clearbody act.
  replace ((0 <=? act) && (act <=? 3)) with true by lia. cbn [bind].
  assert (checkM sanitize_loc (mr_locs r') = Ok tt) as ->.
  { apply checkM_ok. split; [reflexivity|]. eapply Permutation_Forall; [symmetry; exact HP|exact Hl]. }
  cbn [bind]. rewrite Hs'. reflexivity.
Qed.

Lemma wf_net_inv a : is_net a = true -> wf_addr a = true ->
  exists v z n, a = ANet v z n /\ 0 <= z < 2 ^ wz v /\ 0 <= n <= wz v /\ wf_ip a = true.
Proof.
  destruct a; try discriminate. cbn [is_net wf_addr]. intros _ H. exists v, z, len.
  split; [reflexivity|]. pose proof H as H0. cbn [wf_ip] in H. rewrite !andb_true_iff, fits_spec in H.
  destruct H as [[[H1 H2] H3] H4]. unfold wz in *. repeat split; try lia.
Qed.

Lemma sort_locs_wf (P : loc -> Prop) l l' :
  Forall (fun l => sanitize_loc l = Ok tt) l -> sort_locs l = Ok l' -> Forall P l ->
  Forall P l' /\ Forall loc_ip l'.
Proof.
  intros Hl Hs HP. destruct (sort_locs_ok _ _ Hl Hs) as [Hi ->]. split; apply sort_Forall; assumption.
Qed.

Lemma enc_mrec_rt r b :
  wf_mrec r -> sanitize_mrec r = Ok r -> enc_mrec r = Ok b -> forall t, rd_mrec (b ++ t) = Ok (r, t).
Proof.
  intros (Hr & He & Hwl) Hs H t. pose proof (sanitize_mrec_inv _ _ Hs) as (Ht & Ha & Hv & Hn & Hl & Hso & _).
  destruct (wf_net_inv _ Hn He) as (v & z & n & Ee & Hz & Hn2 & Hwf).
  destruct (sort_locs_wf _ _ _ Hl Hso Hwl) as [_ Hip].
  unfold enc_mrec in H. rewrite Ee in H. cbn [prefixlen bind] in H.
  bo H a E1. bo H b0 E2. bo H c E3. bo H d E4. bo H e E5. bo H f E6. bo H g E7. okinj H.
  winv. unfold rd_mrec. rewrite <- !app_assoc.
  do 4 (rewrite rd_uint_enc by (assumption || lia); cbn [bind app rd_bool]).
  rewrite <- ?app_assoc.
  rewrite rd_bits_app by exact Hr. cbn [bind].
  rewrite rd_uint_enc by assumption. cbn [bind].
  rewrite Ee in Hwf. pose proof (afi_prefix_roundtrip n (ANet v z n) f (pf_net n v z) Hwf E6) as Hrd.
  rewrite Hrd.
  cbn [bind]. unfold lenZ. rewrite Nat2Z.id.
  rewrite locs_rt by assumption. cbn [bind]. rewrite <- Ee.
  destruct r as [ttl act auth rsv ver eid locs]. cbn [mr_ttl mr_action mr_auth mr_rsv mr_ver mr_eid mr_locs] in *.
  rewrite Hs. reflexivity.
Qed.

Lemma sanitize_mrec_wf r r' : wf_mrec r -> sanitize_mrec r = Ok r' -> wf_mrec r'.
Proof.
  intros (Hr & He & Hwl) Hs. apply sanitize_mrec_inv in Hs. destruct Hs as (_ & _ & _ & _ & Hl & Hso & ->).
  destruct (sort_locs_wf _ _ _ Hl Hso Hwl) as [Hw _].
  unfold obj_mrec; cbn. auto.
Qed.

Theorem mrec_rt r b :
  wf_mrec r -> w_mrec r = Ok b ->
  exists r', sanitize_mrec r = Ok r' /\ wf_mrec r' /\ forall t, rd_mrec (b ++ t) = Ok (r', t).
Proof.
  intros Hw H. unfold w_mrec in H. bo H r' Es. exists r'. split; [exact Es|].
  pose proof (sanitize_mrec_wf _ _ Hw Es) as Hw'. split; [exact Hw'|].
  apply enc_mrec_rt; auto. eapply sanitize_mrec_idem; eauto.
Qed.

(** in-range locator addresses (what [ipaddress] guarantees) *)
Definition loc_range (l : loc) : Prop := forall v z, l_addr l = AIP v z -> 0 <= z < 2 ^ wz v.

Lemma w_mrec_total r :
  wf_mrec r -> sanitize_mrec r = Ok r -> Forall loc_range (mr_locs r) -> lenZ (mr_locs r) <= 255 ->
  exists b, w_mrec r = Ok b.
Proof.
  intros (Hr & He & Hwl) Hs Hrg Hlen. unfold w_mrec. rewrite Hs. cbn [bind].
  pose proof (sanitize_mrec_inv _ _ Hs) as (Ht & Ha & Hv & Hn & Hl & Hso & Heq).
  apply (f_equal mr_action) in Heq. cbn [mr_action] in Heq. rewrite <- Heq in Ha.
  destruct (wf_net_inv _ Hn He) as (v & z & n & Ee & Hz & Hn2 & Hwf).
  destruct (sort_locs_wf _ _ _ Hl Hso Hwl) as [_ Hip].
  unfold enc_mrec. rewrite Ee. cbn [prefixlen].
  rewrite w_uint_in by (change (2 ^ Z.of_nat 32) with 4294967296; lia). cbn [bind].
  rewrite w_uint_in by (unfold lenZ in *; change (2 ^ Z.of_nat 8) with 256; lia). cbn [bind].
  rewrite w_uint_in by (rewrite wz_eq in Hn2; change (2 ^ Z.of_nat 8) with 256; destruct v; lia). cbn [bind].
  rewrite w_uint_in by (change (2 ^ Z.of_nat 3) with 8; lia). cbn [bind].
  rewrite w_uint_in by (change (2 ^ Z.of_nat 12) with 4096; lia). cbn [bind].
  rewrite w_net_enc by exact Hz. cbn [bind].
  destruct (concatM_total w_loc (mr_locs r)) as [g ->]; [|cbn [bind]; eauto].
  rewrite Forall_forall in *. intros l Hin. destruct (Hip l Hin) as [v' [z' E']].
  eapply loc_w_total; eauto. eapply Hrg; eauto.
Qed.

Lemma rd_locs_sane n s l r :
  rd_n rd_loc n s = Ok (l, r) ->
  length l = n /\ Forall wf_loc l /\ Forall loc_range l /\ Forall (fun l => sanitize_loc l = Ok tt) l.
Proof.
  intros H. apply rd_n_inv in H. destruct H as [Hn H]. split; [exact Hn|].
  repeat split; (eapply Forall_impl; [|exact H]); intros x [s0 [r0 Hx]]; apply rd_loc_sane in Hx; tauto.
Qed.

Theorem rd_mrec_stable s r t :
  rd_mrec s = Ok (r, t) ->
  wf_mrec r /\ sanitize_mrec r = Ok r /\ exists b, w_mrec r = Ok b.
Proof.
  unfold rd_mrec. intros H.
  bo H [ttl s1] E1. bo H [n s2] E2. bo H [plen s3] E3. bo H [action s4] E4. bo H [auth s5] E5.
  bo H [rsv s6] E6. bo H [ver s7] E7. bo H [eid s8] E8. bo H [locs s9] E9. bo H r' E10. okinj H.
  pose proof (sanitize_mrec_inv _ _ E10) as (Ht & Ha & Hv & Hn & Hl & Hso & Heq).
  cbn [mr_ttl mr_action mr_auth mr_rsv mr_ver mr_eid mr_locs] in *.
  apply rd_locs_sane in E9. destruct E9 as (Hlen & Hwl & Hrg & _).
  assert (wf_mrec (MRec ttl action auth rsv ver eid locs)) as Hw.
  { repeat split; cbn; auto.
    - apply rd_bits_ok in E6. tauto.
    - apply read_afi_plain in E8; [|destruct eid; try discriminate; reflexivity].
      destruct eid; try discriminate. destruct E8 as [[E8 _]|[v' [z' [E8 Hwf]]]]; [discriminate|exact Hwf]. }
  pose proof (sanitize_mrec_wf _ _ Hw E10) as Hw'. pose proof (sanitize_mrec_idem _ _ E10) as Hid.
  repeat split; try exact Hid; try apply Hw'.
  destruct (sort_locs_idem _ _ Hl Hso) as [_ HP].
  apply w_mrec_total; auto.
  - eapply Permutation_Forall; [symmetry; exact HP|exact Hrg].
  - unfold lenZ. rewrite (Permutation_length HP), Hlen. apply rd_uint_range in E2.
    change (2 ^ Z.of_nat 8) with 256 in E2. lia.
Qed.

(** ** Map-Referral records *)
Notation referral_eid := plain_or_instance_prefix (only parsing).
Notation wf_rrec := obj_rrec (only parsing).

(** the normal form of a referral prefix *)
Definition norm_eid (a : addr) : addr :=
  match a with ANet v z n => LInst 0 (ANet v z n) 32 | _ => a end.

Lemma sanitize_rrec_inv r r' :
  sanitize_rrec r = Ok r' ->
  0 <= rr_ttl r <= 4294967295 /\ 0 <= rr_action r <= 5 /\ 0 <= rr_ver r < 4096 /\
  referral_table (rr_action r) (rr_incomplete r) (nonempty (rr_locs r)) (rr_ttl r) = true /\
  (exists i a m, norm_eid (rr_eid r) = LInst i a m) /\
  Forall (fun l => l_probed l = false) (rr_locs r) /\
  Forall (fun l => sanitize_loc l = Ok tt) (rr_locs r) /\
  sort_locs (rr_locs r) = Ok (rr_locs r') /\
  r' = RRec (rr_ttl r) (rr_action r) (rr_auth r) (rr_incomplete r) (rr_rsv r) (rr_sigs r)
            (rr_ver r) (norm_eid (rr_eid r)) (rr_locs r').
Proof.
  unfold sanitize_rrec. intros H.
  bo H [] E1. bo H [] E2. bo H [] E3. bo H [] E4. bo H eid E5. bo H [] E6. bo H locs E7. okinj H.
  winv. apply checkM_ok in E6. destruct E6 as [_ E6].
  assert (Forall (fun l => l_probed l = false /\ sanitize_loc l = Ok tt) (rr_locs r)) as E8.
  { eapply Forall_impl; [|exact E6]. cbn. intros l Hl. bo Hl [] G. apply guard_ok in G.
    destruct (l_probed l); [discriminate|auto]. }
  cbn [rr_locs].
  assert (eid = norm_eid (rr_eid r) /\ exists i a m, norm_eid (rr_eid r) = LInst i a m) as [-> Hx]
    by (destruct (rr_eid r); try discriminate; okinj E5; cbn [norm_eid]; eauto).
  repeat split; auto; try lia; eapply Forall_impl; try exact E8; cbn; tauto.
Qed.

Lemma sanitize_rrec_idem r r' : sanitize_rrec r = Ok r' -> sanitize_rrec r' = Ok r'.
Proof.
  intros H. apply sanitize_rrec_inv in H. destruct H as (Ht & Ha & Hv & Htab & (i & a & m & He) & Hpr & Hl & Hs & ->).
  cbn [rr_locs] in *. destruct (sort_locs_idem _ _ Hl Hs) as [Hs' HP].
  unfold sanitize_rrec. cbn [rr_ttl rr_action rr_auth rr_incomplete rr_rsv rr_sigs rr_ver rr_eid rr_locs].
  rewrite (nonempty_perm _ _ HP), Htab, He. unfold guard.
  replace ((0 <=? rr_ttl r) && (rr_ttl r <=? 4294967295)) with true by lia.
  replace ((0 <=? rr_action r) && (rr_action r <=? 5)) with true by lia.
  replace ((0 <=? rr_ver r) && (rr_ver r <? 4096)) with true by lia. cbn [bind].
  match goal with |- context [checkM ?f ?l] => assert (checkM f l = Ok tt) as -> end.
  { apply checkM_ok. split; [reflexivity|].
    eapply Permutation_Forall; [symmetry; exact HP|]. rewrite Forall_forall in *. intros x Hx.
    rewrite (Hpr x Hx). cbn. auto. }
  cbn [bind]. rewrite Hs'. reflexivity.
Qed.

Lemma norm_eid_ok e : referral_eid e -> exists i v z n m,
  norm_eid e = LInst i (ANet v z n) m /\ wf_ip (ANet v z n) = true.
Proof.
  destruct e as [| | v z n| | |i e m| | |]; cbn; try tauto.
  - eauto 10.
  - destruct e; try tauto. eauto 10.
Qed.

Lemma enc_rrec_rt r b :
  wf_rrec r -> sanitize_rrec r = Ok r -> enc_rrec r = Ok b -> forall t, rd_rrec (b ++ t) = Ok (r, t).
Proof.
  intros (Hr & He & Hwl) Hs H t. pose proof (sanitize_rrec_inv _ _ Hs) as (Ht & Ha & Hv & Htab & _ & Hpr & Hl & Hso & Heq).
  destruct (norm_eid_ok _ He) as (i & v & z & n & m & Ee & Hwf).
  assert (rr_eid r = LInst i (ANet v z n) m) as Ee2.
  { rewrite <- Ee. apply (f_equal rr_eid) in Heq. exact Heq. }
  destruct (sort_locs_wf _ _ _ Hl Hso Hwl) as [_ Hip].
  unfold enc_rrec in H. rewrite Ee2 in H. cbn [prefixlen bind] in H.
  bo H a E1. bo H b0 E2. bo H c E3. bo H d E4. bo H sg E4'. bo H e E5. bo H f E6. bo H g E7. bo H [] E8. okinj H.
  winv. unfold rd_rrec. rewrite <- !app_assoc.
  do 4 (rewrite rd_uint_enc by (assumption || lia); cbn [bind app rd_bool]).
  rewrite <- ?app_assoc.
  rewrite rd_bits_app by exact Hr. cbn [bind].
  do 2 (rewrite rd_uint_enc by assumption; cbn [bind]).
  pose proof (afi_prefix_roundtrip n (LInst i (ANet v z n) m) f (pf_inst n i v z m) Hwf E6) as Hrd.
  rewrite Hrd.
  cbn [bind]. unfold lenZ. rewrite Nat2Z.id.
  rewrite locs_rt by assumption. cbn [bind]. rewrite E8. cbn [bind]. rewrite <- Ee2.
  destruct r as [ttl act auth inc rsv sigs ver eid locs]. cbn [rr_ttl rr_action rr_auth rr_incomplete rr_rsv rr_sigs rr_ver rr_eid rr_locs] in *.
  assert (sigs = 0) as -> by lia. unfold guard. cbn [bind]. rewrite Hs. reflexivity.
Qed.

Lemma sanitize_rrec_wf r r' : wf_rrec r -> sanitize_rrec r = Ok r' -> wf_rrec r'.
Proof.
  intros (Hr & He & Hwl) Hs. apply sanitize_rrec_inv in Hs. destruct Hs as (_ & _ & _ & _ & _ & _ & Hl & Hso & ->).
  destruct (sort_locs_wf _ _ _ Hl Hso Hwl) as [Hw _].
  unfold obj_rrec; cbn. repeat split; auto.
  destruct (norm_eid_ok _ He) as (i & v & z & n & m & -> & Hwf). exact Hwf.
Qed.

Theorem rrec_rt r b :
  wf_rrec r -> w_rrec r = Ok b ->
  exists r', sanitize_rrec r = Ok r' /\ wf_rrec r' /\ forall t, rd_rrec (b ++ t) = Ok (r', t).
Proof.
  intros Hw H. unfold w_rrec in H. bo H r' Es. exists r'. split; [exact Es|].
  pose proof (sanitize_rrec_wf _ _ Hw Es) as Hw'. split; [exact Hw'|].
  apply enc_rrec_rt; auto. eapply sanitize_rrec_idem; eauto.
Qed.

Lemma inst_w_total i v z n m :
  0 <= i < 2 ^ Z.of_nat 32 -> 0 <= m < 2 ^ Z.of_nat 8 -> wf_ip (ANet v z n) = true ->
  exists b, w_afi (LInst i (ANet v z n) m) = Ok b.
Proof.
  intros Hi Hm Hwf. cbn [wf_ip] in Hwf. rewrite !andb_true_iff, fits_spec in Hwf. destruct Hwf as [[[Hz _] _] _].
  cbn [w_afi]. unfold lcaf_wrap. rewrite !w_uint_in by (assumption || (change (2 ^ Z.of_nat 8) with 256; lia)).
  cbn [bind]. rewrite w_uint_in; [cbn [bind]; eauto|].
  rewrite !app_length, !enc_length. destruct v; cbn; lia.
Qed.

Lemma w_rrec_total r i v z n m :
  wf_rrec r -> sanitize_rrec r = Ok r -> Forall loc_range (rr_locs r) -> lenZ (rr_locs r) <= 255 ->
  rr_eid r = LInst i (ANet v z n) m -> 0 <= i < 2 ^ Z.of_nat 32 -> 0 <= m < 2 ^ Z.of_nat 8 -> rr_sigs r = 0 ->
  exists b, w_rrec r = Ok b.
Proof.
  intros (Hr & He & Hwl) Hs Hrg Hlen Ee Hi Hm Hsig. unfold w_rrec. rewrite Hs. cbn [bind].
  pose proof (sanitize_rrec_inv _ _ Hs) as (Ht & Ha & Hv & Htab & _ & Hpr & Hl & Hso & _).
  destruct (sort_locs_wf _ _ _ Hl Hso Hwl) as [_ Hip].
  rewrite Ee in He. cbn [plain_or_instance_prefix] in He.
  destruct (inst_w_total i v z n m Hi Hm He) as [eb Heb].
  unfold enc_rrec. rewrite Ee, Heb, Hsig. cbn [prefixlen].
  cbn [wf_ip] in He. rewrite !andb_true_iff, fits_spec in He. destruct He as [[[Hz Hn1] Hn2] _].
  rewrite w_uint_in by (change (2 ^ Z.of_nat 32) with 4294967296; lia). cbn [bind].
  rewrite w_uint_in by (unfold lenZ in *; change (2 ^ Z.of_nat 8) with 256; lia). cbn [bind].
  rewrite w_uint_in by (rewrite wz_eq in Hn2; change (2 ^ Z.of_nat 8) with 256; destruct v; lia). cbn [bind].
  rewrite w_uint_in by (change (2 ^ Z.of_nat 3) with 8; lia). cbn [bind].
  rewrite w_uint_in by (change (2 ^ Z.of_nat 4) with 16; lia). cbn [bind].
  rewrite w_uint_in by (change (2 ^ Z.of_nat 12) with 4096; lia). cbn [bind].
  destruct (concatM_total w_loc (rr_locs r)) as [g ->]; [|cbn [bind guard Z.eqb]; eauto].
  rewrite Forall_forall in *. intros l Hin. destruct (Hip l Hin) as [v' [z' E']].
  eapply loc_w_total; eauto. eapply Hrg; eauto.
Qed.

(** an instance address read with a prefix length *)
Lemma read_afi_inst pl s i a m r :
  read_afi (Some pl) s = Ok (LInst i a m, r) ->
  exists v z, a = ANet v z pl /\ wf_ip a = true /\ 0 <= i < 2 ^ Z.of_nat 32 /\ 0 <= m < 2 ^ Z.of_nat 8.
Proof.
  intros H. rewrite read_afi_eq in H. unfold afi_body in H. bo H [afi s1] E1.
  destruct (afi =? 0). { destruct (pl =? 0); [okinj H|]; discriminate. }
  destruct (afi =? 1). { bo H [z s2] E2. bo H a' E3. okinj H. apply with_prefix_inv in E3.
    destruct E3 as [? [? [? [? _]]]]. discriminate. }
  destruct (afi =? 2). { bo H [z s2] E2. bo H a' E3. okinj H. apply with_prefix_inv in E3.
    destruct E3 as [? [? [? [? _]]]]. discriminate. }
  destruct (afi =? AFI_LCAF); [|discriminate].
  bo H [r1 s2] E2. bo H [fl s3] E3. bo H [ty s4] E4. bo H [r2 s5] E5. bo H [ln s6] E6. bo H [d s7] E7.
  bo H a' E8. okinj H. unfold lcaf_from_data in E8.
  destruct (ty =? 0); [discriminate|].
  destruct (ty =? 1); [bo E8 l El; okinj E8; discriminate|].
  destruct (ty =? 2).
  { bo E8 [iid s8] G1. bo E8 [x s9] G2. bo E8 x' G3. apply Ok_inj in E8. injection E8 as <- <- <-.
    pose proof G3 as G3'. apply with_prefix_inv in G3. destruct G3 as [v [z [-> [-> [Hn Hm]]]]].
    exists v, z. split; [reflexivity|].
    apply rd_uint_range in G1. apply rd_uint_range in E5.
    apply read_afi_plain in G2; [|reflexivity]. destruct G2 as [|[v' [z' [G2 Hz]]]]; [discriminate|].
    injection G2 as <- <-. split; [|split; assumption].
    cbn [wf_ip]. rewrite !andb_true_iff, fits_spec. repeat split; try lia; apply Hz. }
  destruct (ty =? 3); [mon E8; okinj E8; discriminate|].
  destruct (ty =? 5); [mon E8; okinj E8; discriminate|].
  destruct (ty =? 7); [mon E8; okinj E8; discriminate|]. discriminate.
Qed.

Theorem rd_rrec_stable s r t :
  rd_rrec s = Ok (r, t) ->
  wf_rrec r /\ sanitize_rrec r = Ok r /\ exists b, w_rrec r = Ok b.
Proof.
  unfold rd_rrec. intros H.
  bo H [ttl s1] E1. bo H [n s2] E2. bo H [plen s3] E3. bo H [action s4] E4. bo H [auth s5] E5. bo H [inc s5'] E5'.
  bo H [rsv s6] E6. bo H [sigs s6'] E6'. bo H [ver s7] E7. bo H [eid s8] E8. bo H [locs s9] E9. bo H [] E9'.
  bo H r' E10. okinj H.
  pose proof (sanitize_rrec_inv _ _ E10) as (Ht & Ha & Hv & Htab & (i & a & m & Hne) & Hpr & Hl & Hso & Heq).
  cbn [rr_ttl rr_action rr_auth rr_incomplete rr_rsv rr_sigs rr_ver rr_eid rr_locs] in *.
  apply rd_locs_sane in E9. destruct E9 as (Hlen & Hwl & Hrg & _).
  assert (referral_eid eid /\ exists i v z n m, norm_eid eid = LInst i (ANet v z n) m
     /\ 0 <= i < 2 ^ Z.of_nat 32 /\ 0 <= m < 2 ^ Z.of_nat 8) as [Hre (i' & v & z & k & m' & Hne' & Hi & Hm)].
  { destruct eid as [| |v z k| | |i0 e0 m0| | |]; try discriminate.
    - apply read_afi_plain in E8; [|reflexivity]. destruct E8 as [[E8 _]|[v' [z' [E8 Hwf]]]]; [discriminate|].
      split; [exact Hwf|]. cbn [norm_eid]. exists 0, v, z, k, 32. split; [reflexivity|].
      change (2 ^ Z.of_nat 32) with 4294967296. change (2 ^ Z.of_nat 8) with 256. lia.
    - apply read_afi_inst in E8. destruct E8 as (v & z & -> & Hwf & Hi & Hm).
      split; [exact Hwf|]. cbn [norm_eid]. eauto 10. }
  assert (wf_rrec (RRec ttl action auth inc rsv 0 ver eid locs)) as Hw.
  { repeat split; cbn; auto. apply rd_bits_ok in E6. tauto. }
  pose proof (sanitize_rrec_wf _ _ Hw E10) as Hw'. pose proof (sanitize_rrec_idem _ _ E10) as Hid.
  split; [exact Hw'|]. split; [exact Hid|].
  destruct (sort_locs_idem _ _ Hl Hso) as [_ HP].
  eapply w_rrec_total; eauto.
  - eapply Permutation_Forall; [symmetry; exact HP|exact Hrg].
  - unfold lenZ. rewrite (Permutation_length HP), Hlen. apply rd_uint_range in E2.
    change (2 ^ Z.of_nat 8) with 256 in E2. lia.
  - rewrite Heq. cbn. exact Hne'.
  - rewrite Heq. reflexivity.
Qed.

(** ** The specification relations *)
Lemma sort_locs_spec l l' :
  Forall (fun x => sanitize_loc x = Ok tt) l -> sort_locs l = Ok l' -> sorted_of l l'.
Proof.
  intros Hs H. destruct (sort_locs_ok _ _ Hs H) as [Hi ->]. repeat split.
  - symmetry. apply sort_perm.
  - pose proof (isort_sorted (map keyed l)) as HS. rewrite <- sorted_keyed in HS.
    remember (map snd (isort (map keyed l))) as m eqn:Em. clear Em H Hi Hs.
    induction m as [|x m IH]; [constructor|]. inversion HS; subst. constructor; auto.
    match goal with H : Forall _ (map keyed m) |- _ => rewrite Forall_map in H; exact H end.
  - intros k. pose proof (isort_filter k (map keyed l)) as HF. rewrite <- sorted_keyed in HF.
    remember (map snd (isort (map keyed l))) as m eqn:Em. clear Em.
    assert (forall q, filter (fun y => fst y =? k) (map keyed q) =
      map keyed (filter (fun a => locator_number a =? k) q)) as Hq.
    { induction q as [|x q IH]; [reflexivity|]. cbn [map filter]. cbn [keyed fst].
      destruct (locator_number x =? k); cbn [map]; rewrite IH; reflexivity. }
    rewrite !Hq in HF. apply (f_equal (map snd)) in HF. rewrite !map_map in HF. cbn in HF.
    rewrite !map_id in HF. exact HF.
Qed.

Lemma sanitize_mrec_arrives r r' : sanitize_mrec r = Ok r' -> arrives_mrec r r'.
Proof.
  intros H. apply sanitize_mrec_inv in H. destruct H as (_ & _ & _ & _ & Hl & Hs & Heq).
  apply sort_locs_spec in Hs; [|exact Hl].
  constructor; try (rewrite Heq; reflexivity); try exact Hs; rewrite Heq; cbn [mr_action];
    destruct (mr_locs r); cbn; congruence.
Qed.

Lemma sanitize_rrec_arrives r r' : sanitize_rrec r = Ok r' -> arrives_rrec r r'.
Proof.
  intros H. apply sanitize_rrec_inv in H. destruct H as (_ & _ & _ & _ & _ & _ & Hl & Hs & Heq).
  apply sort_locs_spec in Hs; [|exact Hl].
  constructor; try (rewrite Heq; reflexivity); try exact Hs; intros; rewrite Heq; cbn [rr_eid];
    match goal with H : rr_eid r = _ |- _ => rewrite H end; reflexivity.
Qed.
