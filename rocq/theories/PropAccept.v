(** * Property C91: exactly the well-formed messages can be sent *)
From Coq Require Import Permutation Sorted.
From Verif Require Import Base BaseLemmas Afi AfiProofs Spec Records Control SpecRec RecordsProofs ControlProofs PropControl PropAfi SpecAccept.

Lemma is_ok_iff {A} (x : res A) : is_ok x = true <-> exists v, x = Ok v.
Proof. destruct x; cbn; split; intros H; try discriminate; eauto. destruct H; discriminate. Qed.
Lemma guard_iff b e : (exists v, guard b e = Ok v) <-> b = true.
Proof. destruct b; cbn; split; intros H; try discriminate; eauto. destruct H; discriminate. Qed.
Lemma bind_iff {A B} (x : res A) (k : A -> res B) : (exists v, bind x k = Ok v) <-> exists a, x = Ok a /\ exists v, k a = Ok v.
Proof. destruct x as [a|e]; cbn; split; intros H; [eauto|destruct H as (x & H & Hv); injection H as ->; exact Hv|destruct H; discriminate|destruct H as (x & H & _); discriminate]. Qed.
Lemma w_uint_iff n z : (exists b, w_uint n z = Ok b) <-> 0 <= z < 2 ^ Z.of_nat n.
Proof. split; [intros [b H]; apply w_uint_ok in H; tauto|intros H; exists (enc n z); apply w_uint_ok; auto]. Qed.
Lemma concatM_iff {A B} (f : A -> res (list B)) l : (exists b, concatM f l = Ok b) <-> Forall (fun x => exists b, f x = Ok b) l.
Proof.
  split; [|apply concatM_total]. intros [b H]. apply concatM_ok in H. destruct H as (bs & H & _).
  induction H as [|x y l bs Hx Hl IH]; constructor; eauto.
Qed.

(** ** addresses *)
Lemma lcaf_wrap_iff t r d : 0 <= t < 256 ->
  (exists b, lcaf_wrap t r d = Ok b) <-> (0 <= r < 256 /\ exists x, d = Ok x /\ Z.of_nat (length x) / 8 <= 65535).
Proof.
  intros Ht. split.
  - intros [b H]. apply lcaf_wrap_ok in H. destruct H as (x & Hx & _ & H2 & H3 & _). change (2 ^ Z.of_nat 8) with 256 in H2.
    change (2 ^ Z.of_nat 16) with 65536 in H3. split; [exact H2|]. exists x. split; [exact Hx|lia].
  - intros (Hr & x & -> & Hl). unfold lcaf_wrap. rewrite w_uint_in by exact Ht. cbn [bind]. rewrite w_uint_in by exact Hr. cbn [bind].
    rewrite w_uint_in by (change (2 ^ Z.of_nat 16) with 65536; split; [apply Z.div_pos|]; lia). cbn [bind]. eauto.
Qed.
Lemma wire_size_spec a : forall b, w_afi a = Ok b -> Z.of_nat (length b) = 8 * wire_size a.
Proof.
  assert (forall l, Forall (fun a => forall b, w_afi a = Ok b -> Z.of_nat (length b) = 8 * wire_size a) l ->
    forall b, concatM w_afi l = Ok b -> Z.of_nat (length b) = 8 * fold_right Z.add 0 (map wire_size l)) as L.
  { intros l H b Hb. apply concatM_ok in Hb. destruct Hb as (bs & Hb & ->). revert bs Hb. induction H as [|x l Hx Hl IH]; intros bs Hb; inversion Hb; subst; [reflexivity|].
    cbn [concat map fold_right]. rewrite app_length, Nat2Z.inj_add. rewrite (IH _ H3), (Hx _ H1). lia. }
  induction a using addr_ind'; intros b Hb; cbn [w_afi wire_size] in *.
  - okinj Hb. reflexivity.
  - mon Hb. winv. okinj Hb. rewrite app_length, !enc_length. destruct v; reflexivity.
  - mon Hb. winv. okinj Hb. rewrite app_length, !enc_length. destruct v; reflexivity.
  - apply lcaf_wrap_ok in Hb. destruct Hb as (d & Hd & _ & _ & _ & ->). okinj Hd. reflexivity.
  - apply lcaf_wrap_ok in Hb. destruct Hb as (d & Hd & _ & _ & _ & ->). pose proof (L _ H _ Hd).
    repeat rewrite ?app_length, ?enc_length, ?zeros_length. lia.
  - apply lcaf_wrap_ok in Hb. destruct Hb as (d & Hd & _ & _ & _ & ->). mon Hd. winv. okinj Hd. pose proof (IHa _ E0).
    repeat rewrite ?app_length, ?enc_length, ?zeros_length. lia.
  - apply lcaf_wrap_ok in Hb. destruct Hb as (d & Hd & _ & _ & _ & ->). mon Hd. winv. okinj Hd. pose proof (IHa _ E0).
    repeat rewrite ?app_length, ?enc_length, ?zeros_length. lia.
  - apply lcaf_wrap_ok in Hb. destruct Hb as (d & Hd & _ & _ & _ & ->). mon Hd. pose proof (IHa _ E0). unfold w_geo in E. mon E. winv. okinj E. okinj Hd.
    repeat rewrite ?app_length, ?enc_length, ?zeros_length; cbn [length]; repeat rewrite ?app_length, ?enc_length, ?zeros_length. lia.
  - apply lcaf_wrap_ok in Hb. destruct Hb as (d & Hd & _ & _ & _ & ->). mon Hd. winv. okinj Hd.
    pose proof (IHa1 _ E1). pose proof (IHa2 _ E2). pose proof (IHa3 _ E3). pose proof (L _ H _ E4).
    repeat rewrite ?app_length, ?enc_length, ?zeros_length. lia.
Qed.
Lemma wrap_size a t r d : 0 <= t < 256 -> w_afi a = lcaf_wrap t r d ->
  (exists b, w_afi a = Ok b) <-> (0 <= r < 256 /\ (exists x, d = Ok x) /\ (forall x, d = Ok x -> exists n, Z.of_nat (length x) = 8 * n /\ n <= 65535)).
Proof.
  intros Ht E. rewrite E. rewrite lcaf_wrap_iff by exact Ht. split.
  - intros (Hr & x & -> & Hl). split; [exact Hr|]. split; [eauto|]. intros y Hy. assert (x = y) as <- by congruence.
    assert (exists b, w_afi a = Ok b) as [b Hb] by (rewrite E; apply lcaf_wrap_iff; eauto). pose proof (wire_size_spec _ _ Hb) as S.
    rewrite E in Hb. apply lcaf_wrap_ok in Hb. destruct Hb as (x' & Hx & _ & _ & _ & ->). assert (x' = x) as -> by congruence.
    repeat rewrite ?app_length, ?enc_length, ?zeros_length in S. exists (wire_size a - 8).
    assert (Z.of_nat (length x) = (wire_size a - 8) * 8) as L by lia. split; [lia|]. rewrite L, Z.div_mul in Hl by lia. exact Hl.
  - intros (Hr & [x ->] & H). split; [exact Hr|]. exists x. split; [reflexivity|]. destruct (H x eq_refl) as (n & L & Hn).
    replace (Z.of_nat (length x)) with (n * 8) by lia. rewrite Z.div_mul by lia. exact Hn.
Qed.
Lemma w_geo_iff g : (exists b, w_geo g = Ok b) <-> coordinates g.
Proof.
  unfold w_geo, coordinates, in_bits. split.
  - intros [b H]. mon H. winv. change (Z.of_nat 15) with 15 in *. change (Z.of_nat 8) with 8 in *. change (Z.of_nat 32 - 1) with 31 in *. tauto.
  - intros (H1 & H2 & H3 & H4 & H5 & H6 & H7). wrun.
    assert (w_int 32 (g_alt g) = Ok (enc 32 (g_alt g))) as -> by (apply w_int_ok; auto). cbn [bind]. eauto.
Qed.
(** addresses: the encoder works exactly for the encodable ones *)
Theorem C91_address : forall a, is_ok (w_afi a) = true <-> encodable a.
Proof.
  intros a. rewrite is_ok_iff.
  assert (forall l, Forall (fun a => (exists b, w_afi a = Ok b) <-> encodable a) l -> ((exists b, concatM w_afi l = Ok b) <-> Forall encodable l)) as L.
  { intros l H. rewrite concatM_iff. rewrite !Forall_forall in *. split; intros X x I; apply H; auto. }
  assert (forall l b, concatM w_afi l = Ok b -> Z.of_nat (length b) = 8 * fold_right Z.add 0 (map wire_size l)) as LS.
  { intros l b Hb. apply concatM_ok in Hb. destruct Hb as (bs & Hb & ->). induction Hb as [|x y l bs Hx Hl IH]; [reflexivity|].
    cbn [concat map fold_right]. rewrite app_length, Nat2Z.inj_add, IH, (wire_size_spec _ _ Hx). lia. }
  induction a using addr_ind'.
  - split; [constructor|]. intros _. cbn [w_afi]. eauto.
  - cbn [w_afi]. rewrite bind_iff. split.
    + intros (b & Hb & _). apply w_uint_ok in Hb. constructor. exact (proj2 Hb).
    + intros H. inversion H; subst. exists (enc (width v) z). split; [apply w_uint_in; assumption|eauto].
  - cbn [w_afi]. rewrite bind_iff. split.
    + intros (b & Hb & _). apply w_uint_ok in Hb. constructor. exact (proj2 Hb).
    + intros H. inversion H; subst. exists (enc (width v) z). split; [apply w_uint_in; assumption|eauto].
  - split; [constructor|]. intros _. apply is_ok_iff. reflexivity.
  - rewrite (wrap_size (LList l) 1 0 (concatM w_afi l)) by (lia || reflexivity). split.
    + intros (_ & A & B). constructor; [apply L; assumption|]. destruct A as [x A]. destruct (B x A) as (n & B1 & B2).
      unfold short_enough. cbn [wire_size]. rewrite (LS _ _ A) in B1. lia.
    + intros X. inversion X as [| | | |l' A B| | | |]; subst. split; [lia|]. split; [apply L; assumption|]. intros x Hx. eexists. split; [apply LS; exact Hx|].
      unfold short_enough in B. cbn [wire_size] in B. lia.
  - rewrite (wrap_size (LInst i a m) 2 m (let* ib := w_uint 32 i in let* d := w_afi a in Ok (ib ++ d))) by (lia || reflexivity). split.
    + intros (R & [x Hx] & B). pose proof Hx as Hx'. mon Hx'. winv. okinj Hx'. destruct (B _ Hx) as (n & B1 & B2). pose proof (wire_size_spec _ _ E0).
      constructor; [exact Hr|exact R|apply IHa; eauto|]. unfold short_enough. cbn [wire_size]. rewrite app_length, enc_length in B1. lia.
    + intros X. inversion X as [| | | | |i' a' m' I M A S| | |]; subst. split; [exact M|]. apply IHa in A. destruct A as [d A].
      rewrite w_uint_in by exact I. cbn [bind]. rewrite A. cbn [bind]. split; [eauto|]. intros x Hx. okinj Hx. exists (4 + wire_size a).
      rewrite app_length, enc_length. pose proof (wire_size_spec _ _ A). unfold short_enough in S. cbn [wire_size] in S. lia.
  - rewrite (wrap_size (LAs i a) 3 0 (let* ib := w_uint 32 i in let* d := w_afi a in Ok (ib ++ d))) by (lia || reflexivity). split.
    + intros (R & [x Hx] & B). pose proof Hx as Hx'. mon Hx'. winv. okinj Hx'. destruct (B _ Hx) as (n & B1 & B2). pose proof (wire_size_spec _ _ E0).
      constructor; [exact Hr|apply IHa; eauto|]. unfold short_enough. cbn [wire_size]. rewrite app_length, enc_length in B1. lia.
    + intros X. inversion X as [| | | | | |i' a' I A S| |]; subst. split; [lia|]. apply IHa in A. destruct A as [d A].
      rewrite w_uint_in by exact I. cbn [bind]. rewrite A. cbn [bind]. split; [eauto|]. intros x Hx. okinj Hx. exists (4 + wire_size a).
      rewrite app_length, enc_length. pose proof (wire_size_spec _ _ A). unfold short_enough in S. cbn [wire_size] in S. lia.
  - assert (forall b, w_geo g = Ok b -> length b = 96%nat) as GL.
    { intros b Hb. unfold w_geo in Hb. mon Hb. winv. okinj Hb. repeat rewrite ?app_length, ?enc_length; cbn [length]; repeat rewrite ?app_length, ?enc_length. reflexivity. }
    rewrite (wrap_size (LGeo g a) 5 0 (let* ib := w_geo g in let* d := w_afi a in Ok (ib ++ d))) by (lia || reflexivity). split.
    + intros (R & [x Hx] & B). pose proof Hx as Hx'. bo Hx' gb E. bo Hx' d E0. okinj Hx'. destruct (B _ Hx) as (n & B1 & B2). pose proof (wire_size_spec _ _ E0).
      constructor; [apply w_geo_iff; eauto|apply IHa; eauto|]. unfold short_enough. cbn [wire_size]. rewrite app_length, (GL _ E) in B1. lia.
    + intros X. inversion X as [| | | | | | |i' a' I A S|]; subst. split; [lia|]. apply IHa in A. destruct A as [d A]. apply w_geo_iff in I. destruct I as [gb I].
      rewrite I. cbn [bind]. rewrite A. cbn [bind]. split; [eauto|]. intros x Hx. okinj Hx. exists (12 + wire_size a).
      rewrite app_length, (GL _ I). pose proof (wire_size_spec _ _ A). unfold short_enough in S. cbn [wire_size] in S. lia.
  - match goal with |- (exists b, w_afi ?x = _) <-> _ => let y := eval cbn [w_afi] in (w_afi x) in match y with lcaf_wrap _ _ ?d => rewrite (wrap_size x 7 0 d) by (lia || reflexivity) end end.
    split.
    + intros (R & [x Hx] & B). pose proof Hx as Hx'. bo Hx' y0 E. bo Hx' y1 E0. bo Hx' y2 E1. bo Hx' y3 E2. bo Hx' y4 E3. bo Hx' y5 E4. apply w_uint_ok in E. destruct E as [-> Hr]. apply w_uint_ok in E0. destruct E0 as [-> Hr0]. okinj Hx'. destruct (B _ Hx) as (n & B1 & B2).
      pose proof (wire_size_spec _ _ E1). pose proof (wire_size_spec _ _ E2). pose proof (wire_size_spec _ _ E3). pose proof (LS _ _ E4).
      constructor; [exact Hr|exact Hr0|apply IHa1; eauto|apply IHa2; eauto|apply IHa3; eauto|apply L; [assumption|eauto]|].
      unfold short_enough. cbn [wire_size]. repeat rewrite ?app_length, ?enc_length in B1. lia.
    + intros X. inversion X as [| | | | | | | |mp' ep' g' m' p' l' I1 I2 A1 A2 A3 A4 S]; subst. split; [lia|].
      apply IHa1 in A1. apply IHa2 in A2. apply IHa3 in A3. apply L in A4; [|assumption]. destruct A1 as [b1 A1], A2 as [b2 A2], A3 as [b3 A3], A4 as [b4 A4].
      rewrite w_uint_in by exact I1. cbn [bind]. rewrite w_uint_in by exact I2. cbn [bind]. rewrite A1, A2, A3, A4. cbn [bind]. split; [eauto|]. intros x Hx. okinj Hx.
      exists (wire_size (LNat mp ep a1 a2 a3 l) - 8). repeat rewrite ?app_length, ?enc_length.
      pose proof (wire_size_spec _ _ A1). pose proof (wire_size_spec _ _ A2). pose proof (wire_size_spec _ _ A3). pose proof (LS _ _ A4).
      unfold short_enough in S. cbn [wire_size] in S. cbn [wire_size]; lia.
Qed.
Print Assumptions C91_address.

(** ** records *)
Lemma good_locator_iff l : sanitize_loc l = Ok tt /\ loc_ip l /\ loc_range l <-> good_locator l.
Proof.
  split.
  - intros (S & (v & z & E) & R). pose proof (R _ _ E) as Rz. pose proof (proj1 (sanitize_loc_iff l v z E Rz) S) as (A & B & C & D & F).
    constructor; [repeat split; try apply A; try apply B; try apply C; apply D|eauto|rewrite E; exact F].
  - intros [(A & B & C & D) (v & z & E & Rz) F]. split; [|split].
    + apply (sanitize_loc_iff l v z E Rz). rewrite <- E. repeat split; try apply A; try apply B; try apply C; try apply D; exact F.
    + exists v, z. exact E.
    + intros v' z' E'. rewrite E in E'. injection E' as <- <-. exact Rz.
Qed.
Lemma locators_iff ls : Forall (fun l => sanitize_loc l = Ok tt) ls /\ Forall loc_ip ls /\ Forall loc_range ls <-> Forall good_locator ls.
Proof.
  rewrite !Forall_forall. split.
  - intros (A & B & C) l I. apply good_locator_iff. auto.
  - intros H. split; [|split]; intros l I; apply good_locator_iff; auto.
Qed.
Lemma concat_loc_ranges ls b : concatM w_loc ls = Ok b -> Forall loc_range ls.
Proof.
  intros H. apply concatM_ok in H. destruct H as (bs & H & _). induction H as [|x y l bs Hx Hl IH]; constructor; [|exact IH].
  intros v z E. eapply w_loc_range; eauto.
Qed.
Lemma san_locs ls : Forall good_locator ls -> checkM sanitize_loc ls = Ok tt /\ exists ls', sort_locs ls = Ok ls' /\ Permutation ls' ls.
Proof.
  intros H. apply locators_iff in H. destruct H as (A & B & C). split; [apply checkM_ok; auto|].
  exists (map snd (isort (map keyed ls))). split; [apply sort_locs_eq; exact B|apply sort_perm].
Qed.
Lemma mrec_iff r : obj_mrec r -> (exists b, w_mrec r = Ok b) <-> good_mrec r.
Proof.
  intros O. split.
  - intros [b H]. unfold w_mrec in H. bo H r' S. pose proof (sanitize_mrec_inv _ _ S) as (T & A & V & N & L & So & Eq).
    destruct (sort_locs_ok _ _ L So) as [Hip _]. destruct (sort_locs_idem _ _ L So) as [_ HP].
    unfold enc_mrec in H. bo H a E1. bo H b0 E2. bo H n E3. bo H c E4. bo H d E5. bo H e E6. bo H f E7. bo H g E8. clear H.
    apply w_uint_ok in E2. destruct E2 as [_ E2]. change (2 ^ Z.of_nat 8) with 256 in E2. unfold lenZ in E2. rewrite (Permutation_length HP) in E2.
    constructor.
    + unfold in_bits. change (2 ^ 32) with 4294967296. lia.
    + intros El. rewrite El in A. exact A.
    + unfold in_bits. change (2 ^ 12) with 4096. lia.
    + destruct (mr_eid r); try discriminate. eauto.
    + lia.
    + apply locators_iff. split; [exact L|]. split; [exact Hip|]. eapply Permutation_Forall; [exact HP|]. exact (concat_loc_ranges _ _ E8).
  - intros [T A V (v & z & n & N) C G]. destruct (san_locs _ G) as (K & ls' & So & HP).
    assert (exists r', sanitize_mrec r = Ok r') as [r' S].
    { unfold sanitize_mrec, guard, in_bits in *. change (2 ^ 32) with 4294967296 in T. change (2 ^ 12) with 4096 in V.
      replace ((0 <=? mr_ttl r) && (mr_ttl r <=? 4294967295)) with true by lia. cbn [bind].
      assert ((0 <=? (if nonempty (mr_locs r) then 0 else mr_action r)) && ((if nonempty (mr_locs r) then 0 else mr_action r) <=? 3) = true) as ->.
      { destruct (mr_locs r); cbn [nonempty]; [specialize (A eq_refl); lia|reflexivity]. }
      cbn [bind]. replace ((0 <=? mr_ver r) && (mr_ver r <? 4096)) with true by lia. cbn [bind]. rewrite N. cbn [is_net bind]. rewrite K. cbn [bind]. rewrite So. cbn [bind]. eauto. }
    destruct (w_mrec_total r') as [b Hb].
    + exact (sanitize_mrec_wf _ _ O S).
    + exact (sanitize_mrec_idem _ _ S).
    + pose proof (sanitize_mrec_inv _ _ S) as (_ & _ & _ & _ & _ & So' & _). rewrite So in So'. injection So' as ->.
      eapply Permutation_Forall; [symmetry; exact HP|]. apply locators_iff in G. tauto.
    + pose proof (sanitize_mrec_inv _ _ S) as (_ & _ & _ & _ & _ & So' & _). rewrite So in So'. injection So' as ->.
      unfold lenZ. rewrite (Permutation_length HP). lia.
    + exists b. unfold w_mrec in *. rewrite (sanitize_mrec_idem _ _ S) in Hb. rewrite S. exact Hb.
Qed.
Lemma good_locators_perm l l' : Permutation l l' -> Forall good_locator l -> Forall good_locator l'.
Proof. intros P H. eapply Permutation_Forall; eauto. Qed.
Lemma rrec_iff r : obj_rrec r -> (exists b, w_rrec r = Ok b) <-> good_rrec r.
Proof.
  intros O. split.
  - intros [b H]. unfold w_rrec in H. bo H r' S. pose proof (sanitize_rrec_inv _ _ S) as (T & A & V & Tab & _ & P & L & So & Eq).
    destruct (sort_locs_ok _ _ L So) as [Hip _]. destruct (sort_locs_idem _ _ L So) as [_ HP].
    unfold enc_rrec in H. bo H a E1. bo H b0 E2. bo H n E3. bo H c E4. bo H d E5. bo H sg E5'. bo H e E6. bo H f E7. bo H g E8. bo H [] E9. clear H.
    apply w_uint_ok in E2. destruct E2 as [_ E2]. change (2 ^ Z.of_nat 8) with 256 in E2. unfold lenZ in E2. rewrite (Permutation_length HP) in E2.
    constructor.
    + apply (referral_table_spec _ _ _ _ A). exact Tab.
    + unfold in_bits. change (2 ^ 12) with 4096. lia.
    + intros i x m Ei. assert (rr_eid r' = LInst i x m) as Er by (rewrite Eq; cbn [rr_eid]; rewrite Ei; reflexivity).
      rewrite Er in E7. assert (is_ok (w_afi (LInst i x m)) = true) as X by (rewrite E7; reflexivity). apply C91_address in X. inversion X; auto.
    + apply guard_ok in E9. assert (rr_sigs r' = rr_sigs r) as Er by (rewrite Eq; reflexivity). lia.
    + lia.
    + assert (Forall good_locator (rr_locs r)) as GL.
      { apply locators_iff. split; [exact L|]. split; [exact Hip|]. eapply Permutation_Forall; [exact HP|]. exact (concat_loc_ranges _ _ E8). }
      rewrite Forall_forall in *. auto.
  - intros [Row V I U C G]. assert (Forall good_locator (rr_locs r)) as GL by (eapply Forall_impl; [|exact G]; cbn; tauto).
    destruct (san_locs _ GL) as (K & ls' & So & HP). destruct O as (O1 & O2 & O3). pose proof O2 as O2'.
    assert (0 <= rr_action r <= 5 /\ 0 <= rr_ttl r <= 4294967295) as [Ha Ht] by (inversion Row; lia).
    destruct (norm_eid_ok _ O2) as (i & v & z & n & m & En & Hwf).
    assert (exists r', sanitize_rrec r = Ok r') as [r' S].
    { unfold sanitize_rrec, guard, in_bits in *. change (2 ^ 12) with 4096 in V.
      replace ((0 <=? rr_ttl r) && (rr_ttl r <=? 4294967295)) with true by lia. cbn [bind].
      replace ((0 <=? rr_action r) && (rr_action r <=? 5)) with true by lia. cbn [bind].
      apply (referral_table_spec _ _ _ _ Ha) in Row. change (nonempty (rr_locs r)) with (has_locators (rr_locs r)). rewrite Row. cbn [bind].
      replace ((0 <=? rr_ver r) && (rr_ver r <? 4096)) with true by lia. cbn [bind].
      assert (exists e, match rr_eid r with LInst i a m => Ok (LInst i a m) | ANet v z n => Ok (LInst 0 (ANet v z n) 32) | _ => Err EValue end = Ok e) as [e ->].
      { destruct (rr_eid r); try discriminate; eauto; cbn in O2; destruct O2. }
      cbn [bind]. match goal with |- context [checkM ?f ?l] => assert (checkM f l = Ok tt) as -> end.
      { apply checkM_ok. split; [reflexivity|]. rewrite Forall_forall in *. intros l Il. destruct (G l Il) as [Gl ->]. cbn [negb bind]. apply good_locator_iff. exact Gl. }
      cbn [bind]. rewrite So. cbn [bind]. eauto. }
    pose proof (sanitize_rrec_inv _ _ S) as (_ & _ & _ & _ & _ & _ & _ & So' & Eq). rewrite So in So'. injection So' as ->.
    destruct (w_rrec_total r' i v z n m) as [b Hb].
    + apply (sanitize_rrec_wf r); [repeat split; assumption|exact S].
    + exact (sanitize_rrec_idem _ _ S).
    + eapply Permutation_Forall; [symmetry; exact HP|]. apply locators_iff in GL. tauto.
    + unfold lenZ. rewrite (Permutation_length HP). lia.
    + rewrite Eq. exact En.
    + destruct (rr_eid r) as [| |v' z' n'| | |i' a' m'| | |] eqn:Ee; cbn in En; try discriminate.
      * injection En as <- <- <- <- <-. cbn. lia.
      * injection En as -> -> ->. exact (proj1 (I _ _ _ eq_refl)).
    + destruct (rr_eid r) as [| |v' z' n'| | |i' a' m'| | |] eqn:Ee; cbn in En; try discriminate.
      * injection En as <- <- <- <- <-. cbn. lia.
      * injection En as -> -> ->. exact (proj2 (I _ _ _ eq_refl)).
    + rewrite Eq. exact U.
    + exists b. unfold w_rrec in *. rewrite (sanitize_rrec_idem _ _ S) in Hb. rewrite S. exact Hb.
Qed.
(** records of a message are sanitised together and then written *)
Section Many.
Context {A : Type}.
Variable (san : A -> res A) (w : A -> res bits) (obj good : A -> Prop).
Hypothesis Hsan : forall r b, w r = Ok b -> exists r', san r = Ok r'.
Hypothesis Hw : forall r r', san r = Ok r' -> w r' = w r.
Hypothesis Hiff : forall r, obj r -> (exists b, w r = Ok b) <-> good r.
Lemma many_iff l : Forall obj l -> (exists rs, mapM san l = Ok rs /\ length rs = length l /\ exists b, concatM w rs = Ok b) <-> Forall good l.
Proof.
  intros O. split.
  - intros (rs & M & _ & C). apply concatM_iff in C. apply mapM_Forall2 in M. induction M as [|x y l rs Hx Hl IH]; constructor.
    + inversion O; subst. inversion C; subst. apply Hiff; [assumption|]. rewrite <- (Hw _ _ Hx). assumption.
    + inversion O; subst. inversion C; subst. auto.
  - intros G. induction G as [|x l Gx Gl IH]; [exists []; repeat split; exists []; reflexivity|].
    inversion O as [|? ? Ox Ol]; subst. destruct (IH Ol) as (rs & M & L & C). apply (Hiff x Ox) in Gx. destruct Gx as [b Hb].
    destruct (Hsan _ _ Hb) as [x' Hx']. exists (x' :: rs). cbn [mapM]. rewrite Hx'. cbn [bind]. rewrite M. split; [reflexivity|]. split; [cbn; congruence|].
    apply concatM_iff. constructor; [exists b; rewrite (Hw _ _ Hx'); exact Hb|]. apply concatM_iff. exact C.
Qed.
End Many.
Lemma mrecs_iff l : Forall obj_mrec l -> (exists rs, mapM sanitize_mrec l = Ok rs /\ length rs = length l /\ exists b, concatM w_mrec rs = Ok b) <-> Forall good_mrec l.
Proof.
  apply many_iff with (w := w_mrec) (obj := obj_mrec).
  - intros r b H. unfold w_mrec in H. bo H r' S. eauto.
  - intros r r' S. unfold w_mrec. rewrite S, (sanitize_mrec_idem _ _ S). reflexivity.
  - exact mrec_iff.
Qed.
Lemma rrecs_iff l : Forall obj_rrec l -> (exists rs, mapM sanitize_rrec l = Ok rs /\ length rs = length l /\ exists b, concatM w_rrec rs = Ok b) <-> Forall good_rrec l.
Proof.
  apply many_iff with (w := w_rrec) (obj := obj_rrec).
  - intros r b H. unfold w_rrec in H. bo H r' S. eauto.
  - intros r r' S. unfold w_rrec. rewrite S, (sanitize_rrec_idem _ _ S). reflexivity.
  - exact rrec_iff.
Qed.
Lemma bytes_iff {A} (w : A -> res bits) (P : A -> Prop) m : P m -> (forall b, P m -> w m = Ok b -> al8 b) ->
  is_ok (to_bytes w m) = true <-> exists b, w m = Ok b.
Proof.
  intros O H. rewrite is_ok_iff. unfold to_bytes. rewrite bind_iff. split; [intros (a & E & _); eauto|].
  intros [b Hb]. exists b. split; [exact Hb|]. exact (al8_out _ (H _ O Hb)).
Qed.
(** ** C91 *)
Theorem C91_records : (forall r, obj_mrec r -> is_ok (mrec_to_bytes r) = true <-> good_mrec r) /\
  (forall r, obj_rrec r -> is_ok (rrec_to_bytes r) = true <-> good_rrec r).
Proof.
  split; intros r O.
  - unfold mrec_to_bytes. rewrite (bytes_iff w_mrec obj_mrec r O (fun b => al8_mrec r b)). exact (mrec_iff r O).
  - unfold rrec_to_bytes. rewrite (bytes_iff w_rrec obj_rrec r O (fun b => al8_rrec r b)). exact (rrec_iff r O).
Qed.
Theorem C91_map_reply : forall m, obj_mrep m -> is_ok (mrep_to_bytes m) = true <-> good_mrep m.
Proof.
  intros m O. unfold mrep_to_bytes. rewrite (bytes_iff w_mrep obj_mrep m O (fun b => al8_mrep m b)). destruct O as [_ O]. unfold w_mrep, sanitize_mrep. split.
  - intros [b H]. bo H m' E. bo E [] E1. bo E [] E2. bo E rs E3. okinj E. cbn [p_records p_security p_nonce] in H. bo H t F1. bo H c F2. bo H x F3. clear H.
    apply guard_ok in E1, E2. apply w_uint_ok in F2. destruct F2 as [_ F2]. change (2 ^ Z.of_nat 8) with 256 in F2.
    pose proof (mapM_length _ _ _ E3) as L. unfold lenZ in F2. unfold blen in E2. constructor; unfold nonce_of.
    + destruct (p_security m); [discriminate|reflexivity].
    + lia.
    + split; [lia|]. apply mrecs_iff; [exact O|]. eauto.
  - intros [S N [L G]]. apply mrecs_iff in G; [|exact O]. destruct G as (rs & M & Lr & [b C]). unfold nonce_of in N.
    rewrite S. cbn [negb guard bind]. replace ((blen (p_nonce m) =? 3) || (blen (p_nonce m) =? 8)) with true by (unfold blen; lia). cbn [guard bind].
    rewrite M. cbn [bind p_records p_security]. rewrite w_uint_in by (cbn; lia). cbn [bind]. rewrite w_uint_in by (change (2 ^ Z.of_nat 8) with 256; unfold lenZ; lia).
    cbn [bind]. rewrite C. cbn [bind]. cbn [negb guard bind]. eauto.
Qed.
Lemma key_ok_spec k : key_ok k = true <-> known_key_id k.
Proof. unfold key_ok, known_key_id. lia. Qed.
Lemma authdata_iff k a : (exists b, w_authdata k a = Ok b) <-> (0 <= k < 65536 /\ Z.of_nat (length a) <= 65535).
Proof.
  unfold w_authdata. split.
  - intros [b H]. mon H. winv. change (2 ^ Z.of_nat 16) with 65536 in *. unfold blen in *. lia.
  - intros [K L]. rewrite w_uint_in by exact K. cbn [bind]. rewrite w_uint_in by (change (2 ^ Z.of_nat 16) with 65536; unfold blen; lia). cbn [bind]. eauto.
Qed.
Theorem C91_map_register : forall m, obj_mreg m -> is_ok (mreg_to_bytes m) = true <-> good_mreg m.
Proof.
  intros m O. unfold mreg_to_bytes. rewrite (bytes_iff w_mreg obj_mreg m O (fun b => al8_mreg m b)). destruct O as (_ & _ & _ & O). unfold w_mreg, sanitize_mreg. split.
  - intros [b H]. bo H m' E. bo E [] E1. bo E [] E2. bo E [] E3. bo E rs E4. okinj E. cbn [g_records g_key g_authdata] in H. bo H t F1. bo H c F2. bo H au F3. bo H x F4. clear H.
    apply guard_ok in E1, E2, E3. rewrite fits_spec in E1, E2. apply w_uint_ok in F2. destruct F2 as [_ F2]. change (2 ^ Z.of_nat 8) with 256 in F2.
    assert (exists b, w_authdata (g_key m) (g_authdata m) = Ok b) as A by eauto. apply authdata_iff in A.
    pose proof (mapM_length _ _ _ E4) as L. unfold lenZ in F2. constructor.
    + split; assumption.
    + split; [apply key_ok_spec; exact E3|tauto].
    + split; [lia|]. apply mrecs_iff; [exact O|]. eauto.
  - intros [[X S] [K A] [L G]]. apply mrecs_iff in G; [|exact O]. destruct G as (rs & M & Lr & [b C]).
    rewrite (proj2 (fits_spec 128 (g_xtr m)) X), (proj2 (fits_spec 64 (g_site m)) S), (proj2 (key_ok_spec _) K). cbn [guard bind].
    rewrite M. cbn [bind g_records g_key g_authdata]. rewrite w_uint_in by (cbn; lia). cbn [bind]. rewrite w_uint_in by (change (2 ^ Z.of_nat 8) with 256; unfold lenZ; lia).
    cbn [bind]. destruct (proj2 (authdata_iff (g_key m) (g_authdata m))) as [au ->]; [unfold known_key_id in K; lia|]. cbn [bind]. rewrite C. cbn [bind].
    unfold g_has_xtr. cbn [g_xtr g_site g_rtr]. destruct (w_xtr_total (negb (g_xtr m =? 0) || negb (g_site m =? 0) || g_rtr m) _ _ X S) as [xb ->]. cbn [bind]. eauto.
Qed.
Theorem C91_map_notify : forall m, obj_mnot m -> is_ok (mnot_to_bytes m) = true <-> good_mnot m.
Proof.
  intros m O. unfold mnot_to_bytes. rewrite (bytes_iff w_mnot obj_mnot m O (fun b => al8_mnot m b)). destruct O as (_ & O). unfold w_mnot, sanitize_mnot. split.
  - intros [b H]. bo H m' E. bo E [] E1. bo E [] E2. bo E [] E2'. bo E [] E3. bo E rs E4. okinj E. cbn [n_records n_key n_authdata] in H. bo H t F1. bo H c F2. bo H au F3. bo H x F4. clear H.
    apply guard_ok in E1, E2, E2', E3. rewrite fits_spec in E1, E2. apply w_uint_ok in F2. destruct F2 as [_ F2]. change (2 ^ Z.of_nat 8) with 256 in F2.
    assert (exists b, w_authdata (n_key m) (n_authdata m) = Ok b) as A by eauto. apply authdata_iff in A.
    pose proof (mapM_length _ _ _ E4) as L. unfold lenZ in F2. unfold blen in E2'. constructor.
    + split; assumption.
    + unfold nonce_of. lia.
    + split; [apply key_ok_spec; exact E3|tauto].
    + split; [lia|]. apply mrecs_iff; [exact O|]. eauto.
  - intros [[X S] N [K A] [L G]]. apply mrecs_iff in G; [|exact O]. destruct G as (rs & M & Lr & [b C]). unfold nonce_of in N.
    rewrite (proj2 (fits_spec 128 (n_xtr m)) X), (proj2 (fits_spec 64 (n_site m)) S), (proj2 (key_ok_spec _) K).
    replace (blen (n_nonce m) =? 8) with true by (unfold blen; lia). cbn [guard bind].
    rewrite M. cbn [bind n_records n_key n_authdata]. rewrite w_uint_in by (cbn; lia). cbn [bind]. rewrite w_uint_in by (change (2 ^ Z.of_nat 8) with 256; unfold lenZ; lia).
    cbn [bind]. destruct (proj2 (authdata_iff (n_key m) (n_authdata m))) as [au ->]; [unfold known_key_id in K; lia|]. cbn [bind]. rewrite C. cbn [bind].
    unfold n_has_xtr. cbn [n_xtr n_site]. destruct (w_xtr_total (negb (n_xtr m =? 0) || negb (n_site m =? 0)) _ _ X S) as [xb ->]. cbn [bind]. eauto.
Qed.
Theorem C91_map_referral : forall m, obj_mref m -> is_ok (mref_to_bytes m) = true <-> good_mref m.
Proof.
  intros m O. unfold mref_to_bytes. rewrite (bytes_iff w_mref obj_mref m O (fun b => al8_mref m b)). destruct O as (_ & O). unfold w_mref, sanitize_mref. split.
  - intros [b H]. bo H m' E. bo E [] E1. bo E rs E3. okinj E. cbn [f_records f_nonce] in H. bo H t F1. bo H c F2. bo H x F3. clear H.
    apply guard_ok in E1. apply w_uint_ok in F2. destruct F2 as [_ F2]. change (2 ^ Z.of_nat 8) with 256 in F2.
    pose proof (mapM_length _ _ _ E3) as L. unfold lenZ in F2. unfold blen in E1. constructor; unfold nonce_of.
    + lia.
    + split; [lia|]. apply rrecs_iff; [exact O|]. eauto.
  - intros [N [L G]]. apply rrecs_iff in G; [|exact O]. destruct G as (rs & M & Lr & [b C]). unfold nonce_of in N.
    replace (blen (f_nonce m) =? 8) with true by (unfold blen; lia). cbn [guard bind].
    rewrite M. cbn [bind f_records]. rewrite w_uint_in by (cbn; lia). cbn [bind]. rewrite w_uint_in by (change (2 ^ Z.of_nat 8) with 256; unfold lenZ; lia).
    cbn [bind]. rewrite C. cbn [bind]. eauto.
Qed.

Theorem C91_info : forall m, obj_info m -> is_ok (info_to_bytes m) = true <-> good_info m.
Proof.
  intros m O. assert (wf_info m) as W.
  { destruct O as (O1 & O2 & O3 & O4). repeat split; try assumption. intros b Hb. apply afi_roundtrip; assumption. }
  unfold info_to_bytes. rewrite (bytes_iff w_info wf_info m W (fun b => al8_info m b)). destruct O as (_ & _ & We & _). unfold w_info, sanitize_info. split.
  - intros [b H]. bo H m' E. bo E [] E1. bo E [] E2. bo E [] E3. bo E [] E4. bo E [] E5. okinj E. bo H t F1. bo H au F2. bo H ttl F3. bo H n F4. bo H ml F5. bo H e F6. bo H d F7. clear H.
    apply guard_ok in E1, E2, E3, E4. assert (exists b, w_authdata (i_key m) (i_authdata m) = Ok b) as A by eauto. apply authdata_iff in A. unfold blen in E1.
    constructor.
    + unfold nonce_of. lia.
    + split; [apply key_ok_spec; exact E2|tauto].
    + unfold in_bits. change (2 ^ 32) with 4294967296. lia.
    + destruct (i_eid m); try discriminate. eauto.
    + destruct (i_reply m).
      * split; [apply C91_address; rewrite F7; reflexivity|]. destruct (i_data m); try discriminate. eauto 10.
      * destruct (i_data m); try discriminate. reflexivity.
  - intros [N [K A] T (v & z & n & E) D]. unfold nonce_of in N. unfold in_bits in T. change (2 ^ 32) with 4294967296 in T.
    replace (blen (i_nonce m) =? 8) with true by (unfold blen; lia). rewrite (proj2 (key_ok_spec _) K).
    replace ((0 <=? i_ttl m) && (i_ttl m <=? 4294967295)) with true by lia. cbn [guard bind]. rewrite E in *. cbn [is_net guard bind].
    assert ((if i_reply m then match i_data m with LNat _ _ _ _ _ _ => Ok tt | _ => Err EValue end else match i_data m with ANone => Ok tt | _ => Err EValue end) = Ok tt /\ exists d, w_afi (i_data m) = Ok d) as [-> [d Hd]].
    { destruct (i_reply m).
      - destruct D as (D & mp & ep & g & s & p & l & Ed). rewrite Ed in *. split; [reflexivity|]. apply is_ok_iff, C91_address. exact D.
      - rewrite D. split; [reflexivity|]. exists (zeros 16). reflexivity. }
    cbn [bind]. rewrite w_uint_in by (cbn; lia). cbn [bind]. destruct (proj2 (authdata_iff (i_key m) (i_authdata m))) as [au ->]; [unfold known_key_id in K; lia|]. cbn [bind].
    rewrite w_uint_in by (change (2 ^ Z.of_nat 32) with 4294967296; lia). cbn [bind]. rewrite E. cbn [prefixlen bind].
    cbn [wf_addr wf_ip] in We. rewrite !andb_true_iff, fits_spec in We. destruct We as [[[Wz W1] W2] _].
    rewrite w_uint_in by (rewrite wz_eq in W2; change (2 ^ Z.of_nat 8) with 256; destruct v; lia). cbn [bind]. rewrite w_net_enc by exact Wz. cbn [bind]. rewrite Hd. cbn [bind]. eauto.
Qed.
Lemma ip_network_iff e p : ip_network e = Ok p <-> as_prefix e p.
Proof.
  split.
  - revert p. induction e using addr_ind'; intros p Hp; cbn [ip_network] in Hp; try discriminate; try (destruct (fmt_raises _); discriminate).
    + injection Hp as <-. constructor.
    + injection Hp as <-. constructor.
    + destruct (Z.eqb_spec i 0) as [->|]; [constructor; auto|]. destruct (fmt_raises e); discriminate.
  - induction 1; cbn [ip_network]; try reflexivity. exact IHas_prefix.
Qed.
Lemma as_prefix_net e p : as_prefix e p -> exists v z n, p = ANet v z n.
Proof. induction 1; eauto. Qed.
Lemma as_prefix_wf e p : as_prefix e p -> wf_addr e = true -> wf_ip p = true.
Proof.
  induction 1; intros W; cbn [wf_addr wf_ip] in *; auto.
  rewrite W. unfold mask_to. rewrite Z.sub_diag, Z.pow_0_r, Z.div_1_r, Z.mul_1_r, Z.eqb_refl. destruct v; reflexivity.
Qed.
Lemma w_eid_iff e : wf_addr e = true -> (exists b, w_eid e = Ok b) <-> exists p, as_prefix e p.
Proof.
  intros W. split.
  - intros [b H]. unfold w_eid in H. bo H p E. exists p. apply ip_network_iff. exact E.
  - intros [p P]. pose proof (as_prefix_net _ _ P) as (v & z & n & ->). assert (wf_ip (ANet v z n) = true) as Wp.
    { exact (as_prefix_wf _ _ P W). }
    apply ip_network_iff in P. unfold w_eid. rewrite P. cbn [bind prefixlen]. cbn [wf_ip] in Wp. rewrite !andb_true_iff, fits_spec in Wp. destruct Wp as [[[Wz W1] W2] _].
    rewrite w_uint_in by (rewrite wz_eq in W2; change (2 ^ Z.of_nat 8) with 256; destruct v; lia). cbn [bind]. rewrite w_net_enc by exact Wz. cbn [bind]. eauto.
Qed.
Lemma addresses_of_leaves a l : addresses_of a = l <-> leaves a l.
Proof.
  unfold addresses_of. destruct (is_lcaf a) eqn:E; [apply C06_get_addresses|]. split.
  - intros <-. constructor. exact E.
  - intros H. inversion H; subst; cbn in E; congruence.
Qed.
Theorem C91_map_request : forall m, obj_mreq m -> is_ok (mreq_to_bytes m) = true <-> good_mreq m.
Proof.
  intros m O. assert (wf_mreq m) as W.
  { destruct O as (O1 & O2 & O3 & O4). repeat split; try assumption. intros b Hb. apply afi_roundtrip; assumption. }
  unfold mreq_to_bytes. rewrite (bytes_iff w_mreq wf_mreq m W (fun b => al8_mreq m b)). destruct O as (_ & _ & We & Or). unfold w_mreq, sanitize_mreq. split.
  - intros [b H]. bo H m' E. bo E [] E1. bo E [] E2. bo E [] E3. bo E [] E4. bo E [] E5. bo E [] E6. bo E rep E7. okinj E.
    cbn [q_rlocs q_eids q_src q_reply q_nonce] in H. bo H t F1. bo H irc F2. bo H cnt F3. bo H src F4. bo H rl F5. bo H ei F6. bo H re F7. clear H.
    apply guard_ok in E1, E2, E3. unfold lenZ, blen in *. apply checkM_ok in E5. destruct E5 as [_ E5].
    constructor.
    + split; [lia|]. assert (exists b, concatM w_afi (q_rlocs m) = Ok b) as C by eauto. apply concatM_iff in C.
      rewrite Forall_forall in *. intros a I. specialize (E5 a I). specialize (C a I). apply guard_ok in E5. destruct a as [|v z| | | | | | |]; try discriminate.
      exists v, z. split; [reflexivity|]. apply is_ok_iff, C91_address in C. inversion C; assumption.
    + split; [lia|]. assert (exists b, concatM w_eid (q_eids m) = Ok b) as C by eauto. apply concatM_iff in C.
      rewrite forallb_forall in We. rewrite Forall_forall in *. intros a I. apply w_eid_iff; auto.
    + unfold nonce_of. lia.
    + assert (encodable (q_src m)) as Es by (apply C91_address; rewrite F4; reflexivity).
      assert (q_src m = ANone \/ exists x, addresses_of (q_src m) = [x] /\ is_ip x = true) as X.
      { clear - E4. destruct (q_src m); [left; reflexivity| | | | | | | |]; right;
          match type of E4 with match ?l with _ => _ end = _ => destruct l as [|x [|]]; try discriminate end;
          exists x; apply guard_ok in E4; auto. }
      destruct X as [X|(x & X & Ix)]; [left; exact X|right]. split; [exact Es|]. destruct x as [|vx zx| | | | | | |]; try discriminate.
      exists vx, zx. apply addresses_of_leaves. exact X.
    + destruct (q_reply m) as [r|]; [|exact I]. bo E7 r' S. okinj E7. cbn [obj_opt] in Or. apply mrec_iff; [exact Or|]. exists re.
      unfold w_mrec in *. rewrite (sanitize_mrec_idem _ _ S) in F7. rewrite S. exact F7.
  - intros [[L1 R] [L2 Ei] N S Re]. unfold nonce_of in N. unfold lenZ.
    replace ((1 <=? Z.of_nat (length (q_rlocs m))) && (Z.of_nat (length (q_rlocs m)) <=? 32)) with true by lia.
    replace ((1 <=? Z.of_nat (length (q_eids m))) && (Z.of_nat (length (q_eids m)) <=? 32)) with true by lia.
    replace (blen (q_nonce m) =? 8) with true by (unfold blen; lia). cbn [guard bind].
    assert (match q_src m with ANone => Ok tt | s => match addresses_of s with [x] => guard (is_ip x) EValue | _ => Err EValue end end = Ok tt /\ exists b, w_afi (q_src m) = Ok b) as [-> [sb Hs]].
    { destruct S as [-> |[Es (v & z & Lv)]]; [split; [reflexivity|exists (zeros 16); reflexivity]|]. split; [|apply is_ok_iff, C91_address; exact Es].
      apply addresses_of_leaves in Lv. destruct (q_src m); try reflexivity; rewrite Lv; reflexivity. }
    cbn [bind]. assert (checkM (fun a => guard (is_ip a) EValue) (q_rlocs m) = Ok tt) as ->.
    { apply checkM_ok. split; [reflexivity|]. eapply Forall_impl; [|exact R]. intros a (v & z & -> & _). reflexivity. }
    cbn [bind]. match goal with |- context [checkM ?f (q_eids m)] => assert (checkM f (q_eids m) = Ok tt) as -> end.
    { apply checkM_ok. split; [reflexivity|]. eapply Forall_impl; [|exact Ei]. intros e [p P]. apply checkM_ok. split; [reflexivity|].
      assert (exists x, addresses_of e = [x] /\ (is_ip x || is_net x) = true) as (x & -> & Hx); [|constructor; [rewrite Hx; reflexivity|constructor]].
      induction P as [v z|v z n|a p m0 P IH]; [exists (AIP v z); auto|exists (ANet v z n); auto|]. destruct IH as (x & Ex & Hx).
      exists x. split; [|exact Hx]. unfold addresses_of in *. cbn [is_lcaf get_addresses]. destruct a; exact Ex. }
    cbn [bind]. assert (exists r' rb, match q_reply m with None => Ok None | Some r => let* r' := sanitize_mrec r in Ok (Some r') end = Ok r' /\ match r' with None => Ok [] | Some r => w_mrec r end = Ok rb) as (rep & rb & -> & Hrb).
    { destruct (q_reply m) as [r|]; [|exists None, []; auto]. cbn [obj_opt] in Or. apply mrec_iff in Re; [|exact Or]. destruct Re as [rb Hb].
      unfold w_mrec in Hb. bo Hb r' Sr. exists (Some r'), rb. rewrite Sr. split; [reflexivity|]. unfold w_mrec. rewrite (sanitize_mrec_idem _ _ Sr). exact Hb. }
    cbn [bind q_rlocs q_eids q_src q_reply]. rewrite w_uint_in by (cbn; lia). cbn [bind].
    rewrite w_uint_in by (change (2 ^ Z.of_nat 5) with 32; lia). cbn [bind]. rewrite w_uint_in by (change (2 ^ Z.of_nat 8) with 256; lia). cbn [bind].
    rewrite Hs. cbn [bind]. destruct (proj2 (concatM_iff w_afi (q_rlocs m))) as [b1 ->].
    { eapply Forall_impl; [|exact R]. intros a (v & z & -> & Rz). apply is_ok_iff, C91_address. constructor. exact Rz. }
    cbn [bind]. destruct (proj2 (concatM_iff w_eid (q_eids m))) as [b2 ->].
    { rewrite forallb_forall in We. rewrite Forall_forall in *. intros a I. apply w_eid_iff; auto. }
    cbn [bind]. rewrite Hrb. cbn [bind]. eauto.
Qed.
(** examples *)
Definition ok_loc : loc := Loc 1 100 255 0 (repeat false 13) true false true (AIP V4 167772161).
Definition ok_rec : mrec := MRec 1440 0 true (repeat false 16) 0 (ANet V4 167772160 8) [ok_loc].
Lemma ok_rec_good : good_mrec ok_rec.
Proof.
  constructor; cbn; try lia; try (unfold in_bits; lia); eauto. constructor; [|constructor].
  apply good_locator_iff. split; [reflexivity|]. split; [exists V4, 167772161; reflexivity|]. intros v z E. injection E as <- <-. cbn. lia.
Qed.
Example C91_example_reply : let m := MRep false false false (repeat false 17) (B [1;2;3]) [ok_rec; ok_rec] in obj_mrep m /\ good_mrep m.
Proof.
  cbn zeta. split.
  - split; [reflexivity|]. repeat constructor.
  - constructor; [reflexivity|left; reflexivity|]. split; [cbn; lia|]. constructor; [exact ok_rec_good|]. constructor; [exact ok_rec_good|constructor].
Qed.
Example C91_example_request : let m := MReq false true false false false (repeat false 9) (B [1;2;3;4;5;6;7;8]) (LInst 5 (AIP V4 9) 0) (repeat (AIP V6 1) 32) [AIP V4 7; LInst 0 (ANet V6 0 16) 0] (Some ok_rec) in obj_mreq m /\ good_mreq m.
Proof.
  cbn zeta. split.
  - repeat split; repeat constructor.
  - constructor; cbn [q_rlocs q_eids q_nonce q_src q_reply].
    + split; [cbn; lia|]. apply Forall_forall. intros a I. apply repeat_spec in I. subst. exists V6, 1. split; [reflexivity|]. unfold in_bits. cbn. lia.
    + split; [cbn; lia|]. repeat constructor; eexists; repeat constructor.
    + reflexivity.
    + right. split; [apply C91_address; reflexivity|]. exists V4, 9. apply addresses_of_leaves. reflexivity.
    + exact ok_rec_good.
Qed.
(** a list of 4000 IPv6 addresses does not fit in an LCAF *)
Example C91_example_too_long : ~ encodable (LList (repeat (AIP V6 1) (Z.to_nat 4000))).
Proof.
  intros H. inversion H as [| | | |l A S| | | |]; subst. unfold short_enough in S. vm_compute in S. apply S. reflexivity.
Qed.
Print Assumptions C91_records.
Print Assumptions C91_map_request.
Print Assumptions C91_map_reply.
Print Assumptions C91_map_register.
Print Assumptions C91_map_notify.
Print Assumptions C91_map_referral.
Print Assumptions C91_info.
