(** * Property C56: the DDT root loader *)
From Verif Require Import Base BaseLemmas Afi Spec Records Control SpecRec Tree SpecTree TreeProofs PropTree PropTree2 MapServer Ddt SpecDdt.

Lemma assoc_put_same {A} k (x : A) d : assoc k (put k x d) = Some x.
Proof.
  induction d as [|[j y] d IH]; cbn; [rewrite Z.eqb_refl; reflexivity|].
  destruct (Z.eqb_spec j k) as [->|N]; cbn; [rewrite Z.eqb_refl; reflexivity|].
  destruct (Z.eqb_spec j k); [congruence|exact IH].
Qed.
Lemma assoc_put_other {A} k k' (x : A) d : k <> k' -> assoc k (put k' x d) = assoc k d.
Proof.
  intros N. induction d as [|[j y] d IH]; cbn.
  - destruct (Z.eqb_spec k' k); [congruence|reflexivity].
  - destruct (Z.eqb_spec j k') as [->|]; cbn.
    + destruct (Z.eqb_spec k' k); [congruence|reflexivity].
    + destruct (j =? k); [reflexivity|exact IH].
Qed.

Lemma root_of_put cfg iid afi r iid' afi' :
  root_of (put iid (put afi r (match assoc iid cfg with Some i => i | None => [] end))
            (put iid (match assoc iid cfg with Some i => i | None => [] end) cfg)) iid' afi' =
  if (iid' =? iid) && (afi' =? afi) then Some r else root_of cfg iid' afi'.
Proof.
  unfold root_of. destruct (Z.eqb_spec iid' iid) as [->|N]; cbn.
  - rewrite assoc_put_same. destruct (Z.eqb_spec afi' afi) as [->|N'].
    + apply assoc_put_same.
    + rewrite assoc_put_other by exact N'. destruct (assoc iid cfg); reflexivity.
  - rewrite !assoc_put_other by exact N. reflexivity.
Qed.


Lemma wf_zero v : wf_pfx (Pfx v 0 0).
Proof.
  pose proof (wz_pos v). unfold wf_pfx, aligned. cbn [x_len x_fam x_net].
  split; [lia|]. split; [split; [lia|apply Z.pow_pos_nonneg; lia]|apply Z.mod_0_l, Z.pow_nonzero; lia].
Qed.
Lemma inside_zero q v : wf_pfx q -> x_fam q = v -> inside q (Pfx v 0 0).
Proof.
  intros Hq Hf. apply longer_inside; [exact Hq|apply wf_zero|cbn; apply Hq|].
  intros A. apply (A v (x_first q)). split.
  - rewrite <- Hf. apply in_first, Hq.
  - apply in_pfx_interval; [apply wf_zero|]. split; [reflexivity|]. unfold x_first, x_last; cbn [x_net x_len x_fam]. destruct Hq as (_ & H & _).
    rewrite Hf in H. rewrite Z.sub_0_r. lia.
Qed.

(** children of a root made by the loader *)
Definition is_leaf (D : delegation -> Prop) (iid afi : Z) (c : node) : Prop :=
  exists j q d, c = Node j q (NReferral d) [] /\ wf_pfx q /\ (exists x, D (iid, afi, q, x)) /\ NoDup d /\
    forall a, In a d <-> exists v z, a = AIP v z /\ D (iid, afi, q, (v, z)).
Definition root_inv (D : delegation -> Prop) (next : nat) (iid afi : Z) (n : node) : Prop :=
  exists i v ch, n = Node i (Pfx v 0 0) (NAuth []) ch /\ fam_afi afi v /\
    NoDup (i :: map n_id ch) /\ (forall j, In j (i :: map n_id ch) -> j < next)%nat /\
    ForallOrdPairs (fun a b => apart (n_pfx a) (n_pfx b)) ch /\
    (forall c, In c ch -> x_fam (n_pfx c) = v /\ is_leaf D iid afi c) /\
    (forall q x, D (iid, afi, q, x) -> exists c, In c ch /\ n_pfx c = q).
Definition inv (D : delegation -> Prop) (s : ld) : Prop :=
  forall iid afi, match root_of (fst s) iid afi with
                  | None => forall q x, ~ D (iid, afi, q, x)
                  | Some n => root_inv D (snd s) iid afi n
                  end.

Lemma root_tidy D next iid afi n : root_inv D next iid afi n -> tidy n.
Proof.
  intros (i & v & ch & -> & _ & _ & _ & FP & L & _). constructor; [apply wf_zero|discriminate|exact FP| |].
  - intros c Hc. destruct (L c Hc) as [Hv (j & q & d & -> & Hq & _)]. apply inside_zero; assumption.
  - intros c Hc. destruct (L c Hc) as [Hv (j & q & d & -> & Hq & _)]. constructor; [exact Hq|reflexivity|constructor| |]; intros x [].
Qed.

(** lookup in such a root *)
Lemma root_resolve D next iid afi i v ch q : root_inv D next iid afi (Node i (Pfx v 0 0) (NAuth []) ch) -> wf_pfx q -> x_fam q = v ->
  resolve (Node i (Pfx v 0 0) (NAuth []) ch) q =
  match filter (fun c => overlaps q (n_pfx c)) ch with
  | [] => Ok (Node i (Pfx v 0 0) (NAuth []) ch)
  | [c] => if (x_first (n_pfx c) <=? x_first q) && (x_last (n_pfx c) >=? x_last q) then Ok c else Ok (Node i (Pfx v 0 0) (NAuth []) ch)
  | _ => Err EMoreSpecifics
  end.
Proof.
  intros R Hq Hv. unfold resolve. rewrite resolve_path_eq. unfold find_one, find_all. cbn [n_pfx n_ch].
  assert (inside_test (Pfx v 0 0) q = true) as -> by (apply inside_test_spec; [apply wf_zero|exact Hq|apply inside_zero; assumption]).
  cbn [guard bind]. destruct (filter _ ch) as [|c [|c2 r]] eqn:E; cbn [bind]; try reflexivity.
  destruct (_ && _); cbn [bind]; [|reflexivity].
  assert (In c ch) as Hc by (assert (In c (filter (fun c => overlaps q (n_pfx c)) ch)) as X by (rewrite E; left; reflexivity); apply filter_In in X; tauto).
  destruct R as (i' & v' & ch' & [= <- <- <-] & _ & _ & _ & _ & L & _). destruct (L c Hc) as [_ (j & p & d & -> & _)]. reflexivity.
Qed.

Lemma pairs_apart {A} (R : A -> A -> Prop) l x y : (forall a b, R a b -> R b a) -> ForallOrdPairs R l -> In x l -> In y l -> x = y \/ R x y.
Proof. intros S F Hx Hy. destruct (ForallOrdPairs_In F x y Hx Hy) as [|[|]]; auto. Qed.

Lemma filter_all_false {A} (f : A -> bool) l : (forall x, In x l -> f x = false) -> filter f l = [].
Proof. induction l as [|x l IH]; intros H; cbn; [reflexivity|]. rewrite (H x) by (left; reflexivity). apply IH. intros; apply H; right; assumption. Qed.
Lemma filter_only {A} (f : A -> bool) l c (g : A -> nat) : NoDup (map g l) -> In c l -> f c = true -> (forall x, In x l -> f x = true -> x = c) -> filter f l = [c].
Proof.
  induction l as [|x l IH]; intros ND Hc Hf Hu; [destruct Hc|]. cbn in ND. inversion ND as [|? ? NI ND']; subst. cbn.
  destruct Hc as [->|Hc].
  - rewrite Hf. f_equal. apply filter_all_false. intros y Hy. destruct (f y) eqn:E; [|reflexivity].
    destruct NI. rewrite <- (Hu y (or_intror Hy) E). apply in_map, Hy.
  - destruct (f x) eqn:E.
    + destruct NI. rewrite (Hu x (or_introl eq_refl) E). apply in_map, Hc.
    + apply IH; auto. intros; apply Hu; [right|]; assumption.
Qed.

Lemma add_addr_spec x d a : In a (add_addr x d) <-> In a d \/ a = AIP (fst x) (snd x).
Proof.
  unfold add_addr. destruct (existsb _ _) eqn:E.
  - apply existsb_exists in E. destruct E as (y & Hy & Ey). destruct y as [|v z| | | | | | |]; try discriminate.
    unfold addr_eqb2 in Ey. cbn in Ey. apply andb_true_iff in Ey. destruct Ey as [E1 E2]. apply fam_eqb_spec in E1. apply Z.eqb_eq in E2.
    subst. split; [auto|]. intros [? | ->]; auto.
  - cbn. split; [intros [<-|]; auto|intros [? | ->]; auto].
Qed.
Lemma add_addr_nodup x d : NoDup d -> NoDup (add_addr x d).
Proof.
  intros ND. unfold add_addr. destruct (existsb _ _) eqn:E; [exact ND|]. constructor; [|exact ND]. intros Hin.
  rewrite <- not_true_iff_false in E. apply E, existsb_exists. eexists. split; [exact Hin|]. unfold addr_eqb2; cbn.
  rewrite Z.eqb_refl, andb_true_r. apply fam_eqb_spec. reflexivity.
Qed.

Definition plus (D : delegation -> Prop) (e : delegation) : delegation -> Prop := fun e' => D e' \/ e' = e.

Lemma alter_leaves id f ch D iid afi : (forall c, In c ch -> is_leaf D iid afi c) ->
  map (alter id f) ch = map (fun c => if Nat.eqb (n_id c) id then f c else c) ch.
Proof.
  intros H. apply map_ext_in. intros c Hc. destruct (H c Hc) as (j & q & d & -> & _). cbn. destruct (Nat.eqb j id); reflexivity.
Qed.

Lemma leaf_other D iid afi q x c : is_leaf D iid afi c -> n_pfx c <> q -> is_leaf (plus D (iid, afi, q, x)) iid afi c.
Proof.
  intros (j & p & d & -> & W & (y & Hy) & ND & S) N. cbn in N. exists j, p, d. split; [reflexivity|]. split; [exact W|].
  split; [exists y; left; exact Hy|]. split; [exact ND|]. intros a. rewrite S. unfold plus.
  split; intros (v & z & -> & H); exists v, z; (split; [reflexivity|]); [auto|]. destruct H as [H|H]; [exact H|congruence].
Qed.
Lemma leaf_elsewhere D iid afi e c : (forall q x, e <> (iid, afi, q, x)) -> is_leaf D iid afi c -> is_leaf (plus D e) iid afi c.
Proof.
  intros N (j & p & d & -> & W & (y & Hy) & ND & S). exists j, p, d. split; [reflexivity|]. split; [exact W|].
  split; [exists y; left; exact Hy|]. split; [exact ND|]. intros a. rewrite S. unfold plus.
  split; intros (v & z & -> & H); exists v, z; (split; [reflexivity|]); [auto|]. destruct H as [H|H]; [exact H|]. symmetry in H. destruct (N _ _ H).
Qed.

(** roots of other instances and families are not affected *)
Lemma inv_other D s iid afi q x : inv D s -> forall r next', (snd s <= next')%nat ->
  root_inv (plus D (iid, afi, q, x)) next' iid afi r ->
  forall cfg', (forall iid' afi', root_of cfg' iid' afi' = if (iid' =? iid) && (afi' =? afi) then Some r else root_of (fst s) iid' afi') ->
  inv (plus D (iid, afi, q, x)) (cfg', next').
Proof.
  intros I r next' Hn R cfg' HC iid' afi'. cbn [fst snd]. rewrite HC. destruct (Z.eqb_spec iid' iid) as [->|N]; cbn [andb].
  - destruct (Z.eqb_spec afi' afi) as [->|N].
    + exact R.
    + specialize (I iid afi'). destruct (root_of (fst s) iid afi') as [n|].
      * destruct I as (i & v & ch & -> & F & ND & LT & FP & L & C). exists i, v, ch. split; [reflexivity|]. split; [exact F|].
        split; [exact ND|]. split; [intros j Hj; specialize (LT j Hj); lia|]. split; [exact FP|]. split.
        -- intros c Hc. destruct (L c Hc) as [? ?]. split; [assumption|]. apply leaf_elsewhere; [|assumption]. intros ? ? ?; congruence.
        -- intros q' x' [H|H]; [eauto|congruence].
      * intros q' x' [H|H]; [eapply I; eauto|congruence].
  - specialize (I iid' afi'). destruct (root_of (fst s) iid' afi') as [n|].
    + destruct I as (i & v & ch & -> & F & ND & LT & FP & L & C). exists i, v, ch. split; [reflexivity|]. split; [exact F|].
      split; [exact ND|]. split; [intros j Hj; specialize (LT j Hj); lia|]. split; [exact FP|]. split.
      -- intros c Hc. destruct (L c Hc) as [? ?]. split; [assumption|]. apply leaf_elsewhere; [|assumption]. intros ? ? ?; congruence.
      -- intros q' x' [H|H]; [eauto|congruence].
    + intros q' x' [H|H]; [eapply I; eauto|congruence].
Qed.

Lemma add_delegation_spec D s iid afi q x : inv D s -> wf_pfx q -> fam_afi afi (x_fam q) ->
  let r := add_delegation s iid afi q x in
  ((forall q' x', D (iid, afi, q', x') -> q' = q \/ apart q' q) -> snd r = Ok tt /\ inv (plus D (iid, afi, q, x)) (fst r)) /\
  ((exists q' x', D (iid, afi, q', x') /\ q' <> q /\ ~ apart q' q) -> exists e, snd r = Err e).
Proof.
  intros I Hq Ha. destruct s as [cfg next]. unfold add_delegation. cbv zeta.
  set (inst := match assoc iid cfg with Some i => i | None => [] end).
  pose proof (I iid afi) as I0. cbn [fst snd] in I0.
  (* the root that is used *)
  assert (exists root next', (match assoc afi inst with
         | Some root => Ok (root, next)
         | None => if afi =? 1 then Ok (Node next (Pfx V4 0 0) (NAuth []) [], S next)
                   else if afi =? 2 then Ok (Node next (Pfx V6 0 0) (NAuth []) [], S next)
                   else Err EValue
         end) = Ok (root, next') /\ (next <= next')%nat /\ root_inv D next' iid afi root /\
         exists i ch, root = Node i (Pfx (x_fam q) 0 0) (NAuth []) ch) as (root & next' & -> & Hn & R & i & ch & ER).
  { assert (assoc afi inst = root_of cfg iid afi) as -> by (unfold inst, root_of; destruct (assoc iid cfg); reflexivity).
    destruct (root_of cfg iid afi) as [n|] eqn:E.
    - exists n, next. split; [reflexivity|]. split; [lia|]. split; [exact I0|]. destruct I0 as (i & v & ch & -> & F & _).
      assert (v = x_fam q) as -> by (destruct F as [[? ?]|[? ?]], Ha as [[? ?]|[? ?]]; congruence). eauto.
    - assert (forall v, fam_afi afi v -> root_inv D (S next) iid afi (Node next (Pfx v 0 0) (NAuth []) [])) as N.
      { intros v Hv. exists next, v, []. split; [reflexivity|]. split; [exact Hv|]. split; [repeat constructor; intros []|].
        split; [intros j [<-|[]]; lia|]. split; [constructor|]. split; [intros c []|]. intros q' x' H. destruct (I0 _ _ H). }
      destruct Ha as [[-> Hf]|[-> Hf]]; cbn [Z.eqb Pos.eqb]; eexists _, _; rewrite Hf; (split; [reflexivity|]); (split; [lia|]);
        (split; [apply N; unfold fam_afi; auto|eauto]). }
  pose proof R as R0. rewrite ER in R. destruct R as (i' & v & ch' & [= <- <- <-] & F & ND & LT & FP & L & C).
  assert (resolve root q = match filter (fun c => overlaps q (n_pfx c)) ch with
    | [] => Ok root
    | [c] => if (x_first (n_pfx c) <=? x_first q) && (x_last (n_pfx c) >=? x_last q) then Ok c else Ok root
    | _ => Err EMoreSpecifics
    end) as RQ by (rewrite ER in *; exact (root_resolve _ _ _ _ _ _ _ _ R0 Hq eq_refl)).
  rewrite RQ. clear RQ.
  assert (forall c, In c ch -> wf_pfx (n_pfx c)) as WC by (intros c Hc; destruct (L c Hc) as [_ (j & p & d & -> & W & _)]; exact W).
  assert (forall c, In c ch -> overlaps q (n_pfx c) = true <-> ~ apart (n_pfx c) q) as OV.
  { intros c Hc. rewrite overlaps_spec by auto. split; intros H A; apply H, apart_sym, A. }
  assert (forall c, In c ch -> exists x', D (iid, afi, n_pfx c, x')) as LD by (intros c Hc; destruct (L c Hc) as [_ (j & p & d & -> & _ & H & _)]; exact H).
  assert (NoDup (map n_id ch)) as NDc by (inversion ND; assumption).
  split.
  - intros Hcomp.
    assert ((exists c, In c ch /\ n_pfx c = q) \/ forall c, In c ch -> n_pfx c <> q) as [(c & Hc & Ec)|Hnone].
    { clear -ch. induction ch as [|c l [(y & Hy & Ey)|IH]]; [right; intros c []|left; exists y; split; [right|]; assumption|].
      destruct (pfx_eqb (n_pfx c) q) eqn:E; [left; exists c; split; [left; reflexivity|apply pfx_eqb_spec, E]|].
      right. intros y [<-|Hy]; [|auto]. intros E'. apply pfx_eqb_spec in E'. congruence. }
    + (* the referral exists *)
      assert (filter (fun c => overlaps q (n_pfx c)) ch = [c]) as ->.
      { apply filter_only with (g := n_id); [exact NDc|exact Hc| |].
        - apply OV; [exact Hc|]. rewrite Ec. apply inside_not_apart; [exact Hq|apply inside_refl].
        - intros y Hy Oy. apply (OV y Hy) in Oy. destruct (LD y Hy) as (x' & Hx'). destruct (Hcomp _ _ Hx') as [E|A]; [|contradiction].
          destruct (pairs_apart _ _ y c (fun a b => apart_sym _ _) FP Hy Hc) as [|A]; [assumption|]. rewrite Ec in A. contradiction. }
      destruct (L c Hc) as [Hv (j & p & d & Ecn & Wp & (x0 & Hx0) & NDd & Sd)]. subst c. cbn [n_pfx] in Ec. subst p. cbn [n_pfx].
      rewrite Z.leb_refl, Z.geb_leb, Z.leb_refl. cbn [andb n_cls n_id n_pfx].
      assert (pfx_eqb q q = true) as -> by (apply pfx_eqb_spec; reflexivity). cbn [negb].
      assert (i <> j) as Hij by (intros ->; inversion ND as [|? ? NI _]; apply NI; apply in_map_iff; exists (Node j q (NReferral d) []); auto).
      rewrite ER. cbn [alter]. destruct (Nat.eqb_spec i j); [contradiction|].
      split; [reflexivity|]. cbn [fst].
      eapply (inv_other D (cfg, next) iid afi q x I (Node i (Pfx (x_fam q) 0 0) (NAuth []) (map (alter j (add_ddt x)) ch)) next' Hn).
      2: { intros. apply root_of_put. }
      rewrite (alter_leaves _ _ _ D iid afi) by (intros c Hc'; apply L, Hc').
      set (g := fun c => if Nat.eqb (n_id c) j then add_ddt x c else c).
      assert (forall c, In c ch -> n_id (g c) = n_id c /\ n_pfx (g c) = n_pfx c) as G.
      { intros c Hc'. destruct (L c Hc') as [_ (j' & p & d' & -> & _)]. unfold g. cbn [n_id]. destruct (Nat.eqb j' j); split; reflexivity. }
      exists i, (x_fam q), (map g ch). split; [reflexivity|]. split; [exact Ha|].
      assert (map n_id (map g ch) = map n_id ch) as EI by (rewrite map_map; apply map_ext_in; intros c Hc'; apply G, Hc').
      rewrite EI. split; [exact ND|]. split; [exact LT|]. split; [|split].
      * clear - FP G. induction FP as [|a l Fa FP IH]; [constructor|]. cbn. constructor.
        -- rewrite Forall_forall in *. intros y Hy. apply in_map_iff in Hy. destruct Hy as (y' & <- & Hy').
           destruct (G a (or_introl eq_refl)) as [_ ->]. destruct (G y' (or_intror Hy')) as [_ ->]. auto.
        -- apply IH. intros c Hc. apply G. right; exact Hc.
      * intros c' Hc'. apply in_map_iff in Hc'. destruct Hc' as (c & <- & Hc'). destruct (G c Hc') as [Gi Gp]. rewrite Gp.
        destruct (L c Hc') as [Hv' Lc]. split; [exact Hv'|]. unfold g. destruct (Nat.eqb_spec (n_id c) j) as [Ej|Ej].
        -- assert (c = Node j q (NReferral d) []) as ->.
           { destruct (filter_one (fun y => Nat.eqb (n_id y) j) ch (Node j q (NReferral d) [])) as (_ & _ & U).
             - apply filter_only with (g := n_id); [exact NDc|exact Hc|apply Nat.eqb_refl|]. intros y Hy Ey. apply Nat.eqb_eq in Ey.
               assert (forall l (a b : node), NoDup (map n_id l) -> In a l -> In b l -> n_id a = n_id b -> a = b) as Inj.
               { clear. induction l as [|e l IH]; [intros a b _ []|]. intros a b ND [->|Ha] [->|Hb] E; try reflexivity; cbn in ND; inversion ND as [|? ? NI ND']; subst; auto.
                 - destruct NI. rewrite E. apply in_map, Hb.
                 - destruct NI. rewrite <- E. apply in_map, Ha. }
               apply (Inj ch); auto.
             - apply U; [exact Hc'|]. apply Nat.eqb_eq, Ej. }
           exists j, q, (add_addr x d). split; [reflexivity|]. split; [exact Hq|]. split; [exists x; right; reflexivity|].
           split; [apply add_addr_nodup, NDd|]. intros a. rewrite add_addr_spec, Sd. unfold plus. split.
           ++ intros [(v' & z & -> & H)| ->]; [exists v', z; auto|]. exists (fst x), (snd x). split; [reflexivity|]. right. destruct x; reflexivity.
           ++ intros (v' & z & -> & [H|[= <-]]); [left; eauto|right; reflexivity].
        -- apply leaf_other; [exact Lc|]. intros E.
           destruct (pairs_apart _ _ c (Node j q (NReferral d) []) (fun a b => apart_sym _ _) FP Hc' Hc) as [->|A]; [apply Ej; reflexivity|].
           cbn in A. rewrite E in A. apply (inside_not_apart q q Hq (inside_refl q)), A.
      * intros q' x' [H|[= -> _]].
        -- destruct (C _ _ H) as (c & Hc' & Ec'). exists (g c). split; [apply in_map, Hc'|]. destruct (G c Hc') as [_ ->]. exact Ec'.
        -- exists (g (Node j q (NReferral d) [])). split; [apply in_map, Hc|]. apply G, Hc.
    + (* a new referral *)
      assert (filter (fun c => overlaps q (n_pfx c)) ch = []) as EF.
      { apply filter_all_false. intros c Hc. destruct (overlaps q (n_pfx c)) eqn:E; [|reflexivity]. apply (OV c Hc) in E.
        destruct (LD c Hc) as (x' & Hx'). destruct (Hcomp _ _ Hx') as [E'|A]; [destruct (Hnone c Hc E')|contradiction]. }
      rewrite EF. rewrite ER. cbn [n_cls n_id].
      assert (add (Node i (Pfx (x_fam q) 0 0) (NAuth []) ch) (Node next' q (NReferral [AIP (fst x) (snd x)]) []) =
              (Node i (Pfx (x_fam q) 0 0) (NAuth []) (Node next' q (NReferral [AIP (fst x) (snd x)]) [] :: ch), Ok tt)) as ->.
      { unfold add. cbn [n_pfx]. assert (inside_test (Pfx (x_fam q) 0 0) q = true) as IT by (apply inside_test_spec; [apply wf_zero|exact Hq|apply inside_zero; auto]).
        rewrite IT. cbn [negb]. unfold find_exact, find_all. cbn [n_pfx n_ch]. rewrite IT. cbn [guard bind]. rewrite EF. cbn [bind].
        assert (has_id ch (Node next' q (NReferral [AIP (fst x) (snd x)]) []) = false) as ->; [|reflexivity].
        unfold has_id. cbn [n_id]. destruct (existsb _ ch) eqn:E; [|reflexivity]. apply existsb_exists in E. destruct E as (y & Hy & Ey). apply Nat.eqb_eq in Ey.
        specialize (LT (n_id y) (or_intror (in_map n_id _ _ Hy))). lia. }
      cbn [alter]. rewrite Nat.eqb_refl. cbn [fst snd]. split; [reflexivity|].
      eapply (inv_other D (cfg, next) iid afi q x I (Node i (Pfx (x_fam q) 0 0) (NAuth []) (Node next' q (NReferral [AIP (fst x) (snd x)]) [] :: ch)) (S next')); [cbn; lia| |].
      2: { intros. apply root_of_put. }
      exists i, (x_fam q), (Node next' q (NReferral [AIP (fst x) (snd x)]) [] :: ch). split; [reflexivity|]. split; [exact Ha|].
      cbn [map n_id]. split; [|split; [|split; [|split]]].
      * inversion ND as [|? ? NI ND']; subst. constructor.
        -- intros [E|E]; [|contradiction]. specialize (LT i (or_introl eq_refl)). lia.
        -- constructor; [|exact ND']. intros E. specialize (LT next' (or_intror E)). lia.
      * intros j [<-|[<-|Hj]]; [specialize (LT i (or_introl eq_refl)); lia|lia|specialize (LT j (or_intror Hj)); lia].
      * constructor; [|exact FP]. apply Forall_forall. intros c Hc. cbn [n_pfx]. destruct (LD c Hc) as (x' & Hx').
        destruct (Hcomp _ _ Hx') as [E'|A]; [destruct (Hnone c Hc E')|apply apart_sym, A].
      * intros c [<-|Hc].
        -- split; [reflexivity|]. exists next', q, [AIP (fst x) (snd x)]. split; [reflexivity|]. split; [exact Hq|]. split; [exists x; right; reflexivity|].
           split; [constructor; [intros []|constructor]|]. intros a. cbn. split.
           ++ intros [<-|[]]. exists (fst x), (snd x). split; [reflexivity|]. right. destruct x; reflexivity.
           ++ intros (v' & z & -> & [H|[= <-]]); [|left; reflexivity]. destruct (C _ _ H) as (c & Hc & Ec). destruct (Hnone c Hc Ec).
        -- destruct (L c Hc) as [? ?]. split; [assumption|]. apply leaf_other; auto.
      * intros q' x' [H|[= -> _]]; [|eexists; split; [left; reflexivity|reflexivity]]. destruct (C _ _ H) as (c & Hc & Ec). exists c. split; [right|]; assumption.
  - intros (q' & x' & HD & Hne & Hov). destruct (C _ _ HD) as (c & Hc & Ec). subst q'.
    assert (In c (filter (fun c => overlaps q (n_pfx c)) ch)) as Hin by (apply filter_In; split; [exact Hc|apply OV; assumption]).
    destruct (filter (fun c => overlaps q (n_pfx c)) ch) as [|c1 [|c2 r]] eqn:EF; [destruct Hin| |exists EMoreSpecifics; reflexivity].
    destruct Hin as [->|[]]. destruct ((x_first (n_pfx c) <=? x_first q) && (x_last (n_pfx c) >=? x_last q)) eqn:Ecov.
    + destruct (L c Hc) as [_ (j & p & d & -> & _)]. cbn [n_cls n_pfx n_id] in *.
      destruct (pfx_eqb p q) eqn:E; [apply pfx_eqb_spec in E; contradiction|]. cbn [negb snd]. eauto.
    + rewrite ER. cbn [n_cls n_id]. unfold add. cbn [n_pfx].
      assert (inside_test (Pfx (x_fam q) 0 0) q = true) as IT by (apply inside_test_spec; [apply wf_zero|exact Hq|apply inside_zero; auto]).
      rewrite IT. cbn [negb]. unfold find_exact, find_all. cbn [n_pfx n_ch]. rewrite IT. cbn [guard bind]. rewrite EF.
      destruct (pfx_eqb (n_pfx c) q) eqn:E; [apply pfx_eqb_spec in E; contradiction|]. cbn. eauto.
Qed.

Lemma overlap_dec p q : wf_pfx p -> wf_pfx q -> apart p q \/ ~ apart p q.
Proof.
  intros Hp Hq. destruct (overlaps p q) eqn:E; [right; apply overlaps_spec; assumption|left].
  destruct (overlaps_spec p q Hp Hq) as [_ H]. intros v z Hvz. rewrite H in E; [discriminate|]. intros A. apply (A v z Hvz).
Qed.

(** what a line adds *)
Definition with_line (D : delegation -> Prop) (l : line) : delegation -> Prop := fun e => D e \/ listed_by l e.
Definition consistent (D : delegation -> Prop) : Prop :=
  forall iid afi q x q' x', D (iid, afi, q, x) -> D (iid, afi, q', x') -> q = q' \/ apart q q'.
Definition all_sensible (D : delegation -> Prop) : Prop :=
  forall iid afi q x, D (iid, afi, q, x) -> wf_pfx q /\ fam_afi afi (x_fam q).

Lemma inv_ext D D' s : (forall e, D e <-> D' e) -> inv D s -> inv D' s.
Proof.
  intros E I iid afi. specialize (I iid afi). destruct (root_of (fst s) iid afi) as [n|].
  - destruct I as (i & v & ch & -> & F & ND & LT & FP & L & C). exists i, v, ch. repeat (split; [assumption || reflexivity|]). split.
    + intros c Hc. destruct (L c Hc) as [Hv (j & q & d & -> & W & (x & Hx) & NDd & S)]. split; [exact Hv|]. exists j, q, d.
      repeat (split; [assumption || reflexivity|]). split; [exists x; apply E, Hx|]. split; [exact NDd|].
      intros a. rewrite S. split; intros (v' & z & Ha & H); exists v', z; (split; [exact Ha|]); apply E, H.
    + intros q x H. apply (C q x), E, H.
  - intros q x H. apply (I q x), E, H.
Qed.
Lemma sensible_ext D D' : (forall e, D e <-> D' e) -> all_sensible D -> all_sensible D'.
Proof. intros E H iid afi q x HD. apply (H iid afi q x), E, HD. Qed.

Lemma add_step D s iid afi q x : inv D s -> all_sensible D -> consistent D -> wf_pfx q -> fam_afi afi (x_fam q) ->
  let r := add_delegation s iid afi q x in
  (snd r = Ok tt /\ inv (plus D (iid, afi, q, x)) (fst r) /\ consistent (plus D (iid, afi, q, x)) /\ all_sensible (plus D (iid, afi, q, x))) \/
  ((exists e, snd r = Err e) /\ ~ consistent (plus D (iid, afi, q, x))).
Proof.
  intros I HS HC Hq Ha. cbv zeta. destruct (add_delegation_spec D s iid afi q x I Hq Ha) as [H1 H2].
  destruct (add_delegation s iid afi q x) as [s' r] eqn:E; cbn [fst snd] in *.
  destruct r as [[]|e].
  - left. assert (forall q' x', D (iid, afi, q', x') -> q' = q \/ apart q' q) as Hcomp.
    { intros q' x' H. destruct (HS _ _ _ _ H) as [W _]. destruct (overlap_dec q' q W Hq) as [A|A]; [right; exact A|].
      destruct (pfx_eqb q' q) eqn:Eq; [left; apply pfx_eqb_spec, Eq|].
      destruct H2 as (e & He); [|discriminate]. exists q', x'. repeat split; try assumption. intros ->. rewrite (proj2 (pfx_eqb_spec q q) eq_refl) in Eq. discriminate. }
    destruct (H1 Hcomp) as [_ I']. split; [reflexivity|]. split; [exact I'|]. split.
    + intros iid' afi' q1 x1 q2 x2 [D1|E1] [D2|E2].
      * eapply HC; eassumption.
      * injection E2 as -> -> -> ->. eapply Hcomp, D1.
      * injection E1 as -> -> -> ->. destruct (Hcomp _ _ D2) as [->|A]; [left; reflexivity|right; apply apart_sym, A].
      * left. congruence.
    + intros iid' afi' q1 x1 [D1|E1]; [eapply HS, D1|]. injection E1 as -> -> -> ->. split; assumption.
  - right. split; [eauto|]. intros HC'. destruct H1 as [H1 _]; [|discriminate].
    intros q' x' H. apply (HC' iid afi q' x' q x); [left; exact H|right; reflexivity].
Qed.

Lemma load_line_step D s l : inv D s -> all_sensible D -> consistent D -> sensible l ->
  let r := load_line s l in
  (snd r = Ok tt /\ inv (with_line D l) (fst r) /\ consistent (with_line D l) /\ all_sensible (with_line D l)) \/
  ((exists e, snd r = Err e) /\ ~ consistent (with_line D l)).
Proof.
  intros I HS HC Hl. cbv zeta. unfold load_line. destruct (Z.eqb_spec (ln_afi l) 0) as [E0|N0].
  - pose proof (add_step D s (ln_iid l) 1 (Pfx V4 0 0) (ln_addr l) I HS HC (wf_zero V4) (or_introl (conj eq_refl eq_refl))) as H1. cbv zeta in H1.
    destruct (add_delegation s (ln_iid l) 1 _ _) as [s1 r1]; cbn [fst snd] in H1.
    set (D1 := plus D (ln_iid l, 1, Pfx V4 0 0, ln_addr l)) in *.
    assert (forall e, with_line D l e <-> plus D1 (ln_iid l, 2, Pfx V6 0 0, ln_addr l) e) as EE.
    { intros e. unfold with_line, D1, plus, listed_by. split; [intros [H|[[_ [->| ->]]|[N _]]]; tauto|tauto]. }
    destruct H1 as [(-> & I1 & C1 & S1)|((e & ->) & NC)].
    + pose proof (add_step D1 s1 (ln_iid l) 2 (Pfx V6 0 0) (ln_addr l) I1 S1 C1 (wf_zero V6) (or_intror (conj eq_refl eq_refl))) as H2. cbv zeta in H2.
      destruct H2 as [(-> & I2 & C2 & S2)|(He & NC)].
      * left. split; [reflexivity|]. split; [|split].
        -- eapply inv_ext, I2. intros; symmetry; apply EE.
        -- intros iid afi q x q' x' H H'. apply EE in H. apply EE in H'. eapply C2; eassumption.
        -- eapply sensible_ext, S2. intros; symmetry; apply EE.
      * right. split; [exact He|]. intros HC'. apply NC. intros iid afi q x q' x' H H'. apply EE in H. apply EE in H'. eapply HC'; eassumption.
    + right. split; [eexists; reflexivity|]. intros HC'. apply NC. intros iid afi q x q' x' H H'.
      apply (HC' iid afi q x q' x'); apply EE; left; assumption.
  - destruct Hl as [Hl|(q & Eq & Wq & Fq)]; [contradiction|]. rewrite Eq.
    pose proof (add_step D s (ln_iid l) (ln_afi l) q (ln_addr l) I HS HC Wq Fq) as H1. cbv zeta in H1.
    assert (forall e, with_line D l e <-> plus D (ln_iid l, ln_afi l, q, ln_addr l) e) as EE.
    { intros e. unfold with_line, plus, listed_by. rewrite Eq. split.
      - intros [H|[[N _]|(_ & q' & [= <-] & ->)]]; tauto.
      - intros [H| ->]; [tauto|]. right. right. eauto. }
    destruct H1 as [(-> & I2 & C2 & S2)|(He & NC)].
    + left. split; [reflexivity|]. split; [|split].
      * eapply inv_ext, I2. intros; symmetry; apply EE.
      * intros iid afi q0 x q' x' H H'. apply EE in H. apply EE in H'. eapply C2; eassumption.
      * eapply sensible_ext, S2. intros; symmetry; apply EE.
    + right. split; [exact He|]. intros HC'. apply NC. intros iid afi q0 x q' x' H H'. apply EE in H. apply EE in H'. eapply HC'; eassumption.
Qed.

Definition with_lines (D : delegation -> Prop) (ls : list line) : delegation -> Prop := fun e => D e \/ listed ls e.
Lemma load_lines_step ls : forall D s, inv D s -> all_sensible D -> consistent D -> Forall sensible ls ->
  let r := load_lines s ls in
  (snd r = Ok tt /\ inv (with_lines D ls) (fst r) /\ consistent (with_lines D ls) /\ all_sensible (with_lines D ls)) \/
  ((exists e, snd r = Err e) /\ ~ consistent (with_lines D ls)).
Proof.
  induction ls as [|l ls IH]; intros D s I HS HC Hf; cbn [load_lines].
  - assert (forall e, with_lines D [] e <-> D e) as EE by (intros e; unfold with_lines, listed; split; [intros [|(l & [] & _)]; assumption|auto]).
    left. cbn [fst snd]. split; [reflexivity|]. split; [|split].
    + eapply inv_ext, I. intros; symmetry; apply EE.
    + intros iid afi q x q' x' H H'. apply EE in H. apply EE in H'. eapply HC; eassumption.
    + eapply sensible_ext, HS. intros; symmetry; apply EE.
  - inversion Hf as [|? ? Hl Hf']; subst. pose proof (load_line_step D s l I HS HC Hl) as H1. cbv zeta in *.
    destruct (load_line s l) as [s1 r1]; cbn [fst snd] in H1.
    assert (forall e, with_lines D (l :: ls) e <-> with_lines (with_line D l) ls e) as EE.
    { intros e. unfold with_lines, with_line, listed. split.
      - intros [H|(l' & [<-|H] & H')]; [auto|auto|]. right. eauto.
      - intros [[H|H]|(l' & H & H')]; [auto|right; exists l; split; [left; reflexivity|exact H]|right; exists l'; split; [right; exact H|exact H']]. }
    destruct H1 as [(-> & I1 & C1 & S1)|((e & ->) & NC)].
    + destruct (IH _ _ I1 S1 C1 Hf') as [(-> & I2 & C2 & S2)|(He & NC)].
      * left. split; [reflexivity|]. split; [|split].
        -- eapply inv_ext, I2. intros; symmetry; apply EE.
        -- intros iid afi q x q' x' H H'. apply EE in H. apply EE in H'. eapply C2; eassumption.
        -- eapply sensible_ext, S2. intros; symmetry; apply EE.
      * right. split; [exact He|]. intros HC'. apply NC. intros iid afi q x q' x' H H'. apply EE in H. apply EE in H'. eapply HC'; eassumption.
    + right. split; [eexists; reflexivity|]. intros HC'. apply NC. intros iid afi q x q' x' H H'.
      apply (HC' iid afi q x q' x'); apply EE; left; assumption.
Qed.

Lemma loaded ls : Forall sensible ls ->
  (exists cfg next, load_ddt_root ls = Ok cfg /\ inv (listed ls) (cfg, next) /\ no_overlap ls /\ all_sensible (listed ls)) \/
  ((exists e, load_ddt_root ls = Err e) /\ ~ no_overlap ls).
Proof.
  intros Hf. unfold load_ddt_root.
  assert (inv (fun _ => False) ([], O)) as I0 by (intros iid afi; cbn; tauto).
  destruct (load_lines_step ls (fun _ => False) ([], O) I0) as [(H1 & I & C & S)|((e & He) & NC)]; [intros ? ? ? ? []|intros ? ? ? ? ? ? []|exact Hf| |].
  - assert (forall e, with_lines (fun _ => False) ls e <-> listed ls e) as EE by (intros e; unfold with_lines; tauto).
    left. destruct (load_lines ([], O) ls) as [[cfg next] r] eqn:E; cbn [fst snd] in *. subst r. exists cfg, next.
    split; [reflexivity|]. split; [eapply inv_ext, I; exact EE|]. split; [|eapply sensible_ext, S; exact EE].
    intros iid afi q x q' x' H H'. eapply C; apply EE; eassumption.
  - right. destruct (load_lines ([], O) ls) as [[cfg next] r] eqn:E; cbn [fst snd] in *. subst r. split; [eauto|].
    intros H. apply NC. intros iid afi q x q' x' HD HD'. destruct HD as [[]|HD], HD' as [[]|HD']. eapply H; eassumption.
Qed.

(** ** The theorems *)
(** The file is accepted exactly if different prefixes delegated in one instance and family do not overlap; there is
    an answer for every file. *)
Theorem C56_accepted ls : Forall sensible ls ->
  ((exists cfg, load_ddt_root ls = Ok cfg) <-> no_overlap ls) /\
  ((exists e, load_ddt_root ls = Err e) <-> ~ no_overlap ls).
Proof.
  intros Hf. destruct (loaded ls Hf) as [(cfg & next & E & _ & NO & _)|((e & E) & NO)]; rewrite E.
  - split; split; intros H; try tauto; eauto. destruct H as (? & [=]).
  - split; split; intros H; try tauto; eauto. destruct H as (? & [=]).
Qed.

(** Everything listed is delegated: an address or prefix inside a listed prefix leads to a referral node for that
    prefix that names exactly the DDT nodes the file lists for it, each once. *)
Theorem C56_delegated ls cfg iid afi q x : Forall sensible ls -> load_ddt_root ls = Ok cfg ->
  listed ls (iid, afi, q, x) ->
  forall q', wf_pfx q' -> inside q' q ->
  exists nd d, g_resolve cfg iid afi q' = Ok (Some nd) /\ n_pfx nd = q /\ n_cls nd = NReferral d /\ NoDup d /\
    forall a, In a d <-> exists v z, a = AIP v z /\ listed ls (iid, afi, q, (v, z)).
Proof.
  intros Hf HL Hin q' Wq' Hi. destruct (loaded ls Hf) as [(cfg' & next & E & I & NO & S)|((e & E) & NO)]; rewrite E in HL; [|discriminate].
  injection HL as ->. destruct (S _ _ _ _ Hin) as [Wq Fq]. specialize (I iid afi). cbn [fst snd] in I. unfold g_resolve.
  destruct (root_of cfg iid afi) as [n|]; [|destruct (I q x Hin)].
  pose proof I as R. destruct I as (i & v & ch & -> & F & ND & LT & FP & L & C).
  destruct (C _ _ Hin) as (c & Hc & Ec). destruct (L c Hc) as [Hv (j & p & d & -> & Wp & _ & NDd & Sd)]. cbn in Ec, Hv. subst p.
  assert (x_fam q' = v) as Hv'.
  { destruct (Hi (x_fam q') (x_first q') (in_first q' Wq')) as [Hfam _]. congruence. }
  rewrite (root_resolve _ _ _ _ _ _ _ _ R Wq' Hv').
  assert (filter (fun c => overlaps q' (n_pfx c)) ch = [Node j q (NReferral d) []]) as ->.
  { apply filter_only with (g := n_id); [inversion ND; assumption|exact Hc| |].
    - apply overlaps_spec; [assumption|assumption|]. apply inside_not_apart; assumption.
    - intros y Hy Oy. destruct (L y Hy) as [Hvy (jy & qy & dy & -> & Wy & _)]. cbn in Oy. apply overlaps_spec in Oy; try assumption.
      destruct (pairs_apart _ _ _ _ (fun a b => apart_sym _ _) FP Hy Hc) as [|A]; [assumption|]. cbn in A. destruct Oy.
      intros w z [H1 H2]. apply (A w z). split; [exact H2|apply Hi, H1]. }
  cbn [n_pfx bind]. assert ((x_first q <=? x_first q') && (x_last q >=? x_last q') = true) as ->.
  { apply covers_test; try assumption. apply inside_not_apart; assumption. }
  cbn [bind]. eexists _, d. split; [reflexivity|]. split; [reflexivity|]. split; [reflexivity|]. split; [exact NDd|exact Sd].
Qed.

(** Nothing else is: a prefix that overlaps no listed prefix of that instance and family gives no node at all (nothing
    is listed for that instance and family) or the authoritative root container. *)
Theorem C56_nothing_else ls cfg iid afi q' : Forall sensible ls -> load_ddt_root ls = Ok cfg ->
  wf_pfx q' -> fam_afi afi (x_fam q') ->
  (forall q x, listed ls (iid, afi, q, x) -> apart q q') ->
  (g_resolve cfg iid afi q' = Ok None /\ forall q x, ~ listed ls (iid, afi, q, x)) \/
  (exists nd, g_resolve cfg iid afi q' = Ok (Some nd) /\ n_pfx nd = Pfx (x_fam q') 0 0 /\ n_cls nd = NAuth []).
Proof.
  intros Hf HL Wq' Hfam Hno. destruct (loaded ls Hf) as [(cfg' & next & E & I & NO & S)|((e & E) & NO)]; rewrite E in HL; [|discriminate].
  injection HL as ->. specialize (I iid afi). cbn [fst snd] in I. unfold g_resolve.
  destruct (root_of cfg iid afi) as [n|]; [right|left; split; [reflexivity|exact I]].
  pose proof I as R. destruct I as (i & v & ch & -> & F & ND & LT & FP & L & C).
  assert (x_fam q' = v) as Hv' by (destruct F as [[? ?]|[? ?]], Hfam as [[? ?]|[? ?]]; congruence).
  rewrite (root_resolve _ _ _ _ _ _ _ _ R Wq' Hv'). rewrite filter_all_false.
  - cbn [bind]. rewrite Hv'. eexists. split; [reflexivity|]. split; reflexivity.
  - intros c Hc. destruct (L c Hc) as [_ (j & p & d & -> & Wp & (x & Hx) & _)]. cbn.
    destruct (overlaps q' p) eqn:EO; [|reflexivity]. apply overlaps_spec in EO; try assumption. destruct EO. apply apart_sym, (Hno p x Hx).
Qed.

(** Every line counts: a line that is not sensible because its prefix text is no network is refused too. *)
Theorem C56_bad_prefix s l : ln_afi l <> 0 -> ln_pfx l = None -> load_line s l = (s, Err EValue).
Proof. intros H H'. unfold load_line. destruct (Z.eqb_spec (ln_afi l) 0); [contradiction|]. rewrite H'. reflexivity. Qed.

(** the shape of a root file: both families to two roots, and in another instance two prefixes *)
Definition ex_lines : list line :=
  [Line 0 0 None (V4, 3232235777); Line 0 0 None (V6, 1); Line 7 1 (Some p8) (V4, 5); Line 7 1 (Some p8) (V4, 6)].
Example ex_lines_load : exists cfg, load_ddt_root ex_lines = Ok cfg /\ Forall sensible ex_lines /\
  listed ex_lines (7, 1, p8, (V4, 6)) /\ exists nd, g_resolve cfg 7 1 (host V4 (x_net p8)) = Ok (Some nd) /\ n_cls nd = NReferral [AIP V4 6; AIP V4 5].
Proof.
  destruct (load_ddt_root ex_lines) as [cfg|] eqn:E; [|vm_compute in E; discriminate]. exists cfg. split; [reflexivity|]. split.
  - apply Forall_forall. intros l Hl. repeat destruct Hl as [<-|Hl]; try (left; reflexivity); try contradiction; right; exists p8; (split; [reflexivity|]); (split; [apply p8_wf|]); left; split; reflexivity.
  - split; [exists (Line 7 1 (Some p8) (V4, 6)); split; [right; right; right; left; reflexivity|right; split; [discriminate|]; exists p8; split; reflexivity]|].
    vm_compute in E. injection E as <-. eexists. vm_compute. split; reflexivity.
Qed.
Example ex_lines_refused : exists e, load_ddt_root (Line 7 1 (Some p16) (V4, 1) :: ex_lines) = Err e.
Proof. eexists. vm_compute. reflexivity. Qed.
Print Assumptions C56_delegated.
Print Assumptions C56_accepted.
Print Assumptions C56_nothing_else.
