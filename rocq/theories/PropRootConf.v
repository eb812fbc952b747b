(** * Property C107: a DDT root file as configuration *)
From Coq Require Import Ascii String.
From Verif Require Import Base BaseLemmas Afi AfiProofs Records Tree SpecTree TreeProofs PropTree PropTree2 Dict Ddt SpecDdt PropDdt Net SpecNet PropNet Conf SpecConf PropConf RootFile SpecRoot PropRoot RootConf.
Open Scope list_scope.

Lemma put_keys {A} k (x : A) l : (In k (map fst l) /\ map fst (put k x l) = map fst l) \/ (~ In k (map fst l) /\ map fst (put k x l) = map fst l ++ [k]).
Proof.
  induction l as [|[k' y] l IH]; cbn [put map fst]; [right; split; [intros []|reflexivity]|]. destruct (Z.eqb_spec k' k) as [->|N].
  - left. split; [left; reflexivity|reflexivity].
  - destruct IH as [[I E]|[I E]]; cbn [map fst]; rewrite E; [left|right]; (split; [|reflexivity]); cbn; [auto|]. intros [X|X]; [congruence|auto].
Qed.
Lemma nodup_put {A} k (x : A) l : NoDup (map fst l) -> NoDup (map fst (put k x l)).
Proof.
  intros H. destruct (put_keys k x l) as [[_ ->]|[I ->]]; [exact H|]. revert H I. generalize (map fst l). clear. intros l H I. induction l as [|a l IH]; cbn.
  - constructor; [intros []|constructor].
  - inversion H as [|? ? Na Hl]. subst. constructor.
    + intros X. apply in_app_or in X. destruct X as [X|[<-|[]]]; [contradiction|]. apply I. left. reflexivity.
    + apply IH; [exact Hl|]. intros X. apply I. right. exact X.
Qed.
Lemma in_put {A} k (x : A) l k' : In k' (map fst (put k x l)) -> In k' (map fst l) \/ k' = k.
Proof. destruct (put_keys k x l) as [[_ ->]|[_ ->]]; [auto|]. intros H. apply in_app_or in H. destruct H as [H|[<-|[]]]; auto. Qed.
Lemma in_assoc {A} k (x : A) l : NoDup (map fst l) -> In (k, x) l -> assoc k l = Some x.
Proof.
  induction l as [|[k' y] l IH]; intros N I; [destruct I|]. cbn [map fst] in N. inversion N as [|? ? Na Nl]. subst. cbn [assoc]. destruct I as [[= -> ->]|I]; [rewrite Z.eqb_refl; reflexivity|].
  destruct (Z.eqb_spec k' k) as [->|]; [|auto]. destruct Na. apply in_map_iff. exists (k, x). auto.
Qed.
Lemma assoc_key {A} k (x : A) l : assoc k l = Some x -> In k (map fst l).
Proof. induction l as [|[k' y] l IH]; cbn [assoc map fst]; [discriminate|]. destruct (Z.eqb_spec k' k) as [->|]; [left; reflexivity|right; auto]. Qed.

(** the instances of the dictionary are those listed, once each, and their families those listed *)
Definition keys (D : delegation -> Prop) (cfg : instances) : Prop :=
  NoDup (map fst cfg) /\ (forall iid, In iid (map fst cfg) -> exists afi q x, D (iid, afi, q, x)) /\
  (forall iid afi n, root_of cfg iid afi = Some n -> exists q x, D (iid, afi, q, x)).
Lemma add_keys (D : delegation -> Prop) s iid afi q x : keys D (fst s) -> D (iid, afi, q, x) -> keys D (fst (fst (add_delegation s iid afi q x))).
Proof.
  intros (N & K & R) H. destruct s as [cfg next]. cbn [fst] in *. unfold add_delegation. set (inst := match assoc iid cfg with Some i => i | None => [] end).
  assert (forall m, (m = inst \/ exists r, m = put afi r inst) -> keys D (put iid m (put iid inst cfg))) as G2.
  { intros m Hm. split; [apply nodup_put, nodup_put, N|]. split.
    - intros i I. apply in_put in I. destruct I as [I|<-]; [|eauto]. apply in_put in I. destruct I as [I| ->]; eauto.
    - intros i a n E. unfold root_of in E. destruct (Z.eq_dec i iid) as [->|Ni].
      + rewrite assoc_put_same in E. destruct (Z.eq_dec a afi) as [->|Na]; [eauto|]. apply (R iid a n). unfold root_of.
        destruct Hm as [->|[r ->]]; [|rewrite assoc_put_other in E by congruence]; unfold inst in E; destruct (assoc iid cfg); [exact E|discriminate|exact E|discriminate].
      + rewrite !assoc_put_other in E by congruence. exact (R i a n E). }
  assert (keys D (put iid inst cfg)) as G1.
  { split; [apply nodup_put, N|]. split.
    - intros i I. apply in_put in I. destruct I as [I| ->]; eauto.
    - intros i a n E. unfold root_of in E. destruct (Z.eq_dec i iid) as [->|Ni].
      + rewrite assoc_put_same in E. apply (R iid a n). unfold root_of. unfold inst in E. destruct (assoc iid cfg); [exact E|discriminate].
      + rewrite assoc_put_other in E by congruence. exact (R i a n E). }
  match goal with |- context [match ?m with Ok _ => _ | Err _ => _ end] => destruct m as [[root next']|e] end; [|exact G1].
  destruct (resolve root q) as [best|e]; [|apply G2; eauto]. destruct (n_cls best); try (apply G2; eauto).
  all: try (match goal with |- context [if ?b then _ else _] => destruct b end; apply G2; eauto).
  all: destruct (add best _) as [b' r]; apply G2; eauto.
Qed.
Lemma lines_keys (D : delegation -> Prop) ls : (forall l e, In l ls -> listed_by l e -> D e) -> forall s, keys D (fst s) -> keys D (fst (fst (load_lines s ls))).
Proof.
  induction ls as [|l ls IH]; intros H s K; cbn [load_lines]; [exact K|].
  assert (keys D (fst (fst (load_line s l)))) as K1.
  { unfold load_line. pose proof (fun e => H l e (or_introl eq_refl)) as Hl. destruct (Z.eqb_spec (ln_afi l) 0) as [E|E].
    - pose proof (add_keys D s (ln_iid l) 1 (Pfx V4 0 0) (ln_addr l) K (Hl _ (or_introl (conj E (or_introl eq_refl))))) as K1.
      destruct (add_delegation s (ln_iid l) 1 (Pfx V4 0 0) (ln_addr l)) as [s1 [[]|e]]; [|exact K1].
      apply add_keys; [exact K1|]. apply Hl. left. auto.
    - destruct (ln_pfx l) as [q|] eqn:Q; [|exact K]. apply add_keys; [exact K|]. apply Hl. right. split; [exact E|]. exists q. auto. }
  destruct (load_line s l) as [s1 [[]|e]]; [|exact K1]. apply IH; [|exact K1]. intros l' e I. apply H. right. exact I.
Qed.
Lemma loaded_keys ls cfg : load_ddt_root ls = Ok cfg -> keys (listed ls) cfg.
Proof.
  unfold load_ddt_root. intros H. assert (keys (listed ls) (fst (fst (load_lines ([], O) ls)))) as K.
  { apply lines_keys; [intros l e I L; exists l; auto|]. split; [constructor|]. split; [intros iid []|]. intros iid afi n E. discriminate. }
  destruct (load_lines ([], O) ls) as [[cfg' next] [[]|e]]; [|discriminate]. injection H as <-. exact K.
Qed.
Lemma loaded_roots ls cfg iid afi : Forall sensible ls -> load_ddt_root ls = Ok cfg ->
  ((exists n, root_of cfg iid afi = Some n) <-> exists q x, listed ls (iid, afi, q, x)) /\
  (forall n, root_of cfg iid afi = Some n -> tidy n /\ exists v, fam_afi afi v /\ n_pfx n = Pfx v 0 0 /\ n_cls n = NAuth []).
Proof.
  intros S H. destruct (loaded_keys ls cfg H) as (_ & _ & R). destruct (loaded ls S) as [(cfg' & next & E & I & _)|((e & E) & _)]; rewrite E in H; [|discriminate]. injection H as ->.
  specialize (I iid afi). cbn [fst snd] in I. split; [split|].
  - intros [n E']. eauto.
  - intros (q & x & L). destruct (root_of cfg iid afi) as [n|]; [eauto|]. destruct (I q x L).
  - intros n E'. rewrite E' in I. split; [exact (root_tidy _ _ _ _ _ I)|]. destruct I as (i & v & ch & -> & F & _). exists v. auto.
Qed.

Lemma host_only v z : 0 <= z < 2 ^ wz v -> forall v' z', in_pfx (host v z) v' z' -> v' = v /\ z' = z.
Proof.
  intros Hz v' z' H. apply in_pfx_interval in H; [|apply host_wf, Hz]. destruct H as [E H]. unfold host, x_first, x_last in *. cbn [x_fam x_net x_len] in *. rewrite Z.sub_diag in H. change (2 ^ 0) with 1 in H. split; [congruence|lia].
Qed.
Lemma Exists_dec_prop {A} (P : A -> Prop) l : (forall x, In x l -> P x \/ ~ P x) -> Exists P l \/ ~ Exists P l.
Proof.
  induction l as [|a l IH]; intros H; [right; intros X; inversion X|]. destruct (H a (or_introl eq_refl)) as [Y|N]; [left; constructor; exact Y|].
  destruct IH as [Y|N']; [intros x I; apply H; right; exact I|left; apply Exists_cons_tl, Y|]. right. intros X. inversion X; subst; auto.
Qed.
(** settings that are otherwise fine *)
Definition others_fine (s : settings) : Prop :=
  (exists l, st_listen s = Some l /\ forall a, In a l -> a <> LText None) /\ st_petr_ok s = true /\ st_natt_ok s = true /\ st_nfq4_ok s = true /\ st_nfq6_ok s = true.
Lemma assoc_nodes afi m : assoc afi (map (fun t : Z * node => (fst t, CNode (snd t))) m) = option_map CNode (assoc afi m).
Proof. induction m as [|[a n] m IH]; cbn [map assoc fst snd]; [reflexivity|]. destruct (a =? afi); [reflexivity|exact IH]. Qed.
(** every instance that is listed has delegations for both families *)
Definition both_families (ls : list line) : Prop := forall iid afi q x, listed ls (iid, afi, q, x) -> iid < 2 ^ 63 /\
  (exists q x, listed ls (iid, 1, q, x)) /\ (exists q x, listed ls (iid, 2, q, x)).
(** C107: exactly these files make a configuration that is accepted *)
Theorem C107_accepted : forall ls cfg fresh s, Forall sensible ls -> load_ddt_root ls = Ok cfg ->
  st_instances s = Some (as_setting cfg) -> others_fine s ->
  ((exists s', fix_config fresh s = Ok s') <-> both_families ls).
Proof.
  intros ls cfg fresh s S H Hs ((l & El & Hl) & P1 & P2 & P3 & P4). destruct (loaded_keys ls cfg H) as (N & K & R). split.
  - intros [s' F]. apply C66_accepts_exactly in F. destruct F as (_ & _ & d & _ & _ & Ed & F & _). rewrite Hs in Ed. injection Ed as <-.
    intros iid afi q x L. assert (exists n, root_of cfg iid afi = Some n) as [n En] by (apply (loaded_roots ls cfg iid afi S H); eauto).
    unfold root_of in En. destruct (assoc iid cfg) as [m|] eqn:Em; [|discriminate].
    assert (In (iid, m) cfg) as I. { clear - Em. induction cfg as [|[k y] c IH]; cbn [assoc] in Em; [discriminate|]. destruct (Z.eqb_spec k iid) as [->|]; [injection Em as ->; left; reflexivity|right; auto]. }
    rewrite Forall_forall in F. destruct (F (key_of iid, CDict (map (fun t => (fst t, CNode (snd t))) m))) as (k & d & x4 & x6 & [= E1 E2] & A4 & W4 & A6 & W6).
    { unfold as_setting. apply in_map_iff. exists (iid, m). auto. }
    subst d. rewrite assoc_nodes in A4, A6. destruct (assoc 1 m) as [n4|] eqn:B4; [|discriminate]. destruct (assoc 2 m) as [n6|] eqn:B6; [|discriminate].
    split; [unfold key_of in E1; destruct (Z.ltb_spec iid (2 ^ 63)); [assumption|discriminate]|].
    split; [apply (R iid 1 n4)|apply (R iid 2 n6)]; unfold root_of; rewrite Em; assumption.
  - intros B. eexists. apply C66_accepts_exactly. exists l, (map (fun a => match a with LText (Some (v, z)) => LAddr v z | _ => a end) l), (as_setting cfg).
    split; [exact El|]. split.
    { clear - Hl. induction l as [|a l IH]; cbn; constructor; [|apply IH; intros b I; apply Hl; right; exact I].
      destruct a as [v z|[[v z]|]]; [left; eauto|right; eauto|destruct (Hl _ (or_introl eq_refl)); reflexivity]. }
    split; [exact Hs|]. split; [|split; [exact P1|split; [exact P2|split; [exact P3|split; [exact P4|reflexivity]]]]].
    apply Forall_forall. intros e I. unfold as_setting in I. apply in_map_iff in I. destruct I as ([iid m] & <- & I). cbn [fst snd].
    pose proof (in_assoc iid m cfg N I) as Em. destruct (K iid) as (afi & q & x & L); [apply in_map_iff; exists (iid, m); auto|].
    destruct (B _ _ _ _ L) as (Hi & (q4 & x4 & L4) & (q6 & x6 & L6)).
    destruct (loaded_roots ls cfg iid 1 S H) as [[_ T4] U4]. destruct T4 as [n4 E4]; [eauto|]. destruct (U4 n4 E4) as (_ & v4 & F4 & G4 & C4).
    destruct (loaded_roots ls cfg iid 2 S H) as [[_ T6] U6]. destruct T6 as [n6 E6]; [eauto|]. destruct (U6 n6 E6) as (_ & v6 & F6 & G6 & C6).
    unfold root_of in E4, E6. rewrite Em in E4, E6.
    exists iid, (map (fun t => (fst t, CNode (snd t))) m), (CNode n4), (CNode n6). unfold key_of. destruct (Z.ltb_spec iid (2 ^ 63)); [|lia].
    split; [reflexivity|]. rewrite !assoc_nodes, E4, E6. split; [reflexivity|]. split.
    + exists n4. split; [reflexivity|]. destruct F4 as [[_ ->]|[? _]]; [|lia]. split; [exact G4|]. right. eauto.
    + split; [reflexivity|]. exists n6. split; [reflexivity|]. destruct F6 as [[? _]|[_ ->]]; [lia|]. split; [exact G6|]. right. eauto.
Qed.
(** finding: a file that delegates only one family in some instance is loaded, and then refused as configuration *)
Theorem C107_refuted : ~ (forall ls cfg fresh s, Forall sensible ls -> load_ddt_root ls = Ok cfg ->
  st_instances s = Some (as_setting cfg) -> others_fine s -> (forall iid afi q x, listed ls (iid, afi, q, x) -> iid < 2 ^ 63) -> exists s', fix_config fresh s = Ok s').
Proof.
  intros H. set (ls := [Line 7 1 (Some p8) (V4, 5)]). assert (Forall sensible ls) as S.
  { constructor; [|constructor]. right. exists p8. split; [reflexivity|]. split; [apply p8_wf|]. left. split; reflexivity. }
  destruct (load_ddt_root ls) as [cfg|e] eqn:E; [|vm_compute in E; discriminate].
  assert (both_families ls) as B.
  { apply (C107_accepted ls cfg (fun _ => (7, 8)%nat) (Settings (Some []) (Some (as_setting cfg)) true true true true) S E eq_refl).
    - split; [exists []; split; [reflexivity|intros a []]|]. auto.
    - apply (H ls cfg); [exact S|exact E|reflexivity|split; [exists []; split; [reflexivity|intros a []]|]; auto|].
      intros iid afi q x (l & [<-|[]] & [[X _]|(_ & q' & _ & [= -> _ _ _])]); [discriminate|]. cbn. lia. }
  destruct (B 7 1 p8 (V4, 5)) as (_ & _ & q & x & (l & [<-|[]] & [[X _]|(_ & q' & _ & X)])); [|discriminate|cbn in X; congruence].
  exists (Line 7 1 (Some p8) (V4, 5)). split; [left; reflexivity|]. right. split; [discriminate|]. exists p8. auto.
Qed.
(** C107: in the daemon, every address of a listed instance and family is delegated to the addresses listed for the prefix it is in, or
    belongs to the root, which this node is authoritative for *)
Theorem C107_every_address : forall ls cfg, Forall sensible ls -> load_ddt_root ls = Ok cfg ->
  (both_families ls -> runs (as_setting cfg) cfg) /\
  forall iid v z, (exists q x, listed ls (iid, afi_of v, q, x)) -> 0 <= z < 2 ^ wz v ->
  exists nd, g_resolve cfg iid (afi_of v) (host v z) = Ok (Some nd) /\
    ((exists q d, in_pfx q v z /\ n_pfx nd = q /\ n_cls nd = NReferral d /\ NoDup d /\ (exists x, listed ls (iid, afi_of v, q, x)) /\
        forall a, In a d <-> exists v' z', a = AIP v' z' /\ listed ls (iid, afi_of v, q, (v', z'))) \/
     ((forall q x, listed ls (iid, afi_of v, q, x) -> ~ in_pfx q v z) /\ n_pfx nd = Pfx v 0 0 /\ n_cls nd = NAuth [])).
Proof.
  intros ls cfg S H. split.
  - intros B iid afi n. destruct (loaded_keys ls cfg H) as (N & K & R). unfold root_of.
    assert (kassoc iid (as_setting cfg) = option_map (fun m => CDict (map (fun t => (fst t, CNode (snd t))) m)) (assoc iid cfg)) as ->.
    { assert (forall i, In i (map fst cfg) -> i < 2 ^ 63) as Lt by (intros i I; destruct (K i I) as (a & q & x & L); apply (B _ _ _ _ L)). clear - Lt.
      induction cfg as [|[k m] c IH]; [reflexivity|]. cbn [as_setting map fst snd kassoc assoc]. unfold key_of at 1. destruct (Z.ltb_spec k (2 ^ 63)) as [|X]; [|specialize (Lt k (or_introl eq_refl)); lia].
      destruct (k =? iid); [reflexivity|]. apply IH. intros i I. apply Lt. right. exact I. }
    destruct (assoc iid cfg) as [m|]; cbn [option_map]; [|split; [discriminate|intros (m & [=] & _)]]. split.
    + intros E. exists (map (fun t => (fst t, CNode (snd t))) m). split; [reflexivity|]. rewrite assoc_nodes, E. reflexivity.
    + intros (m' & [= <-] & E). rewrite assoc_nodes in E. destruct (assoc afi m); [|discriminate]. cbn in E. injection E as ->. reflexivity.
  - intros iid v z L Hz. assert (wf_pfx (host v z)) as W by (apply host_wf, Hz).
    assert ((exists q x, listed ls (iid, afi_of v, q, x) /\ in_pfx q v z) \/ forall q x, listed ls (iid, afi_of v, q, x) -> ~ in_pfx q v z) as D.
    { destruct (loaded ls S) as [(cfg' & next & E & I & NO & AS)|((e & E) & _)]; rewrite E in H; [|discriminate]. injection H as ->.
      assert (exists n, root_of cfg iid (afi_of v) = Some n) as [n En] by (apply (loaded_roots ls cfg iid (afi_of v) S E); exact L).
      specialize (I iid (afi_of v)). cbn [fst snd] in I. rewrite En in I. destruct I as (i & v' & ch & -> & F & _ & _ & _ & Lf & Cv).
      assert (Exists (fun c => in_pfx (n_pfx c) v z) ch \/ ~ Exists (fun c => in_pfx (n_pfx c) v z) ch) as [X|X].
      { apply Exists_dec_prop. intros c Hc. destruct (Lf c Hc) as [_ (j & q & d & -> & Wq & _)]. cbn [n_pfx].
        destruct (has_addr q v z) eqn:B; [left; apply has_addr_spec; assumption|right; intros Y; apply has_addr_spec in Y; congruence]. }
      - left. apply Exists_exists in X. destruct X as (c & Hc & Hi). destruct (Lf c Hc) as [_ (j & q & d & -> & Wq & (x & Hx) & _)]. exists q, x. auto.
      - right. intros q x Hq Hi. apply X, Exists_exists. destruct (Cv q x Hq) as (c & Hc & <-). exists c. auto. }
    destruct D as [(q & x & Lq & Hi)|D].
    + destruct (C56_delegated ls cfg iid (afi_of v) q x S H Lq (host v z) W) as (nd & d & G & Ep & Ec & ND & A); [apply inside_host; exact Hi|].
      exists nd. split; [exact G|]. left. exists q, d. repeat (split; [assumption|]). split; [eauto|exact A].
    + destruct (C56_nothing_else ls cfg iid (afi_of v) (host v z) S H W) as [[_ X]|(nd & G & Ep & Ec)].
      * destruct v; [left|right]; split; reflexivity.
      * intros q x Hq v' z' [Hi Hi']. apply (host_only v z Hz) in Hi'. destruct Hi' as [-> ->]. exact (D q x Hq Hi).
      * destruct L as (q & x & Lq). destruct (X q x Lq).
      * exists nd. split; [exact G|]. right. split; [exact D|]. auto.
Qed.
(** the same, of the text of the file *)
Theorem C107_text : forall ip_address ip_network, (forall p q, ip_network p = Some q -> wf_pfx q) ->
  forall t ls es cfg fresh s, lines_of t ls -> file_says ip_address ip_network ls es -> load_file ip_address ip_network t = Ok cfg ->
  st_instances s = Some (as_setting cfg) -> others_fine s ->
  ((exists s', fix_config fresh s = Ok s') <-> both_families es).
Proof.
  intros ipa ipn W t ls es cfg fresh s L F H. apply (C105_file _ _ t ls cfg L) in H. destruct H as (es' & F' & H). pose proof (C105_one_reading _ _ ls es es' F F') as <-.
  apply C107_accepted; [|exact H]. apply (C56_accepted_all es (says_wf ipa ipn W ls es F)). eauto.
Qed.
(** example: both families in instance 0, two prefixes in instance 7 *)
Definition ok_lines : list line := [Line 0 0 None (V4, 3232235777); Line 7 1 (Some p8) (V4, 5); Line 7 2 (Some (Pfx V6 0 0)) (V6, 6)].
Example C107_example : exists cfg, load_ddt_root ok_lines = Ok cfg /\ Forall sensible ok_lines /\ both_families ok_lines /\
  others_fine (Settings (Some [LAddr V4 1]) (Some (as_setting cfg)) true true true true) /\
  exists s', fix_config (fun _ => (7, 8)%nat) (Settings (Some [LAddr V4 1]) (Some (as_setting cfg)) true true true true) = Ok s'.
Proof.
  destruct (load_ddt_root ok_lines) as [cfg|] eqn:E; [|vm_compute in E; discriminate]. exists cfg. split; [reflexivity|]. split; [|split; [|split]].
  - constructor; [left; reflexivity|]. constructor; [|constructor; [|constructor]]; right; eexists; (split; [reflexivity|]); (split; [first [apply p8_wf|apply wf_zero]|]); [left|right]; split; reflexivity.
  - assert (listed ok_lines (0, 1, Pfx V4 0 0, (V4, 3232235777))) as A by (eexists; split; [left; reflexivity|]; left; auto).
    assert (listed ok_lines (0, 2, Pfx V6 0 0, (V4, 3232235777))) as A2 by (eexists; split; [left; reflexivity|]; left; auto).
    assert (listed ok_lines (7, 1, p8, (V4, 5))) as B4 by (eexists; split; [right; left; reflexivity|]; right; split; [discriminate|eexists; split; reflexivity]).
    assert (listed ok_lines (7, 2, Pfx V6 0 0, (V6, 6))) as B6 by (eexists; split; [right; right; left; reflexivity|]; right; split; [discriminate|eexists; split; reflexivity]).
    intros iid afi q x (l & I & L). assert (iid = ln_iid l) as -> by (destruct L as [[_ [[= -> _ _ _]|[= -> _ _ _]]]|(_ & q' & _ & [= -> _ _ _])]; reflexivity).
    destruct I as [<-|[<-|[<-|[]]]]; cbn [ln_iid]; (split; [lia|]); split; do 2 eexists; eassumption.
  - split; [exists [LAddr V4 1]; split; [reflexivity|intros a [<-|[]]; discriminate]|auto].
  - vm_compute in E. injection E as <-. eexists. vm_compute. reflexivity.
Qed.
Print Assumptions C107_accepted.
Print Assumptions C107_every_address.
Print Assumptions C107_text.
Print Assumptions C107_refuted.
