(** * Properties C85 and C86: layered settings; every address of a configured instance has a node *)
From Coq Require Import Ascii String.
From Verif Require Import Base BaseLemmas Afi Spec Tree SpecTree TreeProofs PropTree Net SpecNet PropNet Conf SpecConf.

Lemma get_set {V} n m (x : V) a : getattr n (setattr m x a) = if String.eqb m n then Some x else getattr n a.
Proof.
  induction a as [|[k y] a IH]; cbn [setattr getattr]; [reflexivity|].
  destruct (String.eqb_spec k m) as [->|N]; cbn [getattr].
  - destruct (String.eqb m n); reflexivity.
  - rewrite IH. destruct (String.eqb_spec k n) as [->|]; [|reflexivity]. destruct (String.eqb_spec m n); [congruence|reflexivity].
Qed.
Lemma upper1_spec c : upper1 c = c <-> ~ (97 <= nat_of_ascii c <= 122)%nat.
Proof.
  unfold upper1. destruct (Nat.leb 97 (nat_of_ascii c) && Nat.leb (nat_of_ascii c) 122)%bool eqn:E.
  - apply andb_prop in E. destruct E as [E1 E2]. apply Nat.leb_le in E1, E2. split; [|lia]. intros H. apply (f_equal nat_of_ascii) in H.
    rewrite nat_ascii_embedding in H by lia. lia.
  - split; [|reflexivity]. intros _ [H1 H2]. apply Nat.leb_le in H1, H2. rewrite H1, H2 in E. discriminate.
Qed.
Lemma upper_spec s : String.eqb s (upper s) = true <-> setting_name s.
Proof.
  rewrite String.eqb_eq. induction s as [|c s IH]; cbn [upper].
  - split; [intros _ [|i] c H; discriminate|reflexivity].
  - split.
    + intros H. injection H as H1 H2. symmetry in H1. apply upper1_spec in H1. apply IH in H2. intros [|i] c' Hc; cbn in Hc; [congruence|eapply H2; eauto].
    + intros H. f_equal; [symmetry; apply upper1_spec; apply (H O); reflexivity|]. apply IH. intros i c' Hc. apply (H (S i)). exact Hc.
Qed.
Lemma load_spec {V} (defs : attrs V) a n : setting_name n ->
  getattr n (load_module defs a) = match getattr n defs with Some x => Some x | None => getattr n a end.
Proof.
  intros U. unfold load_module.
  assert (forall l a', (forall x, In x l -> In x defs) ->
    getattr n (fold_left (fun a d => if String.eqb (fst d) (upper (fst d)) then match getattr (fst d) defs with Some x => setattr (fst d) x a | None => a end else a) l a')
    = if existsb (fun d => String.eqb (fst d) n) l then getattr n defs else getattr n a') as G.
  { induction l as [|[k y] l IH]; intros a' Hl; [reflexivity|]. cbn [fold_left fst existsb]. rewrite IH by (intros; apply Hl; right; assumption).
    destruct (existsb _ l); [rewrite orb_true_r; reflexivity|]. rewrite orb_false_r.
    assert (exists z, getattr k defs = Some z) as (z & Hz).
    { assert (In (k, y) defs) as Hk by (apply Hl; left; reflexivity). clear -Hk. induction defs as [|[k' y'] d IH]; [destruct Hk|]. cbn. destruct (String.eqb_spec k' k); [eauto|]. destruct Hk as [E|Hk]; [congruence|auto]. }
    destruct (String.eqb_spec k n) as [->|N].
    - rewrite (proj2 (upper_spec n) U), Hz, get_set, String.eqb_refl. reflexivity.
    - rewrite Hz. destruct (String.eqb k (upper k)); [|reflexivity]. rewrite get_set. destruct (String.eqb_spec k n); [congruence|reflexivity]. }
  rewrite G by auto. clear G. induction defs as [|[k y] d IH]; [reflexivity|]. cbn [existsb fst getattr]. destruct (String.eqb k n); [reflexivity|exact IH].
Qed.
Lemma load_other {V} (defs : attrs V) a n : ~ setting_name n -> getattr n (load_module defs a) = getattr n a.
Proof.
  intros U. unfold load_module. generalize defs at 1. intros all. revert a. induction defs as [|[k y] d IH]; intros a; [reflexivity|]. cbn [fold_left fst]. rewrite IH.
  destruct (String.eqb k (upper k)) eqn:E; [|reflexivity]. apply upper_spec in E. destruct (getattr k all); [|reflexivity]. rewrite get_set.
  destruct (String.eqb_spec k n) as [->|]; [contradiction|reflexivity].
Qed.

(** C85: loading fails exactly if executing one of the files raises something other than IOError; otherwise an upper-case
    setting has the value of the last file that could be read and defines it, and every other attribute of the settings is
    what it was *)
Theorem C85_refused {V} (files : list (cfile V)) a : (exists e, apply_files files a = Err e) <-> In FRaises files.
Proof.
  revert a. induction files as [|f files IH]; intros a; cbn [apply_files In].
  - split; [intros [e H]; discriminate|intros []].
  - destruct f; rewrite ?IH; split; auto; try (intros [H|H]; [discriminate|exact H]); eauto.
Qed.
Theorem C85_last_wins {V} (files : list (cfile V)) a a' : apply_files files a = Ok a' ->
  forall n,
    (setting_name n -> forall x, last_defines files n x -> getattr n a' = Some x) /\
    (~ setting_name n \/ (forall f x, In f files -> ~ defines f n x) -> getattr n a' = getattr n a).
Proof.
  revert a. induction files as [|f files IH]; intros a H n; cbn [apply_files] in H.
  - injection H as <-. split; [|reflexivity]. intros _ x (pre & f & post & E & _). destruct pre; discriminate.
  - assert (forall b, apply_files files b = Ok a' -> forall x, setting_name n -> (forall g y, In g files -> ~ defines g n y) -> getattr n b = Some x -> getattr n a' = Some x) as Keep.
    { intros b Hb x _ Hn Hx. rewrite <- Hx. apply (IH b Hb n). right. exact Hn. }
    destruct f as [| |defs]; [|discriminate|].
    + destruct (IH a H n) as [I1 I2]. split.
      * intros U x (pre & g & post & E & D & L). destruct pre as [|g' pre]; cbn in E; injection E as E1 E.
        -- destruct D as (defs & D & _). congruence.
        -- apply I1; [exact U|]. exists pre, g, post. auto.
      * intros [U|L]; apply I2; [left; exact U|right]. intros g y Hg. apply L. right. exact Hg.
    + destruct (IH _ H n) as [I1 I2]. split.
      * intros U x (pre & g & post & E & D & L). destruct pre as [|g' pre]; cbn in E; injection E as E1 E.
        -- subst. destruct D as (d' & [= <-] & D). apply (Keep _ H x U); [exact L|]. rewrite load_spec by exact U. rewrite D. reflexivity.
        -- apply I1; [exact U|]. exists pre, g, post. auto.
      * intros L. rewrite I2.
        -- destruct L as [U|L]; [apply load_other; exact U|]. destruct (getattr n defs) as [y|] eqn:E.
           ++ destruct (L (FModule defs) y); [left; reflexivity|]. exists defs. auto.
           ++ (* the name may or may not be upper case *)
              destruct (String.eqb n (upper n)) eqn:EU; [apply upper_spec in EU; rewrite load_spec, E by exact EU; reflexivity|].
              apply load_other. intros U. apply upper_spec in U. congruence.
        -- destruct L as [U|L]; [left; exact U|right]. intros g y Hg. apply L. right. exact Hg.
Qed.
Open Scope string_scope.
Example C85_example : exists a', apply_files [FModule [("NATT", 1); ("petr", 2)]; FIOError; FModule [("NATT", 3); ("SITE_ID", 4)]] [("PETR", 0); ("NATT", 0); ("petr", 7)] = Ok a' /\
  getattr "NATT" a' = Some 3 /\ getattr "SITE_ID" a' = Some 4 /\ getattr "PETR" a' = Some 0 /\ getattr "petr" a' = Some 7 /\
  setting_name "SITE_ID" /\ ~ setting_name "petr" /\ last_defines [FModule [("NATT", 1); ("petr", 2)]; FIOError; FModule [("NATT", 3); ("SITE_ID", 4)]] "NATT" 3.
Proof.
  eexists. split; [reflexivity|]. repeat (split; [first [reflexivity|apply upper_spec; reflexivity]|]). split.
  - intros U. apply upper_spec in U. discriminate.
  - eexists [_; _], _, []. split; [reflexivity|]. split; [|intros g y []]. eexists. split; reflexivity.
Qed.
Close Scope string_scope.

(** ** C86 *)
Lemma whole_in v z : 0 <= z < 2 ^ wz v -> in_pfx (Pfx v 0 0) v z.
Proof.
  intros H. split; [reflexivity|]. unfold in_prefix. cbn [x_net x_len]. rewrite Z.sub_0_r. rewrite Z.div_0_l by (destruct v; discriminate).
  apply Z.div_small. exact H.
Qed.
Lemma kassoc_in k d x : kassoc k d = Some x -> In (KInt k, x) d.
Proof.
  induction d as [|[k' y] d IH]; [discriminate|]. cbn [kassoc]. destruct k' as [z|]; [|right; auto]. destruct (Z.eqb_spec z k) as [->|]; [|right; auto].
  intros [= ->]. left. reflexivity.
Qed.
(** when a configuration was accepted, every address of a configured instance has a node, the most specific one *)
Theorem C86_every_address fresh s s' d cfg iid v z : fix_config fresh s = Ok s' -> st_instances s' = Some d -> runs d cfg ->
  configured d iid -> (forall n, root_of cfg iid (afi_of v) = Some n -> tidy n) -> 0 <= z < 2 ^ wz v ->
  exists n x, root_of cfg iid (afi_of v) = Some n /\ n_pfx n = Pfx v 0 0 /\ g_resolve cfg iid (afi_of v) (host v z) = Ok (Some x) /\
    in_tree x n /\ in_pfx (n_pfx x) v z /\ forall y, in_tree y n -> in_pfx (n_pfx y) v z -> inside (n_pfx x) (n_pfx y).
Proof.
  intros H Hd R (i & Hi) T Hz. apply C66_accepts_exactly in H. destruct H as (l & l' & d' & _ & _ & Es & F & _ & _ & _ & _ & ->). cbn [st_instances] in Hd. injection Hd as ->.
  rewrite Forall_forall in F. destruct (F _ (kassoc_in _ _ _ Hi)) as (k & m & x4 & x6 & [= <- ->] & E4 & (n4 & -> & P4 & _) & E6 & (n6 & -> & P6 & _)).
  assert (exists n, assoc (afi_of v) m = Some (CNode n) /\ n_pfx n = Pfx v 0 0) as (n & En & Pn) by (destruct v; eauto).
  assert (root_of cfg iid (afi_of v) = Some n) as Rn by (apply R; eauto).
  destruct (C46_address_lookup n v z (T n Rn) Hz) as (x & xl & _ & E2 & E3 & E4' & _); [rewrite Pn; apply whole_in, Hz|].
  exists n, x. split; [exact Rn|]. split; [exact Pn|]. unfold g_resolve. rewrite Rn, E2. split; [reflexivity|].
  destruct (E3 x) as [E5 _]. destruct E5 as [E5 E6']; [left; reflexivity|]. auto.
Qed.
(** an instance that is not configured has none *)
Theorem C86_unconfigured d cfg iid afi q : runs d cfg -> ~ configured d iid -> g_resolve cfg iid afi q = Ok None.
Proof.
  intros R N. unfold g_resolve. destruct (root_of cfg iid afi) as [n|] eqn:E; [|reflexivity]. apply R in E. destruct E as (m & E & _). destruct N. exists (CDict m). exact E.
Qed.
(** checking the accepted configuration again changes nothing *)
Theorem C86_stable fresh fresh' s s' : fix_config fresh s = Ok s' -> fix_config fresh' s' = Ok s'.
Proof.
  intros H. apply C66_accepts_exactly in H. destruct H as (l & l' & d & _ & F & _ & C & _ & _ & _ & _ & ->). apply C66_accepts_exactly.
  exists l', l', d. cbn [st_listen st_instances st_petr_ok st_natt_ok st_nfq4_ok st_nfq6_ok]. split; [reflexivity|]. split; [|auto 10].
  clear C. induction F as [|a b l l' Hab _ IH]; constructor; [|exact IH]. left. destruct Hab as [(v & z & -> & ->)|(v & z & -> & ->)]; eauto.
Qed.
Example C86_example : let d := [(KInt 0, CDict [(1, CNode (Node 1 root4 NContainer [Node 3 (Pfx V4 (10 * 2 ^ 24) 8) NETR []])); (2, CNode (Node 2 root6 (NAuth []) []))])] in
  let s := Settings (Some []) (Some d) true true true true in
  let cfg := [(0, [(1, Node 1 root4 NContainer [Node 3 (Pfx V4 (10 * 2 ^ 24) 8) NETR []]); (2, Node 2 root6 (NAuth []) [])])] in
  fix_config (fun _ => (7, 8)%nat) s = Ok s /\ runs d cfg /\ configured d 0 /\ (forall n v, root_of cfg 0 (afi_of v) = Some n -> tidy n) /\
  g_resolve cfg 0 (afi_of V4) (host V4 (10 * 2 ^ 24 + 1)) = Ok (Some (Node 3 (Pfx V4 (10 * 2 ^ 24) 8) NETR [])).
Proof.
  intros d s cfg. split; [reflexivity|]. split; [|split; [eexists; reflexivity|]].
  - intros iid afi n. unfold root_of, cfg, d. cbn [assoc kassoc]. destruct (0 =? iid); [|split; [discriminate|intros (m & [=] & _)]].
    split.
    + intros H. eexists. split; [reflexivity|]. cbn [assoc]. cbn [assoc] in H. revert H; destruct (1 =? afi); [intros [= <-]; reflexivity|]; destruct (2 =? afi); intros H; [injection H as <-; reflexivity|discriminate].
    + intros (m & [= <-] & H). cbn [assoc] in H |- *. revert H; destruct (1 =? afi); [intros [= <-]; reflexivity|]; destruct (2 =? afi); intros H; [injection H as <-; reflexivity|discriminate].
  - split; [|reflexivity]. intros n v H. destruct v; vm_compute in H; injection H as <-.
    + constructor; [repeat split; vm_compute; congruence|discriminate|repeat constructor| |].
      * intros x [<-|[]]. apply inside_interval; [repeat split; vm_compute; congruence|repeat split; vm_compute; congruence|]. vm_compute. repeat split; congruence.
      * intros x [<-|[]]. constructor; [repeat split; vm_compute; congruence|reflexivity|constructor| |]; intros x [].
    + constructor; [repeat split; vm_compute; congruence|discriminate|constructor| |]; intros x [].
Qed.
Print Assumptions C85_refused.
Print Assumptions C85_last_wins.
Print Assumptions C86_every_address.
Print Assumptions C86_unconfigured.
Print Assumptions C86_stable.
