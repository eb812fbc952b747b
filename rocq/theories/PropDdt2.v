(** * Property C55: answers to DDT Map-Requests *)
From Verif Require Import Base BaseLemmas Afi Spec SpecEid PropEid Records Control SpecRec RecordsProofs PropControl Tree SpecTree TreeProofs PropTree PropTree2 MapServer Ddt SpecDdt PropDdt.

(** the NOT-AUTHORITATIVE answer: action 5, TTL 0, incomplete, not authoritative, no locators, the EID and the nonce of
    the request, to the sender's address and port *)
Definition not_auth_answer (m : mreq) (eid : addr) (src : fam * Z) (port : Z) (s : sent mref) : Prop :=
  f_nonce (s_msg s) = q_nonce m /\
  (exists r, f_records (s_msg s) = [r] /\ rr_action r = 5 /\ rr_ttl r = 0 /\ rr_incomplete r = true /\ rr_auth r = false /\
     rr_locs r = [] /\ rr_eid r = eid) /\
  s_to s = [AIP (fst src) (snd src)] /\ s_port s = port.

Lemma not_auth_is m eid src port : not_auth_answer m eid src port (send_answer m src port (not_authoritative eid)).
Proof. repeat split. eexists. repeat split. Qed.

Lemma scan_up l : forall auth, Forall (fun n => is_container n = true) l -> forall x,
  exists auth', scan auth (l ++ [x]) = scan auth' [x].
Proof.
  induction l as [|n l IH]; intros auth Hf x; [exists auth; reflexivity|]. inversion Hf as [|? ? Hn Hf']; subst.
  cbn [app]. cbn [scan]. unfold is_container in Hn. destruct (n_cls n); try discriminate; apply IH, Hf'.
Qed.

Lemma climbs_below l n : climbs l n -> forall y l1 x l2, l = y :: l1 ++ x :: l2 -> exists c, In c (n_ch x) /\ In c l.
Proof.
  intros H. induction H as [r|a b l r Hin H IH]; intros y l1 x l2 E; [destruct l1; discriminate|].
  injection E as <- E. destruct l1 as [|c l1].
  - injection E as <- <-. exists a. split; [exact Hin|left; reflexivity].
  - destruct (IH c l1 x l2 E) as (d & H1 & H2). exists d. split; [exact H1|right; exact H2].
Qed.

(** what is in the path above the first node is a container *)
Lemma above_containers x l n : tidy n -> climbs (x :: l) n -> Forall (fun y => is_container y = true) l.
Proof.
  intros T Hc. remember (x :: l) as k eqn:E. revert x l E. induction Hc as [r|a b l' r Hin Hc IH]; intros x l [= -> <-]; [constructor|].
  constructor; [|eapply IH; [exact T|reflexivity]].
  assert (tidy b) as Tb by (eapply tidy_in; [exact T|]; eapply climbs_in; [exact Hc|left; reflexivity]).
  destruct (tidy_inv b Tb) as (_ & Hl & _). destruct (is_container b) eqn:Eb; [reflexivity|].
  rewrite (Hl eq_refl) in Hin. destruct Hin.
Qed.

Lemma scan_handler l auth a h : scan auth l = (a, Some h) ->
  (exists d, n_cls h = NReferral d) \/ (n_cls h = NMapServer /\ a = Some h).
Proof.
  revert auth. induction l as [|n l IH]; intros auth H; cbn [scan] in H; [discriminate|].
  destruct (n_cls n) eqn:E; try (eapply IH, H); injection H as <- <-; [left; eauto|right; auto].
Qed.

(** an empty referral does not serialise *)
Lemma empty_referral p rsv nonce d r : get_referral p d = Ok r -> exists e, mref_to_bytes (MRef rsv nonce [r]) = Err e.
Proof.
  unfold get_referral, ddt_locators. destruct d; [|discriminate]. cbn [bind]. intros [= <-].
  unfold mref_to_bytes, to_bytes, w_mref, sanitize_mref. cbn [f_nonce f_records mapM].
  unfold guard. destruct (blen nonce =? 8); cbn [bind]; [|eauto].
  unfold sanitize_rrec, new_rrec. cbn. eauto.
Qed.

(** Whatever the configuration and the request: the only Map-Referral that is ever put on the wire is
    NOT-AUTHORITATIVE. *)
Theorem C55_only_not_authoritative cfg security m src port s :
  handle_ddt cfg security m src port = Ok (Some s) -> is_ok (mref_to_bytes (s_msg s)) = true ->
  exists eid l, q_eids m = eid :: l /\ not_auth_answer m eid src port s.
Proof.
  intros H Hok. unfold handle_ddt in H. destruct security; [discriminate|]. destruct (q_eids m) as [|eid l] eqn:Eq; [discriminate|].
  exists eid, l. split; [reflexivity|]. bo H path Ep. destruct path as [pl|]; [|discriminate].
  destruct (scan None (rev pl)) as [auth [h|]] eqn:Es.
  - destruct (scan_handler _ _ _ _ Es) as [(d & Ec)|[Ec ->]]; rewrite Ec in H.
    + bo H r Er. injection H as <-.
      destruct (empty_referral _ (repeat false 20) (q_nonce m) _ _ Er) as (e & He). unfold send_answer in Hok; cbn [s_msg] in Hok. rewrite He in Hok. discriminate.
    + unfold ddt_nodes_of in H. rewrite Ec in H. discriminate.
  - injection H as <-. apply not_auth_is.
Qed.

(** What it does, in every tidy tree. *)
Theorem C55_actual_partial cfg m src port iid afi q n x : tree_for cfg iid afi n -> tidy n -> asks m iid afi q ->
  wf_pfx q -> inside q (n_pfx n) -> ~ crowded n q -> most_specific n q x ->
  let r := handle_ddt cfg false m src port in
  (forall d, n_cls x = NReferral d -> d <> [] -> r = Err EType) /\
  (n_cls x = NReferral [] -> exists s e, r = Ok (Some s) /\ mref_to_bytes (s_msg s) = Err e) /\
  (n_cls x = NMapServer -> r = Err EAttr) /\
  (n_cls x <> NMapServer -> (forall d, n_cls x <> NReferral d) ->
     exists s eid l, r = Ok (Some s) /\ q_eids m = eid :: l /\ not_auth_answer m eid src port s).
Proof.
  intros Ht T (eid & el & a & Eq & Ed & Ea) Wq Hi NC (Hx1 & Hx2 & Hx3). cbv zeta. apply eid_named_spec in Ed.
  destruct (C46_longest_prefix_match n q T Wq Hi) as [_ H]. destruct (H NC) as (y & l & E1 & _ & Hin & Hsp & _ & Hc & _). clear H.
  assert (y = x) as ->.
  { destruct (proj2 (Hin x) (conj Hx1 Hx2)) as [|Hxl]; [assumption|]. exfalso.
    apply in_split in Hxl. destruct Hxl as (l1 & l2 & ->).
    destruct (climbs_below _ _ Hc y l1 x l2 eq_refl) as (c & Hc1 & Hc2). apply (Hx3 c Hc1). apply (Hin c), Hc2. }
  pose proof (above_containers _ _ _ T Hc) as Hab.
  unfold handle_ddt, tree_for in *. rewrite Eq, Ed, Ht, Ea, E1. cbn [bind]. cbn [rev].
  destruct (scan_up (rev l) None (Forall_rev Hab) x) as (auth & ->). cbn [scan].
  split; [|split; [|split]].
  - intros d Ec Hd. rewrite ?Ec. cbv beta iota zeta. rewrite ?Ec. unfold get_referral, ddt_locators. destruct d; [congruence|]. reflexivity.
  - intros Ec. rewrite ?Ec. cbv beta iota zeta. rewrite ?Ec. destruct (get_referral (n_pfx x) []) as [r|] eqn:Er; [|discriminate].
    destruct (empty_referral _ (repeat false 20) (q_nonce m) _ _ Er) as (e & He). cbn [bind]. eexists _, e. split; [reflexivity|exact He].
  - intros Ec. rewrite ?Ec. cbv beta iota zeta. rewrite ?Ec. unfold ddt_nodes_of. rewrite Ec. reflexivity.
  - intros N1 N2. destruct (n_cls x) eqn:Ec; try congruence; eexists _, eid, el; (split; [reflexivity|]); (split; [reflexivity|]); try apply not_auth_is.
Qed.

(** ** Outside the tree *)
Theorem C55_unconfigured cfg m src port iid afi q :
  asks m iid afi q -> (forall n, ~ tree_for cfg iid afi n) -> handle_ddt cfg false m src port = Err EType.
Proof.
  intros (eid & el & a & Eq & Ed & Ea) Hn. apply eid_named_spec in Ed. unfold handle_ddt. rewrite Eq, Ed. unfold tree_for in Hn.
  destruct (root_of cfg iid afi) as [n|]; [destruct (Hn n eq_refl)|reflexivity].
Qed.
Theorem C55_security cfg m src port : handle_ddt cfg true m src port = Ok None.
Proof. reflexivity. Qed.

(** ** On the wire: the answer serialises and arrives for EIDs a Map-Referral can carry *)
Theorem C55_answer_arrives cfg m src port iid afi q n x eid l : tree_for cfg iid afi n -> tidy n -> asks m iid afi q ->
  wf_pfx q -> inside q (n_pfx n) -> ~ crowded n q -> most_specific n q x ->
  n_cls x <> NMapServer -> (forall d, n_cls x <> NReferral d) ->
  q_eids m = eid :: l -> plain_or_instance_prefix eid -> is_ok (w_afi eid) = true -> blen (q_nonce m) = 8 ->
  exists b, ddt_wire cfg false m src port = Ok (Some b) /\
  exists m' r, (forall more, mref_from_bytes (b ++ more) = Ok m') /\ f_nonce m' = q_nonce m /\ f_records m' = [r] /\
    rr_action r = 5 /\ rr_ttl r = 0 /\ rr_locs r = [] /\ rr_incomplete r = true /\ rr_auth r = false /\ rr_ver r = 0 /\ rr_sigs r = 0 /\
    (forall v z k, eid = ANet v z k -> rr_eid r = LInst 0 eid 32) /\ (forall i a k, eid = LInst i a k -> rr_eid r = eid).
Proof.
  intros H1 H2 H3 H4 H5 H6 H7 H8 H9 He Hp Hok Hn.
  destruct (C55_actual_partial cfg m src port iid afi q n x H1 H2 H3 H4 H5 H6 H7) as (_ & _ & _ & Hr).
  assert (handle_ddt cfg false m src port = Ok (Some (send_answer m src port (not_authoritative eid)))) as E.
  { clear Hr. destruct H3 as (eid' & el & a & Eq & Ed & Ea). apply eid_named_spec in Ed. assert (eid' = eid) as -> by congruence.
    destruct (C46_longest_prefix_match n q H2 H4 H5) as [_ H]. destruct (H H6) as (y & l' & E1 & _ & Hin & _ & _ & Hc & _). clear H.
    destruct H7 as (Hx1 & Hx2 & Hx3).
    assert (y = x) as ->.
    { destruct (proj2 (Hin x) (conj Hx1 Hx2)) as [|Hxl]; [assumption|]. exfalso.
      apply in_split in Hxl. destruct Hxl as (l1 & l2 & ->).
      destruct (climbs_below _ _ Hc y l1 x l2 eq_refl) as (c & Hc1 & Hc2). apply (Hx3 c Hc1). apply (Hin c), Hc2. }
    pose proof (above_containers _ _ _ H2 Hc) as Hab.
    unfold handle_ddt, tree_for in *. rewrite Eq, Ed, H1, Ea, E1. cbn [bind]. cbn [rev].
    destruct (scan_up (rev l') None (Forall_rev Hab) x) as (auth & ->). cbn [scan].
    destruct (n_cls x) eqn:Ec; try congruence. }
  clear Hr. unfold ddt_wire. rewrite E. cbn [bind send_answer s_msg].
  set (r0 := not_authoritative eid).
  assert (obj_rrec r0) as Ob by (split; [reflexivity|split; [exact Hp|constructor]]).
  assert (is_ok (rrec_to_bytes r0) = true) as Hw.
  { apply C39_referral_table; try assumption; try reflexivity; try (cbn; lia); [constructor|constructor]. }
  destruct (rrec_to_bytes r0) as [rb|] eqn:Er; [|discriminate]. apply to_bytes_ok in Er.
  assert (exists r1, sanitize_rrec r0 = Ok r1 /\ w_rrec r1 = Ok (bits_of_bytes rb)) as (r1 & Hs & Hw1).
  { unfold w_rrec in Er |- *. bo Er r1 Es. exists r1. split; [first [reflexivity|exact Es]|]. rewrite (sanitize_rrec_idem _ _ Es). exact Er. }
  assert (exists b, mref_to_bytes (MRef (repeat false 20) (q_nonce m) [r0]) = Ok b) as (b & Hb).
  { exists (B [96; 0; 0; 1] ++ q_nonce m ++ rb). apply to_bytes_ok. unfold w_mref, sanitize_mref. cbn [f_nonce f_records f_rsv mapM].
    rewrite Hn. cbn [Z.eqb Pos.eqb guard bind]. rewrite Hs. cbn [bind f_records f_nonce f_rsv concatM mapM]. unfold concatM; cbn [mapM]. rewrite ?Hw1. cbn [bind].
    change (lenZ [r1]) with 1. rewrite !w_uint_in by (split; reflexivity || (vm_compute; congruence)). cbn [bind].
    cbn [concat]. rewrite !bits_of_bytes_app, app_nil_r. rewrite !app_assoc. reflexivity. }
  exists b. rewrite Hb. split; [reflexivity|].
  assert (obj_mref (MRef (repeat false 20) (q_nonce m) [r0])) as Om by (split; [reflexivity|constructor; [exact Ob|constructor]]).
  destruct (C28_map_referral_roundtrip _ _ Om Hb) as (m' & [_ A2 A3] & Hm).
  cbn [f_records f_nonce] in *. inversion A3 as [|? r' ? ? Hr' Hnil E1 E2]; subst. inversion Hnil; subst.
  destruct Hr' as [B1 B2 B3 B4 B5 B6 B7 B8 B9 B10]. exists m', r'. split; [exact Hm|]. split; [exact A2|]. split; [congruence|].
  split; [exact B2|]. split; [exact B1|]. split; [|split; [exact B4|split; [exact B3|split; [exact B7|split; [exact B6|split]]]]].
  - destruct B10 as [B10 _]. cbn in B10. apply Permutation.Permutation_nil in B10. exact B10.
  - intros v z k ->. apply (B8 v z k eq_refl).
  - intros i a k ->. apply (B9 i a k eq_refl).
Qed.

(** ** The property does not hold *)
(** inside authoritative space without a delegation the prescribed action is DELEGATION-HOLE (4) *)
Definition ex_auth : node := Node 0 (Pfx V4 0 0) (NAuth []) [Node 1 p8 (NReferral [AIP V4 1]) []].
Definition ex_cfg : instances := [(0, [(1, ex_auth)])].
Definition ex_mr (e : addr) : mreq :=
  MReq false false false false false (repeat false 9) (B [1;2;3;4;5;6;7;8]) (AIP V4 7) [AIP V4 7] [e] None.
Theorem C55_refuted :
  ~ (forall cfg m src port iid afi q n act, tree_for cfg iid afi n -> tidy n -> asks m iid afi q -> wf_pfx q ->
       inside q (n_pfx n) -> ~ crowded n q -> prescribed n q act ->
       exists s r, handle_ddt cfg false m src port = Ok (Some s) /\ f_records (s_msg s) = [r] /\ rr_action r = act).
Proof.
  intros H. set (q := Pfx V4 (11 * 2 ^ 24) 8).
  assert (wf_pfx q) as Wq by (repeat split; vm_compute; congruence).
  assert (inside q (Pfx V4 0 0)) as I0 by (apply inside_zero; [exact Wq|reflexivity]).
  assert (apart q p8) as A.
  { intros v z [Z1 Z2]. apply in_pfx_interval in Z1; [|exact Wq]. apply in_pfx_interval in Z2; [|apply p8_wf].
    unfold q, p8, x_first, x_last in Z1, Z2. cbn [x_fam x_net x_len] in Z1, Z2. change (wz V4) with 32 in *. lia. }
  assert (tidy ex_auth) as T.
  { constructor; [apply wf_zero|discriminate|repeat constructor| |].
    - intros x [<-|[]]. apply inside_zero; [apply p8_wf|reflexivity].
    - intros x [<-|[]]. constructor; [apply p8_wf|reflexivity|constructor| |]; intros ? []. }
  destruct (H ex_cfg (ex_mr (ANet V4 (11 * 2 ^ 24) 8)) (V4, 9) 4342 0 1 q ex_auth 4) as (s & r & E & Er & Ea); try assumption.
  - reflexivity.
  - exists (ANet V4 (11 * 2 ^ 24) 8), [], (ANet V4 (11 * 2 ^ 24) 8). split; [reflexivity|]. split; [apply eid_named_spec; reflexivity|reflexivity].
  - intros (y & l1 & c1 & l2 & c2 & l3 & Hy & Hq & E & _). destruct (in_tree_inv _ _ Hy) as [->|(c & [<-|[]] & Hc)].
    + cbn in E. destruct l1 as [|? [|? ?]]; [destruct l2| |]; discriminate.
    + destruct (in_tree_inv _ _ Hc) as [->|(? & [] & _)]. cbn in E. destruct l1; discriminate.
  - apply pr_hole with ex_auth; try discriminate.
    + split; [constructor|]. split; [exact I0|]. intros c [<-|[]] Hc. exact (inside_not_apart _ _ Wq Hc A).
    + exists ex_auth, []. split; [constructor|]. split; [exact I0|reflexivity].
  - vm_compute in E. injection E as <-. vm_compute in Er. injection Er as <-. vm_compute in Ea. discriminate.
Qed.

(** Nor does it hold for delegations: after loading any root file, a request for something inside a listed prefix
    raises TypeError and nothing is sent. *)
Theorem C55_root_never_refers ls cfg m src port iid afi q q' x : Forall sensible ls -> load_ddt_root ls = Ok cfg ->
  listed ls (iid, afi, q, x) -> wf_pfx q' -> inside q' q -> asks m iid afi q' ->
  handle_ddt cfg false m src port = Err EType.
Proof.
  intros Hf HL Hin Wq' Hi Ha.
  destruct (C56_delegated ls cfg iid afi q x Hf HL Hin q' Wq' Hi) as (nd & d & Hg & En & Ec & ND & Hd).
  assert (d <> []) as Hne. { intros ->. destruct x as [v z]. apply (proj2 (Hd (AIP v z))). eauto. }
  destruct (loaded ls Hf) as [(cfg' & next & E & I & NO & S)|((e & E) & NO)]; rewrite E in HL; [|discriminate].
  injection HL as ->. specialize (I iid afi). cbn [fst snd] in I. unfold g_resolve in Hg.
  destruct (root_of cfg iid afi) as [n|] eqn:Er; [|discriminate].
  pose proof (root_tidy _ _ _ _ _ I) as T.
  assert (inside q' (n_pfx n)) as Hin'.
  { destruct I as (i & v & ch & -> & F & _). cbn. apply inside_zero; [exact Wq'|].
    destruct (S _ _ _ _ Hin) as [Wq Fq]. destruct (Hi (x_fam q') (x_first q') (in_first q' Wq')) as [Hfam _].
    destruct F as [[? ?]|[? ?]], Fq as [[? ?]|[? ?]]; congruence. }
  pose proof (resolve_path_tidy n T q' Wq' Hin') as H. destruct (resolve_path n q') as [l|e] eqn:El.
  2: { unfold resolve in Hg. rewrite El in Hg. discriminate. }
  destruct H as (Hc & _ & NC). destruct (C46_longest_prefix_match n q' T Wq' Hin') as [_ H]. destruct (H NC) as (y & l' & E1 & E2 & Hl & _ & _ & Hc' & _).
  rewrite E2 in Hg. cbn [bind] in Hg. injection Hg as ->.
  destruct (C55_actual_partial cfg m src port iid afi q' n nd) as (H1 & _); try assumption.
  - split; [|split].
    + apply Hl. left; reflexivity.
    + rewrite En. exact Hi.
    + assert (tidy nd) as Tn by (eapply tidy_in; [exact T|]; apply Hl; left; reflexivity).
      destruct (tidy_inv nd Tn) as (_ & Hlf & _). assert (n_ch nd = []) as -> by (apply Hlf; unfold is_container; rewrite Ec; reflexivity). intros c [].
  - apply (H1 d Ec Hne).
Qed.
Print Assumptions C55_only_not_authoritative.
Print Assumptions C55_actual_partial.
Print Assumptions C55_answer_arrives.
Print Assumptions C55_refuted.
Print Assumptions C55_root_never_refers.
Example ex_answer : exists b, ddt_wire ex_cfg false (ex_mr (ANet V4 (11 * 2 ^ 24) 8)) (V4, 9) 4342 = Ok (Some b).
Proof. eexists. vm_compute. reflexivity. Qed.
Example ex_no_referral : handle_ddt ex_cfg false (ex_mr (ANet V4 (10 * 2 ^ 24) 8)) (V4, 9) 4342 = Err EType.
Proof. vm_compute. reflexivity. Qed.
