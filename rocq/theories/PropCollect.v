(** * Property C130: what is announced while addresses change *)
From Verif Require Import Base BaseLemmas Afi Records Control Auth Tree MapServer Etr SpecEtr PropEtr Collect SpecCollect.

Section P.
Variable env : nat -> nat -> Z.
Lemma at_has t l v z : addr_at env t l = AIP v z <-> has_addr env t l v z.
Proof.
  unfold addr_at, has_addr. split.
  - intros H. destruct (l_addr (cl_loc l)) eqn:E; try discriminate. destruct (cl_auto l) as [i|]; injection H as -> <-; eauto.
  - intros (z0 & -> & ->). destruct (cl_auto l); reflexivity.
Qed.
Lemma local_spec l socks : forall t b u, local_now env l socks t = (b, u) -> (t <= u)%nat /\
  (b = true -> exists k s v z, (t <= k /\ S k < u)%nat /\ In s socks /\ sock_has env k s z /\ has_addr env (S k) l v z).
Proof.
  induction socks as [|s socks IH]; cbn [local_now]; intros t b u H; [injection H as <- <-; split; [lia|discriminate]|].
  destruct (addr_at env (S t) l) as [|v z| | | | | | |] eqn:E; try (injection H as <- <-; split; [lia|discriminate]).
  destruct (Z.eqb_spec (sock_at env t s) z) as [Q|Q].
  - injection H as <- <-. split; [lia|]. intros _. exists t, s, v, z. split; [lia|]. split; [left; reflexivity|]. split; [symmetry; exact Q|apply at_has, E].
  - destruct (IH _ _ _ H) as [A B]. split; [lia|]. intros Hb. destruct (B Hb) as (k & s' & v' & z' & K & I & R). exists k, s', v', z'. split; [lia|]. split; [right; exact I|exact R].
Qed.

(** where every announced locator comes from *)
Definition origin (socks : list csock) (rtrs : list addr) (locs : list cloc) (t n : nat) (x : loc) : Prop :=
  exists l k v z0, In l locs /\ (t <= k < n)%nat /\ has_addr env k l v z0 /\ z0 <> 0 /\
    ((exists u z, (k <= u < n)%nat /\ has_addr env u l v z /\ announces (cl_loc l) (l_local x) (AIP v z) x /\ (l_local x = true -> met env n socks l)) \/
     (exists r, In r rtrs /\ announces (cl_loc l) false r x /\ met env n socks l)).
Lemma met_mono n n' socks l : (n <= n')%nat -> met env n socks l -> met env n' socks l.
Proof. intros L (t & s & v & z & A & R). exists t, s, v, z. split; [lia|exact R]. Qed.
Lemma origin_mono socks rtrs l locs t t' n x : (t <= t')%nat -> origin socks rtrs locs t' n x -> origin socks rtrs (l :: locs) t n x.
Proof. intros L (l' & k & v & z0 & A & B & R). exists l', k, v, z0. split; [right; exact A|]. split; [lia|exact R]. Qed.
Lemma collect_spec socks rtrs : forall locs inc acc t ls n, collect env socks rtrs locs inc acc t = Ok (ls, n) ->
  (t <= n)%nat /\ (forall x, In x acc -> In x ls) /\ forall x, In x ls -> In x acc \/ origin socks rtrs locs t n x.
Proof.
  induction locs as [|l locs IH]; cbn [collect]; intros inc acc t ls n H; [injection H as <- <-; auto|].
  destruct (addr_at env t l) as [|v z| | | | | | |] eqn:E; try discriminate. apply at_has in E.
  destruct (Z.eqb_spec z 0) as [->|Nz].
  - destruct (IH _ _ _ _ _ H) as (A & M & B). split; [lia|]. split; [exact M|]. intros x I. destruct (B x I) as [?|O]; [auto|right]. eapply origin_mono; [|exact O]. lia.
  - destruct (local_now env l socks (S t)) as [b u] eqn:L. destruct (local_spec _ _ _ _ _ L) as [Lu Lb].
    assert (forall n, (u <= n)%nat -> b = true -> met env n socks l) as Met.
    { intros n' Ln Hb. destruct (Lb Hb) as (k & s & v' & z' & K & R). exists k, s, v', z'. split; [lia|exact R]. }
    destruct (b && nonempty rtrs) eqn:Q.
    + apply andb_prop in Q. destruct Q as [-> _]. destruct inc.
      * destruct (IH _ _ _ _ _ H) as (A & M & B). split; [lia|]. split; [exact M|]. intros x I. destruct (B x I) as [?|O]; [auto|right]. eapply origin_mono; [|exact O]. lia.
      * destruct (IH _ _ _ _ _ H) as (A & M & B). split; [lia|]. split.
        -- intros x I. apply M. apply (fold_add_in loc_same (new_loc (cl_loc l) false)); [exact loc_same_eq|auto].
        -- intros x I. destruct (B x I) as [I'|O].
           ++ apply (fold_add_in loc_same (new_loc (cl_loc l) false)) in I'; [|exact loc_same_eq]. destruct I' as [?|(r & Ir & Ex)]; [auto|right].
              exists l, t, v, z. split; [left; reflexivity|]. split; [lia|]. split; [exact E|]. split; [exact Nz|]. right. exists r. split; [exact Ir|].
              split; [apply new_loc_announces, Ex|apply Met; auto; lia].
           ++ right. eapply origin_mono; [|exact O]. lia.
    + destruct (IH _ _ _ _ _ H) as (A & M & B). split; [lia|]. split.
      * intros x I. apply M. apply (set_add_in loc_same); [exact loc_same_eq|auto].
      * intros x I. destruct (B x I) as [I'|O]; [|right; eapply origin_mono; [|exact O]; lia].
        apply (set_add_in loc_same) in I'; [|exact loc_same_eq]. destruct I' as [?| ->]; [auto|right].
        destruct E as (zc & Ec & Ez). exists l, t, v, z. split; [left; reflexivity|]. split; [lia|]. split; [exists zc; auto|]. split; [exact Nz|]. left.
        exists u, (match cl_auto l with Some i => env u i | None => zc end). split; [lia|]. split; [exists zc; auto|].
        assert (addr_at env u l = AIP v (match cl_auto l with Some i => env u i | None => zc end)) as Eu by (apply at_has; exists zc; auto).
        rewrite Eu. split; [apply new_loc_announces; reflexivity|]. intros Hb. apply Met; [lia|exact Hb].
Qed.
(** a locator that has an address throughout is announced, or replaced by the RTRs *)
Definition placed (socks : list csock) (rtrs : list addr) (all : list cloc) (n : nat) (ls : list loc) : Prop :=
  rtrs <> [] /\ exists l0, In l0 all /\ met env n socks l0 /\ forall r, In r rtrs -> exists x, In x ls /\ announces (cl_loc l0) false r x.
Lemma collect_all socks rtrs all : forall locs inc acc t ls n, (forall l, In l locs -> In l all) -> collect env socks rtrs locs inc acc t = Ok (ls, n) ->
  (inc = true -> placed socks rtrs all n ls) ->
  forall l, In l locs -> (forall k v z, (t <= k < n)%nat -> has_addr env k l v z -> z <> 0) ->
  (exists u v z x b, (u < n)%nat /\ has_addr env u l v z /\ In x ls /\ announces (cl_loc l) b (AIP v z) x) \/ (met env n socks l /\ placed socks rtrs all n ls).
Proof.
  induction locs as [|l0 locs IH]; cbn [collect]; intros inc acc t ls n Sub H HP l I Up; [destruct I|].
  assert (forall l, In l locs -> In l all) as Sub' by (intros; apply Sub; right; assumption).
  destruct (addr_at env t l0) as [|v z| | | | | | |] eqn:E; try discriminate. apply at_has in E.
  destruct (Z.eqb_spec z 0) as [->|Nz].
  - destruct (collect_spec _ _ _ _ _ _ _ _ H) as (A & _ & _). destruct I as [->|I]; [exfalso; apply (Up t v 0); auto; lia|].
    eapply IH; eauto. intros k v' z' K. apply Up. lia.
  - destruct (local_now env l0 socks (S t)) as [b u] eqn:L. destruct (local_spec _ _ _ _ _ L) as [Lu Lb].
    assert (forall n, (u <= n)%nat -> b = true -> met env n socks l0) as Met.
    { intros n' Ln Hb. destruct (Lb Hb) as (k & s & v' & z' & K & R). exists k, s, v', z'. split; [lia|exact R]. }
    destruct (b && nonempty rtrs) eqn:Q.
    + apply andb_prop in Q. destruct Q as [-> Q]. assert (rtrs <> []) as NR by (intros ->; discriminate).
      assert (placed socks rtrs all n ls /\ (t <= n)%nat /\ (u <= n)%nat) as (PL & Ln & Un).
      { destruct inc.
        - destruct (collect_spec _ _ _ _ _ _ _ _ H) as (A & _ & _). split; [apply HP; reflexivity|lia].
        - destruct (collect_spec _ _ _ _ _ _ _ _ H) as (A & M & _). split; [|lia]. split; [exact NR|]. exists l0. split; [apply Sub; left; reflexivity|].
          split; [apply Met; auto|]. intros r Ir. exists (new_loc (cl_loc l0) false r). split; [|apply new_loc_announces; reflexivity].
          apply M. apply (fold_add_in loc_same (new_loc (cl_loc l0) false)); [exact loc_same_eq|eauto]. }
      destruct I as [->|I]; [right; split; [apply Met; auto|exact PL]|].
      destruct inc; (eapply IH; [exact Sub'|exact H|intros _; exact PL|exact I|]; intros k v' z' K; apply Up; lia).
    + destruct (collect_spec _ _ _ _ _ _ _ _ H) as (A & M & _). destruct I as [->|I].
      * left. destruct E as (zc & Ec & Ez). exists u, v, (match cl_auto l with Some i => env u i | None => zc end), (new_loc (cl_loc l) b (addr_at env u l)), b.
        assert (addr_at env u l = AIP v (match cl_auto l with Some i => env u i | None => zc end)) as Eu by (apply at_has; exists zc; auto).
        split; [lia|]. split; [exists zc; auto|]. split; [apply M; apply (set_add_in loc_same); [exact loc_same_eq|auto]|]. rewrite Eu. apply new_loc_announces. reflexivity.
      * eapply IH; [exact Sub'|exact H|exact HP|exact I|]. intros k v' z' K; apply Up; lia.
Qed.

Definition all_rtrs (stored : list (list addr)) (tentative : list addr) : list addr := concat stored ++ tentative.
Lemma rtr_set stored tentative : Forall ip_addr (all_rtrs stored tentative) -> exists rs, get_rtrs stored = Ok rs /\
  forall r, In r (fold_left (fun s x => set_add addr_same x s) tentative rs) <-> In r (all_rtrs stored tentative).
Proof.
  intros HR. apply Forall_app in HR. destruct HR as [HR1 _]. unfold get_rtrs. rewrite (as_ips_ok _ HR1). cbn [bind]. eexists. split; [reflexivity|]. intros r.
  rewrite (fold_add_in addr_same (fun x => x)) by exact addr_same_eq. rewrite (fold_add_in addr_same (fun x => x)) by exact addr_same_eq. unfold all_rtrs. rewrite in_app_iff. split.
  - intros [[[]|(y & H & ->)]|(y & H & ->)]; auto.
  - intros [H|H]; [left; right; eauto|right; eauto].
Qed.
Variables (locs : list cloc) (stored : list (list addr)) (socks : list csock) (tentative : list addr).
Hypothesis Hr : Forall ip_addr (all_rtrs stored tentative).
Variables (ls : list loc) (n : nat).
Hypothesis Hc : collect_locators env locs stored socks tentative = Ok (ls, n).

(** Every announced locator has the priorities and weights of a configured one whose interface had an address when the
    collection came to it; its address is one that this interface had then or later, or an RTR, if the interface had the
    number of a socket. *)
Theorem C130_origin : forall x, In x ls -> exists l k v z0, In l locs /\ (k < n)%nat /\ has_addr env k l v z0 /\ z0 <> 0 /\
    ((exists u z, (k <= u < n)%nat /\ has_addr env u l v z /\ announces (cl_loc l) (l_local x) (AIP v z) x /\ (l_local x = true -> met env n socks l)) \/
     (exists r, In r (concat stored ++ tentative) /\ announces (cl_loc l) false r x /\ met env n socks l)).
Proof.
  intros x I. unfold collect_locators in Hc. destruct (rtr_set stored tentative Hr) as (rs & E & HS). rewrite E in Hc. cbn [bind] in Hc.
  destruct (collect_spec _ _ _ _ _ _ _ _ Hc) as (_ & _ & B). destruct (B x I) as [[]|(l & k & v & z0 & A1 & A2 & A3 & A4 & A5)].
  exists l, k, v, z0. split; [exact A1|]. split; [lia|]. split; [exact A3|]. split; [exact A4|]. destruct A5 as [A5|(r & Ir & R)]; [left; exact A5|right].
  exists r. split; [apply HS, Ir|exact R].
Qed.
(** The unspecified address is never announced if the interfaces keep having addresses. *)
Theorem C130_partial : (forall l, In l locs -> stays_up env n l) -> (forall r, In r (concat stored ++ tentative) -> exists v z, r = AIP v z /\ z <> 0) ->
  forall x, In x ls -> exists v z, l_addr x = AIP v z /\ z <> 0.
Proof.
  intros U NR x I. destruct (C130_origin x I) as (l & k & v & z0 & A1 & A2 & A3 & A4 & [(u & z & B1 & B2 & B3 & _)|(r & B1 & B2 & _)]).
  - exists v, z. split; [apply (an_addr _ _ _ _ B3)|]. exact (U l A1 k u v z0 v z B1 A3 B2 A4).
  - rewrite (an_addr _ _ _ _ B2). apply NR, B1.
Qed.
(** A configured locator whose interface has an address throughout is announced with an address it had, or, if it had the
    number of a socket, all RTRs are. *)
Theorem C130_announced : forall l, In l locs -> always_up env n l ->
  (exists u v z x b, (u < n)%nat /\ has_addr env u l v z /\ In x ls /\ announces (cl_loc l) b (AIP v z) x) \/
  (met env n socks l /\ concat stored ++ tentative <> [] /\
   exists l0, In l0 locs /\ met env n socks l0 /\ forall r, In r (concat stored ++ tentative) -> exists x, In x ls /\ announces (cl_loc l0) false r x).
Proof.
  intros l I U. unfold collect_locators in Hc. destruct (rtr_set stored tentative Hr) as (rs & E & HS). rewrite E in Hc. cbn [bind] in Hc.
  destruct (collect_all _ _ locs _ _ _ _ _ _ (fun l H => H) Hc ltac:(discriminate) l I) as [A|(A & B & l0 & C1 & C2 & C3)].
  - intros k v z K. apply U. lia.
  - left. exact A.
  - right. split; [exact A|]. split.
    + intros X. destruct (fold_left _ tentative rs) as [|r l'] eqn:F; [congruence|]. assert (In r (concat stored ++ tentative)) as Y by (apply HS; left; reflexivity). rewrite X in Y. destruct Y.
    + exists l0. split; [exact C1|]. split; [exact C2|]. intros r Ir. apply C3, HS, Ir.
Qed.
End P.

(** When nothing changes, this is [get_etr_locators] (C57). *)
Section Still.
Variable env : nat -> nat -> Z.
Hypothesis still : forall t, env t = env 0%nat.
Definition snap_sock (s : csock) : fam * Z := (fst (cs_addr s), sock_at env 0 s).
Definition snap_loc (l : cloc) : loc :=
  let c := cl_loc l in Loc (l_prio c) (l_weight c) (l_mprio c) (l_mweight c) (l_rsv c) (l_local c) (l_probed c) (l_reach c) (addr_at env 0 l).
Lemma addr_still t l : addr_at env t l = addr_at env 0 l. Proof. unfold addr_at. rewrite (still t). reflexivity. Qed.
Lemma local_still l v z socks : addr_at env 0 l = AIP v z -> forall t, exists u, local_now env l socks t = (is_local_loc (map snap_sock socks) z, u).
Proof.
  intros E. induction socks as [|s socks IH]; intros t; cbn [local_now map is_local_loc existsb]; [eauto|]. rewrite addr_still, E.
  cbn [snap_sock snd]. unfold sock_at. rewrite (still t). destruct (_ =? z); [eauto|apply IH].
Qed.
Lemma announce_still socks rtrs : forall locs inc acc t,
  match announce (map snap_sock socks) rtrs (map snap_loc locs) inc acc with
  | Ok ls => exists u, collect env socks rtrs locs inc acc t = Ok (ls, u)
  | Err e => collect env socks rtrs locs inc acc t = Err e
  end.
Proof.
  induction locs as [|l locs IH]; intros inc acc t; cbn [announce collect map]; [eauto|]. cbn [snap_loc l_addr].
  rewrite (addr_still t). destruct (addr_at env 0 l) as [|v z| | | | | | |] eqn:E; try reflexivity.
  destruct (z =? 0); [apply IH|]. destruct (local_still l v z socks E (S t)) as (u & ->). destruct (is_local_loc (map snap_sock socks) z && nonempty rtrs); [destruct inc; apply IH|].
  rewrite (addr_still u), E. apply IH.
Qed.
Theorem C130_still locs stored socks tentative :
  exists locs' socks', Forall2 (loc_now env) locs locs' /\ Forall2 (sock_now env) socks socks' /\
    match get_etr_locators locs' stored socks' tentative with
    | Ok ls => exists n, collect_locators env locs stored socks tentative = Ok (ls, n)
    | Err e => collect_locators env locs stored socks tentative = Err e
    end.
Proof.
  exists (map snap_loc locs), (map snap_sock socks). split; [|split].
  - induction locs as [|l ls IH]; constructor; [|exact IH]. split; [reflexivity|auto].
  - induction socks as [|l ls IH]; constructor; [|exact IH]. reflexivity.
  - unfold get_etr_locators, collect_locators. destruct (get_rtrs stored) as [rs|e]; [|reflexivity]. cbn [bind]. apply announce_still.
Qed.
End Still.

(** ** Not so in general: the interface loses its address between the look and the copy, and 0.0.0.0 is announced *)
Definition co_l : cloc := CLoc (Loc 1 100 255 0 (repeat false 13) false false false (AIP V4 0)) (Some 0%nat).
Definition co_s : csock := CSock (V4, 0) (Some 0%nat).
Definition co_env (t i : nat) : Z := match t with 0%nat | 1%nat | 2%nat => 3221225985 | _ => 0 end.
Theorem C130_refuted : exists env locs stored socks tentative ls n, collect_locators env locs stored socks tentative = Ok (ls, n) /\
  concat stored ++ tentative = [] /\ exists x, In x ls /\ l_addr x = AIP V4 0.
Proof.
  exists co_env, [co_l], [], [co_s], [], [Loc 1 100 255 0 (repeat false 13) true false true (AIP V4 0)], 4%nat. split; [vm_compute; reflexivity|].
  split; [reflexivity|]. eexists. split; [left; reflexivity|reflexivity].
Qed.
(** the hypotheses of the theorems: renumbering while it is collected *)
Definition co_moves (t i : nat) : Z := match t with 0%nat | 1%nat | 2%nat => 3221225985 | _ => 3221225986 end.
Example C130_witness : collect_locators co_moves [co_l] [] [co_s] [] = Ok ([Loc 1 100 255 0 (repeat false 13) true false true (AIP V4 3221225986)], 4%nat) /\
  stays_up co_moves 4 co_l /\ always_up co_moves 4 co_l.
Proof.
  assert (forall t v z, has_addr co_moves t co_l v z -> z <> 0) as N.
  { intros t v z (z0 & _ & ->). cbn [cl_auto co_l]. unfold co_moves. destruct t as [|[|[|t]]]; lia. }
  split; [vm_compute; reflexivity|]. split; [intros t u v z w y _ _ H _; apply (N u w y H)|intros t v z _ H; apply (N t v z H)].
Qed.
Print Assumptions C130_origin.
Print Assumptions C130_partial.
Print Assumptions C130_announced.
Print Assumptions C130_still.
Print Assumptions C130_refuted.
