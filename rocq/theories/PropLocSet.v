(** * Property C108: the locators of an ETR node are those added and not removed since *)
From Verif Require Import Base BaseLemmas Afi Records Tree MapServer Etr SpecEtr PropEtr LocSet.

(** the object is added or removed *)
Definition used (h : list lop) (o : nat) : Prop := In (LocAdd o) h \/ In (LocRemove o) h.
(** nobody assigns to attributes of locators *)
Definition no_assignment (h : list lop) : Prop := forall o l, ~ In (LocAssign o l) h.
(** hash() tells the name of an interface from other names and from the addresses that are used *)
Definition no_collision (hash_ip hash_name : Z -> Z) (heap : nat -> lobj) (h : list lop) : Prop :=
  forall o o' v n, used h o -> used h o' -> lo_ref (heap o) = RAuto v n -> ref_fam (lo_ref (heap o')) = v ->
  loc_hash hash_ip hash_name (heap o) = loc_hash hash_ip hash_name (heap o') -> lo_ref (heap o') = RAuto v n.
(** a locator like [l] was added, and none like it was removed since *)
Definition put (heap : nat -> lobj) (h : list lop) (l : lobj) : Prop :=
  exists h1 o h2, h = h1 ++ LocAdd o :: h2 /\ heap o = l /\ forall o', In (LocRemove o') h2 -> heap o' <> l.
(** the interfaces after [h] *)
Definition ifaces_after (env : ifaddrs) (h : list lop) (env' : ifaddrs) : Prop :=
  (env' = env /\ forall e, ~ In (LocIfaces e) h) \/ exists h1 h2, h = h1 ++ LocIfaces env' :: h2 /\ forall e, ~ In (LocIfaces e) h2.

Section P.
Variables (hash_ip hash_name : Z -> Z).
Local Notation hashl := (loc_hash hash_ip hash_name).
Local Notation run := (loc_run hash_ip hash_name).

Lemma put_snoc heap h e l : put heap (h ++ [e]) l <-> (exists o, e = LocAdd o /\ heap o = l) \/ ((forall o, e = LocRemove o -> heap o <> l) /\ put heap h l).
Proof.
  split.
  - intros (h1 & o & h2 & E & El & N). destruct h2 as [|x h2] using rev_ind.
    + apply app_inj_tail in E. destruct E as [_ ->]. left. eauto.
    + clear IHh2. rewrite app_comm_cons, app_assoc in E. apply app_inj_tail in E. destruct E as [-> ->]. right. split.
      * intros o' ->. apply N, in_or_app. right. left. reflexivity.
      * exists h1, o, h2. split; [reflexivity|]. split; [exact El|]. intros o' I. apply N, in_or_app. left. exact I.
  - intros [(o & -> & El)|(N & h1 & o & h2 & -> & El & N')].
    + exists h, o, []. split; [reflexivity|]. split; [exact El|]. intros o' [].
    + exists h1, o, (h2 ++ [e]). split; [rewrite <- app_assoc; reflexivity|]. split; [exact El|]. intros o' I. apply in_app_or in I. destruct I as [I|[->|[]]]; auto.
Qed.
Lemma run_snoc heap env h e : run heap env (h ++ [e]) = loc_step hash_ip hash_name (run heap env h) e.
Proof. unfold loc_run. rewrite fold_left_app. reflexivity. Qed.
Lemma same_now env a b : loc_same (now env a) (now env b) = true <-> now env a = now env b.
Proof.
  split; [apply loc_same_eq|intros ->; apply loc_same_refl]. unfold ip_locator, now. cbn. destruct (lo_ref b); cbn; eauto.
Qed.

Record inv (heap : nat -> lobj) (H h : list lop) (w : lw) : Prop := {
  i_heap : lw_heap w = heap;
  i_hash : forall e, In e (lw_set w) -> fst e = hashl (heap (snd e)) /\ used H (snd e);
  i_dup : NoDup (map (fun e => heap (snd e)) (lw_set w));
  i_in : forall l, In l (map (fun e => heap (snd e)) (lw_set w)) <-> put heap h l }.
Lemma found_iff heap H h w o e : no_collision hash_ip hash_name heap H -> inv heap H h w -> used H o -> In e (lw_set w) ->
  (found hash_ip hash_name w o e = true <-> heap (snd e) = heap o).
Proof.
  intros NC [Hh Hs Hd Hi] U I. destruct (Hs e I) as [E Ue]. unfold found. rewrite Hh, E, andb_true_iff, Z.eqb_eq, orb_true_iff, same_now. split.
  - intros [Ek [Eq|Eq]]; [apply Nat.eqb_eq in Eq; congruence|]. unfold now in Eq.
    destruct (heap (snd e)) as [p1 w1 mp1 mw1 r1 l1 pr1 re1 a1] eqn:E1, (heap o) as [p2 w2 mp2 mw2 r2 l2 pr2 re2 a2] eqn:E2.
    cbn [lo_prio lo_weight lo_mprio lo_mweight lo_rsv lo_local lo_probed lo_reach lo_ref] in Eq. injection Eq as -> -> -> -> -> -> -> -> Ea.
    f_equal. destruct a1 as [v1 z1|v1 n1], a2 as [v2 z2|v2 n2]; cbn [address_now] in Ea; injection Ea as -> Ez.
    + congruence.
    + specialize (NC o (snd e) v2 n2 U Ue). rewrite E1, E2 in NC. exact (NC eq_refl eq_refl (eq_sym Ek)).
    + specialize (NC (snd e) o v2 n1 Ue U). rewrite E1, E2 in NC. symmetry. exact (NC eq_refl eq_refl Ek).
    + specialize (NC o (snd e) v2 n2 U Ue). rewrite E1, E2 in NC. exact (NC eq_refl eq_refl (eq_sym Ek)).
  - intros ->. split; [reflexivity|right; reflexivity].
Qed.
Lemma discard_keys (f : Z * nat -> lobj) p x l : (forall e, In e l -> (p e = true <-> f e = x)) -> NoDup (map f l) ->
  NoDup (map f (discard p l)) /\ (forall e, In e (discard p l) -> In e l) /\ forall y, In y (map f (discard p l)) <-> In y (map f l) /\ y <> x.
Proof.
  induction l as [|e l IH]; intros P N; [cbn; split; [constructor|]; split; [auto|tauto]|]. cbn [map] in N. inversion N as [|? ? Ni N']; subst.
  destruct IH as (N1 & S1 & I1); [intros; apply P; right; assumption|exact N'|]. cbn [discard]. destruct (p e) eqn:Pe.
  - apply P in Pe; [|left; reflexivity]. split; [exact N'|]. split; [intros; right; assumption|]. intros y. cbn [map In]. rewrite Pe. split.
    + intros I. split; [auto|]. intros ->. apply Ni. rewrite Pe. exact I.
    + intros [[->|I] Ny]; [congruence|exact I].
  - assert (f e <> x) as Ne by (intros X; apply P in X; [congruence|left; reflexivity]). cbn [map]. split; [|split].
    + constructor; [|exact N1]. rewrite I1. tauto.
    + intros e' [<-|I]; [left; reflexivity|right; auto].
    + intros y. cbn [In]. rewrite I1. split; [intros [<-|[A B]]; auto|intros [[<-|A] B]; auto].
Qed.
Lemma run_inv heap env H h : no_collision hash_ip hash_name heap H -> (forall o, used h o -> used H o) -> no_assignment h -> inv heap H h (run heap env h).
Proof.
  intros NC. induction h as [|e h IH] using rev_ind; intros U NA.
  - constructor; cbn; [reflexivity|intros e []|constructor|]. intros l. split; [intros []|]. intros (h1 & o & h2 & E & _). destruct h1; discriminate.
  - assert (inv heap H h (run heap env h)) as I.
    { apply IH; [intros o [X|X]; apply U; [left|right]; apply in_or_app; left; exact X|intros o l X; apply (NA o l), in_or_app; left; exact X]. }
    rewrite run_snoc. set (w := run heap env h) in *. destruct e as [o|o|env'|o x]; cbn [loc_step].
    + assert (used H o) as Uo by (apply U; left; apply in_or_app; right; left; reflexivity).
      destruct (existsb (found hash_ip hash_name w o) (lw_set w)) eqn:Ex.
      * apply existsb_exists in Ex. destruct Ex as (e & Ie & Fe). apply (found_iff _ _ _ _ _ _ NC I Uo Ie) in Fe. destruct I as [Hh Hs Hd Hi]. constructor; auto.
        intros l. rewrite Hi, put_snoc. split; [intros P; right; split; [discriminate|exact P]|]. intros [(o' & [= <-] & <-)|[_ P]]; [|exact P].
        apply Hi. rewrite <- Fe. apply in_map_iff. eauto.
      * assert (~ In (heap o) (map (fun e => heap (snd e)) (lw_set w))) as Nin.
        { intros X. apply in_map_iff in X. destruct X as (e & Ee & Ie). apply (found_iff _ _ _ _ _ _ NC I Uo Ie) in Ee.
          assert (existsb (found hash_ip hash_name w o) (lw_set w) = true) by (apply existsb_exists; eauto). congruence. }
        destruct I as [Hh Hs Hd Hi]. constructor; cbn [lw_heap lw_set].
        -- exact Hh.
        -- intros e Ie. apply in_app_or in Ie. destruct Ie as [Ie|[<-|[]]]; [auto|]. cbn [fst snd]. rewrite Hh. auto.
        -- rewrite map_app. cbn [map snd]. apply Permutation.Permutation_NoDup with (heap o :: map (fun e => heap (snd e)) (lw_set w)); [apply Permutation.Permutation_cons_append|]. constructor; assumption.
        -- intros l. rewrite map_app, in_app_iff, Hi, put_snoc. cbn [map snd In]. split.
           ++ intros [P|[<-|[]]]; [right; split; [discriminate|exact P]|left; eauto].
           ++ intros [(o' & [= <-] & <-)|[_ P]]; auto.
    + assert (used H o) as Uo by (apply U; right; apply in_or_app; right; left; reflexivity).
      assert (forall e, In e (lw_set w) -> (found hash_ip hash_name w o e = true <-> heap (snd e) = heap o)) as F by (intros e; apply (found_iff _ _ _ _ _ _ NC I Uo)).
      destruct I as [Hh Hs Hd Hi]. destruct (discard_keys (fun e => heap (snd e)) _ (heap o) (lw_set w) F Hd) as (N1 & S1 & I1).
      constructor; cbn [lw_heap lw_set]; auto.
      intros l. rewrite I1, Hi, put_snoc. split.
      * intros [P Nl]. right. split; [intros o' [= <-]; auto|exact P].
      * intros [(? & [=] & _)|[N P]]. split; [exact P|]. intros ->. exact (N o eq_refl eq_refl).
    + destruct I as [Hh Hs Hd Hi]. constructor; cbn [lw_heap lw_set]; auto. intros l. rewrite Hi, put_snoc. split; [intros P; right; split; [discriminate|exact P]|intros [(? & [=] & _)|[_ P]]; exact P].
    + exfalso. apply (NA o x), in_or_app. right. left. reflexivity.
Qed.
Lemma env_after heap env h : ifaces_after env h (lw_env (run heap env h)).
Proof.
  induction h as [|e h IH] using rev_ind; [left; split; [reflexivity|intros e []]|]. rewrite run_snoc.
  assert (forall e', (exists o, e = LocAdd o) \/ (exists o, e = LocRemove o) \/ (exists o l, e = LocAssign o l) -> ifaces_after env h e' -> ifaces_after env (h ++ [e]) e') as K.
  { intros e' D [[-> N]|(h1 & h2 & -> & N)].
    - left. split; [reflexivity|]. intros x I. apply in_app_or in I. destruct I as [I|[I|[]]]; [exact (N x I)|]. destruct D as [[? ->]|[[? ->]|(? & ? & ->)]]; discriminate.
    - right. exists h1, (h2 ++ [e]). split; [rewrite <- app_assoc; reflexivity|]. intros x I. apply in_app_or in I. destruct I as [I|[I|[]]]; [exact (N x I)|]. destruct D as [[? ->]|[[? ->]|(? & ? & ->)]]; discriminate. }
  destruct e as [o|o|e|o x]; cbn [loc_step].
  - destruct (existsb _ _); apply K; eauto.
  - apply K; eauto.
  - right. exists h, []. split; [reflexivity|intros x []].
  - apply K; eauto 6.
Qed.
(** C108: whatever is added, removed and changes, the node has exactly the locators that were added and not removed since, each once, with
    the addresses the interfaces have now *)
Theorem C108_locators : forall heap env h, no_assignment h -> no_collision hash_ip hash_name heap h ->
  exists env' ls, ifaces_after env h env' /\ NoDup ls /\ (forall l, In l ls <-> put heap h l) /\
  locators_now (run heap env h) = map (now env') ls.
Proof.
  intros heap env h NA NC. destruct (run_inv heap env h h NC (fun o U => U) NA) as [Hh Hs Hd Hi].
  exists (lw_env (run heap env h)), (map (fun e => heap (snd e)) (lw_set (run heap env h))). split; [apply env_after|]. split; [exact Hd|]. split; [exact Hi|].
  unfold locators_now. rewrite map_map, Hh. reflexivity.
Qed.
(** C108: what is announced without RTRs *)
Theorem C108_announced : forall heap env h socks, no_assignment h -> no_collision hash_ip hash_name heap h ->
  exists env', ifaces_after env h env' /\
  ((forall l v z v', put heap h l -> address_now env' (lo_ref l) = AIP v z -> In (v', z) socks -> v' = v) ->
   exists ls, get_etr_locators (locators_now (run heap env h)) [] socks [] = Ok ls /\ NoDup ls /\
   forall x, In x ls <-> exists l v z local, put heap h l /\ address_now env' (lo_ref l) = AIP v z /\ z <> 0 /\
     (local = true <-> In (v, z) socks) /\ announces (now env' l) local (AIP v z) x).
Proof.
  intros heap env h socks NA NC. destruct (C108_locators heap env h NA NC) as (env' & ls & Ea & ND & Hi & ->). exists env'. split; [exact Ea|]. intros NM.
  destruct (C57_announced_partial (map (now env') ls) [] socks []) as (r & E & NDr & A & _).
  - apply Forall_forall. intros l I. apply in_map_iff in I. destruct I as (lo & <- & _). unfold ip_locator, now. cbn. destruct (lo_ref lo); cbn; eauto.
  - constructor.
  - intros l v z v' I El. apply in_map_iff in I. destruct I as (lo & <- & I). apply (NM lo); [apply Hi, I|exact El].
  - exists r. split; [exact E|]. split; [exact NDr|]. intros x. rewrite (A (or_introl eq_refl)). split.
    + intros (l & local & I & (v & z & El & Nz) & L & An). apply in_map_iff in I. destruct I as (lo & <- & I). exists lo, v, z, local.
      split; [apply Hi, I|]. split; [exact El|]. split; [exact Nz|]. rewrite El in An. split; [|exact An]. rewrite L. unfold ours. cbn [now l_addr] in El |- *.
      split; [intros (v' & z' & E' & I'); congruence|intros I'; exists v, z; auto].
    + intros (lo & v & z & local & P & El & Nz & L & An). exists (now env' lo), local. split; [apply in_map, Hi, P|]. cbn [now l_addr].
      split; [exists v, z; auto|]. split; [|rewrite El; exact An]. rewrite L. unfold ours. cbn [now l_addr]. split; [intros I'; exists v, z; auto|intros (v' & z' & E' & I'); congruence].
Qed.
(** finding: a locator whose address was assigned while the node had it stays for ever, whatever is removed, unless something is used that
    has the hash of the old address *)
Lemma discard_keeps p e l : In e l -> p e = false -> In e (discard p l).
Proof. induction l as [|x l IH]; [intros []|]. intros [->|I] N; cbn [discard]; [rewrite N; left; reflexivity|]. destruct (p x); [exact I|right; auto]. Qed.
Theorem C108_reassigned : forall heap env h1 o l h2, let w := run heap env (h1 ++ [LocAdd o; LocAssign o l]) in
  (forall j, ~ In (LocAdd j) h1) -> hashl l <> hashl (heap o) -> no_assignment h1 -> no_assignment h2 ->
  (forall o', used h2 o' -> o' <> o -> hashl (heap o') <> hashl (heap o)) ->
  exists env', In (now env' l) (locators_now (run heap env ((h1 ++ [LocAdd o; LocAssign o l]) ++ h2))).
Proof.
  intros heap env h1 o l h2 w N1 Hl A1 A2 U2.
  assert (forall h, no_assignment h -> lw_heap (run heap env h) = heap) as HH.
  { intros h. induction h as [|e h IH] using rev_ind; intros A; [reflexivity|]. rewrite run_snoc.
    assert (lw_heap (run heap env h) = heap) as E by (apply IH; intros j x I; apply (A j x), in_or_app; left; exact I).
    destruct e as [j|j|e|j x]; cbn [loc_step]; [destruct (existsb _ _)| | |]; try exact E. destruct (A j x). apply in_or_app. right. left. reflexivity. }
  assert (forall h, (forall j, ~ In (LocAdd j) h) -> lw_set (run heap env h) = []) as HE.
  { intros h. induction h as [|e h IH] using rev_ind; intros A; [reflexivity|]. rewrite run_snoc.
    assert (lw_set (run heap env h) = []) as E by (apply IH; intros j I; apply (A j), in_or_app; left; exact I).
    destruct e as [j|j|e|j x]; cbn [loc_step lw_set]; try exact E; [destruct (A j); apply in_or_app; right; left; reflexivity|]. rewrite E. reflexivity. }
  set (heap' := fun j => if Nat.eqb j o then l else heap j).
  assert (lw_heap w = heap' /\ In (hashl (heap o), o) (lw_set w)) as [W1 W2].
  { unfold w. change [LocAdd o; LocAssign o l] with ([LocAdd o] ++ [LocAssign o l]). rewrite app_assoc, run_snoc, run_snoc. cbn [loc_step].
    rewrite (HE h1 N1). cbn [existsb lw_heap lw_set]. rewrite (HH h1 A1). split; [reflexivity|]. left. reflexivity. }
  assert (lw_heap (run heap env ((h1 ++ [LocAdd o; LocAssign o l]) ++ h2)) = heap' /\ In (hashl (heap o), o) (lw_set (run heap env ((h1 ++ [LocAdd o; LocAssign o l]) ++ h2)))) as [R1 R2].
  { unfold loc_run. rewrite fold_left_app. change (fold_left (loc_step hash_ip hash_name) (h1 ++ [LocAdd o; LocAssign o l]) (LW heap env [])) with w. clearbody w. clear HH HE.
    revert w W1 W2 A2 U2. induction h2 as [|e h2 IH]; intros w W1 W2 A2 U2; [auto|]. cbn [fold_left]. apply IH.
    - destruct e as [j|j|e|j x]; cbn [loc_step]; [destruct (existsb _ _)| | |]; try exact W1. destruct (A2 j x). left. reflexivity.
    - destruct e as [j|j|e|j x]; cbn [loc_step]; [destruct (existsb _ _)| | |]; try exact W2.
      + apply in_or_app. left. exact W2.
      + cbn [lw_set]. apply discard_keeps; [exact W2|]. unfold found. cbn [fst snd]. rewrite W1. apply andb_false_iff. left. apply Z.eqb_neq. intros X. unfold heap' in X.
        destruct (Nat.eqb_spec j o) as [->|Nj]; [exact (Hl (eq_sym X))|]. apply (U2 j); [right; left; reflexivity|exact Nj|congruence].
    - intros j x I. apply (A2 j x). right. exact I.
    - intros j [I|I]; apply U2; [left|right]; right; exact I. }
  exists (lw_env (run heap env ((h1 ++ [LocAdd o; LocAssign o l]) ++ h2))). unfold locators_now. rewrite R1. apply in_map_iff. exists (hashl (heap o), o).
  split; [|exact R2]. cbn [snd]. unfold heap'. rewrite Nat.eqb_refl. reflexivity.
Qed.
End P.

(** example: objects 0 and 2 are the same locator on interface 5, object 1 has a fixed address; the interface changes *)
Definition ex_heap (o : nat) : lobj :=
  LObj 1 100 255 0 (repeat false 13) false false true (if Nat.eqb o 1 then RFixed V4 167772161 else RAuto V4 5).
Definition ex_env (z : Z) : ifaddrs := fun v n => if n =? 5 then z else 0.
Example C108_example : let h := [LocAdd 0; LocAdd 1; LocAdd 2; LocIfaces (ex_env 3232235777); LocRemove 1] in
  no_assignment h /\ no_collision (fun z => z) (fun n => n) ex_heap h /\ put ex_heap h (ex_heap 2) /\ ~ put ex_heap h (ex_heap 1) /\
  map l_addr (locators_now (loc_run (fun z => z) (fun n => n) ex_heap (ex_env 0) h)) = [AIP V4 3232235777].
Proof.
  cbv zeta. split; [intros o l I; cbn in I; repeat destruct I as [I|I]; discriminate || contradiction|]. split.
  { intros o o' v n _ _ E E'. unfold loc_hash, ex_heap in *. cbn [lo_ref] in *. destruct (Nat.eqb o 1); [discriminate|]. injection E as <- <-. destruct (Nat.eqb o' 1); [discriminate|reflexivity]. }
  split; [exists [LocAdd 0; LocAdd 1], 2%nat, [LocIfaces (ex_env 3232235777); LocRemove 1]; split; [reflexivity|]; split; [reflexivity|]; intros o' [I|[I|[]]]; [discriminate|]; injection I as <-; discriminate|].
  split; [|reflexivity]. intros (h1 & o & h2 & E & Eo & N).
  destruct (Nat.eqb_spec o 1) as [->|No]; [|unfold ex_heap in Eo; apply Nat.eqb_neq in No; rewrite No in Eo; discriminate].
  apply (N 1%nat); [|reflexivity]. destruct h1 as [|e1 [|e2 [|e3 h1]]]; cbn in E; injection E; intros; subst; try discriminate; [right; right; left; reflexivity|].
  destruct h1 as [|e4 [|e5 [|]]]; discriminate.
Qed.
Print Assumptions C108_locators.
Print Assumptions C108_announced.
Print Assumptions C108_reassigned.
