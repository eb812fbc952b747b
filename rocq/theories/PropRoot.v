(** * Property C105: the text of the DDT root file; C56 for every file *)
From Verif Require Import Base BaseLemmas Afi AfiProofs Records Tree SpecTree TreeProofs PropTree2 Dict Ddt SpecDdt PropDdt RootFile SpecRoot.

(** ** Characters *)
Lemma is_space_spec c : is_space c = true <-> white c.
Proof. unfold is_space, white. rewrite orb_true_iff, andb_true_iff, Z.eqb_eq, !Z.leb_le. tauto. Qed.
Lemma is_digit_spec c : is_digit c = true <-> digit c.
Proof. unfold is_digit, digit. rewrite andb_true_iff, !Z.leb_le. tauto. Qed.
Lemma is_addr_spec c : is_addr_char c = true <-> addr_char c.
Proof. unfold is_addr_char, addr_char, hex. rewrite !orb_true_iff, !andb_true_iff, !Z.leb_le, !Z.eqb_eq, is_digit_spec. tauto. Qed.
Lemma is_pfx_spec c : is_pfx_char c = true <-> pfx_char c.
Proof. unfold is_pfx_char, pfx_char. rewrite orb_true_iff, Z.eqb_eq, is_addr_spec. tauto. Qed.
Ltac chars := unfold pfx_char, addr_char, hex, digit, white in *; lia.

(** ** Lines *)
Lemma file_lines_spec t : lines_of t (file_lines t).
Proof.
  induction t as [|c t IH]; cbn [file_lines]; [constructor|]. destruct (Z.eqb_spec c 10) as [->|Hc].
  - apply (lo_line [] t); [tauto|exact IH].
  - inversion IH as [|l Hl Hn E|l t' ls Hn H E]; subst.
    + cbn. apply (lo_last [c]); [discriminate|]. intros [X|[]]. congruence.
    + apply (lo_last (c :: t)); [discriminate|]. intros [X|X]; [congruence|contradiction].
    + apply (lo_line (c :: l)); [|exact H]. intros [X|X]; [congruence|contradiction].
Qed.
Lemma before_hash_split l : exists c, l = before_hash l ++ c /\ comment c /\ ~ In 35 (before_hash l).
Proof.
  induction l as [|x l (c & E & C & N)]; cbn [before_hash]; [exists []; split; [reflexivity|]; split; [left; reflexivity|tauto]|].
  destruct (Z.eqb_spec x 35) as [->|Hx].
  - exists (35 :: l). split; [reflexivity|]. split; [right; eauto|tauto].
  - exists c. split; [cbn; congruence|]. split; [exact C|]. intros [X|X]; [congruence|contradiction].
Qed.
Lemma before_hash_app m c : ~ In 35 m -> comment c -> before_hash (m ++ c) = m.
Proof.
  intros N C. induction m as [|x m IH]; cbn [app before_hash].
  - destruct C as [->|[l ->]]; reflexivity.
  - destruct (Z.eqb_spec x 35) as [->|Hx]; [destruct N; left; reflexivity|]. f_equal. apply IH. intros X. apply N. right. exact X.
Qed.
(** does not start with white space *)
Definition tight (l : text) : Prop := match l with [] => True | c :: _ => ~ white c end.
Lemma drop_split l : exists w, l = w ++ drop_spaces l /\ Forall white w /\ tight (drop_spaces l).
Proof.
  induction l as [|c l (w & E & W & T)]; cbn [drop_spaces]; [exists []; cbn; auto|]. destruct (is_space c) eqn:S.
  - apply is_space_spec in S. exists (c :: w). split; [cbn; congruence|]. auto.
  - exists []. split; [reflexivity|]. split; [constructor|]. cbn. rewrite <- is_space_spec. congruence.
Qed.
Lemma drop_app w l : Forall white w -> tight l -> drop_spaces (w ++ l) = l.
Proof.
  intros W T. induction W as [|c w Hc W IH]; cbn [app].
  - destruct l as [|c l]; [reflexivity|]. cbn in *. rewrite <- is_space_spec in T. destruct (is_space c); [contradiction T; reflexivity|reflexivity].
  - cbn [drop_spaces]. apply is_space_spec in Hc. rewrite Hc. exact IH.
Qed.
Lemma strip_split l : exists w w', l = w ++ strip l ++ w' /\ Forall white w /\ Forall white w' /\ tight (strip l) /\ tight (rev (strip l)).
Proof.
  unfold strip. destruct (drop_split l) as (w & E & W & T). destruct (drop_split (rev (drop_spaces l))) as (w' & E' & W' & T').
  set (m := drop_spaces l) in *. set (u := drop_spaces (rev m)) in *.
  assert (m = rev u ++ rev w') as Em by (rewrite <- rev_app_distr, <- E', rev_involutive; reflexivity).
  exists w, (rev w'). split; [congruence|]. split; [exact W|]. split; [apply Forall_rev, W'|]. split; [|rewrite rev_involutive; exact T'].
  rewrite Em in T. destruct (rev u) as [|c r]; [exact Logic.I|exact T].
Qed.
Lemma strip_app w l w' : Forall white w -> Forall white w' -> tight l -> tight (rev l) -> strip (w ++ l ++ w') = l.
Proof.
  intros W W' T T'. unfold strip. destruct l as [|c l].
  - cbn [app]. assert (Forall white (w ++ w')) as X by (apply Forall_app; auto). rewrite <- (app_nil_r (w ++ w')), (drop_app _ [] X Logic.I). reflexivity.
  - rewrite (drop_app w); [|exact W|exact T]. rewrite rev_app_distr, drop_app, rev_involutive; [reflexivity|apply Forall_rev, W'|exact T'].
Qed.

(** ** The regular expression *)
Lemma plus_sound {A} c (k : text -> option A) l : forall done d r, plus c k done l = Some (d, r) ->
  exists u rest, l = u ++ rest /\ u <> [] /\ Forall (fun x => c x = true) u /\ d = done ++ u /\ k rest = Some r.
Proof.
  induction l as [|x l IH]; intros done d r H; cbn [plus] in H; [discriminate|]. destruct (c x) eqn:C; [|discriminate].
  destruct (plus c k (done ++ [x]) l) as [[d' r']|] eqn:P.
  - injection H as -> ->. destruct (IH _ _ _ P) as (u & rest & -> & _ & F & -> & K). exists (x :: u), rest. split; [reflexivity|]. split; [discriminate|].
    split; [constructor; auto|]. split; [rewrite <- app_assoc; reflexivity|exact K].
  - destruct (k l) as [r'|] eqn:K; [|discriminate]. injection H as <- <-. exists [x], l. split; [reflexivity|]. split; [discriminate|]. split; [auto|]. split; [reflexivity|exact K].
Qed.
Lemma plus_complete {A} c (k : text -> option A) u rest r : u <> [] -> Forall (fun x => c x = true) u -> k rest = Some r ->
  forall done, plus c k done (u ++ rest) <> None.
Proof.
  intros N F K. induction F as [|x u Hx F IH]; [destruct N; reflexivity|]. intros done. cbn [app plus]. rewrite Hx. destruct u as [|y u].
  - cbn [app]. destruct (plus c k (done ++ [x]) rest); [discriminate|]. rewrite K. discriminate.
  - specialize (IH ltac:(discriminate) (done ++ [x])). destruct (plus c k (done ++ [x]) ((y :: u) ++ rest)); [discriminate|contradiction].
Qed.
(** where a run of a class ends *)
Definition ends (c : Z -> Prop) (l : text) : Prop := match l with [] => True | x :: _ => ~ c x end.
Lemma run_unique (c : Z -> Prop) u : forall u' r r', Forall c u -> Forall c u' -> ends c r -> ends c r' -> u ++ r = u' ++ r' -> u = u' /\ r = r'.
Proof.
  induction u as [|x u IH]; intros [|y u'] r r' F F' E E' H; cbn [app] in H.
  - auto.
  - subst r. inversion F'. cbn in E. contradiction.
  - subst r'. inversion F. cbn in E'. contradiction.
  - injection H as -> H. inversion F. inversion F'. subst. destruct (IH u' r r') as [-> ->]; auto.
Qed.
Lemma some_forall c l (P : Z -> bool) : (forall x, P x = true <-> c x) -> l <> [] -> Forall (fun x => P x = true) l -> some_of c l.
Proof. intros H N F. split; [exact N|]. eapply Forall_impl; [|exact F]. intros x Hx. apply H, Hx. Qed.
Lemma forall_some c l (P : Z -> bool) : (forall x, P x = true <-> c x) -> some_of c l -> l <> [] /\ Forall (fun x => P x = true) l.
Proof. intros H [N F]. split; [exact N|]. eapply Forall_impl; [|exact F]. intros x Hx. apply H, Hx. Qed.
(** the four groups and what is between them *)
Definition parts (l i w1 a w2 p w3 x e : text) : Prop :=
  l = i ++ w1 ++ a ++ w2 ++ p ++ w3 ++ x ++ e /\ some_of digit i /\ some_of white w1 /\ some_of digit a /\ some_of white w2 /\
  some_of pfx_char p /\ some_of white w3 /\ some_of addr_char x /\ (e = [] \/ e = [10]).
Lemma ddt_line_sound l g : ddt_line l = Some g -> exists w1 w2 w3 e, parts l (gr_instance g) w1 (gr_afi g) w2 (gr_prefix g) w3 (gr_address g) e.
Proof.
  unfold ddt_line. match goal with |- context [match ?m with _ => _ end] => destruct m as [[i [w1 [a [w2 [p [w3 [x []]]]]]]]|] eqn:P end; [|discriminate]. intros [= <-]. cbn [gr_instance gr_afi gr_prefix gr_address].
  apply plus_sound in P. destruct P as (i' & l1 & E1 & N1 & F1 & X1 & P). cbn in X1. subst i'.
  apply plus_sound in P. destruct P as (u & l2 & E2 & N2 & F2 & X2 & P). cbn in X2. subst u.
  apply plus_sound in P. destruct P as (u & l3 & E3 & N3 & F3 & X3 & P). cbn in X3. subst u.
  apply plus_sound in P. destruct P as (u & l4 & E4 & N4 & F4 & X4 & P). cbn in X4. subst u.
  apply plus_sound in P. destruct P as (u & l5 & E5 & N5 & F5 & X5 & P). cbn in X5. subst u.
  apply plus_sound in P. destruct P as (u & l6 & E6 & N6 & F6 & X6 & P). cbn in X6. subst u.
  apply plus_sound in P. destruct P as (u & l7 & E7 & N7 & F7 & X7 & P). cbn in X7. subst u.
  exists w1, w2, w3, l7. split; [congruence|]. split; [exact (some_forall _ _ _ is_digit_spec N1 F1)|]. split; [exact (some_forall _ _ _ is_space_spec N2 F2)|].
  split; [exact (some_forall _ _ _ is_digit_spec N3 F3)|]. split; [exact (some_forall _ _ _ is_space_spec N4 F4)|]. split; [exact (some_forall _ _ _ is_pfx_spec N5 F5)|].
  split; [exact (some_forall _ _ _ is_space_spec N6 F6)|]. split; [exact (some_forall _ _ _ is_addr_spec N7 F7)|].
  unfold at_end in P. destruct l7 as [|c [|c' r]]; [auto| |discriminate]. destruct (Z.eqb_spec c 10) as [->|]; [auto|discriminate].
Qed.
Lemma ends_some (c c' : Z -> Prop) l r : some_of c' l -> (forall x, c x -> c' x -> False) -> ends c (l ++ r).
Proof. intros [N F] D. destruct l as [|x l]; [destruct N; reflexivity|]. inversion F. subst. cbn. intros X. eapply D; eauto. Qed.
Lemma ends_e (c : Z -> Prop) e : ~ c 10 -> e = [] \/ e = [10] -> ends c e.
Proof. intros N [->| ->]; [exact Logic.I|exact N]. Qed.
Lemma parts_unique l i w1 a w2 p w3 x e i' w1' a' w2' p' w3' x' e' : parts l i w1 a w2 p w3 x e -> parts l i' w1' a' w2' p' w3' x' e' ->
  i = i' /\ a = a' /\ p = p' /\ x = x' /\ e = e'.
Proof.
  intros (E & H1 & H2 & H3 & H4 & H5 & H6 & H7 & H8) (E' & H1' & H2' & H3' & H4' & H5' & H6' & H7' & H8'). rewrite E in E'. clear E.
  assert (forall c, digit c -> white c -> False) as D1 by (intros c X Y; chars). assert (forall c, white c -> digit c -> False) as D2 by (intros c X Y; chars).
  assert (forall c, white c -> pfx_char c -> False) as D3 by (intros c X Y; chars). assert (forall c, pfx_char c -> white c -> False) as D4 by (intros c X Y; chars).
  assert (forall c, white c -> addr_char c -> False) as D5 by (intros c X Y; chars).
  apply (run_unique digit) in E'; [|apply H1|apply H1'|eapply ends_some; eassumption|eapply ends_some; eassumption]. destruct E' as [<- E'].
  apply (run_unique white) in E'; [|apply H2|apply H2'|eapply ends_some; eassumption|eapply ends_some; eassumption]. destruct E' as [_ E'].
  apply (run_unique digit) in E'; [|apply H3|apply H3'|eapply ends_some; eassumption|eapply ends_some; eassumption]. destruct E' as [<- E'].
  apply (run_unique white) in E'; [|apply H4|apply H4'|eapply ends_some; eassumption|eapply ends_some; eassumption]. destruct E' as [_ E'].
  apply (run_unique pfx_char) in E'; [|apply H5|apply H5'|eapply ends_some; eassumption|eapply ends_some; eassumption]. destruct E' as [<- E'].
  apply (run_unique white) in E'; [|apply H6|apply H6'|eapply ends_some; eassumption|eapply ends_some; eassumption]. destruct E' as [_ E'].
  apply (run_unique addr_char) in E'; [|apply H7|apply H7'|apply ends_e; [chars|assumption]|apply ends_e; [chars|assumption]]. destruct E' as [<- <-]. auto.
Qed.
Lemma ddt_line_complete l i w1 a w2 p w3 x e : parts l i w1 a w2 p w3 x e -> ddt_line l = Some (Groups i a p x).
Proof.
  intros H. pose proof H as (E & H1 & H2 & H3 & H4 & H5 & H6 & H7 & H8).
  apply (forall_some _ _ _ is_digit_spec) in H1, H3. apply (forall_some _ _ _ is_space_spec) in H2, H4, H6. apply (forall_some _ _ _ is_pfx_spec) in H5. apply (forall_some _ _ _ is_addr_spec) in H7.
  assert (at_end e = Some tt) as K0 by (destruct H8 as [->| ->]; reflexivity).
  destruct (ddt_line l) as [g|] eqn:D.
  - destruct (ddt_line_sound l g D) as (v1 & v2 & v3 & e' & H'). destruct (parts_unique _ _ _ _ _ _ _ _ _ _ _ _ _ _ _ _ _ H H') as (-> & -> & -> & -> & _). destruct g. reflexivity.
  - exfalso. unfold ddt_line in D. rewrite E in D.
    destruct H1, H2, H3, H4, H5, H6, H7.
    match type of D with match ?m with _ => _ end = _ => destruct m as [[? [? [? [? [? [? [? []]]]]]]]|] eqn:M end; [discriminate|]. clear D.
    revert M. 
    pose proof (plus_complete is_addr_char at_end x e tt ltac:(assumption) ltac:(assumption) K0 []) as K1. destruct (plus is_addr_char at_end [] (x ++ e)) eqn:X1; [clear K1|contradiction].
    pose proof (plus_complete is_space _ w3 (x ++ e) _ ltac:(assumption) ltac:(assumption) X1 []) as K2. match type of K2 with ?m <> None => destruct m eqn:X2 end; [clear K2|contradiction].
    pose proof (plus_complete is_pfx_char _ p _ _ ltac:(assumption) ltac:(assumption) X2 []) as K3. match type of K3 with ?m <> None => destruct m eqn:X3 end; [clear K3|contradiction].
    pose proof (plus_complete is_space _ w2 _ _ ltac:(assumption) ltac:(assumption) X3 []) as K4. match type of K4 with ?m <> None => destruct m eqn:X4 end; [clear K4|contradiction].
    pose proof (plus_complete is_digit _ a _ _ ltac:(assumption) ltac:(assumption) X4 []) as K5. match type of K5 with ?m <> None => destruct m eqn:X5 end; [clear K5|contradiction].
    pose proof (plus_complete is_space _ w1 _ _ ltac:(assumption) ltac:(assumption) X5 []) as K6. match type of K6 with ?m <> None => destruct m eqn:X6 end; [clear K6|contradiction].
    pose proof (plus_complete is_digit _ i _ _ ltac:(assumption) ltac:(assumption) X6 []) as K7. exact K7.
Qed.

(** ** One line *)
Lemma int_of_decimal l : int_of 0 l = decimal l.
Proof. unfold decimal. generalize 0. induction l as [|c l IH]; intros n; cbn; [reflexivity|apply IH]. Qed.
Lemma no_hash_white w : Forall white w -> ~ In 35 w.
Proof. intros F X. rewrite Forall_forall in F. apply F in X. chars. Qed.
Lemma no_hash (c : Z -> Prop) w : some_of c w -> (forall x, c x -> x <> 35) -> ~ In 35 w.
Proof. intros [_ F] D X. rewrite Forall_forall in F. exact (D _ (F _ X) eq_refl). Qed.
Lemma ends_tight (c : Z -> Prop) l x : some_of c x -> (forall y, c y -> ~ white y) -> tight (rev (l ++ x)).
Proof.
  intros [N F] D. rewrite rev_app_distr. apply Forall_rev in F. destruct (rev x) as [|y r] eqn:E.
  - apply (f_equal (@rev Z)) in E. rewrite rev_involutive in E. contradiction.
  - inversion F. subst. cbn. auto.
Qed.
Section File.
Variable ip_address : text -> option (fam * Z).
Variable ip_network : text -> option pfx.
Notation read := (read_line ip_address ip_network).
Lemma read_skip raw : read raw = Ok None <-> ignorable raw.
Proof.
  unfold read_line. split.
  - intros H. assert (strip (before_hash raw) = []) as S.
    { destruct (strip (before_hash raw)) as [|c l]; [reflexivity|]. exfalso. destruct (ddt_line (c :: l)) as [g|]; [|discriminate H]. destruct (ip_address (gr_address g)); discriminate H. }
    destruct (before_hash_split raw) as (c & E & C & _). destruct (strip_split (before_hash raw)) as (w & w' & E' & W & W' & _). rewrite S in E'. cbn [app] in E'.
    exists (before_hash raw), c. split; [exact E|]. split; [rewrite E'; apply Forall_app; auto|exact C].
  - intros (w & c & -> & W & C). rewrite before_hash_app; [|apply no_hash_white, W|exact C].
    rewrite <- (app_nil_r w), <- (app_nil_l []), strip_app; [reflexivity|exact W|constructor|exact Logic.I|exact Logic.I].
Qed.
Lemma read_says raw l : read raw = Ok (Some l) <-> says ip_address ip_network raw l.
Proof.
  unfold read_line. split.
  - intros H. destruct (before_hash_split raw) as (c & E & C & _). destruct (strip_split (before_hash raw)) as (w & w' & E' & W & W' & _ & T). set (m := strip (before_hash raw)) in *.
    assert (exists g, ddt_line m = Some g) as [g D]. { destruct m as [|y m0]; [discriminate H|]. destruct (ddt_line (y :: m0)); [eauto|discriminate H]. }
    assert (m <> []) as Nm by (intros X; rewrite X in H; discriminate H).
    assert (match ip_address (gr_address g) with None => Err EValue | Some x => Ok (Some (Line (int_of 0 (gr_instance g)) (int_of 0 (gr_afi g)) (ip_network (gr_prefix g)) x)) end = Ok (Some l)) as H' by (destruct m; [contradiction|rewrite D in H; exact H]).
    destruct (ip_address (gr_address g)) as [z|] eqn:A; [|discriminate]. injection H' as <-. destruct (ddt_line_sound m g D) as (w1 & w2 & w3 & e & P).
    destruct P as (Em & H1 & H2 & H3 & H4 & H5 & H6 & H7 & H8).
    assert (e = []) as ->.
    { destruct H8 as [->| ->]; [reflexivity|]. exfalso. rewrite Em in T. rewrite !app_assoc, rev_app_distr in T. cbn in T. apply T. chars. }
    exists (gr_instance g), (gr_afi g), (gr_prefix g), (gr_address g), z. split; [|split; [exact A|rewrite !int_of_decimal; reflexivity]].
    exists w, w1, w2, w3, w', c. split; [|repeat (split; [assumption|]); assumption]. rewrite E, E', Em, app_nil_r. rewrite <- !app_assoc. reflexivity.
  - intros (i & a & p & x & z & (w0 & w1 & w2 & w3 & w4 & c & -> & W0 & W1 & W2 & W3 & W4 & C & I & A & P & X) & Z & ->).
    set (m := i ++ w1 ++ a ++ w2 ++ p ++ w3 ++ x).
    assert (w0 ++ i ++ w1 ++ a ++ w2 ++ p ++ w3 ++ x ++ w4 ++ c = (w0 ++ m ++ w4) ++ c) as -> by (unfold m; rewrite <- !app_assoc; reflexivity).
    assert (~ In 35 (w0 ++ m ++ w4)) as NH.
    { unfold m. rewrite !in_app_iff. pose proof (no_hash_white w0 W0). pose proof (no_hash_white w4 W4). pose proof (no_hash_white w1 (proj2 W1)). pose proof (no_hash_white w2 (proj2 W2)). pose proof (no_hash_white w3 (proj2 W3)).
      pose proof (no_hash digit i I ltac:(intros; chars)). pose proof (no_hash digit a A ltac:(intros; chars)). pose proof (no_hash pfx_char p P ltac:(intros; chars)). pose proof (no_hash addr_char x X ltac:(intros; chars)). tauto. }
    rewrite (before_hash_app _ c NH C).
    assert (tight m) as T1.
    { unfold m. destruct I as [N F]. destruct i as [|y i]; [destruct N; reflexivity|]. inversion F. subst. cbn. chars. }
    assert (tight (rev m)) as T2 by (unfold m; rewrite !app_assoc; apply (ends_tight addr_char _ x X); intros y Hy; chars).
    rewrite (strip_app w0 m w4 W0 W4 T1 T2). assert (ddt_line m = Some (Groups i a p x)) as D.
    2:{ destruct m as [|y m0]; [discriminate D|]. rewrite D. cbn [gr_address gr_instance gr_afi gr_prefix]. rewrite Z, !int_of_decimal. reflexivity. }
    apply (ddt_line_complete m i w1 a w2 p w3 x []).
    + split; [unfold m; rewrite app_nil_r; reflexivity|]. repeat (split; [assumption|]). left. reflexivity.
Qed.
(** C105: what one line says: blank lines and comments nothing; otherwise exactly the lines with four fields (and a readable address)
    are taken, and all others are refused with ValueError *)
Theorem C105_line : forall raw,
  (read raw = Ok None <-> ignorable raw) /\
  (forall l, read raw = Ok (Some l) <-> says ip_address ip_network raw l) /\
  (~ ignorable raw -> (forall l, ~ says ip_address ip_network raw l) -> read raw = Err EValue).
Proof.
  intros raw. split; [apply read_skip|]. split; [apply read_says|]. intros N1 N2. rewrite <- read_skip in N1.
  destruct (read raw) as [[l|]|e] eqn:R; [exfalso; apply (N2 l), read_says, R|congruence|].
  unfold read_line in R. destruct (strip _); [discriminate|]. destruct (ddt_line _); [|congruence]. destruct (ip_address _); congruence.
Qed.
(** The fields of a line are determined: there is only one way to read it *)
Theorem C105_fields_unique : forall raw i a p x i' a' p' x', fields raw i a p x -> fields raw i' a' p' x' -> i = i' /\ a = a' /\ p = p' /\ x = x'.
Proof.
  assert (forall raw i a p x, fields raw i a p x -> exists w1 w2 w3, parts (strip (before_hash raw)) i w1 a w2 p w3 x []) as K.
  { intros raw i a p x (w0 & w1 & w2 & w3 & w4 & c & -> & W0 & W1 & W2 & W3 & W4 & C & I & A & P & X). exists w1, w2, w3.
    set (m := i ++ w1 ++ a ++ w2 ++ p ++ w3 ++ x).
    assert (w0 ++ i ++ w1 ++ a ++ w2 ++ p ++ w3 ++ x ++ w4 ++ c = (w0 ++ m ++ w4) ++ c) as -> by (unfold m; rewrite <- !app_assoc; reflexivity).
    assert (~ In 35 (w0 ++ m ++ w4)) as NH.
    { unfold m. rewrite !in_app_iff. pose proof (no_hash_white w0 W0). pose proof (no_hash_white w4 W4). pose proof (no_hash_white w1 (proj2 W1)). pose proof (no_hash_white w2 (proj2 W2)). pose proof (no_hash_white w3 (proj2 W3)).
      pose proof (no_hash digit i I ltac:(intros; chars)). pose proof (no_hash digit a A ltac:(intros; chars)). pose proof (no_hash pfx_char p P ltac:(intros; chars)). pose proof (no_hash addr_char x X ltac:(intros; chars)). tauto. }
    rewrite (before_hash_app _ c NH C).
    assert (tight m) as T1.
    { unfold m. destruct I as [N F]. destruct i as [|y i]; [destruct N; reflexivity|]. inversion F. subst. cbn. chars. }
    assert (tight (rev m)) as T2 by (unfold m; rewrite !app_assoc; apply (ends_tight addr_char _ x X); intros y Hy; chars).
    rewrite (strip_app w0 m w4 W0 W4 T1 T2). split; [unfold m; rewrite app_nil_r; reflexivity|]. repeat (split; [assumption|]). left. reflexivity. }
  intros raw i a p x i' a' p' x' H H'. destruct (K _ _ _ _ _ H) as (w1 & w2 & w3 & P). destruct (K _ _ _ _ _ H') as (v1 & v2 & v3 & P').
  destruct (parts_unique _ _ _ _ _ _ _ _ _ _ _ _ _ _ _ _ _ P P') as (-> & -> & -> & -> & _). auto.
Qed.

(** ** The file *)
Lemma lines_unique t ls : lines_of t ls -> ls = file_lines t.
Proof.
  induction 1 as [|l N H|l t ls H L IH].
  - reflexivity.
  - destruct l as [|c l]; [destruct N; reflexivity|]. clear N. revert c H. induction l as [|d l IH]; intros c H; cbn [file_lines].
    + destruct (Z.eqb_spec c 10) as [->|]; [destruct H; left; reflexivity|reflexivity].
    + destruct (Z.eqb_spec c 10) as [->|]; [destruct H; left; reflexivity|].
      assert (file_lines (d :: l) = [d :: l]) as E by (symmetry; apply IH; intros X; apply H; right; exact X). cbn [file_lines] in E. rewrite E. reflexivity.
  - subst ls. induction l as [|c l IH]; cbn [app file_lines]; [rewrite Z.eqb_refl; reflexivity|].
    destruct (Z.eqb_spec c 10) as [->|]; [destruct H; left; reflexivity|]. rewrite <- IH by (intros X; apply H; right; exact X). reflexivity.
Qed.
(** C105: every text has its lines, in one way *)
Theorem C105_lines : forall t, exists ls, lines_of t ls /\ forall ls', lines_of t ls' -> ls' = ls.
Proof.
  intros t. exists (file_lines t). split; [|apply lines_unique].
  induction t as [|c t IH]; cbn [file_lines]; [constructor|]. destruct (Z.eqb_spec c 10) as [->|N].
  - apply (lo_line [] t); [intros []|exact IH].
  - inversion IH as [|l N1 N2|l t' ls N1 L]; subst.
    + constructor; [discriminate|]. intros [X|[]]; lia.
    + constructor; [discriminate|]. intros [X|X]; [lia|contradiction].
    + apply (lo_line (c :: l) t'); [intros [X|X]; [lia|contradiction]|exact L].
Qed.
Lemma load_raw_ok ls : forall s s', load_raw ip_address ip_network s ls = (s', Ok tt) <-> exists es, file_says ip_address ip_network ls es /\ load_lines s es = (s', Ok tt).
Proof.
  induction ls as [|raw ls IH]; intros s s'; cbn [load_raw].
  - split.
    + intros H. exists []. split; [constructor|exact H].
    + intros (es & H & L). inversion H. subst. exact L.
  - destruct (read raw) as [[l|]|e] eqn:R.
    + apply read_says in R as R'. split.
      * destruct (load_line s l) as [s1 [[]|e]] eqn:L; [|discriminate]. intros H. apply IH in H. destruct H as (es & F & H). exists (l :: es).
        split; [constructor; assumption|]. cbn [load_lines]. rewrite L. exact H.
      * intros (es & F & H). inversion F as [|? ? ? I F'|? l' ? es' S F']; subst; [apply read_skip in I; congruence|]. apply read_says in S. rewrite R in S. injection S as <-.
        cbn [load_lines] in H. destruct (load_line s l) as [s1 [[]|e]]; [|discriminate]. apply IH. eauto.
    + apply read_skip in R as R'. rewrite IH. split; intros (es & F & H).
      * exists es. split; [constructor; assumption|exact H].
      * inversion F as [|? ? ? I F'|? l' ? es' S F']; subst; [eauto|]. apply read_says in S. congruence.
    + split; [discriminate|]. intros (es & F & _). inversion F as [|? ? ? I F'|? l' ? es' S F']; subst; [apply read_skip in I|apply read_says in S]; congruence.
Qed.
(** C105: the file is loaded exactly if each of its lines says something or can be ignored, and then the result is that of C56 for what
    the lines say, in their order *)
Theorem C105_file : forall t ls cfg, lines_of t ls ->
  (load_file ip_address ip_network t = Ok cfg <-> exists es, file_says ip_address ip_network ls es /\ load_ddt_root es = Ok cfg).
Proof.
  intros t ls cfg L. apply lines_unique in L. subst ls. unfold load_file, load_ddt_root. split.
  - destruct (load_raw _ _ _ _) as [[cfg' next] [[]|e]] eqn:R; [|discriminate]. intros [= <-]. apply load_raw_ok in R. destruct R as (es & F & H). exists es. split; [exact F|]. rewrite H. reflexivity.
  - intros (es & F & H). destruct (load_lines _ es) as [[cfg' next] [[]|e]] eqn:R; [|discriminate]. injection H as <-.
    assert (load_raw ip_address ip_network ([], O) (file_lines t) = (cfg', next, Ok tt)) as -> by (apply load_raw_ok; eauto). reflexivity.
Qed.
Theorem C105_one_reading : forall ls es es', file_says ip_address ip_network ls es -> file_says ip_address ip_network ls es' -> es = es'.
Proof.
  induction ls as [|raw ls IH]; intros es es' H H'; inversion H as [|? ? ? I F|? l ? f S F]; inversion H' as [|? ? ? I' F'|? l' ? f' S' F']; subst.
  - reflexivity.
  - apply IH; assumption.
  - apply read_skip in I. apply read_says in S'. congruence.
  - apply read_skip in I'. apply read_says in S. congruence.
  - apply read_says in S, S'. rewrite S in S'. injection S' as ->. f_equal. apply IH; assumption.
Qed.
End File.

(** ** C56 for all files: a line that names an unknown address family, or a prefix of the other family, is refused *)
Lemma bad_line D s l : inv D s -> all_sensible D -> ~ sensible l -> (forall q, ln_pfx l = Some q -> wf_pfx q) -> exists e, snd (load_line s l) = Err e.
Proof.
  intros I HS NS W. unfold sensible in NS. unfold load_line. destruct (Z.eqb_spec (ln_afi l) 0) as [E|E]; [tauto|]. destruct (ln_pfx l) as [q|] eqn:Q; [|cbn; eauto].
  specialize (W q eq_refl). assert (~ fam_afi (ln_afi l) (x_fam q)) as NF by (intros X; apply NS; right; eauto). clear NS.
  unfold add_delegation. destruct s as [cfg next]. specialize (I (ln_iid l) (ln_afi l)). cbn [fst snd] in I. unfold root_of in I.
  assert (forall i v ch, fam_afi (ln_afi l) v -> exists e, resolve (Node i (Pfx v 0 0) (NAuth []) ch) q = Err e) as RE.
  { intros i v ch Fv. unfold resolve. rewrite resolve_path_eq. unfold find_one, find_all. cbn [n_pfx n_ch]. unfold inside_test.
    assert (overlaps (Pfx v 0 0) q = false) as ->; [|cbn; eauto].
    destruct (overlaps (Pfx v 0 0) q) eqn:O; [|reflexivity]. exfalso. apply overlaps_spec in O; [|apply wf_zero|exact W]. apply O. intros v' z [[H1 _] [H2 _]]. cbn [x_fam] in H1. apply NF. congruence. }
  destruct (assoc (ln_iid l) cfg) as [inst|] eqn:A1.
  - destruct (assoc (ln_afi l) inst) as [root|] eqn:A2.
    + destruct I as (i & v & ch & -> & F & _). destruct (RE i v ch F) as [e ->]. cbn. eauto.
    + destruct (Z.eqb_spec (ln_afi l) 1) as [E1|E1]; [destruct (RE next V4 [] (or_introl (conj E1 eq_refl))) as [e ->]; cbn; eauto|].
      destruct (Z.eqb_spec (ln_afi l) 2) as [E2|E2]; [destruct (RE next V6 [] (or_intror (conj E2 eq_refl))) as [e ->]; cbn; eauto|]. cbn. eauto.
  - cbn [assoc].
      destruct (Z.eqb_spec (ln_afi l) 1) as [E1|E1]; [destruct (RE next V4 [] (or_introl (conj E1 eq_refl))) as [e ->]; cbn; eauto|].
      destruct (Z.eqb_spec (ln_afi l) 2) as [E2|E2]; [destruct (RE next V6 [] (or_intror (conj E2 eq_refl))) as [e ->]; cbn; eauto|]. cbn. eauto.
Qed.
Lemma sensible_dec l : (forall q, ln_pfx l = Some q -> wf_pfx q) -> sensible l \/ ~ sensible l.
Proof.
  intros W. unfold sensible. destruct (Z.eq_dec (ln_afi l) 0) as [|N0]; [auto|]. destruct (ln_pfx l) as [q|]; [|right; intros [|(q & [=] & _)]; auto]. specialize (W q eq_refl).
  assert (fam_afi (ln_afi l) (x_fam q) \/ ~ fam_afi (ln_afi l) (x_fam q)) as [H|H].
  { unfold fam_afi. destruct (Z.eq_dec (ln_afi l) 1), (Z.eq_dec (ln_afi l) 2), (x_fam q); try lia; intuition congruence. }
  - left. right. eauto.
  - right. intros [|(q' & [= <-] & _ & F)]; auto.
Qed.
Lemma loaded_sensible ls : (forall l q, In l ls -> ln_pfx l = Some q -> wf_pfx q) -> forall D s, inv D s -> all_sensible D -> consistent D ->
  snd (load_lines s ls) = Ok tt -> Forall sensible ls.
Proof.
  induction ls as [|l ls IH]; intros W D s I HS HC H; [constructor|]. cbn [load_lines] in H.
  destruct (sensible_dec l (fun q => W l q (or_introl eq_refl))) as [Hl|Nl].
  - pose proof (load_line_step D s l I HS HC Hl) as H1. cbv zeta in *. destruct (load_line s l) as [s1 r1]; cbn [fst snd] in H1.
    destruct H1 as [(-> & I1 & C1 & S1)|((e & ->) & NC)]; [|discriminate H]. constructor; [exact Hl|]. apply (IH (fun l0 q X => W l0 q (or_intror X)) _ _ I1 S1 C1 H).
  - destruct (bad_line D s l I HS Nl (fun q => W l q (or_introl eq_refl))) as [e He]. destruct (load_line s l) as [s1 r1]. cbn [snd] in He. subst r1. discriminate H.
Qed.
(** C56: a file is accepted exactly if every line names a known address family and a prefix of it, and different prefixes delegated in
    one instance and family do not overlap *)
Theorem C56_accepted_all : forall ls, (forall l q, In l ls -> ln_pfx l = Some q -> wf_pfx q) ->
  ((exists cfg, load_ddt_root ls = Ok cfg) <-> Forall sensible ls /\ no_overlap ls).
Proof.
  intros ls W. assert ((exists cfg, load_ddt_root ls = Ok cfg) -> Forall sensible ls) as F.
  { intros [cfg H]. unfold load_ddt_root in H. destruct (load_lines ([], O) ls) as [[cfg' n] [[]|e]] eqn:L; [|discriminate].
    apply (loaded_sensible ls W (fun _ => False) ([], O)); [intros iid afi; cbn; tauto|intros ? ? ? ? []|intros ? ? ? ? ? ? []|rewrite L; reflexivity]. }
  split.
  - intros H. split; [auto|]. apply (C56_accepted ls (F H)), H.
  - intros [S N]. apply (C56_accepted ls S), N.
Qed.

(** ** The file and what it delegates *)
Section Texts.
Variable ip_address : text -> option (fam * Z).
Variable ip_network : text -> option pfx.
Hypothesis networks : forall p q, ip_network p = Some q -> wf_pfx q.
Lemma says_wf ls es : file_says ip_address ip_network ls es -> forall l q, In l es -> ln_pfx l = Some q -> wf_pfx q.
Proof.
  induction 1 as [|raw ls es I F IH|raw e ls es S F IH]; intros l q X E; [destruct X|eauto|]. destruct X as [->|X]; [|eauto].
  destruct S as (i & a & p & x & z & _ & _ & ->). cbn in E. exact (networks p q E).
Qed.
(** C105: which texts are accepted *)
Theorem C105_accepted : forall t ls, lines_of t ls ->
  ((exists cfg, load_file ip_address ip_network t = Ok cfg) <->
   (exists es, file_says ip_address ip_network ls es /\ Forall sensible es /\ no_overlap es)).
Proof.
  intros t ls L. split.
  - intros [cfg H]. apply (C105_file _ _ t ls cfg L) in H. destruct H as (es & F & H). exists es. split; [exact F|]. apply (C56_accepted_all es (says_wf ls es F)). eauto.
  - intros (es & F & H). apply (C56_accepted_all es (says_wf ls es F)) in H. destruct H as [cfg H]. exists cfg. apply (C105_file _ _ t ls cfg L). eauto.
Qed.
(** C105: what a loaded file delegates: each listed prefix to exactly the addresses on its lines, and nothing else *)
Theorem C105_delegated : forall t ls es cfg iid afi, lines_of t ls -> file_says ip_address ip_network ls es -> load_file ip_address ip_network t = Ok cfg ->
  (forall q x q', listed es (iid, afi, q, x) -> wf_pfx q' -> inside q' q ->
   exists nd d, g_resolve cfg iid afi q' = Ok (Some nd) /\ n_pfx nd = q /\ n_cls nd = NReferral d /\ NoDup d /\
     forall a, In a d <-> exists v z, a = AIP v z /\ listed es (iid, afi, q, (v, z))) /\
  (forall q', wf_pfx q' -> fam_afi afi (x_fam q') -> (forall q x, listed es (iid, afi, q, x) -> apart q q') ->
   (g_resolve cfg iid afi q' = Ok None /\ forall q x, ~ listed es (iid, afi, q, x)) \/
   (exists nd, g_resolve cfg iid afi q' = Ok (Some nd) /\ n_pfx nd = Pfx (x_fam q') 0 0 /\ n_cls nd = NAuth [])).
Proof.
  intros t ls es cfg iid afi L F H. apply (C105_file _ _ t ls cfg L) in H. destruct H as (es' & F' & H). pose proof (C105_one_reading _ _ ls es es' F F') as <-.
  assert (Forall sensible es) as S by (apply (C56_accepted_all es (says_wf ls es F)); eauto). split.
  - intros q x q' X W I. exact (C56_delegated es cfg iid afi q x S H X q' W I).
  - intros q' W A N. exact (C56_nothing_else es cfg iid afi q' S H W A N).
Qed.
End Texts.

(** Example: a comment, "7 1 10.0.0.0/8 1.2.3.4 # x" after a tab, a blank line and "7 1 10.0.0.0/8 ::1" without newline *)
Definition ex_p : text := [49; 48; 46; 48; 46; 48; 46; 48; 47; 56].
Definition ex_a : text := [49; 46; 50; 46; 51; 46; 52].
Definition ex_b : text := [58; 58; 49].
Definition ex_text : text := [35; 32; 55; 10] ++ [9; 55; 32; 49; 32] ++ ex_p ++ [32; 32] ++ ex_a ++ [32; 35; 120; 10] ++ [32; 10] ++ [55; 32; 49; 32] ++ ex_p ++ [9] ++ ex_b.
Definition ex_ip (t : text) : option (fam * Z) := if list_eq_dec Z.eq_dec t ex_a then Some (V4, 16909060) else if list_eq_dec Z.eq_dec t ex_b then Some (V6, 1) else None.
Definition ex_net (t : text) : option pfx := if list_eq_dec Z.eq_dec t ex_p then Some p8 else None.
Example ex_networks : forall p q, ex_net p = Some q -> wf_pfx q.
Proof. unfold ex_net. intros p q. destruct (list_eq_dec _ _ _); [|discriminate]. intros [= <-]. apply p8_wf. Qed.
Example ex_loads : exists cfg nd, load_file ex_ip ex_net ex_text = Ok cfg /\ g_resolve cfg 7 1 (host V4 (x_net p8)) = Ok (Some nd) /\ n_pfx nd = p8 /\
  forall a, In a [AIP V6 1; AIP V4 16909060] <-> match n_cls nd with NReferral d => In a d | _ => False end.
Proof.
  destruct (load_file ex_ip ex_net ex_text) as [cfg|e] eqn:E; vm_compute in E; [|discriminate]. injection E as <-. do 2 eexists. split; [reflexivity|].
  split; [vm_compute; reflexivity|]. split; [reflexivity|]. intros a. cbn. tauto.
Qed.
Example ex_bad_file : load_file ex_ip ex_net ([55; 32; 49; 32] ++ ex_p) = Err EValue.
Proof. vm_compute. reflexivity. Qed.

Print Assumptions C105_lines.
Print Assumptions C105_line.
Print Assumptions C105_fields_unique.
Print Assumptions C105_file.
Print Assumptions C105_one_reading.
Print Assumptions C105_accepted.
Print Assumptions C105_delegated.
Print Assumptions C56_accepted_all.
