(** * Properties C114, C115: from the configuration files to the sockets; identifiers that cannot be registered with *)
From Coq Require Import Ascii String.
From Verif Require Import Base BaseLemmas Afi Spec Records Control SpecRec Auth SpecAuth PropAuth SpecAccept PropAccept Tree SpecTree Net SpecNet PropNet Etr RootFile SpecRoot IpText SpecText PropText Conf SpecConf PropConf Main SpecMain PropMain Startup SpecStartup.
Open Scope string_scope. Open Scope list_scope. Open Scope Z_scope.

Section S.
Variable octal : text -> bool.

(** ** Texts *)
Lemma group_seq_colon q t l : group_seq octal q t l -> (3 <= length l)%nat -> In 58 t.
Proof. intros G. destruct G as [t n H|t z _ H|t n t' l H G]; cbn [length]; intros L; try lia. apply in_or_app. right. left. reflexivity. Qed.
Lemma denotes_mark t a : denotes octal t a -> In 46 t \/ In 58 t.
Proof.
  destruct a as [[] z]; cbn [denotes].
  - intros (a & b & c & d & x & y & v & w & -> & _). left. apply in_or_app. right. left. reflexivity.
  - intros [(l & G & L & _)|(hi & lo & l1 & l2 & k & -> & _)]; right; [apply (group_seq_colon _ _ _ G); lia|]. apply in_or_app. right. left. reflexivity.
Qed.
Lemma no_mark t : ~ In 46 t -> ~ In 58 t -> address_of octal t = None.
Proof. intros A B. destruct (address_of octal t) as [a|] eqn:E; [|reflexivity]. apply C113_address, denotes_mark in E. tauto. Qed.
Lemma number_text z : address_of octal (if z <? 0 then (45 :: print_int 10 (- z))%Z else print_int 10 z) = None.
Proof.
  assert (forall n, 0 <= n -> ~ In 46 (print_int 10 n) /\ ~ In 58 (print_int 10 n)) as H.
  { intros n N. destruct (print_dec n N) as (_ & [_ F] & _). rewrite Forall_forall in F. split; intros I; apply F in I; unfold digit in I; lia. }
  destruct (Z.ltb_spec z 0) as [L|L].
  - destruct (H (- z) ltac:(lia)). apply no_mark; cbn [In]; intros [E|I]; try discriminate; tauto.
  - destruct (H z L). apply no_mark; assumption.
Qed.
Lemma one_char c : address_of octal [c] = None.
Proof.
  unfold address_of, parse4, parse6. cbn [split]. destruct (c =? 46), (c =? 58); reflexivity.
Qed.

(** ** LISTEN_ON *)
Lemma listen1 x b : fix_listen1 (listen_of octal x) = Ok b <-> exists a, names_address octal x a /\ b = LAddr (fst a) (snd a).
Proof.
  assert (forall t, fix_listen1 (LText (address_of octal t)) = Ok b <-> exists a, denotes octal t a /\ b = LAddr (fst a) (snd a)) as T.
  { intros t. destruct (address_of octal t) as [[v z]|] eqn:E; cbn [fix_listen1].
    - apply C113_address in E. split; [intros [= <-]; eauto|]. intros ([v' z'] & D & ->). destruct (C113_one_address _ _ _ _ E D) as [[= -> ->] _]. reflexivity.
    - split; [discriminate|]. intros (a & D & _). apply C113_address in D. congruence. }
  assert (forall t, address_of octal t = None -> fix_listen1 (LText (address_of octal t)) = Err EConfig) as N by (intros t ->; reflexivity).
  destruct x; cbn [listen_of unicode_of].
  - cbn [fix_listen1]. split; [intros [= <-]; exists (v, z); split; [constructor|reflexivity]|]. intros (a & H & ->). inversion H; subst. reflexivity.
  - rewrite T. split; intros (a & H & E); exists a; (split; [|exact E]); [constructor; exact H|inversion H; assumption].
  - match goal with |- ?A = _ <-> _ => assert (A = Err EConfig) as -> by exact (N _ (number_text z)) end. split; [discriminate|]. intros (a & H & _). inversion H.
  - match goal with |- ?A = _ <-> _ => assert (A = Err EConfig) as -> by exact (N _ (number_text z)) end. split; [discriminate|]. intros (a & H & _). inversion H.
  - assert (forall t, ~ In 46 t -> ~ In 58 t -> fix_listen1 (LText (address_of octal t)) = Err EConfig) as N2 by (intros t A1 A2; apply N, no_mark; assumption).
    destruct b0; cbv iota; rewrite N2 by (cbn; intuition lia); (split; [discriminate|]; intros (a & H & _); inversion H).
  - rewrite (N [78; 111; 110; 101]) by (apply no_mark; cbn; intuition lia). split; [discriminate|]. intros (a & H & _). inversion H.
  - cbn. split; [discriminate|]. intros (a & H & _). inversion H.
  - cbn. split; [discriminate|]. intros (a & H & _). inversion H.
  - cbn. split; [discriminate|]. intros (a & H & _). inversion H.
  - destruct shown as [t|].
    + rewrite T. split; intros (a & H & E); exists a; (split; [|exact E]); [constructor; exact H|inversion H; assumption].
    + cbn. split; [discriminate|]. intros (a & H & _). inversion H.
Qed.
Definition objects (A : list (fam * Z)) : list clisten := map (fun a => LAddr (fst a) (snd a)) A.
Lemma listen_all l : forall m, mapM fix_listen1 (map (listen_of octal) l) = Ok m <-> exists A, Forall2 (names_address octal) l A /\ m = objects A.
Proof.
  induction l as [|x l IH]; intros m; cbn [map mapM].
  - split; [intros [= <-]; exists []; split; [constructor|reflexivity]|]. intros (A & F & ->). inversion F. reflexivity.
  - split.
    + intros H. bo H b E. bo H bs Es. okinj H. apply listen1 in E. apply IH in Es. destruct E as (a & N & ->), Es as (A & F & ->). exists (a :: A). split; [constructor; assumption|reflexivity].
    + intros (A & F & ->). inversion F as [|? a ? A' N F']; subst. cbn [objects map]. rewrite (proj2 (listen1 x _)) by eauto. cbn [bind].
      rewrite (proj2 (IH (objects A'))) by eauto. reflexivity.
Qed.
Lemma listens x m : (exists l, option_map (map (listen_of octal)) (iterate x) = Some l /\ mapM fix_listen1 l = Ok m) <-> exists A, lists_addresses octal x A /\ m = objects A.
Proof.
  assert (forall l, (exists l', Some (map (listen_of octal) l) = Some l' /\ mapM fix_listen1 l' = Ok m) <-> exists A, Forall2 (names_address octal) l A /\ m = objects A) as H.
  { intros l. rewrite <- listen_all. split; [intros (l' & [= <-] & E); exact E|eauto]. }
  destruct x; cbn [iterate option_map]; try (split; [intros (l & E & _); discriminate|intros (A & L & _); inversion L]).
  - rewrite H. destruct t as [|c t]; cbn [map]; split; intros (A & F & ->); exists A; (split; [|reflexivity]).
    + inversion F. constructor.
    + inversion F. constructor.
    + exfalso. inversion F as [|? a ? ? N _]; subst. inversion N as [|? ? D|]; subst. apply C113_address in D. rewrite one_char in D. discriminate.
    + inversion F.
  - rewrite H. split; intros (A & F & ->); exists A; (split; [|reflexivity]); [constructor; exact F|inversion F; assumption].
  - rewrite H. split; intros (A & F & ->); exists A; (split; [|reflexivity]); [constructor; exact F|inversion F; assumption].
Qed.

(** ** INSTANCES *)
Lemma num_is x k : num_of x = Some k <-> is_number x k.
Proof. destruct x as [| | | |[]| | | | |]; cbn; split; intros H; try discriminate; try (injection H as <-; constructor); inversion H; subst; reflexivity. Qed.
Lemma entry_assoc k d y : assoc k (flat_map (fun e => match num_of (fst e) with Some k => [(k, cval_of (snd e))] | None => [] end) d) = Some y <->
  exists x, has_entry k d x /\ y = cval_of x.
Proof.
  induction d as [|[key x] d IH]; cbn [flat_map fst snd].
  - split; [discriminate|]. intros (x & H & _). inversion H.
  - assert (~ is_number key k -> (exists x0, has_entry k d x0 /\ y = cval_of x0) <-> exists x0, has_entry k ((key, x) :: d) x0 /\ y = cval_of x0) as L.
    { intros N. split; intros (x0 & H & ->); exists x0; (split; [|reflexivity]); [constructor; assumption|inversion H; subst; [tauto|assumption]]. }
    destruct (num_of key) as [k'|] eqn:E; cbn [app].
    + cbn [assoc]. destruct (Z.eqb_spec k' k) as [->|N].
      * apply num_is in E. split; [intros [= <-]; exists x; split; [constructor; exact E|reflexivity]|]. intros (x0 & H & ->). inversion H; subst; [reflexivity|tauto].
      * rewrite IH. apply L. intros I. apply num_is in I. congruence.
    + rewrite IH. apply L. intros I. apply num_is in I. congruence.
Qed.
Lemma whole_is v x : whole_space v (cval_of x) <-> whole v x.
Proof.
  unfold whole_space, whole. split; intros (n & E & H); exists n; (split; [|exact H]); [destruct x; cbn in E; congruence|subst; reflexivity].
Qed.
Lemma key_plain x : (exists k, key_of x = KInt k) <-> plain_int x.
Proof. split; [intros [k E]; destruct x; cbn in E; try discriminate; constructor|intros []; cbn; eauto]. Qed.
Lemma instance_is e : complete_instance (key_of (fst e), inst_of (snd e)) <-> instance_ok e.
Proof.
  destruct e as [key x]. unfold complete_instance, instance_ok. cbn [fst snd]. split.
  - intros (k & d & x4 & x6 & [= E1 E2] & A4 & W4 & A6 & W6). split; [apply key_plain; eauto|]. destruct x as [| | | | | | |m| |]; cbn [inst_of] in E2; try discriminate. injection E2 as <-.
    apply entry_assoc in A4, A6. destruct A4 as (y4 & H4 & ->), A6 as (y6 & H6 & ->). apply whole_is in W4, W6. exists m, y4, y6. auto 10.
  - intros (K & d & x4 & x6 & -> & H4 & W4 & H6 & W6). apply key_plain in K. destruct K as [k K]. apply whole_is in W4, W6.
    eexists k, _, (cval_of x4), (cval_of x6). split; [rewrite K; reflexivity|]. split; [apply entry_assoc; eauto|]. split; [exact W4|]. split; [apply entry_assoc; eauto|exact W6].
Qed.
Lemma instances_are x : (exists d, instances_of x = Some d /\ Forall complete_instance d) <-> instances_ok x.
Proof.
  assert (forall d, Forall complete_instance (map (fun e => (key_of (fst e), inst_of (snd e))) d) <-> Forall instance_ok d) as M.
  { intros d. rewrite !Forall_forall. split; intros H e I.
    - apply instance_is, H, in_map_iff. exists e. auto.
    - apply in_map_iff in I. destruct I as (e' & <- & I). apply instance_is, H, I. }
  split.
  - intros (d & E & F). destruct x as [|[|c t]| | | | |[|y l]|m| |]; cbn [instances_of] in E; try discriminate; try constructor. injection E as <-. apply M, F.
  - intros [d F| |]; cbn [instances_of]; [eexists; split; [reflexivity|]; apply M, F|exists []; auto|exists []; auto].
Qed.

(** ** The settings in force *)
Lemma setting_upper n : setting n -> setting_name n.
Proof. intros S. apply upper_spec. destruct S; reflexivity. Qed.
Lemma last_or_none {V} (files : list (cfile V)) n : (exists x, last_defines files n x) \/ (forall f x, In f files -> ~ defines f n x).
Proof.
  induction files as [|f files IH]; [right; intros f x []|]. destruct IH as [(x & pre & g & post & -> & D & N)|N].
  - left. exists x, (f :: pre), g, post. auto.
  - assert ((exists x, defines f n x) \/ forall x, ~ defines f n x) as [[x D]|D].
    { destruct f as [| |defs]; try (right; intros x (d & E & _); discriminate). destruct (getattr n defs) as [x|] eqn:E; [left; exists x, defs; auto|]. right. intros x (d & [= <-] & E'). congruence. }
    + left. exists x, [], f, files. auto.
    + right. intros g x [<-|I]; [apply D|apply N, I].
Qed.
Lemma resolved_is t a : address_of octal (hd [] (split 37 t)) = Some a <-> resolved octal t a.
Proof.
  rewrite C113_address. unfold resolved. split.
  - intros D. exists (hd [] (split 37 t)), (skipn (length (hd [] (split 37 t))) t).
    pose proof (join_split 37 t) as J. pose proof (split_parts 37 t) as P. pose proof (split_ne 37 t) as N. destruct (split 37 t) as [|h l]; [congruence|]. cbn [hd] in *. inversion P as [|? ? P1 _]; subst.
    destruct l as [|h' l].
    + cbn [join]. rewrite skipn_all. split; [symmetry; apply app_nil_r|]. auto.
    + rewrite join_cons by discriminate. rewrite skipn_app, skipn_all, Nat.sub_diag. cbn [app skipn]. split; [reflexivity|]. split; [right; eauto|]. auto.
  - intros (h & scope & -> & [->|[z ->]] & N & D).
    + rewrite app_nil_r, split_none by exact N. exact D.
    + rewrite split_app, (split_none 37 h N). exact D.
Qed.
Lemma mapO_spec {A B} (f : A -> option B) (R : A -> B -> Prop) l : (forall a b, f a = Some b <-> R a b) -> forall m, mapO f l = Some m <-> Forall2 R l m.
Proof.
  intros H. induction l as [|a l IH]; intros m; cbn [mapO].
  - split; [intros [= <-]; constructor|intros F; inversion F; reflexivity].
  - split.
    + destruct (f a) as [b|] eqn:E; [|discriminate]. destruct (mapO f l) as [bs|] eqn:Es; [|discriminate]. intros [= <-]. constructor; [apply H, E|apply IH; reflexivity].
    + intros F. inversion F as [|? b ? bs X F']; subst. apply H in X. apply IH in F'. rewrite X, F'. reflexivity.
Qed.
Lemma defaults_are names own xtr : Forall2 (resolved octal) names own ->
  exists a, defaults octal names xtr = Some a /\ forall n, setting n -> getattr n a = Some (default own xtr n).
Proof.
  intros F. unfold defaults, default_listen_on. rewrite (proj2 (mapO_spec _ _ names resolved_is own) F). eexists. split; [reflexivity|]. intros n S. destruct S; reflexivity.
Qed.
Lemma force own xtr files a a' : (forall n, setting n -> getattr n a = Some (default own xtr n)) -> apply_files files a = Ok a' ->
  in_force own xtr files (fun n => value_of n a') /\ forall v, in_force own xtr files v -> forall n, setting n -> v n = value_of n a'.
Proof.
  intros D H. split.
  - intros n S. destruct (C85_last_wins files a a' H n) as [L K]. destruct (last_or_none files n) as [[x X]|N].
    + left. pose proof (L (setting_upper n S) x X) as E. unfold value_of. rewrite E. exact X.
    + right. split; [exact N|]. unfold value_of. rewrite (K (or_intror N)), (D n S). reflexivity.
  - intros v F n S. destruct (C85_last_wins files a a' H n) as [L K]. unfold value_of. destruct (F n S) as [X|[N ->]].
    + rewrite (L (setting_upper n S) _ X). reflexivity.
    + rewrite (K (or_intror N)), (D n S). reflexivity.
Qed.

(** ** The verdict *)
Lemma queue_is x : is_int x || is_none x = true <-> queue_ok x.
Proof.
  unfold queue_ok. split.
  - destruct x; cbn; intros H; try discriminate; [right; constructor|right; constructor|left; reflexivity].
  - intros [->|[]]; reflexivity.
Qed.
Lemma false_is x : truthy x = false <-> is_false x.
Proof.
  split.
  - destruct x as [|[]|z|z|[]| |[]|[]| |? []]; cbn; intros H; try discriminate; try constructor;
      apply negb_false_iff, Z.eqb_eq in H; subst; constructor.
  - intros []; reflexivity.
Qed.
Lemma verdict a s : fix_config (fun _ => (0, 0)%nat) (settings_of octal a) = Ok s <->
  accepted octal (fun n => value_of n a) /\ exists A d, lists_addresses octal (value_of "LISTEN_ON" a) A /\ s = Settings (Some (objects A)) (Some d) true true true true /\ instances_of (value_of "INSTANCES" a) = Some d.
Proof.
  assert (forall l m, Forall2 (fun x b => (exists v z, x = LAddr v z /\ b = x) \/ (exists v z, x = LText (Some (v, z)) /\ b = LAddr v z)) l m <-> mapM fix_listen1 l = Ok m) as M.
  { induction l as [|x l IH]; intros m; cbn [mapM].
    - split; [intros F; inversion F; reflexivity|intros [= <-]; constructor].
    - split.
      + intros F. inversion F as [|? b ? bs [(v & z & -> & ->)|(v & z & -> & ->)] F']; subst; apply IH in F'; cbn [fix_listen1 bind]; rewrite F'; reflexivity.
      + intros H. bo H b E. bo H bs Es. okinj H. constructor; [|apply IH; exact Es]. destruct x as [v z|[[v z]|]]; cbn in E; [injection E as <-; left; eauto|injection E as <-; right; eauto|discriminate]. }
  rewrite C66_accepts_exactly. unfold settings_of, accepted. cbn [st_listen st_instances st_petr_ok st_natt_ok st_nfq4_ok st_nfq6_ok]. split.
  - intros (l & m & d & L & F & I & C & P & N & Q4 & Q6 & ->). apply M in F. destruct (proj1 (listens (value_of "LISTEN_ON" a) m)) as (A & LA & ->); [eauto|].
    split; [|exists A, d; auto]. split; [eauto|]. split; [apply instances_are; eauto|]. split; [unfold petr_ok; destruct (value_of "PETR" a); try discriminate; eauto|].
    split; [destruct (value_of "NATT" a); try discriminate; eauto|]. split; apply queue_is; assumption.
  - intros ((_ & IO & P & N & Q4 & Q6) & A & d & LA & -> & I). destruct (proj2 (listens (value_of "LISTEN_ON" a) (objects A))) as (l & E & F); [eauto|].
    exists l, (objects A), d. apply instances_are in IO. destruct IO as (d' & I' & C). assert (d' = d) as -> by congruence. apply M in F. apply queue_is in Q4, Q6.
    split; [exact E|]. split; [exact F|]. split; [exact I|]. split; [exact C|]. split; [destruct P as [->|(f & z & ->)]; reflexivity|]. split; [destruct N as [b ->]; reflexivity|]. auto.
Qed.
Lemma names_functional x a b : names_address octal x a -> names_address octal x b -> a = b.
Proof. intros X Y. inversion X; subst; inversion Y; subst; try reflexivity; eapply C113_one_address; eassumption. Qed.
Lemma lists_functional x A B : lists_addresses octal x A -> lists_addresses octal x B -> A = B.
Proof.
  assert (forall l A B, Forall2 (names_address octal) l A -> Forall2 (names_address octal) l B -> A = B) as H.
  { intros l A' B' X. revert B'. induction X as [|? ? ? ? N _ IH]; intros B' Y; inversion Y; subst; [reflexivity|]. f_equal; [eapply names_functional; eassumption|auto]. }
  intros X Y. inversion X; subst; inversion Y; subst; eauto.
Qed.

(** ** The trees *)
Lemma mapO_none {A B} (f : A -> option B) l : mapO f l = None <-> exists a, In a l /\ f a = None.
Proof.
  induction l as [|a l IH]; cbn [mapO].
  - split; [discriminate|]. intros (a & [] & _).
  - destruct (f a) as [b|] eqn:E.
    + destruct (mapO f l) as [bs|] eqn:Es.
      * split; [discriminate|]. intros (x & [<-|I] & N); [congruence|]. discriminate (proj2 IH). eauto.
      * split; [|reflexivity]. intros _. destruct (proj1 IH eq_refl) as (x & I & N). exists x. split; [right; exact I|exact N].
    + split; [|reflexivity]. intros _. exists a. split; [left; reflexivity|exact E].
Qed.
Lemma mapO_in {A B} (f : A -> option B) l m : mapO f l = Some m -> forall b, In b m <-> exists a, In a l /\ f a = Some b.
Proof.
  revert m. induction l as [|a l IH]; intros m H b; cbn [mapO] in H.
  - injection H as <-. split; [intros []|intros (a & [] & _)].
  - destruct (f a) as [x|] eqn:E; [|discriminate]. destruct (mapO f l) as [xs|] eqn:Es; [|discriminate]. injection H as <-. cbn [In]. rewrite (IH xs eq_refl b). split.
    + intros [<-|(y & I & F)]; eauto.
    + intros (y & [<-|I] & F); [left; congruence|right; eauto].
Qed.
Definition family_tree (f : sval * sval) : option (Z * node) :=
  match snd f with VNode n => Some (match num_of (fst f) with Some k => k | None => -1 end, n)%Z | _ => None end.
Lemma trees1_is k x : trees1 (k, x) = match x with VDict d => match mapO family_tree d with Some l => Some (match num_of k with Some k => k | None => -1 end, l)%Z | None => None end | _ => None end.
Proof. reflexivity. Qed.
Lemma trees_none x : instances_ok x -> trees x = None <-> exists f, family_entry x f /\ forall n, snd f <> VNode n.
Proof.
  intros O. destruct O as [d F| |].
  - cbn [trees]. transitivity (exists e, In e d /\ trees1 e = None); [exact (mapO_none trees1 d)|]. split.
    + intros ([k y] & I & N). rewrite Forall_forall in F. destruct (F _ I) as (_ & m & _ & _ & E & _). cbn [snd] in E. subst y. rewrite trees1_is in N.
      destruct (mapO family_tree m) eqn:M; [discriminate|]. apply mapO_none in M. destruct M as (f & I2 & N2). exists f. split; [exists d, k, m; auto|]. intros n E. unfold family_tree in N2. rewrite E in N2. discriminate.
    + intros (f & (d' & k & m & [= <-] & I & I2) & N). exists (k, VDict m). split; [exact I|]. rewrite trees1_is. assert (mapO family_tree m = None) as ->; [|reflexivity].
      apply mapO_none. exists f. split; [exact I2|]. unfold family_tree. destruct (snd f); try reflexivity. destruct (N n eq_refl).
  - split; [discriminate|]. intros (f & (d & k & m & E & _) & _). discriminate.
  - split; [discriminate|]. intros (f & (d & k & m & E & _) & _). discriminate.
Qed.
Lemma trees_some x i n : instances_ok x -> trees x = Some i -> (configured_node i n <-> exists k t, family_entry x (k, VNode t) /\ in_tree n t).
Proof.
  intros O H. destruct O as [d F| |].
  - cbn [trees] in H. pose proof (mapO_in _ _ _ H) as M. unfold configured_node. split.
    + intros (iid & m & afi & t & I1 & I2 & T). apply M in I1. destruct I1 as ([k y] & I1 & E1). rewrite trees1_is in E1. destruct y as [| | | | | | |m'| |]; try discriminate. destruct (mapO family_tree m') as [l|] eqn:E; [|discriminate].
      injection E1 as <- <-. apply (mapO_in _ _ _ E) in I2. destruct I2 as ([k' z] & I2 & E2). unfold family_tree in E2. cbn [fst snd] in E2. destruct z; try discriminate. injection E2 as <- <-. exists k', n0. split; [exists d, k, m'; auto|exact T].
    + intros (k & t & (d' & k' & m & [= <-] & I1 & I2) & T). destruct (trees1 (k', VDict m)) as [[iid l]|] eqn:E.
      * assert (In (iid, l) i) as I by (apply M; eauto). rewrite trees1_is in E. destruct (mapO family_tree m) as [l'|] eqn:E'; [|discriminate]. injection E as E1 <-.
        exists iid, l', (match num_of k with Some k => k | None => -1 end)%Z, t. split; [exact I|]. split; [apply (mapO_in _ _ _ E'); exists (k, VNode t); auto|exact T].
      * exfalso. assert (mapO trees1 d = None) by (apply mapO_none; eauto). congruence.
  - injection H as <-. split; [intros (iid & m & afi & t & [] & _)|intros (k & t & (d & k' & m & E & _) & _); discriminate].
  - injection H as <-. split; [intros (iid & m & afi & t & [] & _)|intros (k & t & (d & k' & m & E & _) & _); discriminate].
Qed.
Lemma queue_num x : queue_ok x -> (queue_of x = None <-> x = VNone).
Proof. intros [->|[]]; cbn; split; congruence. Qed.
Lemma conf_listen A i a : cf_listen (conf_of (objects A) i a) = A.
Proof. unfold conf_of, objects. cbn [cf_listen]. induction A as [|[v z] A IH]; cbn [map flat_map app fst snd]; [reflexivity|]. f_equal. exact IH. Qed.

(** ** C114 *)
(** A file that raises something other than IOError: exit status 1. *)
Theorem C114_broken_file : forall show nfq names own xtr files w, Forall2 (resolved octal) names own -> In FRaises files ->
  lispd octal show nfq (Some names) xtr files w = Ran (Exit 1).
Proof.
  intros show nfq names own xtr files w R I. destruct (defaults_are names own xtr R) as (a & E & _). unfold lispd. rewrite E.
  destruct (proj2 (C85_refused files a) I) as [e H]. rewrite H. reflexivity.
Qed.
(** Otherwise every setting has one value in force... *)
Theorem C114_in_force : forall own xtr files, ~ In FRaises files ->
  (exists v, in_force own xtr files v) /\ (forall v v', in_force own xtr files v -> in_force own xtr files v' -> forall n, setting n -> v n = v' n).
Proof.
  intros own xtr files N.
  set (a := [("LISTEN_ON", default own xtr "LISTEN_ON"); ("INSTANCES", default own xtr "INSTANCES"); ("PETR", default own xtr "PETR"); ("NATT", default own xtr "NATT"); ("NFQUEUE_IPV4", default own xtr "NFQUEUE_IPV4"); ("NFQUEUE_IPV6", default own xtr "NFQUEUE_IPV6"); ("XTR_ID", default own xtr "XTR_ID"); ("SITE_ID", default own xtr "SITE_ID"); ("PROCESS_DATA", default own xtr "PROCESS_DATA")]).
  assert (forall n, setting n -> getattr n a = Some (default own xtr n)) as D by (intros n []; reflexivity).
  destruct (apply_files files a) as [a'|e] eqn:E; [|destruct N; apply (C85_refused files a); eauto].
  destruct (force own xtr files a a' D E) as [F U]. split; [eauto|]. intros v v' V V' n S. rewrite (U v V n S), (U v' V' n S). reflexivity.
Qed.
(** ...and these decide: *)
Theorem C114_outcome : forall show nfq names own xtr files w v, Forall2 (resolved octal) names own -> ~ In FRaises files -> in_force own xtr files v ->
  let out := lispd octal show nfq (Some names) xtr files w in
  (~ accepted octal v -> out = Ran (Exit 1)) /\
  (accepted octal v -> show = true \/ useless octal nfq v -> out = Ran (Exit 2)) /\
  (forall A, accepted octal v -> show = false -> ~ useless octal nfq v -> lists_addresses octal (v "LISTEN_ON") A ->
     exists ctl data queues w', out = Ran (Serve ctl data queues w') /\
       ctl = map (fun a => (a, 4342)) A /\
       (is_false (v "PROCESS_DATA") -> data = [] /\ queues = []) /\
       (~ is_false (v "PROCESS_DATA") -> data = map (fun a => (a, 4341)) A /\
          forall f q, In (f, q) queues <-> is_number (v (match f with V4 => "NFQUEUE_IPV4" | V6 => "NFQUEUE_IPV6" end)) q) /\
       (forall k t n, family_entry (v "INSTANCES") (k, VNode t) -> in_tree n t -> w' (n_id n) = (ctl, data)) /\
       (forall j, (forall k t n, family_entry (v "INSTANCES") (k, VNode t) -> in_tree n t -> n_id n <> j) -> w' j = w j)).
Proof.
  intros show nfq names own xtr files w v R N F. destruct (defaults_are names own xtr R) as (a & E & D). unfold lispd. rewrite E.
  destruct (apply_files files a) as [a'|e] eqn:E'; [|destruct N; apply (C85_refused files a); eauto]. destruct (force own xtr files a a' D E') as [_ U]. specialize (U v F). clear a E D E' F N R names own xtr files.
  assert (forall P : (string -> sval) -> Prop, (P = accepted octal \/ P = useless octal nfq) -> (P v <-> P (fun n => value_of n a'))) as X.
  { intros P [->| ->]; unfold accepted, useless; rewrite ?(U _ s_listen), ?(U _ s_instances), ?(U _ s_petr), ?(U _ s_natt), ?(U _ s_queue4), ?(U _ s_queue6), ?(U _ s_data); tauto. }
  pose proof (X _ (or_introl eq_refl)) as XA. pose proof (X _ (or_intror eq_refl)) as XU. clear X. cbv zeta. destruct (fix_config (fun _ => (0, 0)%nat) (settings_of octal a')) as [s|e] eqn:E.
  - apply verdict in E. destruct E as (AC & A & d & LA & -> & I). cbn [st_listen]. destruct AC as (AC1 & IO & P & NT & Q4 & Q6). cbn beta in *.
    split; [intros NA; destruct NA; apply (proj2 XA); unfold accepted; auto 10|].
    destruct (trees (value_of "INSTANCES" a')) as [i|] eqn:T.
    + set (c := conf_of (objects A) i a'). assert (cf_listen c = A) as CL by apply conf_listen.
      assert (cf_process_data c = truthy (value_of "PROCESS_DATA" a')) as CP by reflexivity.
      assert (useless octal nfq (fun n => value_of n a') <-> unusable nfq c) as UU.
      { unfold useless, unusable. rewrite CL, CP. pose proof (queue_num _ Q4) as K4. pose proof (queue_num _ Q6) as K6. change (cf_queue4 c) with (queue_of (value_of "NFQUEUE_IPV4" a')). change (cf_queue6 c) with (queue_of (value_of "NFQUEUE_IPV6" a')).
        rewrite K4, K6. assert (cf_petr c <> None <-> value_of "PETR" a' <> VNone) as KP.
        { change (cf_petr c) with (match value_of "PETR" a' with VAddr v z => Some (v, z) | _ => None end). destruct P as [->|(f & z & ->)]; split; congruence. }
        rewrite KP. assert (truthy (value_of "PROCESS_DATA" a') = true <-> ~ is_false (value_of "PROCESS_DATA" a')) as KT by (rewrite <- false_is; destruct (truthy _); intuition congruence). rewrite KT.
        assert (lists_addresses octal (value_of "LISTEN_ON" a') [] <-> A = []) as KL by (split; [intros L; eapply lists_functional; eassumption|intros <-; exact LA]). rewrite KL.
        assert (~ exists f, family_entry (value_of "INSTANCES" a') f /\ forall n, snd f <> VNode n) as KF by (intros Y; apply (trees_none _ IO) in Y; congruence). tauto. }
      split.
      * intros _ [->|B]; [reflexivity|]. destruct show; [reflexivity|]. apply (proj1 XU), (proj1 UU) in B. apply (C94_refuses nfq c w) in B. destruct B as [code B]. rewrite B. pose proof (C94_exit_codes _ _ _ _ _ B) as ->. reflexivity.
      * intros A' _ -> NU LA'. rewrite (U _ s_listen) in LA'. assert (A' = A) as -> by (eapply lists_functional; eassumption).
        destruct (start false nfq (Some c) w) as [code|ctl data queues w'] eqn:ST; [destruct NU; refine (proj2 XU (proj2 UU _)); apply (C94_refuses nfq c w); eauto|].
        destruct (C94_serves _ _ _ _ _ _ _ ST) as (_ & E1 & E2 & E3 & E4 & E5). rewrite CL in E1, E2. rewrite CP in E2. rewrite (U _ s_data), (U _ s_instances). exists ctl, data, queues, w'. split; [reflexivity|]. split; [exact E1|].
        split; [|split; [|split]].
        -- intros FA. apply false_is in FA. rewrite FA in E2. split; [exact E2|]. destruct queues as [|[f q] queues]; [reflexivity|]. destruct (proj1 (E3 f q) (or_introl eq_refl)) as [Y _]. rewrite CP in Y. congruence.
        -- intros FA. rewrite <- false_is in FA. destruct (truthy (value_of "PROCESS_DATA" a')) eqn:TR; [|congruence]. split; [exact E2|]. intros f q. rewrite E3, CP.
           destruct f; [rewrite (U _ s_queue4)|rewrite (U _ s_queue6)]; rewrite <- num_is; unfold c, conf_of, queue_of; cbn [cf_queue4 cf_queue6]; tauto.
        -- intros k t n FE IT. apply E4. apply (trees_some _ _ n IO T). eauto.
        -- intros j J. apply E5. intros n CN. apply (trees_some _ _ n IO T) in CN. destruct CN as (k & t & FE & IT). eapply J; eassumption.
    + split; [reflexivity|]. intros A' _ _ NU _. destruct NU. apply (proj2 XU). right. left. apply (trees_none _ IO). exact T.
  - assert (~ accepted octal (fun n => value_of n a')) as NA.
    { intros AC. pose proof AC as ((A & LA) & IO & _). apply instances_are in IO. destruct IO as (d & I & _). assert (exists s, fix_config (fun _ => (0, 0)%nat) (settings_of octal a') = Ok s) as [s Y] by (eexists; apply verdict; split; [exact AC|]; exists A, d; auto). congruence. }
    split; [reflexivity|]. split; [intros AC; destruct (NA (proj1 XA AC))|intros A AC; destruct (NA (proj1 XA AC))].
Qed.

(** The names the resolver gives for the host must be addresses: otherwise the program does not get as far as main(). *)
Theorem C114_dies : forall show nfq resolver xtr files w,
  lispd octal show nfq resolver xtr files w = Dies <-> (forall names own, resolver = Some names -> ~ Forall2 (resolved octal) names own).
Proof.
  intros show nfq resolver xtr files w. unfold lispd. split.
  - intros H names own -> R. destruct (defaults_are names own xtr R) as (a & E & _). rewrite E in H. destruct (apply_files files a); [|discriminate]. destruct (fix_config _ _); [|discriminate]. destruct (trees _); discriminate.
  - intros H. destruct resolver as [names|]; [|reflexivity]. unfold defaults. destruct (default_listen_on octal names) as [own|] eqn:E; [|reflexivity]. exfalso. apply (H names own eq_refl). exact (proj1 (mapO_spec _ _ names resolved_is own) E).
Qed.
(** A text where LISTEN_ON should be a list is refused: its characters are no addresses. *)
Theorem C114_no_list : forall show nfq names own xtr files w v c t, Forall2 (resolved octal) names own -> ~ In FRaises files -> in_force own xtr files v ->
  v "LISTEN_ON" = VText (c :: t) -> lispd octal show nfq (Some names) xtr files w = Ran (Exit 1).
Proof.
  intros show nfq names own xtr files w v c t R N F E. apply (C114_outcome show nfq names own xtr files w v R N F). intros ((A & L) & _). rewrite E in L. inversion L.
Qed.
(** Texts of addresses stand for these addresses, so a list of addresses may be written as texts. *)
Theorem C114_texts : forall A, Forall real_address A -> lists_addresses octal (VSeq (map (fun a => VText (text_of a)) A)) A.
Proof.
  intros A F. constructor. induction F as [|a A H F IH]; constructor; [|exact IH]. constructor. apply C113_printed, H.
Qed.
(** Without any configuration file: both ports of all the host's own addresses. *)
Theorem C114_defaults : forall nfq names own xtr files w, Forall2 (resolved octal) names own -> own <> [] -> (forall f, In f files -> f = FIOError) ->
  exists w', lispd octal false nfq (Some names) xtr files w = Ran (Serve (map (fun a => (a, 4342)) own) (map (fun a => (a, 4341)) own) [] w') /\ forall j, w' j = w j.
Proof.
  intros nfq names own xtr files w R O N. assert (~ In FRaises files) as NR by (intros I; apply N in I; discriminate).
  assert (in_force own xtr files (default own xtr)) as F.
  { intros n S. right. split; [|reflexivity]. intros f x I (defs & E & _). apply N in I. congruence. }
  destruct (C114_outcome false nfq names own xtr files w _ R NR F) as (_ & _ & H).
  assert (lists_addresses octal (default own xtr "LISTEN_ON") own) as L.
  { unfold default. cbn [String.eqb Ascii.eqb Bool.eqb]. constructor. clear. induction own as [|[v z] own IH]; constructor; [constructor|exact IH]. }
  destruct (H own) as (ctl & data & queues & w' & E & -> & _ & D & K & J); try reflexivity; try assumption.
  - split; [eauto|]. split; [constructor; constructor|]. split; [left; reflexivity|]. split; [exists true; reflexivity|]. split; left; reflexivity.
  - intros [U|[(f & (d & k & m & E & I & _) & _)|(_ & [[U _]|(_ & [U|U])])]]; try (apply U; reflexivity).
    + apply O. exact (lists_functional _ _ _ L U).
    + injection E as <-. destruct I.
  - destruct D as [-> D]; [intros X; inversion X|]. exists w'. split.
    + rewrite E. destruct queues as [|[f q] queues]; [reflexivity|]. pose proof (proj1 (D f q) (or_introl eq_refl)) as X. destruct f; inversion X.
    + intros j. apply J. intros k t n (d & k' & m & E' & I & _). injection E' as <-. destruct I.
Qed.
End S.

(** ** C115 *)
Lemma pfx_wf_net p : wf_pfx p -> wf_addr (ANet (x_fam p) (x_net p) (x_len p)) = true.
Proof.
  intros (L & R & A). cbn [wf_addr wf_ip]. unfold fits, mask_to, aligned in *. rewrite !andb_true_iff, !Z.leb_le, Z.ltb_lt, Z.eqb_eq.
  assert (0 < 2 ^ (wz (x_fam p) - x_len p)) by (apply Z.pow_pos_nonneg; lia). split; [|rewrite (Z.div_mod (x_net p) (2 ^ (wz (x_fam p) - x_len p))) at 2 by lia; lia].
  unfold wz in *. lia.
Qed.
(** A Map-Register can be sent exactly with an xTR-ID of 128 bits and a site-ID of 64 bits (and a known key id and locators that may be
    announced). *)
Theorem C115_registers_partial : forall hm xtr site p r locs rtrs want nonce, digests hm -> wf_pfx p -> Forall obj_loc locs -> length nonce = 8%nat ->
  (exists b, register_bytes hm xtr site p r locs rtrs want nonce = Ok b) <->
  (exists x, is_number xtr x /\ 0 <= x < 2 ^ 128) /\ (exists s, is_number site s /\ 0 <= s < 2 ^ 64) /\
  known_key_id (tr_keyid r) /\ (length locs <= 255)%nat /\ Forall good_locator locs.
Proof.
  intros hm xtr site p r locs rtrs want nonce HD W OL LN. unfold register_bytes.
  assert (forall x s a, obj_a (set_auth (AReg (new_register p r locs rtrs want nonce x s)) a)) as O.
  { intros x s a. cbn. split; [reflexivity|]. split; [reflexivity|]. split; [exact LN|]. constructor; [|constructor]. split; [reflexivity|]. split; [|exact OL]. exact (pfx_wf_net p W). }
  assert (forall x s a, Z.of_nat (length a) <= 65535 -> (is_ok (a_to_bytes (set_auth (AReg (new_register p r locs rtrs want nonce x s)) a)) = true <->
    0 <= x < 2 ^ 128 /\ 0 <= s < 2 ^ 64 /\ known_key_id (tr_keyid r) /\ (length locs <= 255)%nat /\ Forall good_locator locs)) as G.
  { intros x s a L. cbn [a_to_bytes set_auth]. rewrite C91_map_register by exact (O x s a). split.
    - intros [[X S] [K _] [_ R]]. cbn in *. inversion R as [|? ? [_ _ _ _ C F] _]; subst. auto 10.
    - intros (X & S & K & C & F). constructor; [split; assumption|split; assumption|]. split; [cbn; lia|]. constructor; [|constructor]. constructor; cbn; try assumption; unfold in_bits; try lia; eauto. }
  split.
  - intros [b H]. destruct (num_of xtr) as [x|] eqn:X; [|discriminate]. destruct (num_of site) as [s|] eqn:S; [|discriminate]. apply num_is in X, S.
    assert (exists a, Z.of_nat (length a) <= 65535 /\ is_ok (a_to_bytes (set_auth (AReg (new_register p r locs rtrs want nonce x s)) a)) = true) as (a & L & K).
    { set (m := AReg (new_register p r locs rtrs want nonce x s)) in *. unfold insert, calculate in H. destruct (a_key m =? 0); [|destruct (digest_len (a_key m)) as [n|] eqn:EN; [|discriminate]].
      - exists []. split; [cbn; lia|]. cbn [bind] in H. rewrite H. reflexivity.
      - exists (repeat zero_byte n). apply digest_len_spec, digest_size_small in EN. split; [rewrite repeat_length; lia|]. destruct (a_to_bytes (set_auth m (repeat zero_byte n))); [reflexivity|discriminate]. }
    apply (G x s a L) in K. destruct K as (K1 & K2 & K3). split; [eauto|]. split; [eauto|exact K3].
  - intros ((x & X & XR) & (s & S & SR) & K). apply num_is in X, S. rewrite X, S.
    pose proof (proj2 (G x s [] ltac:(cbn; lia)) (conj XR (conj SR K))) as T. set (m := AReg (new_register p r locs rtrs want nonce x s)) in *. change (set_auth m []) with m in T.
    destruct (a_to_bytes m) as [out|] eqn:E; [|discriminate]. destruct (C41_inserted_verifies hm m (tr_key r) out HD (O x s []) E) as (m1 & I & _ & out1 & m2 & E1 & _). rewrite I. cbn [bind]. rewrite E1. eauto.
Qed.

(** The default identifiers are such. *)
Theorem C115_defaults : forall own macs, Forall mac macs ->
  (exists x, is_number (default own (get_xtr_id macs) "XTR_ID") x /\ 0 <= x < 2 ^ 128) /\ (exists s, is_number (default own (get_xtr_id macs) "SITE_ID") s /\ 0 <= s < 2 ^ 64).
Proof.
  intros own macs F. split; [|exists 0; split; [constructor|lia]]. exists (get_xtr_id macs). split; [constructor|].
  destruct (C72_xtr_id macs F) as [[-> _]|(l1 & m & l2 & _ & _ & _ & _ & H)]; lia.
Qed.
(** Other values are accepted all the same: lispd starts, and nothing can ever be registered. *)
Theorem C115_unchecked : forall octal show nfq resolver xtr files w x y,
  lispd octal show nfq resolver xtr (files ++ [FModule [("XTR_ID", x); ("SITE_ID", y)]]) w = lispd octal show nfq resolver xtr files w.
Proof.
  intros octal show nfq resolver xtr files w x y. unfold lispd. destruct (match resolver with Some names => defaults octal names xtr | None => None end) as [a|]; [|reflexivity].
  assert (forall a, apply_files (files ++ [FModule [("XTR_ID", x); ("SITE_ID", y)]]) a = match apply_files files a with Ok a' => Ok (setattr "SITE_ID" y (setattr "XTR_ID" x a')) | Err e => Err e end) as ->.
  { induction files as [|f files IH]; intros b; [reflexivity|]. cbn [app apply_files]. destruct f; [apply IH|reflexivity|apply IH]. }
  destruct (apply_files files a) as [a'|e]; [|reflexivity].
  assert (forall n, n <> "XTR_ID" -> n <> "SITE_ID" -> value_of n (setattr "SITE_ID" y (setattr "XTR_ID" x a')) = value_of n a') as V.
  { intros n N1 N2. unfold value_of. rewrite !get_set. destruct (String.eqb_spec "SITE_ID" n); [congruence|]. destruct (String.eqb_spec "XTR_ID" n); [congruence|reflexivity]. }
  unfold settings_of, conf_of. rewrite !V by discriminate. reflexivity.
Qed.

(** ** Examples *)
Definition ex_tree : node := Node 1 (Pfx V4 0 0) NContainer [Node 3 (Pfx V4 (10 * 2 ^ 24) 8) NETR []].
Definition ex_tree6 : node := Node 2 (Pfx V6 0 0) (NAuth []) [].
Definition ex_instances : sval := VDict [(VInt 0, VDict [(VInt 1, VNode ex_tree); (VLong 2, VNode ex_tree6)])].
(** fe80::1%eth0 and 192.0.2.1 *)
Definition ex_names : list text := [[102; 101; 56; 48; 58; 58; 49; 37; 101; 116; 104; 48]; [49; 57; 50; 46; 48; 46; 50; 46; 49]].
Definition ex_own : list (fam * Z) := [(V6, 0xfe80 * 2 ^ 112 + 1); (V4, 3221225985)].
Definition ex_file1 : cfile sval := FModule [("LISTEN_ON", VSeq [VText [49; 48; 46; 48; 46; 48; 46; 49]; VAddr V6 1]); ("INSTANCES", VNone)].
Definition ex_file2 : cfile sval := FModule [("INSTANCES", ex_instances); ("os", VOther None true); ("XTR_ID", VLong (2 ^ 128)); ("PETR", VAddr V4 167772162); ("NFQUEUE_IPV4", VInt 4); ("NFQUEUE_IPV6", VBool true)].
Definition strict : text -> bool := fun _ => false.
Example C114_resolved : Forall2 (resolved strict) ex_names ex_own.
Proof. apply (mapO_spec _ _ ex_names (resolved_is strict)). vm_compute. reflexivity. Qed.
Example C114_example :
  Forall2 (resolved strict) ex_names ex_own /\ ~ In FRaises [ex_file1; FIOError; ex_file2] /\
  exists ctl data queues w, lispd strict false true (Some ex_names) 5 [ex_file1; FIOError; ex_file2] no_sockets = Ran (Serve ctl data queues w) /\
    ctl = [((V4, 167772161), 4342); ((V6, 1), 4342)] /\ data = [((V4, 167772161), 4341); ((V6, 1), 4341)] /\ queues = [(V4, 4); (V6, 1)] /\ w 3%nat = (ctl, data) /\ w 9%nat = ([], []).
Proof.
  split; [exact C114_resolved|]. split; [intros [E|[E|[E|[]]]]; discriminate|].
  eexists _, _, _, _. split; [vm_compute; reflexivity|]. repeat split.
Qed.
Example C114_example_exits :
  lispd strict false true (Some ex_names) 5 [ex_file1] no_sockets = Ran (Exit 1) /\                                                   (* INSTANCES = None *)
  lispd strict false false (Some ex_names) 5 [ex_file1; ex_file2] no_sockets = Ran (Exit 2) /\                                        (* no module nfqueue *)
  lispd strict false true (Some ex_names) 5 [FModule [("LISTEN_ON", VText [49; 48; 46; 48; 46; 48; 46; 49])]] no_sockets = Ran (Exit 1) /\
  lispd strict false true (Some ex_names) 5 [FModule [("LISTEN_ON", VSeq [])]] no_sockets = Ran (Exit 2) /\
  lispd strict false true (Some ex_names) 5 [FModule [("NFQUEUE_IPV4", VLong 4)]] no_sockets = Ran (Exit 1) /\
  lispd strict false true None 5 [] no_sockets = Dies.
Proof. vm_compute. auto 10. Qed.
(** C115 as stated is false: with an xTR-ID of more than 128 bits lispd serves, and no registration can be sent. *)
Theorem C115_refuted : ~ (forall names own xtr files v nfq ctl data queues w, Forall2 (resolved strict) names own -> in_force own xtr files v ->
  lispd strict false nfq (Some names) xtr files no_sockets = Ran (Serve ctl data queues w) ->
  forall hm p r nonce, digests hm -> wf_pfx p -> length nonce = 8%nat -> known_key_id (tr_keyid r) ->
    exists b, register_bytes hm (v "XTR_ID") (v "SITE_ID") p r [] [] true nonce = Ok b).
Proof.
  intros H. destruct C114_example as (R & N & ctl & data & queues & w & E & _).
  destruct (C114_in_force ex_own 5 [ex_file1; FIOError; ex_file2] N) as [(v & F) _].
  assert (v "XTR_ID" = VLong (2 ^ 128)) as X.
  { destruct (F _ s_xtr) as [(pre & f & post & E1 & (defs & -> & D) & K)|[K _]].
    - destruct pre as [|f1 pre]; [discriminate E1 || (injection E1 as <- _; discriminate D)|]. injection E1 as <- E1.
      destruct pre as [|f2 pre]; [discriminate E1|]. injection E1 as <- E1. destruct pre as [|f3 pre]; [injection E1 as <- _; injection D as <-; reflexivity|]. injection E1 as <- E1. destruct pre; discriminate.
    - exfalso. apply (K ex_file2 (VLong (2 ^ 128))); [right; right; left; reflexivity|]. eexists. split; reflexivity. }
  set (hm := fun (k : Z) (key msg : bytes) => if k =? 1 then repeat zero_byte 20 else repeat zero_byte 32).
  assert (digests hm) as HD by (intros k n [[-> ->]|[-> ->]] key msg; reflexivity).
  assert (wf_pfx (Pfx V4 (10 * 2 ^ 24) 8)) as W by (repeat split; vm_compute; congruence).
  destruct (H _ _ _ _ v _ _ _ _ _ R F E hm (Pfx V4 (10 * 2 ^ 24) 8) (Etrr (V4, 1) 1 [] false None) (repeat zero_byte 8) HD W eq_refl) as [b B]; [right; left; reflexivity|].
  pose proof (proj1 (C115_registers_partial hm (v "XTR_ID") (v "SITE_ID") (Pfx V4 (10 * 2 ^ 24) 8) (Etrr (V4, 1) 1 [] false None) [] [] true (repeat zero_byte 8) HD W (Forall_nil _) eq_refl) (ex_intro _ b B)) as ((x & I & L) & _).
  rewrite X in I. inversion I; subst. lia.
Qed.
Example C115_example : exists b, register_bytes (fun k key msg => repeat zero_byte 20) (VLong 5) (VInt 0) (Pfx V4 (10 * 2 ^ 24) 8) (Etrr (V4, 1) 1 [] false None) [] [] true (repeat zero_byte 8) = Ok b /\ length b = 76%nat.
Proof. eexists. split; [vm_compute; reflexivity|reflexivity]. Qed.
Print Assumptions C114_broken_file.
Print Assumptions C114_in_force.
Print Assumptions C114_outcome.
Print Assumptions C114_dies.
Print Assumptions C114_no_list.
Print Assumptions C114_texts.
Print Assumptions C114_defaults.
Print Assumptions C115_registers_partial.
Print Assumptions C115_defaults.
Print Assumptions C115_unchecked.
Print Assumptions C115_refuted.
