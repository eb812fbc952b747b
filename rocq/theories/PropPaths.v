(** * C121: which configuration files count *)
From Coq Require Import Ascii String.
From Verif Require Import Base BaseLemmas Afi Spec RootFile Conf SpecConf Startup SpecStartup PropStartup Paths.
Open Scope string_scope. Open Scope list_scope. Open Scope Z_scope.

(** a directory: '/' or a text that does not end in a slash *)
Definition directory (d : text) : Prop := isabs d = true /\ (d = [47] \/ last d 0 <> 47).
(** the file [name] below directory [d] *)
Definition below (d name : text) : text := if list_eq_dec Z.eq_dec d [47] then d ++ name else d ++ 47 :: name.

Section P.
Variable real : text -> text.
Variable others : text -> text.
Variable home exe_dir : text.
Notation get_paths := (get_config_paths real home others exe_dir).
Notation potential := (get_potential_config_files real home others exe_dir).

Lemma isabs_app a b : isabs a = true -> isabs (a ++ b) = true.
Proof. destruct a; [discriminate|auto]. Qed.
Lemma join_rel a b : isabs b = false -> a <> [] -> last a 0 <> 47 -> join2 a b = a ++ 47 :: b.
Proof.
  intros R N L. unfold join2. rewrite R. destruct a as [|c a]; [congruence|]. unfold slash. destruct (Z.eqb_spec (last (c :: a) 0) 47); [congruence|reflexivity].
Qed.
Lemma join_root b : isabs b = false -> join2 [47] b = 47 :: b.
Proof. intros R. unfold join2. rewrite R. reflexivity. Qed.
Lemma last_app {A} (a : list A) x b d : last (a ++ x :: b) d = last (x :: b) d.
Proof. induction a as [|y a IH]; [reflexivity|]. cbn [app]. destruct (a ++ x :: b) eqn:E; [destruct a; discriminate|]. rewrite <- IH. reflexivity. Qed.
Lemma join_below d b : directory d -> isabs b = false -> join2 d b = below d b.
Proof.
  intros [A [->|L]] R.
  - rewrite join_root by exact R. unfold below. destruct (list_eq_dec Z.eq_dec [47] [47]); [reflexivity|congruence].
  - unfold below. destruct (list_eq_dec Z.eq_dec d [47]) as [->|N]; [apply join_root; exact R|]. apply join_rel; auto. intros ->. discriminate.
Qed.
Lemma strip_dir d : directory d -> rstrip_slash d = if list_eq_dec Z.eq_dec d [47] then [] else d.
Proof.
  intros [A [->|L]].
  - destruct (list_eq_dec Z.eq_dec [47] [47]); [reflexivity|congruence].
  - destruct (list_eq_dec Z.eq_dec d [47]) as [->|N]; [reflexivity|]. unfold rstrip_slash.
    destruct (rev d) as [|c r] eqn:E.
    + apply (f_equal (@rev Z)) in E. rewrite rev_involutive in E. subst d. discriminate.
    + assert (d = rev r ++ [c]) as -> by (rewrite <- (rev_involutive d), E; reflexivity). rewrite last_app in L. cbn [last] in L.
      cbn [lstrip_slash]. unfold slash. destruct (Z.eqb_spec c 47); [congruence|]. reflexivity.
Qed.
Lemma below_cases d n : below d n = (if list_eq_dec Z.eq_dec d [47] then [] else d) ++ 47 :: n.
Proof. unfold below. destruct (list_eq_dec Z.eq_dec d [47]) as [->|]; reflexivity. Qed.

(** the files lispd looks for, in order: the system's, the installation's and the user's *)
Theorem C121_paths name : directory exe_dir -> directory home -> isabs name = false ->
  get_paths name = ListOf [real (below (txt "/etc/lispd") name);
                           real (below exe_dir (txt "../etc/lispd/" ++ name));
                           real (below home (txt ".pylisp/lispd/" ++ name))].
Proof.
  intros De Dh R. unfold get_config_paths. rewrite R. cbn [map]. unfold os_join. cbn [fold_left].
  assert (last (txt "etc") 0 <> 47 /\ last (txt "lispd") 0 <> 47 /\ last (txt "..") 0 <> 47 /\ last (txt ".pylisp") 0 <> 47) as (L1 & L2 & L3 & L4) by (repeat split; discriminate).
  f_equal. f_equal; [|f_equal; [|f_equal]].
  - f_equal. change (join2 [slash] (txt "etc")) with (txt "/etc"). change (join2 (txt "/etc") (txt "lispd")) with (txt "/etc/lispd").
    rewrite join_rel by (auto; discriminate). unfold below. destruct (list_eq_dec Z.eq_dec (txt "/etc/lispd") [47]); [discriminate|]. reflexivity.
  - f_equal. rewrite (join_below exe_dir) by auto. rewrite !below_cases. set (d := if list_eq_dec _ _ _ then _ else _).
    assert (forall t, d ++ 47 :: t = [] -> False) as NE by (intros t E; destruct d; discriminate).
    rewrite (join_rel _ (txt "etc")); [|reflexivity|intros E; exact (NE _ E)|change (txt "..") with [46; 46]; rewrite last_app; discriminate].
    rewrite <- app_assoc. cbn [app]. rewrite (join_rel _ (txt "lispd")); [|reflexivity|intros E; exact (NE _ E)|rewrite last_app; discriminate].
    rewrite <- app_assoc. cbn [app]. rewrite (join_rel _ name); [|exact R|intros E; exact (NE _ E)|rewrite last_app; discriminate].
    rewrite <- app_assoc. cbn [app].
    assert (forall t, expanduser home others (d ++ 47 :: t) = d ++ 47 :: t) as X.
    { intros t. assert (exists r, d ++ 47 :: t = 47 :: r) as [r ->]; [|reflexivity]. subst d. destruct De as [A [->|_]]; [exists t; reflexivity|].
      destruct (list_eq_dec Z.eq_dec exe_dir [47]); [exists t; reflexivity|]. destruct exe_dir as [|c e]; [discriminate|].
      cbn [isabs] in A. apply Z.eqb_eq in A. subst c. cbn [app]. unfold slash. eauto. }
    rewrite X. reflexivity.
  - f_equal. change (join2 (txt "~") (txt ".pylisp")) with (txt "~/.pylisp"). change (join2 (txt "~/.pylisp") (txt "lispd")) with (txt "~/.pylisp/lispd").
    rewrite join_rel by (auto; discriminate). assert (forall t, below home t = rstrip_slash home ++ 47 :: t) as -> by (intros t; rewrite below_cases, (strip_dir home) by exact Dh; reflexivity). reflexivity.
Qed.
Corollary C121_settings : directory exe_dir -> directory home ->
  looped potential = [real (txt "/etc/lispd/settings.py"); real (below exe_dir (txt "../etc/lispd/settings.py")); real (below home (txt ".pylisp/lispd/settings.py"))].
Proof. intros De Dh. unfold get_potential_config_files. rewrite C121_paths by (auto; reflexivity). reflexivity. Qed.

(** the user's file counts most, then the installation's, then the system's, then the defaults *)
Theorem C121_wins own xtr (fs : text -> cfile sval) v : directory exe_dir -> directory home ->
  in_force own xtr (config_files real home others exe_dir fs) v -> forall n, setting n ->
  let system := fs (real (txt "/etc/lispd/settings.py")) in
  let installation := fs (real (below exe_dir (txt "../etc/lispd/settings.py"))) in
  let user := fs (real (below home (txt ".pylisp/lispd/settings.py"))) in
  (forall x, defines user n x -> v n = x) /\
  ((forall y, ~ defines user n y) ->
     (forall x, defines installation n x -> v n = x) /\
     ((forall y, ~ defines installation n y) ->
        (forall x, defines system n x -> v n = x) /\
        ((forall y, ~ defines system n y) -> v n = default own xtr n))).
Proof.
  intros De Dh F n Sn. cbn zeta. specialize (F n Sn). unfold config_files in F. rewrite C121_settings in F by auto. cbn [map] in F.
  set (s := fs (real (txt "/etc/lispd/settings.py"))) in *. set (i := fs (real (below exe_dir _))) in *. set (u := fs (real (below home _))) in *.
  assert (forall f x y, @defines sval f n x -> defines f n y -> x = y) as U by (intros f x y (d & -> & E) (d' & E' & E2); injection E' as <-; congruence).
  assert (forall l, last_defines [s; i; u] n l -> defines u n l \/ (forall y, ~ defines u n y) /\ (defines i n l \/ (forall y, ~ defines i n y) /\ defines s n l)) as Q.
  { intros l (pre & f & post & E & D & N). destruct pre as [|a [|b [|c pre]]]; cbn [app] in E.
    - injection E as E1 E2. subst f post. right. split; [intros y; apply N; right; left; reflexivity|]. right. split; [intros y; apply N; left; reflexivity|exact D].
    - injection E as E1 E2 E3. subst f post. right. split; [intros y; apply N; left; reflexivity|]. left. exact D.
    - injection E as E1 E2 E3 E4. subst f. left. exact D.
    - destruct pre; discriminate. }
  destruct F as [F|[N Ed]].
  - destruct (Q _ F) as [D|(Nu & [D|(Ni & D)])].
    + split; [intros x Dx; exact (U _ _ _ D Dx)|]. intros X. destruct (X _ D).
    + split; [intros x Dx; destruct (Nu _ Dx)|]. intros _. split; [intros x Dx; exact (U _ _ _ D Dx)|]. intros X. destruct (X _ D).
    + split; [intros x Dx; destruct (Nu _ Dx)|]. intros _. split; [intros x Dx; destruct (Ni _ Dx)|]. intros _. split; [intros x Dx; exact (U _ _ _ D Dx)|]. intros X. destruct (X _ D).
  - split; [intros x Dx; destruct (N u x); cbn [In]; auto|]. intros _. split; [intros x Dx; destruct (N i x); cbn [In]; auto|]. intros _.
    split; [intros x Dx; destruct (N s x); cbn [In]; auto|]. intros _. exact Ed.
Qed.

(** finding: for an absolute name the result is that text, not a list: going through it gives its characters *)
Theorem C121_absolute name : isabs name = true -> get_paths name = OneText name /\ looped (get_paths name) = map (fun c => [c]) name.
Proof. intros A. unfold get_config_paths. rewrite A. auto. Qed.
End P.
Theorem C121_refuted : ~ (forall real others home exe_dir name, directory exe_dir -> directory home -> isabs name = true -> (1 < length name)%nat ->
  In name (looped (get_config_paths real home others exe_dir name))).
Proof.
  intros H. assert (directory [47]) as D by (split; [reflexivity|left; reflexivity]).
  specialize (H (fun t => t) (fun t => t) [47] [47] (txt "/x") D D eq_refl ltac:(cbn; lia)). vm_compute in H. destruct H as [H|[H|[]]]; discriminate.
Qed.

(** example: lispd installed in /usr/local/bin, run by a user *)
Example ex_paths : directory (txt "/usr/local/bin") /\ directory (txt "/home/u") /\
  get_config_paths (fun t => t) (txt "/home/u") (fun t => t) (txt "/usr/local/bin") (txt "settings.py") =
  ListOf [txt "/etc/lispd/settings.py"; txt "/usr/local/bin/../etc/lispd/settings.py"; txt "/home/u/.pylisp/lispd/settings.py"].
Proof. split; [|split]; [split; [reflexivity|right; intros E; vm_compute in E; discriminate]..|reflexivity]. Qed.
Example ex_wins : let fs p := if list_eq_dec Z.eq_dec p (txt "/home/u/.pylisp/lispd/settings.py") then FModule [("NATT", VBool false)]
                              else if list_eq_dec Z.eq_dec p (txt "/etc/lispd/settings.py") then FModule [("NATT", VBool true); ("SITE_ID", VInt 7)] else FIOError in
  in_force [] 5 (config_files (fun t => t) (txt "/home/u") (fun t => t) (txt "/usr/local/bin") fs)
    (fun n => if String.eqb n "NATT" then VBool false else if String.eqb n "SITE_ID" then VInt 7 else default [] 5 n).
Proof.
  cbn zeta. intros n Sn.
  match goal with |- context [config_files ?a ?b ?c ?d ?e] => let x := eval vm_compute in (config_files a b c d e) in change (config_files a b c d e) with x end.
  inversion Sn; subst n; cbn [String.eqb Ascii.eqb Bool.eqb].
  all: try (right; split; [intros f x [<-|[<-|[<-|[]]]] (dd & E & G); try discriminate; injection E as <-; discriminate|reflexivity]).
  - left. eexists [_; _], _, []. split; [reflexivity|]. split; [eexists; split; reflexivity|intros g y []].
  - left. eexists [], _, [_; _]. split; [reflexivity|]. split; [eexists; split; reflexivity|].
    intros g y [<-|[<-|[]]] (dd & E & G); [discriminate|]. injection E as <-. discriminate.
Qed.

Print Assumptions C121_paths.
Print Assumptions C121_wins.
Print Assumptions C121_refuted.
