(** * C45: the registries never rebind a number *)
From Verif Require Import Base Registry.

(** the numbers a registry is for *)
Definition number_of (k : regkind) (c : pyclass) (n : Z) : Prop :=
  In k (c_bases c) /\ c_nr c = Some n /\
  match k with RControl => 1 <= n <= 15 | RLcaf | RProtocol => 0 <= n <= 255 end.

(** [c] is the first class of the history that claims number [n] *)
Definition first_claim (k : regkind) (h : list pyclass) (n : Z) (c : pyclass) : Prop :=
  exists h1 h2, h = h1 ++ c :: h2 /\ number_of k c n /\ forall c', In c' h1 -> ~ number_of k c' n.
Definition unclaimed (k : regkind) (h : list pyclass) (n : Z) : Prop :=
  forall c, In c h -> ~ number_of k c n.

Lemma is_base k c : existsb (regkind_eqb k) (c_bases c) = true <-> In k (c_bases c).
Proof.
  rewrite existsb_exists. split.
  - intros (x & H & E). destruct k, x; try discriminate; exact H.
  - intros H. exists k. split; [exact H|]. destruct k; reflexivity.
Qed.

Lemma nr_ok_spec k n : nr_ok k n = true <->
  match k with RControl => 1 <= n <= 15 | RLcaf | RProtocol => 0 <= n <= 255 end.
Proof. destruct k; cbn; lia. Qed.

Lemma number_dec k c : (exists n, number_of k c n) \/ (forall n, ~ number_of k c n).
Proof.
  unfold number_of. destruct (existsb (regkind_eqb k) (c_bases c)) eqn:E1.
  - apply is_base in E1. destruct (c_nr c) as [n|] eqn:E2; [|right; intros n (_ & H & _); discriminate].
    destruct (nr_ok k n) eqn:E3.
    + left. exists n. repeat split; auto. apply nr_ok_spec. exact E3.
    + right. intros n' (_ & [= <-] & H). apply nr_ok_spec in H. congruence.
  - right. intros n (H & _). apply is_base in H. congruence.
Qed.

Lemma register_bad k r c : (forall n, ~ number_of k c n) -> register_type_class k r c = (r, Err EValue).
Proof.
  intros H. unfold register_type_class. destruct (existsb _ _) eqn:E1; cbn; [|reflexivity].
  destruct (c_nr c) as [n|] eqn:E2; [|reflexivity]. destruct (nr_ok k n) eqn:E3; cbn; [|reflexivity].
  exfalso. apply (H n). repeat split; auto; [apply is_base; exact E1|apply nr_ok_spec; exact E3].
Qed.

Lemma register_good k r c n : number_of k c n -> register_type_class k r c =
  match get_type_class r n with
  | Some c' => if Nat.eqb (c_id c) (c_id c') then (r, Ok tt) else (r, Err EValue)
  | None => ((n, c) :: r, Ok tt)
  end.
Proof.
  intros (H1 & H2 & H3). unfold register_type_class.
  rewrite (proj2 (is_base k c) H1), H2, (proj2 (nr_ok_spec k n) H3). reflexivity.
Qed.

Lemma number_unique k c n n' : number_of k c n -> number_of k c n' -> n = n'.
Proof. intros (_ & H & _) (_ & H' & _). congruence. Qed.

(** lookups after one more call *)
Lemma get_register k r c n :
  get_type_class (fst (register_type_class k r c)) n =
  match get_type_class r n with
  | Some x => Some x
  | None => if existsb (regkind_eqb k) (c_bases c) && match c_nr c with Some m => nr_ok k m && (m =? n) | None => false end
            then Some c else None
  end.
Proof.
  unfold register_type_class. destruct (existsb _ _) eqn:E1; cbn [negb fst andb].
  2:{ destruct (get_type_class r n); reflexivity. }
  destruct (c_nr c) as [m|] eqn:E2; cbn [fst].
  2:{ destruct (get_type_class r n); reflexivity. }
  destruct (nr_ok k m) eqn:E3; cbn [negb fst andb].
  2:{ destruct (get_type_class r n); reflexivity. }
  destruct (get_type_class r m) as [x|] eqn:E4.
  - destruct (Nat.eqb _ _); cbn [fst]; (destruct (get_type_class r n) eqn:E5; [reflexivity|]);
      (destruct (m =? n) eqn:E6; [|reflexivity]); assert (m = n) by lia; subst; congruence.
  - cbn [fst get_type_class]. destruct (m =? n) eqn:E6; [|destruct (get_type_class r n); reflexivity].
    assert (m = n) by lia; subst. rewrite E4. reflexivity.
Qed.

Lemma number_of_bool k c n : number_of k c n <->
  existsb (regkind_eqb k) (c_bases c) && match c_nr c with Some m => nr_ok k m && (m =? n) | None => false end = true.
Proof.
  unfold number_of. rewrite andb_true_iff, is_base. destruct (c_nr c) as [m|].
  - rewrite andb_true_iff, nr_ok_spec, Z.eqb_eq. split.
    + intros (A & [= ->] & H). auto.
    + intros (A & H & ->). auto.
  - split; [intros (_ & H & _); discriminate|intros [_ H]; discriminate].
Qed.

Lemma get_all k h : forall r n,
  (forall c, get_type_class r n = Some c -> get_type_class (register_all k r h) n = Some c) /\
  (get_type_class r n = None ->
     (forall c, first_claim k h n c -> get_type_class (register_all k r h) n = Some c) /\
     (unclaimed k h n -> get_type_class (register_all k r h) n = None)).
Proof.
  induction h as [|x h IH]; intros r n; cbn [register_all].
  - split; [auto|]. intros H. split; [|auto]. intros c (h1 & h2 & E & _). destruct h1; discriminate.
  - destruct (IH (fst (register_type_class k r x)) n) as [I1 I2]. pose proof (get_register k r x n) as G.
    split; [intros c H; apply I1; rewrite G, H; reflexivity|]. intros H. rewrite H in G. split.
    + intros c (h1 & h2 & E & Hc & Hn). destruct h1 as [|y h1]; cbn in E; injection E as -> ->.
      * apply I1. rewrite G. apply number_of_bool in Hc. rewrite Hc. reflexivity.
      * apply I2.
        -- rewrite G. destruct (_ && _) eqn:Eb; [|reflexivity]. exfalso.
           apply (Hn y); [left; reflexivity|]. apply number_of_bool. exact Eb.
        -- exists h1, h2. repeat split; auto; try apply Hc. intros c' Hc'. apply Hn. right. exact Hc'.
    + intros U. apply I2.
      * rewrite G. destruct (_ && _) eqn:Eb; [|reflexivity]. exfalso.
        apply (U x); [left; reflexivity|]. apply number_of_bool. exact Eb.
      * intros c Hc. apply U. right. exact Hc.
Qed.

(** C45.  After any history [h] of registrations, whatever happens next ([more]):
    - the number [n] is bound to the first class that claimed it, and to nothing if none did;
    - a call with that class again changes nothing and succeeds; a call with a different class that
      claims [n] raises ValueError and changes nothing; a class that is foreign or has an invalid
      number raises ValueError and changes nothing; a claim of a free number succeeds. *)
Theorem C45_never_rebound : forall (k : regkind) (h more : list pyclass) (n : Z),
  (forall c, first_claim k h n c ->
     get_type_class (register_all k [] (h ++ more)) n = Some c /\
     (forall c', number_of k c' n ->
        register_type_class k (register_all k [] h) c' =
        (register_all k [] h, if Nat.eqb (c_id c') (c_id c) then Ok tt else Err EValue))) /\
  (unclaimed k h n ->
     get_type_class (register_all k [] h) n = None /\
     forall c, number_of k c n -> snd (register_type_class k (register_all k [] h) c) = Ok tt) /\
  (forall c, (forall n, ~ number_of k c n) ->
     register_type_class k (register_all k [] h) c = (register_all k [] h, Err EValue)).
Proof.
  intros k h more n. split; [|split].
  - intros c Hc.
    assert (get_type_class (register_all k [] h) n = Some c) as G by (apply get_all; auto).
    split.
    + destruct Hc as (h1 & h2 & -> & Hc & Hn). apply get_all; [reflexivity|].
      exists h1, (h2 ++ more). rewrite <- app_assoc. auto.
    + intros c' Hc'. rewrite (register_good _ _ _ _ Hc'), G. destruct (Nat.eqb _ _); reflexivity.
  - intros U. assert (get_type_class (register_all k [] h) n = None) as G by (apply get_all; auto).
    split; [exact G|]. intros c Hc. rewrite (register_good _ _ _ _ Hc), G. reflexivity.
  - intros c Hc. apply register_bad. exact Hc.
Qed.
Print Assumptions C45_never_rebound.

(** non-vacuity: a history with a duplicate, a foreign class, invalid numbers and boundary numbers *)
Definition cls i n := PyClass i [RControl] (Some n).
Definition ex_history : list pyclass :=
  [cls 1 15; cls 2 16; cls 3 0; PyClass 4 [RLcaf] (Some 1); PyClass 5 [RControl] None; cls 6 15; cls 1 15; cls 7 1].
Example C45_example :
  first_claim RControl ex_history 15 (cls 1 15) /\ first_claim RControl ex_history 1 (cls 7 1) /\
  unclaimed RControl ex_history 16 /\
  map (fun n => option_map c_id (get_type_class (register_all RControl [] ex_history) n)) [0; 1; 15; 16]
  = [None; Some 7%nat; Some 1%nat; None].
Proof.
  split; [|split; [|split; [|reflexivity]]].
  - exists []. eexists. split; [reflexivity|]. split; [|intros c []]. repeat split; cbn; auto; lia.
  - exists [cls 1 15; cls 2 16; cls 3 0; PyClass 4 [RLcaf] (Some 1); PyClass 5 [RControl] None; cls 6 15; cls 1 15], [].
    split; [reflexivity|]. split; [repeat split; cbn; auto; lia|].
    intros c H (H1 & H2 & H3). cbn in H. repeat (destruct H as [<-|H]; cbn in *; [try congruence; try (destruct H1; [discriminate|contradiction])|]).
    exact H.
  - intros c H (H1 & H2 & H3). lia.
Qed.
