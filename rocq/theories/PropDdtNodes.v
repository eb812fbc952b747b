(** * Property C109: the DDT nodes of a referral are those added and not taken away since *)
From Verif Require Import Base BaseLemmas Afi DdtNodes.
From Coq Require Permutation.

Section Spec.
Variable ip_text : Z -> option (fam * Z).
(** the argument stands for this address *)
Definition denotes (a : darg) (x : fam * Z) : Prop := a = DAddr x \/ exists t, a = DText t /\ ip_text t = Some x.
(** the operation adds the address: an update goes on until the first argument that is no address *)
Definition adds (o : dop) (x : fam * Z) : Prop :=
  (exists a, o = DAdd a /\ denotes a x) \/
  (exists l1 a l2, o = DUpdate (l1 ++ a :: l2) /\ denotes a x /\ forall b, In b l1 -> exists y, denotes b y).
(** the operation takes it away *)
Definition takes (o : dop) (x : fam * Z) : Prop := o = DClear \/ o = DDiscard (DAddr x) \/ o = DRemove (DAddr x).
(** added, and not taken away since *)
Definition holds (h : list dop) (x : fam * Z) : Prop :=
  exists h1 o h2, h = h1 ++ o :: h2 /\ adds o x /\ forall o', In o' h2 -> ~ takes o' x.

Lemma ip_same_spec a b : ip_same a b = true <-> a = b.
Proof. destruct a as [v z], b as [v' z']. unfold ip_same. cbn. rewrite andb_true_iff, Z.eqb_eq. destruct v, v'; cbn; split; intros H; try (destruct H; discriminate || congruence); try (injection H; auto); try discriminate. all: destruct H; congruence. Qed.
Lemma in_ips x s : existsb (ip_same x) s = true <-> In x s.
Proof. rewrite existsb_exists. split; [intros (y & I & E); apply ip_same_spec in E; congruence|intros I; exists x; split; [exact I|apply ip_same_spec; reflexivity]]. Qed.
Lemma put_in x s y : In y (put_ip x s) <-> y = x \/ In y s.
Proof.
  unfold put_ip. destruct (existsb (ip_same x) s) eqn:E; [apply in_ips in E|rewrite in_app_iff; cbn [In]]; intuition congruence.
Qed.
Lemma put_nodup x s : NoDup s -> NoDup (put_ip x s).
Proof.
  intros N. unfold put_ip. destruct (existsb (ip_same x) s) eqn:E; [exact N|]. apply Permutation.Permutation_NoDup with (x :: s); [apply Permutation.Permutation_cons_append|].
  constructor; [|exact N]. intros I. apply in_ips in I. congruence.
Qed.
Lemma ip_address_spec a : match ip_address ip_text a with Ok x => forall y, denotes a y <-> y = x | Err e => e = EValue /\ forall y, ~ denotes a y end.
Proof.
  unfold ip_address, denotes. destruct a as [x|t].
  - intros y. split; [intros [[= ->]|(t & [=] & _)]; reflexivity|intros ->; auto].
  - destruct (ip_text t) as [x|] eqn:E; [intros y|split; [reflexivity|intros y]].
    + split; [intros [[=]|(t' & [= <-] & E')]; congruence|intros ->; eauto].
    + intros [[=]|(t' & [= <-] & E')]; congruence.
Qed.
Lemma update_spec l : forall s, NoDup s -> NoDup (fst (d_update ip_text s l)) /\
  (forall x, In x (fst (d_update ip_text s l)) <-> In x s \/ adds (DUpdate l) x) /\
  (snd (d_update ip_text s l) = Ok tt <-> forall b, In b l -> exists y, denotes b y) /\
  (snd (d_update ip_text s l) = Ok tt \/ snd (d_update ip_text s l) = Err EValue).
Proof.
  induction l as [|a l IH]; intros s N; cbn [d_update].
  - cbn [fst snd]. split; [exact N|]. split; [|split; [split; [intros _ b []|reflexivity]|auto]].
    intros x. split; [auto|]. intros [I|[(a & [=] & _)|(l1 & a & l2 & [= E] & _)]]; [exact I|]. destruct l1; discriminate.
  - unfold d_add. pose proof (ip_address_spec a) as S. destruct (ip_address ip_text a) as [y|e].
    + destruct (IH (put_ip y s) (put_nodup y s N)) as (N1 & I1 & O1 & D1). split; [exact N1|]. split; [|split; [|exact D1]].
      * intros x. rewrite I1, put_in. split.
        -- intros [[->|I]|[(b & [=] & _)|(l1 & b & l2 & [= ->] & Db & A)]]; [|auto|].
           ++ right. right. exists [], a, l. split; [reflexivity|]. split; [apply S; reflexivity|intros b []].
           ++ right. right. exists (a :: l1), b, l2. split; [reflexivity|]. split; [exact Db|]. intros c [<-|Ic]; [exists y; apply S; reflexivity|auto].
        -- intros [I|[(b & [=] & _)|(l1 & b & l2 & [= E] & Db & A)]]; [auto|]. destruct l1 as [|c l1]; injection E as -> ->.
           ++ left. left. apply S. exact Db.
           ++ right. right. exists l1, b, l2. split; [reflexivity|]. split; [exact Db|]. intros d Id. apply A. right. exact Id.
      * rewrite O1. split; [intros H b [<-|I]; [exists y; apply S; reflexivity|auto]|intros H b I; apply H; right; exact I].
    + destruct S as [-> S]. cbn [fst snd]. split; [exact N|]. split; [|split; [split; [discriminate|]|auto]].
      * intros x. split; [auto|]. intros [I|[(b & [=] & _)|(l1 & b & l2 & [= E] & Db & A)]]; [exact I|]. destruct l1 as [|c l1]; injection E as -> ->; [destruct (S x Db)|].
        destruct (A c (or_introl eq_refl)) as [z Dz]. destruct (S z Dz).
      * intros H. destruct (H a (or_introl eq_refl)) as [z Dz]. destruct (S z Dz).
Qed.
Lemma adds_add a x : adds (DAdd a) x <-> denotes a x.
Proof. split; [intros [(b & [= <-] & D)|(l1 & b & l2 & [=] & _)]; exact D|intros D; left; eauto]. Qed.
Lemma without_spec a s : (NoDup s -> NoDup (d_without s a)) /\ forall x, In x (d_without s a) <-> In x s /\ a <> DAddr x.
Proof.
  destruct a as [y|t]; cbn [d_without].
  - split; [apply NoDup_filter|]. intros x. rewrite filter_In. split.
    + intros [I E]. split; [exact I|]. intros [= ->]. assert (ip_same x x = true) as X by (apply ip_same_spec; reflexivity). rewrite X in E. discriminate.
    + intros [I E]. split; [exact I|]. destruct (ip_same y x) eqn:X; [apply ip_same_spec in X; congruence|reflexivity].
  - split; [auto|]. intros x. split; [intros I; split; [exact I|discriminate]|intros [I _]; exact I].
Qed.
Lemma step_spec s o : NoDup s -> NoDup (fst (d_step ip_text s o)) /\
  forall x, In x (fst (d_step ip_text s o)) <-> adds o x \/ (~ takes o x /\ In x s).
Proof.
  intros N. assert (forall a x, ~ takes (DAdd a) x) as T1 by (intros a x [[=]|[[=]|[=]]]). assert (forall a x, ~ takes (DUpdate a) x) as T2 by (intros a x [[=]|[[=]|[=]]]).
  assert (forall x, ~ adds DClear x) as A1 by (intros x [(? & [=] & _)|(? & ? & ? & [=] & _)]).
  assert (forall a x, ~ adds (DDiscard a) x) as A2 by (intros a x [(? & [=] & _)|(? & ? & ? & [=] & _)]).
  assert (forall a x, ~ adds (DRemove a) x) as A3 by (intros a x [(? & [=] & _)|(? & ? & ? & [=] & _)]).
  destruct o as [a|l| |a|a]; cbn [d_step].
  - unfold d_add. pose proof (ip_address_spec a) as S. destruct (ip_address ip_text a) as [y|e]; cbn [fst].
    + split; [apply put_nodup, N|]. intros x. rewrite put_in, adds_add, S. split; [intros [->|I]; auto|intros [->|[_ I]]; auto].
    + split; [exact N|]. intros x. rewrite adds_add. split; [intros I; right; auto|intros [D|[_ I]]; [destruct (proj2 S x D)|exact I]].
  - destruct (update_spec l s N) as (N1 & I1 & _). split; [exact N1|]. intros x. rewrite I1. split; [intros [I|A]; auto|intros [A|[_ I]]; auto].
  - cbn [fst]. split; [constructor|]. intros x. split; [intros []|intros [A|[T _]]; [destruct (A1 x A)|destruct T; left; reflexivity]].
  - cbn [fst]. destruct (without_spec a s) as [N1 I1]. split; [auto|]. intros x. rewrite I1. split.
    + intros [I Na]. right. split; [|exact I]. intros [[=]|[[= ->]|[=]]]. congruence.
    + intros [A|[T I]]; [destruct (A2 _ _ A)|]. split; [exact I|]. intros ->. apply T. right. left. reflexivity.
  - destruct (d_contains s a) eqn:C; cbn [fst].
    + destruct (without_spec a s) as [N1 I1]. split; [auto|]. intros x. rewrite I1. split.
      * intros [I Na]. right. split; [|exact I]. intros [[=]|[[=]|[= ->]]]. congruence.
      * intros [A|[T I]]; [destruct (A3 _ _ A)|]. split; [exact I|]. intros ->. apply T. right. right. reflexivity.
    + split; [exact N|]. intros x. split; [|intros [A|[_ I]]; [destruct (A3 _ _ A)|exact I]]. intros I. right. split; [|exact I].
      intros [[=]|[[=]|[= ->]]]. cbn [d_contains] in C. apply in_ips in I. congruence.
Qed.
Lemma holds_snoc h o x : holds (h ++ [o]) x <-> adds o x \/ (~ takes o x /\ holds h x).
Proof.
  split.
  - intros (h1 & o' & h2 & E & A & T). destruct h2 as [|y h2 _] using rev_ind.
    + apply app_inj_tail in E. destruct E as [_ ->]. auto.
    + rewrite app_comm_cons, app_assoc in E. apply app_inj_tail in E. destruct E as [-> ->]. right. split; [apply T, in_or_app; right; left; reflexivity|].
      exists h1, o', h2. split; [reflexivity|]. split; [exact A|]. intros z I. apply T, in_or_app. auto.
  - intros [A|(T & h1 & o' & h2 & -> & A & T')].
    + exists h, o, []. split; [reflexivity|]. split; [exact A|intros ? []].
    + exists h1, o', (h2 ++ [o]). split; [rewrite <- app_assoc; reflexivity|]. split; [exact A|]. intros z I. apply in_app_or in I. destruct I as [I|[<-|[]]]; auto.
Qed.
(** C109: after every history, the node has each address that was added and not taken away since, once, and no other *)
Theorem C109_nodes : forall h, NoDup (d_run ip_text h) /\ (forall x, In x (d_run ip_text h) <-> holds h x) /\
  (forall x, d_contains (d_run ip_text h) (DAddr x) = true <-> holds h x).
Proof.
  intros h. assert (NoDup (d_run ip_text h) /\ forall x, In x (d_run ip_text h) <-> holds h x) as [N I].
  { induction h as [|o h [N I]] using rev_ind; [split; [constructor|]; intros x; split; [intros []|intros ([|] & o & h2 & E & _); discriminate]|].
    unfold d_run. rewrite fold_left_app. cbn [fold_left]. change (fold_left _ h []) with (d_run ip_text h).
    destruct (step_spec (d_run ip_text h) o N) as [N1 I1]. split; [exact N1|]. intros x. rewrite I1, holds_snoc, I. reflexivity. }
  split; [exact N|]. split; [exact I|]. intros x. cbn [d_contains]. rewrite in_ips. apply I.
Qed.
(** C109: what operations answer *)
Theorem C109_answers : forall h o r, snd (d_step ip_text (d_run ip_text h) o) = r ->
  (forall a, o = DAdd a -> (r = Ok tt /\ (exists x, denotes a x)) \/ (r = Err EValue /\ ~ exists x, denotes a x)) /\
  (forall l, o = DUpdate l -> (r = Ok tt /\ (forall b, In b l -> exists x, denotes b x)) \/ (r = Err EValue /\ exists b, In b l /\ ~ exists x, denotes b x)) /\
  (forall a, o = DDiscard a -> r = Ok tt) /\ (o = DClear -> r = Ok tt) /\
  (forall x, o = DRemove (DAddr x) -> (r = Ok tt /\ holds h x) \/ (r = Err EKey /\ ~ holds h x)).
Proof.
  intros h o r <-. destruct (C109_nodes h) as (N & I & C). repeat split.
  - intros a ->. cbn [d_step]. unfold d_add. pose proof (ip_address_spec a) as S. destruct (ip_address ip_text a) as [y|e]; cbn [snd].
    + left. split; [reflexivity|]. exists y. apply S. reflexivity.
    + right. destruct S as [-> S]. split; [reflexivity|]. intros [x D]. exact (S x D).
  - intros l ->. cbn [d_step]. destruct (update_spec l (d_run ip_text h) N) as (_ & _ & O & [D|D]); [left; split; [exact D|apply O, D]|]. right. split; [exact D|].
    assert (snd (d_update ip_text (d_run ip_text h) l) <> Ok tt) as Nok by congruence. rewrite O in Nok. clear O D.
    induction l as [|a l IH]; [destruct Nok; intros b []|]. pose proof (ip_address_spec a) as S. destruct (ip_address ip_text a) as [y|e].
    + destruct IH as (b & Ib & Nb); [|exists b; split; [right; exact Ib|exact Nb]]. intros X. apply Nok. intros b [<-|Ib]; [exists y; apply S; reflexivity|auto].
    + exists a. split; [left; reflexivity|]. intros [x D]. exact (proj2 S x D).
  - intros a ->. reflexivity.
  - intros ->. reflexivity.
  - intros x ->. cbn [d_step]. destruct (d_contains (d_run ip_text h) (DAddr x)) eqn:E; cbn [snd]; [left|right]; (split; [reflexivity|]); [apply C, E|].
    intros H. apply C in H. congruence.
Qed.
(** finding: a text is converted when it is added, and not when it is looked for or taken away *)
Theorem C109_text : forall h t, d_contains (d_run ip_text h) (DText t) = false /\
  d_run ip_text (h ++ [DDiscard (DText t)]) = d_run ip_text h /\ snd (d_step ip_text (d_run ip_text h) (DRemove (DText t))) = Err EKey.
Proof. intros h t. split; [reflexivity|]. split; [|reflexivity]. unfold d_run. rewrite fold_left_app. reflexivity. Qed.
(** constructors and copy *)
Theorem C109_new : forall l,
  match d_new ip_text l with
  | Ok s => NoDup s /\ (forall b, In b l -> exists x, denotes b x) /\ forall x, In x s <-> exists a, In a l /\ denotes a x
  | Err e => e = EValue /\ exists b, In b l /\ ~ exists x, denotes b x
  end.
Proof.
  intros l. unfold d_new. destruct (C109_answers [] (DUpdate l) _ eq_refl) as (_ & A & _). specialize (A l eq_refl).
  destruct (update_spec l [] (NoDup_nil _)) as (N & I & _). change (d_step ip_text (d_run ip_text []) (DUpdate l)) with (d_update ip_text [] l) in A.
  destruct (d_update ip_text [] l) as [s [[]|e]]; cbn [fst snd] in *; destruct A as [[E A]|[E A]]; try discriminate.
  - split; [exact N|]. split; [exact A|]. intros x. rewrite I. split.
    + intros [[]|[(? & [=] & _)|(l1 & a & l2 & [= ->] & D & _)]]. exists a. split; [apply in_elt|exact D].
    + intros (a & Ia & D). right. right. apply in_split in Ia. destruct Ia as (l1 & l2 & ->). exists l1, a, l2. split; [reflexivity|]. split; [exact D|]. intros b Ib. apply A, in_or_app. left. exact Ib.
  - injection E as ->. auto.
Qed.
Theorem C109_copy : forall h, exists s, d_copy ip_text (d_run ip_text h) = Ok s /\ NoDup s /\ forall x, In x s <-> holds h x.
Proof.
  intros h. destruct (C109_nodes h) as (N & I & _). unfold d_copy. pose proof (C109_new (map DAddr (d_run ip_text h))) as H.
  destruct (d_new ip_text (map DAddr (d_run ip_text h))) as [s|e].
  - destruct H as (Ns & _ & S). exists s. split; [reflexivity|]. split; [exact Ns|]. intros x. rewrite S, <- I. split.
    + intros (a & Ia & D). apply in_map_iff in Ia. destruct Ia as (y & <- & Iy). destruct D as [[= ->]|(t & [=] & _)]. exact Iy.
    + intros Ix. exists (DAddr x). split; [apply in_map, Ix|left; reflexivity].
  - destruct H as (_ & b & Ib & Nb). apply in_map_iff in Ib. destruct Ib as (y & <- & _). destruct Nb. exists y. left. reflexivity.
Qed.
End Spec.
(** example: text 1 is an address, text 2 is none *)
Example C109_example : let ip := fun t => if t =? 1 then Some (V4, 167772161) else None in
  let h := [DUpdate [DText 1; DAddr (V6, 1); DText 2; DAddr (V4, 9)]; DDiscard (DText 1); DRemove (DAddr (V6, 1)); DAdd (DAddr (V4, 167772161))] in
  d_run ip h = [(V4, 167772161)] /\ holds ip h (V4, 167772161) /\ ~ holds ip h (V6, 1) /\ ~ holds ip h (V4, 9).
Proof.
  cbv zeta. set (ip := fun t => _). set (h := [_; _; _; _]). destruct (C109_nodes ip h) as (_ & I & _). assert (d_run ip h = [(V4, 167772161)]) as E by reflexivity.
  split; [exact E|]. rewrite <- !I, E. cbn. split; [auto|]. split; intros [X|[]]; discriminate.
Qed.
Print Assumptions C109_nodes.
Print Assumptions C109_answers.
Print Assumptions C109_text.
Print Assumptions C109_new.
Print Assumptions C109_copy.
