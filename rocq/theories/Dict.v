(** * Python dictionaries as association lists with a boolean key equality *)
From Verif Require Import Base BaseLemmas.

Section Dict.
Context {K V : Type} (eqb : K -> K -> bool).

(** [d.get(k)] *)
Fixpoint dget (k : K) (d : list (K * V)) : option V :=
  match d with [] => None | (k', v) :: d => if eqb k' k then Some v else dget k d end.
(** [d[k] = v] *)
Fixpoint dput (k : K) (v : V) (d : list (K * V)) : list (K * V) :=
  match d with
  | [] => [(k, v)]
  | (k', v') :: d => if eqb k' k then (k', v) :: d else (k', v') :: dput k v d
  end.
(** [k in d] *)
Definition dhas (k : K) (d : list (K * V)) : bool := match dget k d with Some _ => true | None => false end.

Hypothesis eqb_ok : forall a b, eqb a b = true <-> a = b.

Lemma eqb_rf a : eqb a a = true. Proof. apply eqb_ok. reflexivity. Qed.

Lemma dget_put_same k v d : dget k (dput k v d) = Some v.
Proof.
  induction d as [|[k' v'] d IH]; cbn; [rewrite eqb_rf; reflexivity|].
  destruct (eqb k' k) eqn:E; cbn; rewrite E; auto.
Qed.
Lemma dget_put_other k k2 v d : k2 <> k -> dget k2 (dput k v d) = dget k2 d.
Proof.
  intros N. induction d as [|[k' v'] d IH]; cbn.
  - destruct (eqb k k2) eqn:E; [apply eqb_ok in E; congruence|reflexivity].
  - destruct (eqb k' k) eqn:E; cbn.
    + destruct (eqb k' k2) eqn:E2; [|reflexivity]. apply eqb_ok in E, E2. congruence.
    + destruct (eqb k' k2); [reflexivity|exact IH].
Qed.
Lemma dget_in k v d : dget k d = Some v -> In (k, v) d.
Proof.
  induction d as [|[k' v'] d IH]; cbn; [discriminate|]. destruct (eqb k' k) eqn:E; [|auto].
  apply eqb_ok in E. intros [= ->]. subst. auto.
Qed.
Lemma dget_none k d : dget k d = None <-> ~ In k (map fst d).
Proof.
  induction d as [|[k' v'] d IH]; cbn; [tauto|]. destruct (eqb k' k) eqn:E.
  - apply eqb_ok in E. split; [discriminate|tauto].
  - rewrite IH. split; [|tauto]. intros H [H1|H1]; [|tauto]. subst. rewrite eqb_rf in E. discriminate.
Qed.
Lemma in_dget k v d : NoDup (map fst d) -> In (k, v) d -> dget k d = Some v.
Proof.
  induction d as [|[k' v'] d IH]; cbn; [tauto|]. intros ND [H|H]; inversion ND; subst.
  - injection H as -> ->. rewrite eqb_rf. reflexivity.
  - destruct (eqb k' k) eqn:E; [|auto]. apply eqb_ok in E. subst. exfalso. apply H2.
    change k with (fst (k, v)). apply in_map. exact H.
Qed.
Lemma dput_keys k v d : forall x, In x (map fst (dput k v d)) <-> x = k \/ In x (map fst d).
Proof.
  intros x. induction d as [|[k' v'] d IH]; cbn; [intuition|]. destruct (eqb k' k) eqn:E; cbn.
  - apply eqb_ok in E. subst. intuition.
  - rewrite IH. tauto.
Qed.
Lemma dput_nodup k v d : NoDup (map fst d) -> NoDup (map fst (dput k v d)).
Proof.
  induction d as [|[k' v'] d IH]; cbn; intros H; [constructor; [tauto|constructor]|].
  inversion H; subst. destruct (eqb k' k) eqn:E; cbn; [assumption|]. constructor; [|auto].
  rewrite dput_keys. intros [->|C]; [rewrite eqb_rf in E; discriminate|auto].
Qed.
Lemma in_dput k v d x : In x (dput k v d) -> snd x = v /\ fst x = k \/ In x d.
Proof.
  induction d as [|[k' v'] d IH]; cbn; [intros [<-|[]]; auto|]. destruct (eqb k' k) eqn:E; cbn.
  - apply eqb_ok in E. intros [<-|H]; auto.
  - intros [<-|H]; auto. destruct (IH H); auto.
Qed.

(** dictionaries under filters and maps that keep the keys *)
Lemma filter_keys_nodup (f : K * V -> bool) d : NoDup (map fst d) -> NoDup (map fst (filter f d)).
Proof.
  induction d as [|[k v] d IH]; cbn; intros H; [constructor|]. inversion H; subst.
  destruct (f (k, v)); [|auto]. cbn. constructor; [|auto]. intros C. apply H2.
  apply in_map_iff in C. destruct C as (x & <- & Hx). apply filter_In in Hx. apply in_map, Hx.
Qed.
Lemma dget_filter (f : K * V -> bool) k d : NoDup (map fst d) ->
  dget k (filter f d) = match dget k d with Some v => if f (k, v) then Some v else None | None => None end.
Proof.
  induction d as [|[k' v'] d IH]; cbn; intros H; [reflexivity|]. inversion H; subst.
  destruct (eqb k' k) eqn:E.
  - apply eqb_ok in E. subst. destruct (f (k, v')); cbn; [rewrite eqb_rf; reflexivity|].
    apply dget_none. intros C. apply H2. apply in_map_iff in C. destruct C as (x & <- & Hx). apply filter_In in Hx. apply in_map, Hx.
  - destruct (f (k', v')); cbn; [rewrite E|]; auto.
Qed.
End Dict.

Lemma dget_map_snd {K V W} (eqb : K -> K -> bool) (g : V -> W) k (d : list (K * V)) :
  dget eqb k (map (fun x => (fst x, g (snd x))) d) = option_map g (dget eqb k d).
Proof. induction d as [|[k' v'] d IH]; cbn; [reflexivity|]. destruct (eqb k' k); [reflexivity|exact IH]. Qed.
Lemma map_snd_keys {K V W} (g : V -> W) (d : list (K * V)) :
  map fst (map (fun x => (fst x, g (snd x))) d) = map fst d.
Proof. rewrite map_map. reflexivity. Qed.
