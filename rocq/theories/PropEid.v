(** * Property C90: where an EID is looked up *)
From Verif Require Import Base BaseLemmas Afi AfiProofs Spec SpecLemmas PropAfi Records SpecEid.

Lemma eid_named_spec e i afi a : determine e = Some (i, afi, a) <-> eid_named e i afi a.
Proof.
  unfold eid_named. rewrite <- C06_get_addresses. unfold determine. split.
  - intros H. assert (get_addresses e = [a] /\ fam_number a afi) as [A B].
    { assert (forall x, (match x with Some (AIP V4 z) => Some (match e with LInst i _ _ => i | _ => 0 end, 1, AIP V4 z) | Some (ANet V4 z n) => Some (match e with LInst i _ _ => i | _ => 0 end, 1, ANet V4 z n)
         | Some (AIP V6 z) => Some (match e with LInst i _ _ => i | _ => 0 end, 2, AIP V6 z) | Some (ANet V6 z n) => Some (match e with LInst i _ _ => i | _ => 0 end, 2, ANet V6 z n) | _ => None end) = Some (i, afi, a) ->
         x = Some a /\ fam_number a afi) as X.
      { intros x Hx. destruct x as [[|[] z|[] z n| | | | | |]|]; try discriminate; injection Hx as _ <- <-; split; constructor. }
      destruct (is_lcaf e) eqn:El.
      - apply X in H. destruct H as [H1 H2]. split; [|exact H2]. destruct (get_addresses e) as [|y [|]]; congruence.
      - apply (X (Some e)) in H. destruct H as [[= <-] H2]. split; [|exact H2]. destruct e; try discriminate; reflexivity. }
    split; [exact A|]. split; [exact B|].
    assert (i = match e with LInst i _ _ => i | _ => 0 end) as ->.
    { destruct (if is_lcaf e then _ else _) as [[|[] z|[] z n| | | | | |]|]; try discriminate; congruence. }
    destruct e; try (constructor; intros; discriminate).
  - intros (A & B & C). assert (i = match e with LInst i _ _ => i | _ => 0 end) as ->.
    { destruct C as [i b m|a' N]; [reflexivity|]. destruct a'; try reflexivity. destruct (N _ _ _ eq_refl). }
    assert ((if is_lcaf e then match get_addresses e with [x] => Some x | _ => None end else Some e) = Some a) as E.
    { destruct (is_lcaf e) eqn:El; [rewrite A; reflexivity|]. destruct e; try discriminate; cbn in A; congruence. }
    rewrite E. destruct B; reflexivity.
Qed.
(** C90: an EID is looked up as the one address or prefix in it, by its family, in the instance around it *)
Theorem C90_lookup_key : forall e i afi a, determine e = Some (i, afi, a) <-> eid_named e i afi a.
Proof. exact eid_named_spec. Qed.
(** and not at all exactly if it has none or several addresses, or one without a family *)
Theorem C90_no_lookup : forall e, determine e = None <-> forall a afi, leaves e [a] -> ~ fam_number a afi.
Proof.
  intros e. split.
  - intros H a afi L F. assert (exists i, instance_of e i) as [i I].
    { destruct e; try (exists 0; constructor; intros; discriminate). exists iid. constructor. }
    assert (determine e = Some (i, afi, a)) by (apply eid_named_spec; split; [exact L|split; assumption]). congruence.
  - intros H. destruct (determine e) as [[[i afi] a]|] eqn:E; [|reflexivity]. apply eid_named_spec in E. destruct E as (L & F & _). destruct (H _ _ L F).
Qed.
(** finding: an instance id inside another LCAF (an AS number, a location, a list of one) is lost, and the EID is looked up in
    instance 0: the instance an EID names is not always the one it is looked up in *)
Inductive mentions_instance (i : Z) : addr -> Prop :=
| mi_here a m : mentions_instance i (LInst i a m)
| mi_as n a : mentions_instance i a -> mentions_instance i (LAs n a)
| mi_geo g a : mentions_instance i a -> mentions_instance i (LGeo g a)
| mi_list l a : In a l -> mentions_instance i a -> mentions_instance i (LList l).
Theorem C90_refuted : ~ (forall e i i' afi a, mentions_instance i e -> determine e = Some (i', afi, a) -> i' = i).
Proof.
  intros H. specialize (H (LAs 65000 (LInst 5 (ANet V4 167772160 8) 0)) 5 0 1 (ANet V4 167772160 8)).
  assert (0 = 5); [|lia]. apply H; [repeat constructor|reflexivity].
Qed.
Example C90_example : eid_named (LInst 7 (LGeo (Geo true 1 2 3 true 4 5 6 7) (ANet V6 0 32)) 0) 7 2 (ANet V6 0 32).
Proof. apply eid_named_spec. reflexivity. Qed.
Print Assumptions C90_lookup_key.
Print Assumptions C90_no_lookup.
Print Assumptions C90_refuted.
