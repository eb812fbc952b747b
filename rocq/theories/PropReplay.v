(** * C116: the order of an xTR's Map-Registers.
    RFC 6833 gives every Map-Register a nonce; nothing in map_server_node.py looks at it, so a Map-Register
    which is delayed, duplicated or replayed by anyone who saw it counts as a new one. *)
From Coq Require Import Sorted.
From Verif Require Import Base BaseLemmas Afi AfiProofs Spec SpecEid PropEid Records Control SpecRec RecordsProofs ControlProofs
  Auth SpecAuth PropAuth Tree SpecTree TreeProofs PropTree PropTree2 Dict MapServer SpecMs PropMs PropMs2.

(** the claim a user would make: once record [ro] of a source has been replaced by record [rn] of a later
    Map-Register, the earlier Map-Register arriving again does not bring [ro] back.  Even when all messages
    carry a MAC. *)
Definition no_rollback : Prop := forall hm key more p h1 h2 mo i src t1 mn j src' t2 t3 q s ro rn rg,
  digests hm -> wf_pfx p ->
  objects (h1 ++ EvReg mo i src t1 :: h2 ++ [EvReg mn j src' t2; EvReg mo i src t3]) ->
  g_key mo <> 0 -> g_key mn <> 0 -> t1 < t2 -> t2 < t3 ->
  acceptable hm key more p mo i src t1 q s ro -> acceptable hm key more p mn j src' t2 q s rn ->
  registered (ms_run hm p (new_ms key more)
    (h1 ++ EvReg mo i src t1 :: h2 ++ [EvReg mn j src' t2; EvReg mo i src t3])) q s = Some rg ->
  rg_record rg = rg_record rn.

(** what the code does: whatever has been accepted once is accepted whenever it arrives, and from anywhere
    if it names its xTR *)
Theorem C116_accepted_again : forall hm key more p m i src t q s rg src' t',
  acceptable hm key more p m i src t q s rg ->
  (g_xtr m <> 0 \/ src' = src) ->
  acceptable hm key more p m i src' t' q s (Reg (rg_record rg) (rg_proxy rg) (t' + 180 * sec)).
Proof.
  intros hm key more p m i src t q s rg src' t' (r & r' & Ha & Hr & He & Hi & Hm & Hs & Hn & ->) Hx.
  exists r, r'. repeat (split; [assumption|]). split; [|split; [exact Hn|reflexivity]].
  destruct Hs as [[X S]|[X S]]; [left; auto|right]. destruct Hx as [Hx|Hx]; [contradiction|]. subst src'. auto.
Qed.

(** so its record comes back, with a new deadline, whatever was registered in between *)
Theorem C116_old_comes_back : forall hm key more p h1 h2 m i src t1 src' t3 q s rg,
  wf_pfx p -> objects (h1 ++ EvReg m i src t1 :: h2) ->
  acceptable hm key more p m i src t1 q s rg -> (g_xtr m <> 0 \/ src' = src) ->
  registered (ms_run hm p (new_ms key more) (h1 ++ EvReg m i src t1 :: h2 ++ [EvReg m i src' t3])) q s
  = Some (Reg (rg_record rg) (rg_proxy rg) (t3 + 180 * sec)).
Proof.
  intros hm key more p h1 h2 m i src t1 src' t3 q s rg Hp Ho A Hx.
  change (EvReg m i src t1 :: h2 ++ [EvReg m i src' t3]) with ((EvReg m i src t1 :: h2) ++ [EvReg m i src' t3]).
  rewrite app_assoc. apply C52_acceptable_is_registered; auto.
  - apply (Ho m i src t1). apply in_or_app. right. left. reflexivity.
  - eapply C116_accepted_again; eauto.
Qed.

(** and it stays registered as long as it keeps arriving: a registration can be kept alive forever by
    someone without the key.  [again m i src ts] are the arrivals at the times [ts]. *)
Definition again (m : mreg) (i : nat) (src : fam * Z) (ts : list Z) : list ms_ev := map (EvReg m i src) ts.
Theorem C116_kept_alive : forall hm key more p h m i src t ts src' q s rg,
  wf_pfx p -> objects (h ++ [EvReg m i src t]) ->
  acceptable hm key more p m i src t q s rg -> (g_xtr m <> 0 \/ src' = src) -> ts <> [] ->
  exists rg', registered (ms_run hm p (new_ms key more) (h ++ EvReg m i src t :: again m i src' ts)) q s = Some rg' /\
    rg_record rg' = rg_record rg /\ rg_deadline rg' = last ts 0 + 180 * sec.
Proof.
  intros hm key more p h m i src t ts src' q s rg Hp Ho A Hx Hne.
  destruct (exists_last Hne) as (ts' & x & ->). unfold again. rewrite map_app, last_last. cbn [map].
  assert (obj_mreg m) as Om by (apply (Ho m i src t); apply in_or_app; right; left; reflexivity).
  eexists. split; [|split].
  - apply (C116_old_comes_back hm key more p h (map (EvReg m i src') ts') m i src t src' x q s rg Hp); auto.
    intros m0 i0 src0 now0 Hin. apply in_app_iff in Hin. destruct Hin as [Hin|[Hin|Hin]].
    + eapply Ho. apply in_or_app. left. exact Hin.
    + injection Hin as <- _ _ _. exact Om.
    + apply in_map_iff in Hin. destruct Hin as (y & E & _). injection E as <- _ _ _. exact Om.
  - reflexivity.
  - reflexivity.
Qed.

(** ** The claim is false *)
Definition rec_old := MRec 1440 0 true (repeat false 16) 1 (ANet V4 (10 * 2 ^ 24 + 5 * 2 ^ 16) 16) [].
Definition rec_new := MRec 1440 0 true (repeat false 16) 2 (ANet V4 (10 * 2 ^ 24 + 5 * 2 ^ 16) 16) [].
Definition unsigned (n : Z) (r : mrec) :=
  MReg false false true [false] (repeat false 15) (repeat zero_byte 7 ++ B [n]) 2 [] [r] 7 1.
Definition signed (n : Z) (r : mrec) : mreg :=
  match insert toy_hm (AReg (unsigned n r)) (B [1;2]) with (AReg m, _) => m | _ => unsigned n r end.
Definition reg_old := signed 1 rec_old.
Definition reg_new := signed 2 rec_new.


Lemma reg_old_obj : obj_mreg reg_old.
Proof. vm_compute. repeat split. constructor; [|constructor]. repeat split. constructor. Qed.
Lemma reg_new_obj : obj_mreg reg_new.
Proof. vm_compute. repeat split. constructor; [|constructor]. repeat split. constructor. Qed.
(** both are messages of the xTR 7 of site 1 which parse from their own bytes *)
Example reg_old_parses :
  match mreg_to_bytes reg_old with Ok d => mreg_from_bytes d = Ok reg_old | Err _ => False end.
Proof. vm_compute. reflexivity. Qed.

Lemma signed_acceptable n r src t : (n, r) = (1, rec_old) \/ (n, r) = (2, rec_new) ->
  acceptable toy_hm (B [1;2]) true p8 (signed n r) 0 src t p16 (SXtr 1 7) (Reg r false (t + 180 * sec)).
Proof.
  intros H. exists r, r. split; [|split; [|split; [|split; [|split; [|split; [|split]]]]]].
  - destruct H as [H|H]; injection H as -> ->; vm_compute; reflexivity.
  - destruct H as [H|H]; injection H as -> ->; vm_compute; reflexivity.
  - exists 0, 1. destruct H as [H|H]; injection H as -> ->; (apply eid_named_spec; reflexivity).
  - apply inside_interval; [exact p16_wf|exact p8_wf|]. vm_compute. repeat split; congruence.
  - right. reflexivity.
  - left. destruct H as [H|H]; injection H as -> ->; (split; [vm_compute; discriminate|vm_compute; reflexivity]).
  - right. destruct H as [H|H]; injection H as -> ->; (split; [vm_compute; discriminate|vm_compute; reflexivity]).
  - destruct H as [H|H]; injection H as -> ->; vm_compute; reflexivity.
Qed.

Theorem C116_refuted : ~ no_rollback.
Proof.
  intros H.
  assert (objects ([] ++ EvReg reg_old 0 (V4, 77) 5 :: [] ++ [EvReg reg_new 0 (V4, 77) 6; EvReg reg_old 0 (V4, 77) 7])) as O.
  { intros m i src now [E|[E|[E|[]]]]; injection E as <- _ _ _; first [exact reg_old_obj|exact reg_new_obj]. }
  pose proof (C116_old_comes_back toy_hm (B [1;2]) true p8 [] [EvReg reg_new 0 (V4, 77) 6] reg_old 0 (V4, 77) 5 (V4, 77) 7 p16 (SXtr 1 7)
    (Reg rec_old false (5 + 180 * sec)) p8_wf) as R.
  assert (rec_old = rec_new) as E.
  { refine (H toy_hm (B [1;2]) true p8 [] [] reg_old 0%nat (V4, 77) 5 reg_new 0%nat (V4, 77) 6 7 p16 (SXtr 1 7)
      (Reg rec_old false (5 + 180 * sec)) (Reg rec_new false (6 + 180 * sec)) (Reg rec_old false (7 + 180 * sec))
      toy_digests p8_wf O _ _ _ _ _ _ _).
    - vm_compute; discriminate.
    - vm_compute; discriminate.
    - lia.
    - lia.
    - apply signed_acceptable. left. reflexivity.
    - apply signed_acceptable. right. reflexivity.
    - apply R.
      + intros m i src now [E|[E|[]]]; injection E as <- _ _ _; first [exact reg_old_obj|exact reg_new_obj].
      + apply signed_acceptable. left. reflexivity.
      + right. reflexivity. }
  discriminate.
Qed.

(** ** What does hold: if the Map-Registers of a source for a prefix arrive in the order in which they
    were sent, and none comes twice after a newer one, the newest one is registered.  [sent] is any measure
    of when a message was made. *)
Definition arrives_in_order hm key more p (sent : mreg -> Z) (h : list ms_ev) (q : pfx) (s : source) : Prop :=
  forall h1 m1 i1 src1 t1 h2 m2 i2 src2 t2 h3 r1 r2,
    h = h1 ++ EvReg m1 i1 src1 t1 :: h2 ++ EvReg m2 i2 src2 t2 :: h3 ->
    acceptable hm key more p m1 i1 src1 t1 q s r1 -> acceptable hm key more p m2 i2 src2 t2 q s r2 ->
    sent m1 <= sent m2.
Theorem C116_in_order_partial : forall hm key more p sent h q s rg, wf_pfx p -> objects h ->
  arrives_in_order hm key more p sent h q s ->
  registered (ms_run hm p (new_ms key more) h) q s = Some rg ->
  exists m i src t, In (EvReg m i src t) h /\ acceptable hm key more p m i src t q s rg /\
    forall m' i' src' t' rg', In (EvReg m' i' src' t') h ->
      acceptable hm key more p m' i' src' t' q s rg' -> sent m' <= sent m.
Proof.
  intros hm key more p sent h q s rg Hp Ho Hord H. apply C51_store_refines in H; auto.
  destruct H as (h1 & m & i & src & now & h2 & -> & A & Hno & _).
  exists m, i, src, now. split; [apply in_or_app; right; left; reflexivity|]. split; [exact A|].
  intros m' i' src' t' rg' Hin A'. apply in_app_iff in Hin. destruct Hin as [Hin|[E|Hin]].
  - apply in_split in Hin. destruct Hin as (a & b & ->).
    apply (Hord a m' i' src' t' b m i src now h2 rg' rg); auto. rewrite <- app_assoc. reflexivity.
  - injection E as <- _ _ _. lia.
  - exfalso. exact (Hno _ _ _ _ Hin _ A').
Qed.
(** the hypothesis is met by the two messages in order, and not by the replay *)
Definition by_nonce (m : mreg) : Z := fold_left (fun a b => 256 * a + byte_val b) (g_nonce m) 0.
Example C116_example :
  by_nonce reg_old = 1 /\ by_nonce reg_new = 2 /\
  registered (ms_run toy_hm p8 (new_ms (B [1;2]) true) [EvReg reg_old 0 (V4, 77) 5; EvReg reg_new 0 (V4, 78) 6]) p16 (SXtr 1 7)
    = Some (Reg rec_new false (6 + 180 * sec)) /\
  registered (ms_run toy_hm p8 (new_ms (B [1;2]) true)
      [EvReg reg_old 0 (V4, 77) 5; EvReg reg_new 0 (V4, 78) 6; EvReg reg_old 0 (V6, 99) 1000]) p16 (SXtr 1 7)
    = Some (Reg rec_old false (1000 + 180 * sec)).
Proof. vm_compute. repeat split. Qed.
Example C116_in_order_met :
  arrives_in_order toy_hm (B [1;2]) true p8 by_nonce [EvReg reg_old 0 (V4, 77) 5; EvReg reg_new 0 (V4, 78) 6] p16 (SXtr 1 7).
Proof.
  intros h1 m1 i1 src1 t1 h2 m2 i2 src2 t2 h3 r1 r2 E _ _.
  assert (m1 = reg_old /\ m2 = reg_new) as [-> ->]; [|vm_compute; discriminate].
  destruct h1 as [|e1 h1]; cbn [app] in E.
  - injection E as <- _ _ _ E. split; [reflexivity|].
    destruct h2 as [|e2 h2]; cbn [app] in E; [congruence|]. injection E as _ E. destruct h2; discriminate.
  - exfalso. apply (f_equal (@length _)) in E. cbn [length] in E. rewrite app_length in E. cbn [length] in E. rewrite app_length in E. cbn [length] in E. lia.
Qed.

Print Assumptions C116_accepted_again.
Print Assumptions C116_old_comes_back.
Print Assumptions C116_kept_alive.
Print Assumptions C116_refuted.
Print Assumptions C116_in_order_partial.
