(** * Property C135: NAT is found exactly if there is one *)
From Verif Require Import Base BaseLemmas Afi Records Control Auth Tree MapServer Etr Packet Daemon Exchange SpecExch PropExch SpecBehind.

Lemma honest_replies seen r nonce h : honest_server seen r nonce h -> forall src m, In (Hears src m) h -> reply_for r nonce src m -> info_reply m.
Proof.
  intros H src m I A. apply in_split in I. destruct I as (pre & post & ->). destruct (H _ _ _ _ eq_refl A) as (f & mp & ms & p & rtrs & _ & E).
  unfold info_reply. rewrite E. repeat eexists.
Qed.
(** What an answer comes to: the address and port that the Map-Server has seen of one of the requests sent so far, and the
    address that the last of them was sent from. *)
Lemma answer_honest seen r nonce h d : honest_server seen r nonce h -> answer r nonce h d ->
  exists pre src m post f f', h = pre ++ Hears src m :: post /\ In (Sends (Some f')) pre /\ last_sent pre f /\
    exists mp ms p rtrs, d = LNat mp (snd (seen f')) (AIP (fst (fst (seen f'))) (snd (fst (seen f')))) ms (match f with Some f => AIP (fst f) (snd f) | None => p end) rtrs.
Proof.
  intros H (_ & pre & src & m & post & f & E & A & _ & L & (mp & ep & g & ms & p & rtrs & Ed & ->)).
  destruct (H _ _ _ _ E A) as (f' & mp' & ms' & p' & rtrs' & I & Ed'). rewrite Ed in Ed'. injection Ed' as -> -> -> -> -> ->.
  exists pre, src, m, post, f, f'. split; [exact E|]. split; [exact I|]. split; [exact L|]. repeat eexists.
Qed.
Lemma seen_nat mp ms rtrs (f : fam * Z) (g : (fam * Z) * Z) :
  nat_seen (LNat mp (snd g) (AIP (fst (fst g)) (snd (fst g))) ms (AIP (fst f) (snd f)) rtrs) <-> g <> (f, 4342).
Proof.
  unfold nat_seen. destruct g as [[v z] ep], f as [v' z']. cbn [fst snd]. split.
  - intros (mp' & ep' & g & ms' & p & rtrs' & [= <- <- <- <- <- <-] & [H|H]) [= -> -> ->]; [apply H; split; [reflexivity|exact Logic.I]|congruence].
  - intros H. do 6 eexists. split; [reflexivity|]. destruct (Z.eq_dec ep 4342) as [->|N]; [left|right; exact N]. intros ([= -> ->] & _). congruence.
Qed.
Lemma verdict_decides seen r nonce h v f : honest_server seen r nonce h -> sent_only_from f h -> (exists x, In (Sends x) h) -> verdict r nonce h v ->
  (v = Ok None /\ ~ (answered r nonce h /\ (nat_between seen f \/ tr_use_rtr r = Some true))) \/
  (tells v f (seen f) /\ answered r nonce h /\ (nat_between seen f \/ tr_use_rtr r = Some true)).
Proof.
  intros H S (x0 & I0) V.
  assert (forall d, answer r nonce h d -> tells (Ok (Some d)) f (seen f) /\ (nat_seen d <-> nat_between seen f)) as A.
  { intros d Hd. destruct (answer_honest _ _ _ _ _ H Hd) as (pre & src & m & post & fl & f' & E & I & L & mp & ms & p & rtrs & ->).
    assert (Some f' = Some f) as [= ->] by (apply S; rewrite E; apply in_or_app; left; exact I).
    assert (fl = Some f) as ->.
    { destruct L as [? N|pre0 fl post0 N]; [destruct (N _ I)|]. apply S. rewrite E. apply in_or_app. left. apply in_elt. }
    split; [repeat eexists|apply seen_nat]. }
  assert (answered r nonce h -> exists d, answer r nonce h d) as T.
  { intros An. destruct (info_state r nonce h) as (_ & _ & _ & Vv & T). destruct (oi_reply _) as [m'|] eqn:Er in T.
    - pose proof (told_answer r nonce h m') as TA. exists (i_data m'). apply TA; [exact T|exact An|]. split; [reflexivity|].
      destruct T as (pre & s & m & post & f0 & E & Am & B & C & D). destruct (honest_replies _ _ _ _ H s m) as (a & b & c & e & pr & g & Em); [rewrite E; apply in_elt|exact Am|].
      subst m'. destruct f0 as [f0|]; [|repeat eexists; exact Em]. unfold set_private. rewrite Em. repeat eexists; reflexivity.
    - exfalso. destruct An as (pre & s & m & post & f' & -> & Am & _). apply (T s m); [|exact Am]. apply in_elt. }
  destruct V as [d A1 A2|d f0 A1 A2 A3|f0 A1 A2|A1 A2].
  - right. destruct (A d A1) as [B1 B2]. split; [exact B1|]. split; [exact (proj1 A1)|]. left. apply B2, A2.
  - right. destruct (A d A1) as [B1 B2]. split; [exact B1|]. split; [exact (proj1 A1)|]. auto.
  - left. split; [reflexivity|]. intros [An N]. destruct (T An) as [d Hd]. destruct (A d Hd) as [_ B2]. destruct (A2 d Hd) as [C1 C2].
    destruct N as [N|N]; [apply C1, B2, N|exact (C2 N)].
  - exfalso. inversion A1 as [? N E1 E2|pre f1 post N E1 E2].
    + exact (N _ I0).
    + subst. assert (None = Some f) as X by (apply S; apply in_elt). discriminate.
Qed.

(** ** C135 *)
(** A detection that is not told to stop and is not cut off by an exception, with all requests sent from one address:
    it finds NAT, with the public address and port, exactly if a request was answered and there is a NAT (or the use of
    RTRs is forced). *)
Theorem C135_exact : forall seen f r nonce l late v used, 
  (3 <= length l)%nat -> tr_use_rtr r <> Some false ->
  (forall src m, In (Hears src m) (happened l ++ hears late) -> info_reply m) ->
  get_nat_info r nonce l late = (v, used, false) ->
  let h := happened used ++ hears late in
  honest_server seen r nonce h -> sent_only_from f h ->
  (answered r nonce h /\ (nat_between seen f \/ tr_use_rtr r = Some true) -> tells v f (seen f)) /\
  (~ (answered r nonce h /\ (nat_between seen f \/ tr_use_rtr r = Some true)) -> v = Ok None).
Proof.
  intros seen f r nonce l late v used L U W G h H S. destruct (C77_detection _ _ _ _ _ _ _ L U W G) as (_ & u & t & E & D).
  destruct (a_send t) as [x|e] eqn:Et; [|destruct D; discriminate]. destruct (a_stop t); [destruct D; discriminate|]. destruct D as (_ & _ & V).
  assert (exists x, In (Sends x) h) as Hx.
  { exists x. unfold h. apply in_or_app. left. rewrite E. unfold happened. rewrite flat_map_app. apply in_or_app. right. cbn [flat_map]. rewrite app_nil_r.
    unfold during. rewrite Et. apply in_or_app. right. left. reflexivity. }
  destruct (verdict_decides seen r nonce h v f H S Hx V) as [[A B]|[A B]]; split; try tauto; intros C; tauto.
Qed.
(** In words of the result alone. *)
Theorem C135_nat_iff : forall seen f r nonce l late v used, 
  (3 <= length l)%nat -> tr_use_rtr r = None ->
  (forall src m, In (Hears src m) (happened l ++ hears late) -> info_reply m) ->
  get_nat_info r nonce l late = (v, used, false) ->
  let h := happened used ++ hears late in
  honest_server seen r nonce h -> sent_only_from f h -> answered r nonce h ->
  (v = Ok None <-> ~ nat_between seen f) /\ ((exists d, v = Ok (Some d)) <-> nat_between seen f).
Proof.
  intros seen f r nonce l late v used L U W G h H S A. destruct (C135_exact seen f r nonce l late v used L ltac:(congruence) W G H S) as [P Q].
  assert ({nat_between seen f} + {~ nat_between seen f}) as [N|N].
  { unfold nat_between. destruct (seen f) as [[v1 z1] p1], f as [v2 z2].
    assert ({v1 = v2} + {v1 <> v2}) as [->|X] by decide equality; [|left; congruence].
    destruct (Z.eq_dec z1 z2) as [->|X]; [|left; congruence]. destruct (Z.eq_dec p1 4342) as [->|X]; [right; intros N; apply N; reflexivity|left; congruence]. }
  - destruct P as (mp & ms & rtrs & ->); [auto|]. split; split; intros X; try discriminate; try contradiction; eauto.
  - rewrite Q; [|intros [_ [X|X]]; [exact (N X)|congruence]]. split; split; intros X; auto; [destruct X; discriminate|contradiction].
Qed.
(** If the address of the ETR changes between two requests, the answer to the first one finds a NAT where none is. *)
Definition bh_old : fam * Z := (V4, 3325256705).
Definition bh_new : fam * Z := (V4, 3325256706).
Definition bh_info (g : (fam * Z) * Z) : info :=
  Info true (repeat false 27) nat_nonce 0 [] 1440 [] ANone (LNat 4342 (snd g) (AIP (fst (fst g)) (snd (fst g))) (AIP V4 1) ANone []).
Definition bh_moved : list (attempt info) :=
  [Att [] (Ok (Some bh_old)) [] false; Att [] (Ok (Some bh_new)) [(tr_ms (nat_r None), bh_info (bh_old, 4342))] false; Att [] (Ok (Some bh_new)) [] false].
Definition no_nat_path : path := fun f => (f, 4342).
Theorem C135_refuted : exists d used, get_nat_info (nat_r None) nat_nonce bh_moved [] = (Ok (Some d), used, false) /\
  honest_server no_nat_path (nat_r None) nat_nonce (happened used) /\ (forall f, ~ nat_between no_nat_path f).
Proof.
  do 2 eexists. split; [vm_compute; reflexivity|]. split; [|intros f N; apply N; reflexivity].
  intros pre src m post E A. change (happened _) with [Sends (Some bh_old); Sends (Some bh_new); Hears (tr_ms (nat_r None)) (bh_info (bh_old, 4342))] in E.
  destruct pre as [|? [|? [|? pre]]]; try discriminate; [|destruct pre; discriminate]. injection E as <- <- <- <- _.
  exists bh_old. do 4 eexists. split; [left; reflexivity|reflexivity].
Qed.
(** The hypotheses of C135_nat_iff are met with a NAT and without: the first request is lost, the second one answered. *)
Definition bh_path : path := fun f => ((V4, 3405803786), 50000).
Definition bh_att (g : path) : list (attempt info) :=
  [Att [] (Ok (Some bh_old)) [] false; Att [] (Ok (Some bh_old)) [(tr_ms (nat_r None), bh_info (g bh_old))] false; Att [] (Ok (Some bh_old)) [] false].
Example C135_example : forall g, g = bh_path \/ g = no_nat_path ->
  exists v used, get_nat_info (nat_r None) nat_nonce (bh_att g) [] = (v, used, false) /\
  (forall src m, In (Hears src m) (happened (bh_att g) ++ hears []) -> info_reply m) /\
  honest_server g (nat_r None) nat_nonce (happened used ++ hears []) /\ sent_only_from bh_old (happened used ++ hears []) /\
  answered (nat_r None) nat_nonce (happened used ++ hears []) /\ (nat_between g bh_old <-> g = bh_path).
Proof.
  assert (forall g : path, honest_server g (nat_r None) nat_nonce
    [Sends (Some bh_old); Sends (Some bh_old); Hears (tr_ms (nat_r None)) (bh_info (g bh_old))]) as HH.
  { intros g pre src m post E A. destruct pre as [|? [|? [|? pre]]]; try discriminate; [|destruct pre; discriminate]. injection E as <- <- <- <- _.
    exists bh_old. do 4 eexists. split; [left; reflexivity|reflexivity]. }
  intros g [-> | ->]; do 2 eexists; (split; [vm_compute; reflexivity|]);
    (split; [intros src m I; cbn in I; destruct I as [I|[I|[I|[I|[]]]]]; try discriminate; injection I as <- <-; repeat eexists|]);
    (split; [apply HH|]); (split; [intros x I; cbn in I; destruct I as [I|[I|[I|[]]]]; try discriminate; injection I as <-; reflexivity|]);
    (split; [exists [Sends (Some bh_old); Sends (Some bh_old)]; do 4 eexists; split; [reflexivity|]; split; [split; reflexivity|]; apply (ls_last [Sends (Some bh_old)] _ []); intros ? []|]).
  - split; [reflexivity|]. intros _ X. vm_compute in X. discriminate.
  - split; [intros N; destruct (N eq_refl)|]. intros X. apply (f_equal (fun p : path => snd (p bh_old))) in X. vm_compute in X. discriminate.
Qed.
Print Assumptions C135_exact. Print Assumptions C135_nat_iff. Print Assumptions C135_refuted. Print Assumptions C135_example.
