(** * Properties C77, C78: NAT detection and Map-Register exchanges *)
From Verif Require Import Base BaseLemmas Afi Records Control Auth Tree MapServer Etr SpecEtr PropEtr PropEtr2 Packet Daemon Exchange SpecExch.

(** ** The loop *)
Section Loop.
Context {S M : Type} (sent : option (fam * Z) -> S -> S) (arrives : (fam * Z) * M -> S -> S) (ans : S -> bool).
Definition hstep (s : S) (x : hap M) : S := match x with Sends f => sent f s | Hears src m => arrives (src, m) s end.
Definition after_h (s : S) (h : list (hap M)) : S := fold_left hstep h s.
Lemma arrive_hears l : forall s, arrive arrives l s = after_h s (hears l).
Proof. induction l as [|[a b] l IH]; intros s; [reflexivity|]. cbn [hears map]. unfold after_h in *. cbn [fold_left]. apply IH. Qed.
Lemma after_app s h1 h2 : after_h s (h1 ++ h2) = after_h (after_h s h1) h2.
Proof. apply fold_left_app. Qed.
Lemma during_ok t f s : a_send t = Ok f -> arrive arrives (a_in t) (sent f (arrive arrives (a_before t) s)) = after_h s (during t).
Proof. intros E. unfold during. rewrite E, !after_app, !arrive_hears. reflexivity. Qed.
Lemma attempts_spec l : forall s s' out used, attempts sent arrives ans l s = (s', out, used) -> l <> [] ->
  exists u t rest, used = u ++ [t] /\ l = used ++ rest /\
    (forall u1 t1 u2, u = u1 ++ t1 :: u2 -> a_stop t1 = false /\ (exists f, a_send t1 = Ok f) /\ ans (after_h s (happened (u1 ++ [t1]))) = false) /\
    match a_send t with
    | Err e => out = Raised e
    | Ok _ => s' = after_h s (happened used) /\
              if a_stop t then out = Stopped else out = Through /\ (ans s' = true \/ rest = [])
    end.
Proof.
  induction l as [|t l IH]; intros s s' out used H NE; [congruence|]. clear NE. cbn [attempts] in H.
  destruct (a_send t) as [f|e] eqn:Es.
  2:{ injection H as <- <- <-. exists [], t, l. split; [reflexivity|]. split; [reflexivity|]. split.
      - intros u1 t1 u2 E. destruct u1; discriminate.
      - rewrite Es. reflexivity. }
  rewrite (during_ok _ _ _ Es) in H.
  assert (happened [t] = during t) as E1 by (unfold happened; cbn [flat_map]; apply app_nil_r).
  destruct (a_stop t) eqn:Et.
  { injection H as <- <- <-. exists [], t, l. split; [reflexivity|]. split; [reflexivity|]. split.
    - intros u1 t1 u2 E. destruct u1; discriminate.
    - rewrite Es, Et, E1. split; reflexivity. }
  destruct (ans (after_h s (during t))) eqn:Ea.
  { injection H as <- <- <-. exists [], t, l. split; [reflexivity|]. split; [reflexivity|]. split.
    - intros u1 t1 u2 E. destruct u1; discriminate.
    - rewrite Es, Et, E1. split; [reflexivity|]. split; [reflexivity|]. left. exact Ea. }
  destruct (attempts sent arrives ans l _) as [[s1 r1] u1] eqn:EA. injection H as <- <- <-.
  destruct l as [|t2 l].
  { cbn [attempts] in EA. injection EA as <- <- <-. exists [], t, []. split; [reflexivity|]. split; [reflexivity|]. split.
    - intros ? ? ? E. destruct u1; discriminate.
    - rewrite Es, Et, E1. split; [reflexivity|]. split; [reflexivity|]. right. reflexivity. }
  destruct (IH _ _ _ _ EA ltac:(discriminate)) as (u & t' & rest & -> & El & Hu & He).
  exists (t :: u), t', rest. split; [reflexivity|]. split; [cbn [app]; f_equal; exact El|]. split.
  - intros v1 w v2 E. destruct v1 as [|x v1]; cbn [app] in E; injection E as -> E.
    + split; [exact Et|]. split; [eauto|]. cbn [app]. rewrite E1. exact Ea.
    + destruct (Hu _ _ _ E) as (A & B & C). split; [exact A|]. split; [exact B|]. cbn [app happened flat_map] in *. rewrite after_app. exact C.
  - destruct (a_send t'); [|exact He]. cbn [app happened flat_map]. rewrite after_app. exact He.
Qed.
End Loop.

Lemma firstn_3 {A} (l : list A) : (3 <= length l)%nat -> firstn 3 l <> [].
Proof. destruct l; cbn; [lia|discriminate]. Qed.
Lemma last_sent_none {M} (h : list (hap M)) : last_sent h None \/ exists f, last_sent h (Some f).
Proof.
  induction h as [|x h IH] using rev_ind; [left; constructor; intros f []|].
  destruct x as [f|src m].
  - destruct f as [f|]; [right; exists f|left]; (apply (ls_last h _ []); intros ? []).
  - assert (forall f, last_sent h f -> last_sent (h ++ [Hears src m]) f) as X.
    { intros f Hf. destruct Hf as [h N|pre f post N].
      - constructor. intros f I. apply in_app_iff in I. destruct I as [I|[I|[]]]; [exact (N _ I)|discriminate].
      - rewrite <- app_assoc. apply ls_last. intros f' I. apply in_app_iff in I. destruct I as [I|[I|[]]]; [exact (N _ I)|discriminate]. }
    destruct IH as [H|[f H]]; [left|right; exists f]; apply X, H.
Qed.
Lemma last_sent_fun {M} (h : list (hap M)) a b : last_sent h a -> last_sent h b -> a = b.
Proof.
  assert (forall pre f post pre' f' post' , (forall f, ~ In (Sends f) post) -> (forall f, ~ In (Sends f) post') ->
          pre ++ Sends f :: post = pre' ++ @Sends M f' :: post' -> f = f') as U.
  { intros pre f post pre' f' post' N N' E. apply app_eq_app in E. destruct E as [l [[-> E]|[-> E]]].
    - destruct l as [|x l]; cbn [app] in E; injection E as E1 E2; [congruence|]. subst. exfalso. apply (N' f). apply in_app_iff. right. left. reflexivity.
    - destruct l as [|x l]; cbn [app] in E; injection E as E1 E2; [congruence|]. subst. exfalso. apply (N f'). apply in_app_iff. right. left. reflexivity. }
  intros A B. destruct A as [h N|pre a post N]; inversion B as [h' N' E1 E2|pre' f' post' N' E1 E2]; subst.
  - reflexivity.
  - exfalso. apply (N b). apply in_app_iff. right. left. reflexivity.
  - exfalso. apply (N' a). apply in_app_iff. right. left. reflexivity.
  - eapply U; [exact N|exact N'|]. symmetry. exact E1.
Qed.
Lemma last_sent_hear {M} (h : list (hap M)) src m f : last_sent h f -> last_sent (h ++ [Hears src m]) f.
Proof.
  intros Hf. destruct Hf as [h N|pre f post N].
  - constructor. intros f I. apply in_app_iff in I. destruct I as [I|[I|[]]]; [exact (N _ I)|discriminate].
  - rewrite <- app_assoc. apply ls_last. intros f' I. apply in_app_iff in I. destruct I as [I|[I|[]]]; [exact (N _ I)|discriminate].
Qed.
Lemma same_src a b : addr_same (AIP (fst a) (snd a)) (AIP (fst b) (snd b)) = true <-> a = b.
Proof.
  destruct a as [v z], b as [v' z']. cbn [fst snd]. split.
  - intros H. apply addr_same_eq in H. injection H as -> ->. reflexivity.
  - intros [= -> ->]. apply addr_same_ip.
Qed.

(** ** NAT detection *)
Section Info.
Variable r : etrr.
Variable nonce : bytes.
Notation st h := (after_h info_sent info_arrives (new_info r nonce) h).
Definition told (h : list (hap info)) (m' : info) : Prop :=
  exists pre src m post f, h = pre ++ Hears src m :: post /\ reply_for r nonce src m /\ (forall s x, In (Hears s x) post -> ~ reply_for r nonce s x) /\ last_sent pre f /\ m' = match f with Some x => set_private m x | None => m end.
Lemma told_hear h m' src m : told h m' -> ~ reply_for r nonce src m -> told (h ++ [Hears src m]) m'.
Proof.
  intros (pre & s & x & post & f & -> & A & B & C & D) N. exists pre, s, x, (post ++ [Hears src m]), f.
  split; [rewrite <- app_assoc; reflexivity|]. split; [exact A|]. split; [|split; assumption].
  intros s' x' I. apply in_app_iff in I. destruct I as [I|[I|[]]]; [exact (B _ _ I)|]. injection I as <- <-. exact N.
Qed.
Lemma answered_app h x : answered r nonce h -> answered r nonce (h ++ x).
Proof. intros (pre & s & m & post & f & -> & A & B). exists pre, s, m, (post ++ x), f. split; [rewrite <- app_assoc; reflexivity|]. split; assumption. Qed.
Lemma snoc_mid {A} (h pre post : list A) x y : h ++ [x] = pre ++ y :: post -> (post = [] /\ h = pre /\ x = y) \/ exists post', post = post' ++ [x] /\ h = pre ++ y :: post'.
Proof.
  intros E. destruct post as [|z post _] using rev_ind.
  - left. apply app_inj_tail in E. destruct E; auto.
  - right. exists post. rewrite app_comm_cons, app_assoc in E. apply app_inj_tail in E. destruct E as [-> ->]. auto.
Qed.
Lemma info_state h : let o := st h in
  oi_etrr o = r /\ oi_nonce o = nonce /\ last_sent h (oi_from o) /\ (oi_event o = true <-> answered r nonce h) /\ match oi_reply o with None => forall s m, In (Hears s m) h -> ~ reply_for r nonce s m | Some m' => told h m' end.
Proof.
  induction h as [|x h IH] using rev_ind.
  - cbn. repeat split; try discriminate; try (constructor; intros f []); try (intros ? ? []). intros (pre & s & m & post & f & E & _). destruct pre; discriminate.
  - cbn zeta in *. rewrite after_app. destruct IH as (E1 & E2 & L & V & T). set (o := st h) in *. clearbody o.
    unfold after_h. cbn [fold_left]. destruct x as [f|src m]; cbn [hstep].
    + cbn [info_sent oi_etrr oi_nonce oi_from oi_event oi_reply]. split; [exact E1|]. split; [exact E2|]. split; [apply (ls_last h f []); intros ? []|]. split.
      * rewrite V. split; [apply answered_app|]. intros (pre & s & m & post & g & E & A & B).
        destruct (snoc_mid _ _ _ _ _ E) as [(_ & _ & X)|(post' & -> & ->)]; [discriminate|]. exists pre, s, m, post', g. auto.
      * destruct (oi_reply o) as [m'|].
        -- destruct T as (pre & s & m & post & g & -> & A & B & C & D). exists pre, s, m, (post ++ [Sends f]), g.
           split; [rewrite <- app_assoc; reflexivity|]. split; [exact A|]. split; [|split; assumption].
           intros s' x' I. apply in_app_iff in I. destruct I as [I|[I|[]]]; [exact (B _ _ I)|discriminate].
        -- intros s m I. apply in_app_iff in I. destruct I as [I|[I|[]]]; [exact (T _ _ I)|discriminate].
    + unfold info_arrives, set_reply_if_matches. cbn [fst snd]. rewrite E1, E2.
      destruct (addr_same (AIP (fst src) (snd src)) (AIP (fst (tr_ms r)) (snd (tr_ms r))) && bytes_eqb (i_nonce m) nonce) eqn:Em.
      * apply andb_prop in Em. destruct Em as [Ms Mn]. apply same_src in Ms. apply bytes_eqb_spec in Mn.
        assert (reply_for r nonce src m) as RF by (split; assumption).
        destruct (oi_from o) as [f|] eqn:Ef; cbn [oi_etrr oi_nonce oi_from oi_event oi_reply]; (split; [assumption||reflexivity|]); (split; [assumption||reflexivity|]);
          (split; [apply last_sent_hear; assumption|]).
        -- split.
           ++ split; [intros _|reflexivity]. exists h, src, m, [], f. auto.
           ++ exists h, src, m, [], (Some f). split; [reflexivity|]. split; [exact RF|]. split; [intros ? ? []|]. split; [exact L|reflexivity].
        -- split.
           ++ rewrite V. split; [apply answered_app|]. intros (pre & s & m' & post & g & E & A & B).
              destruct (snoc_mid _ _ _ _ _ E) as [(_ & -> & X)|(post' & -> & ->)]; [exfalso; pose proof (last_sent_fun _ _ _ L B); discriminate|]. exists pre, s, m', post', g. auto.
           ++ exists h, src, m, [], None. split; [reflexivity|]. split; [exact RF|]. split; [intros ? ? []|]. split; [exact L|reflexivity].
      * assert (~ reply_for r nonce src m) as RF.
        { intros [A B]. apply same_src in A. apply bytes_eqb_spec in B. rewrite A, B in Em. discriminate. }
        split; [exact E1|]. split; [exact E2|]. split; [apply last_sent_hear; assumption|]. split.
        -- rewrite V. split; [apply answered_app|]. intros (pre & s & m' & post & g & E & A & B).
           destruct (snoc_mid _ _ _ _ _ E) as [(_ & _ & X)|(post' & -> & ->)]; [|exists pre, s, m', post', g; auto]. injection X as -> ->. contradiction.
        -- destruct (oi_reply o) as [m'|]; [apply told_hear; assumption|].
           intros s x I. apply in_app_iff in I. destruct I as [I|[I|[]]]; [exact (T _ _ I)|]. injection I as <- <-. exact RF.
Qed.
End Info.

Lemma told_fun r nonce h a b : told r nonce h a -> told r nonce h b -> a = b.
Proof.
  intros (pre & s & m & post & f & -> & A & B & C & D) (pre' & s' & m' & post' & f' & E & A' & B' & C' & D').
  assert (pre = pre' /\ m = m') as [<- <-].
  { apply app_eq_app in E. destruct E as [l [[-> E]|[-> E]]]; (destruct l as [|x l]; cbn [app] in E; injection E as E1 E2); try (rewrite app_nil_r; split; [reflexivity|congruence]).
    - exfalso. subst. apply (B' s m); [|exact A]. apply in_app_iff. right. left. reflexivity.
    - exfalso. subst. apply (B s' m'); [|exact A']. apply in_app_iff. right. left. reflexivity. }
  pose proof (last_sent_fun _ _ _ C C') as <-. congruence.
Qed.
Lemma told_answer r nonce h m' d : told r nonce h m' -> answered r nonce h ->
  (answer r nonce h d <-> d = i_data m' /\ exists a b c e f g, d = LNat a b c e f g).
Proof.
  intros T V. split.
  - intros (_ & pre & s & m & post & f & E & A & B & C & mp & ep & g & ms & p & rt & Em & ->).
    assert (m' = match f with Some x => set_private m x | None => m end) as ->.
    { apply (told_fun r nonce h); [exact T|]. exists pre, s, m, post, f. auto. }
    split; [|repeat eexists]. destruct f as [f|]; [|symmetry; exact Em]. unfold set_private. rewrite Em. reflexivity.
  - intros (-> & a & b & c & e & f & g & Ed). split; [exact V|]. destruct T as (pre & s & m & post & f0 & E & A & B & C & D).
    exists pre, s, m, post, f0. repeat (split; [assumption|]). subst m'. destruct f0 as [f0|].
    + unfold set_private in *. destruct (i_data m) eqn:Em; try (rewrite Em in Ed; discriminate). repeat eexists; eassumption || reflexivity.
    + exists a, b, c, e, f, g. split; assumption.
Qed.
Lemma plain_same g p : addr_same g p = true <-> g = p /\ plain g.
Proof.
  split.
  - intros H. pose proof (addr_same_eq _ _ H) as <-. split; [reflexivity|]. destruct g; try discriminate; exact I.
  - intros [<- H]. destruct g; try destruct H; cbn [addr_same]; rewrite ?Z.eqb_refl; try (destruct v); reflexivity.
Qed.
Lemma seen_spec mp ep g ms p rt : negb (addr_same g p) || negb (ep =? 4342) = true <-> nat_seen (LNat mp ep g ms p rt).
Proof.
  rewrite orb_true_iff, !negb_true_iff. split.
  - intros H. exists mp, ep, g, ms, p, rt. split; [reflexivity|]. destruct H as [H|H]; [left|right; lia]. intros X. apply plain_same in X. congruence.
  - intros (? & ? & ? & ? & ? & ? & [= <- <- <- <- <- <-] & [H|H]); [left|right; lia]. destruct (addr_same g p) eqn:E; [|reflexivity]. exfalso. apply H, plain_same, E.
Qed.
Definition info_reply (m : info) : Prop := exists mp ep g ms p rtrs, i_data m = LNat mp ep g ms p rtrs.

Lemma reasonable_of {S M} (sent : option (fam * Z) -> S -> S) (arrives : (fam * Z) * M -> S -> S) (ans : S -> bool) (until : list (hap M) -> Prop) s0 :
  (forall h, ans (after_h sent arrives s0 h) = true <-> until h) ->
  forall l s' out used, (3 <= length l)%nat -> attempts sent arrives ans (firstn 3 l) s0 = (s', out, used) ->
  reasonable until used l /\ exists u t, used = u ++ [t] /\
    match a_send t with
    | Err e => out = Raised e
    | Ok _ => s' = after_h sent arrives s0 (happened used) /\
              if a_stop t then out = Stopped else out = Through /\ (length used = 3%nat \/ until (happened used))
    end.
Proof.
  intros A l s' out used L H. destruct (attempts_spec _ _ _ _ _ _ _ _ H (firstn_3 _ L)) as (u & t & rest & Eu & El & Hu & He).
  assert (length used + length rest = 3)%nat as Len by (rewrite <- app_length, <- El, firstn_length; lia).
  split.
  - constructor.
    + rewrite Eu, app_length in *. cbn [length] in *. lia.
    + exists (rest ++ skipn 3 l). rewrite app_assoc, <- El. symmetry. apply firstn_skipn.
    + intros u1 t1 (t' & u' & E). assert (exists u2, u = u1 ++ t1 :: u2) as [u2 E2].
      { rewrite Eu in E. destruct u' as [|x u' _] using rev_ind.
        - exists []. change (u1 ++ [t1; t']) with (u1 ++ [t1] ++ [t']) in E. rewrite app_assoc in E. apply app_inj_tail in E. tauto.
        - exists (t' :: u'). replace (u1 ++ t1 :: t' :: u' ++ [x]) with ((u1 ++ t1 :: t' :: u') ++ [x]) in E by (rewrite <- app_assoc; reflexivity).
          apply app_inj_tail in E. tauto. }
      destruct (Hu _ _ _ E2) as (P & Q & R). split; [exact P|]. split; [exact Q|]. intros U. apply A in U. congruence.
  - exists u, t. split; [exact Eu|]. destruct (a_send t) as [f|e]; [|exact He]. destruct He as [Es He]. split; [exact Es|].
    destruct (a_stop t); [exact He|]. destruct He as [Ho Hd]. split; [exact Ho|]. destruct Hd as [Hd| ->]; [right|left].
    + apply A. rewrite <- Es. exact Hd.
    + cbn [length] in Len. lia.
Qed.

(** C77: NAT detection makes at most three attempts, stops at the first answer, and decides what the answer tells *)
Theorem C77_detection r nonce l late v used out :
  (3 <= length l)%nat -> tr_use_rtr r <> Some false ->
  (forall src m, In (Hears src m) (happened l ++ hears late) -> info_reply m) ->
  get_nat_info r nonce l late = (v, used, out) ->
  reasonable (answered r nonce) used l /\
  exists u t, used = u ++ [t] /\
    match a_send t with
    | Err e => v = Err e /\ out = true
    | Ok _ =>
        if a_stop t then v = Ok None /\ out = true
        else (length used = 3%nat \/ answered r nonce (happened used)) /\ out = false /\
             verdict r nonce (happened used ++ hears late) v
    end.
Proof.
  intros L U W H. unfold get_nat_info in H.
  destruct (attempts info_sent info_arrives oi_event (firstn 3 l) (new_info r nonce)) as [[o w] us] eqn:EA.
  destruct (reasonable_of info_sent info_arrives oi_event (answered r nonce) (new_info r nonce)
              (fun h => proj1 (proj2 (proj2 (proj2 (info_state r nonce h))))) l o w us L EA) as (R & u & t & Eu & He).
  assert (us = used) as <-.
  { destruct (tr_use_rtr r) as [[]|]; [|congruence|]; destruct w; congruence. }
  split; [exact R|]. exists u, t. split; [exact Eu|]. destruct R as [_ (rest & El) _].
  assert (exists use, use = tr_use_rtr r) as [use Euse] by eauto.
  assert ((match w with Stopped => (Ok None, us, true) | Raised e => (Err e, us, true) | Through =>
     let o := arrive info_arrives late o in
     let no_nat (reply : option addr) := match oi_from o with None => Err EType | Some _ => match use, reply with Some true, Some d => Ok (Some d) | _, _ => Ok None end end in
     (if oi_event o then match oi_reply o with Some m => match i_data m with
        | LNat _ ep g _ pr _ => if negb (addr_same g pr) || negb (ep =? 4342) then Ok (Some (i_data m)) else no_nat (Some (i_data m))
        | _ => Err EAttr end | None => Err EAttr end else no_nat None, us, false) end) = (v, us, out)) as H'.
  { subst use. destruct (tr_use_rtr r) as [[]|]; [exact H|congruence|exact H]. }
  clear H. rename H' into H.
  destruct (a_send t) as [f|e]; [|subst w; injection H as <- <-; auto]. destruct He as [Eo He].
  destruct (a_stop t); [subst w; injection H as <- <-; auto|]. destruct He as [-> Hd]. split; [exact Hd|].
  cbn zeta in H. injection H as Hv <-. split; [reflexivity|].
  rewrite (arrive_hears info_sent), Eo, <- after_app in Hv. set (h := happened us ++ hears late) in *.
  assert (forall src m, In (Hears src m) h -> info_reply m) as W'.
  { intros src m I. apply (W src). apply in_app_iff in I. apply in_app_iff. destruct I as [I|I]; [left|right; exact I].
    rewrite El. unfold happened in *. rewrite flat_map_app. apply in_app_iff. left. exact I. }
  clearbody h. clear W El. destruct (info_state r nonce h) as (_ & _ & LS & V & T). set (o' := after_h _ _ _ h) in *. clearbody o'.
  assert (forall d, ~ answered r nonce h -> answer r nonce h d -> False) as NA by (intros d N [X _]; exact (N X)).
  destruct (oi_event o') eqn:Ee.
  - pose proof (proj1 V eq_refl) as An. destruct (oi_reply o') as [m'|].
    2:{ exfalso. destruct An as (pre & s & m & post & f' & -> & A & _). apply (T s m); [|exact A]. apply in_app_iff. right. left. reflexivity. }
    pose proof (told_answer r nonce h m') as TA.
    assert (exists a b c e f g, i_data m' = LNat a b c e f g) as (a & b & c & e & pr & g & Ed).
    { destruct T as (pre & s & m & post & f0 & E & A & B & C & D). destruct (W' s m) as (a & b & c & e & pr & g & Em).
      - rewrite E. apply in_app_iff. right. left. reflexivity.
      - subst m'. destruct f0 as [f0|]; [|repeat eexists; exact Em]. unfold set_private. rewrite Em. repeat eexists; reflexivity. }
    assert (answer r nonce h (i_data m')) as HA by (apply TA; [exact T|exact An|]; split; [reflexivity|repeat eexists; exact Ed]).
    assert (forall d, answer r nonce h d -> d = i_data m') as HF by (intros d Hd'; apply TA in Hd'; [tauto|exact T|exact An]).
    rewrite Ed in Hv, HA, HF. destruct (negb (addr_same c pr) || negb (b =? 4342)) eqn:En.
    + subst v. apply vd_nat; [exact HA|]. apply seen_spec. exact En.
    + assert (~ nat_seen (LNat a b c e pr g)) as NS by (intros X; apply seen_spec in X; congruence).
      destruct (oi_from o') as [fr|].
      * destruct use as [[]|].
        -- subst v. eapply vd_forced; [exact HA|exact LS|congruence].
        -- congruence.
        -- subst v. eapply vd_none; [exact LS|]. intros d Hd'. rewrite (HF _ Hd'). split; [exact NS|congruence].
      * subst v. apply vd_unsent; [exact LS|]. intros d Hd'. rewrite (HF _ Hd'). exact NS.
  - assert (~ answered r nonce h) as N by (intros X; apply V in X; discriminate).
    destruct (oi_from o') as [fr|]; subst v.
    + assert (match use with Some true => Ok None | _ => @Ok (option addr) None end = Ok None) as X by (destruct use as [[]|]; reflexivity).
      eapply vd_none with (f := fr) in LS; [destruct use as [[]|]; exact LS|]. intros d Hd'. destruct (NA d N Hd').
    + apply vd_unsent; [exact LS|]. intros d Hd'. destruct (NA d N Hd').
Qed.
(** the verdict is determined by what happened *)
Theorem C77_verdict_unique r nonce h v v' : verdict r nonce h v -> verdict r nonce h v' -> v = v'.
Proof.
  assert (forall d d', answer r nonce h d -> answer r nonce h d' -> d = d') as F.
  { intros d d' A B. pose proof (proj1 A) as An. destruct A as (_ & pre & s & m & post & f & E & A1 & A2 & A3 & A4).
    assert (told r nonce h (match f with Some x => set_private m x | None => m end)) as T by (exists pre, s, m, post, f; auto).
    apply (told_answer _ _ _ _ d' T An) in B. destruct B as [-> _]. destruct A4 as (? & ? & ? & ? & ? & ? & Em & ->). destruct f; [|congruence].
    unfold set_private. rewrite Em. reflexivity. }
  intros A B. destruct A as [d A1 A2|d f A1 A2 A3|f A1 A2|A1 A2]; destruct B as [d' B1 B2|d' f' B1 B2 B3|f' B1 B2|B1 B2];
    try (rewrite (F _ _ A1 B1); reflexivity); try reflexivity; exfalso;
    try (destruct (B2 _ A1) as [X Y]; contradiction); try (exact (B2 _ A1 A2)); try (destruct (A2 _ B1) as [X Y]; contradiction); try (exact (A2 _ B1 B2));
    try (pose proof (last_sent_fun _ _ _ A1 B1); discriminate); try (pose proof (last_sent_fun _ _ _ A2 B1); discriminate); try (pose proof (last_sent_fun _ _ _ A1 B2); discriminate).
Qed.
(** switched off: nothing is sent *)
Theorem C77_disabled r nonce l late : tr_use_rtr r = Some false -> get_nat_info r nonce l late = (Ok None, [], false).
Proof. intros H. unfold get_nat_info. rewrite H. reflexivity. Qed.

(** findings: with a Map-Server no socket can reach, detection raises TypeError instead of finding no NAT (the thread then
    never registers, C60_nat_blocks_refuted) *)
Definition nat_r (use : option bool) : etrr := Etrr (V4, 3221225985) 1 (B [9]) false use.
Definition nat_nonce : bytes := B [1;2;3;4;5;6;7;8].
Definition nat_reply (g : addr) (port : Z) (nonce : bytes) : info :=
  Info true (repeat false 27) nonce 0 [] 1440 (repeat false 8) (ANet V4 (10 * 2 ^ 24) 8)
       (LNat 4342 port g (AIP V4 3221225985) ANone [AIP V4 7]).
Theorem C77_refuted : ~ (forall r nonce l late, (3 <= length l)%nat -> (forall t, In t l -> a_stop t = false /\ exists f, a_send t = Ok f) ->
  exists x, fst (fst (get_nat_info r nonce l late)) = Ok x).
Proof.
  intros H. destruct (H (nat_r None) nat_nonce (repeat (Att [] (Ok None) [] false) 3) []) as [x Hx].
  - cbn. lia.
  - intros t I. apply repeat_spec in I. subst. split; [reflexivity|]. exists None. reflexivity.
  - vm_compute in Hx. discriminate.
Qed.

(** ** Map-Registers *)
Section Reg.
Variable r : etrr.
Variable g : mreg.
Notation st h := (after_h (fun _ o => o) reg_arrives (OutReg r g None) h).
Lemma reg_state h : let o := st h in o_etrr o = r /\ o_reg o = g /\
  match o_notify o with None => ~ notified r g h | Some n => last_notify r g h n end.
Proof.
  induction h as [|x h IH] using rev_ind.
  - cbn. split; [reflexivity|]. split; [reflexivity|]. intros (s & n & [] & _).
  - cbn zeta in *. rewrite after_app. destruct IH as (E1 & E2 & T). set (o := st h) in *. clearbody o.
    assert (forall n, last_notify r g h n -> (forall s m, x = Hears s m -> ~ notify_for r g s m) -> last_notify r g (h ++ [x]) n) as X.
    { intros n (pre & s & post & -> & A & B) N. exists pre, s, (post ++ [x]). split; [rewrite <- app_assoc; reflexivity|]. split; [exact A|].
      intros s' x' I. apply in_app_iff in I. destruct I as [I|[I|[]]]; [exact (B _ _ I)|]. exact (N _ _ I). }
    assert (~ notified r g h -> (forall s m, x = Hears s m -> ~ notify_for r g s m) -> ~ notified r g (h ++ [x])) as Y.
    { intros A N (s & n & I & B). apply in_app_iff in I. destruct I as [I|[I|[]]]; [apply A; exists s, n; auto|]. exact (N _ _ I B). }
    unfold after_h. cbn [fold_left]. destruct x as [f|src m]; cbn [hstep].
    + split; [exact E1|]. split; [exact E2|]. destruct (o_notify o); [apply X|apply Y]; try assumption; discriminate.
    + unfold reg_arrives. cbn [fst snd]. rewrite E1, E2. destruct (set_notify_if_matches r g src m) eqn:Em.
      * cbn [o_etrr o_reg o_notify]. split; [reflexivity|]. split; [reflexivity|]. unfold set_notify_if_matches in Em. apply andb_prop in Em.
        destruct Em as [Ms Mn]. apply same_src in Ms. apply bytes_eqb_spec in Mn. exists h, src, []. split; [reflexivity|]. split; [split; assumption|]. intros ? ? [].
      * assert (forall s m0, Hears src m = Hears s m0 -> ~ notify_for r g s m0) as N.
        { intros s m0 [= <- <-] [A B]. unfold set_notify_if_matches in Em. apply same_src in A. apply bytes_eqb_spec in B. rewrite A, B in Em. discriminate. }
        split; [exact E1|]. split; [exact E2|]. destruct (o_notify o); [apply X|apply Y]; assumption.
Qed.
End Reg.
Lemma last_notified r g h n : last_notify r g h n -> notified r g h.
Proof. intros (pre & s & post & -> & A & _). exists s, n. split; [|exact A]. apply in_app_iff. right. left. reflexivity. Qed.
Lemma last_notify_fun r g h n n' : last_notify r g h n -> last_notify r g h n' -> n = n'.
Proof.
  intros (pre & s & post & -> & A & B) (pre' & s' & post' & E & A' & B').
  apply app_eq_app in E. destruct E as [l [[-> E]|[-> E]]]; (destruct l as [|x l]; cbn [app] in E; injection E as E1 E2); try congruence.
  - exfalso. subst. apply (B' s n); [|exact A]. apply in_app_iff. right. left. reflexivity.
  - exfalso. subst. apply (B s' n'); [|exact A']. apply in_app_iff. right. left. reflexivity.
Qed.
Definition received_notify (n : mnot) : Prop := exists d, mnot_from_bytes d = Ok n.
(** a notify that is authentic and for this Map-Register, but whose xTR-ID or Site-ID is another one *)
Definition other_site hm (key : bytes) (g : mreg) (n : mnot) : Prop :=
  snd (verify hm (ANot n) key) = Ok true /\ n_nonce n = g_nonce g /\ n_key n = g_key g /\
  ((n_xtr n <> 0 /\ n_xtr n <> g_xtr g) \/ (n_site n <> 0 /\ n_site n <> g_site g)).

Lemma content_cases hm key g n : received_notify n -> n_nonce n = g_nonce g ->
  (notify_content_ok hm key g (Some n) = Ok true /\ accepted_notify hm key g n) \/
  (notify_content_ok hm key g (Some n) = Ok false /\ ~ accepted_notify hm key g n /\ ~ other_site hm key g n) \/
  (notify_content_ok hm key g (Some n) = Err EKey /\ ~ accepted_notify hm key g n /\ other_site hm key g n).
Proof.
  intros [d P] N. pose proof (C59_accepts_partial hm key g d n P) as A. pose proof (C59_mismatch_raises hm key g d n P) as M.
  destruct (verify_parsed hm d n key P) as (b & V).
  destruct (notify_content_ok hm key g (Some n)) as [[]|e] eqn:E.
  - left. split; [reflexivity|]. apply A. reflexivity.
  - right. left. split; [reflexivity|]. split; [intros X; apply A in X; discriminate|]. intros (X1 & X2 & X3 & X4). specialize (M X1 X2 X3 X4). discriminate.
  - right. right. unfold notify_content_ok in E. rewrite V in E. cbn [bind] in E. destruct b; cbn [negb] in E; [|discriminate].
    apply bytes_eqb_spec in N. rewrite N in E. cbn [negb] in E. destruct (Z.eqb_spec (n_key n) (g_key g)) as [E2|]; cbn [negb] in E; [|discriminate].
    assert (e = EKey /\ ((n_xtr n <> 0 /\ n_xtr n <> g_xtr g) \/ (n_site n <> 0 /\ n_site n <> g_site g))) as [-> O].
    { destruct (Z.eqb_spec (n_xtr n) 0), (Z.eqb_spec (n_xtr n) (g_xtr g)); cbn [negb andb] in E; try (split; [congruence|tauto]);
      destruct (Z.eqb_spec (n_site n) 0), (Z.eqb_spec (n_site n) (g_site g)); cbn [negb andb] in E; try (split; [congruence|tauto]); destruct (Nat.eqb _ _); discriminate. }
    split; [reflexivity|]. split; [intros X; apply A in X; discriminate|]. split; [rewrite V; reflexivity|]. split; [apply bytes_eqb_spec; exact N|]. split; assumption.
Qed.

(** C78: a Map-Register that wants a Map-Notify is sent at most three times, until one is heard from the Map-Server with its
    nonce; the registration is ok exactly if the last such Map-Notify is acceptable *)
Theorem C78_exchange hm r g l late v used out :
  (3 <= length l)%nat -> g_notify g = true ->
  (forall src n, In (Hears src n) (happened l ++ hears late) -> received_notify n) ->
  register hm r g l late = (v, used, out) ->
  reasonable (notified r g) used l /\
  exists u t, used = u ++ [t] /\
    match a_send t with
    | Err e => v = Err e /\ out = true
    | Ok _ =>
        if a_stop t then v = Ok None /\ out = true
        else (length used = 3%nat \/ notified r g (happened used)) /\ out = false /\
             let h := happened used ++ hears late in
             (v = Ok (Some true) <-> exists n, last_notify r g h n /\ accepted_notify hm (tr_key r) g n) /\
             (v = Err EKey <-> exists n, last_notify r g h n /\ other_site hm (tr_key r) g n) /\
             (v = Ok (Some true) \/ v = Ok (Some false) \/ v = Err EKey)
    end.
Proof.
  intros L G W H. unfold register in H. rewrite G in H. cbn [negb] in H.
  destruct (attempts _ _ _ (firstn 3 l) (OutReg r g None)) as [[o w] us] eqn:EA.
  assert (us = used) as -> by (destruct w; congruence).
  destruct (reasonable_of (fun _ o => o) reg_arrives (fun o => match o_notify o with Some _ => true | None => false end) (notified r g) (OutReg r g None)) with (2 := L) (3 := EA) as (R & u & t & Eu & He).
  { intros h. clear - h. destruct (reg_state r g h) as (_ & _ & T). destruct (o_notify _) as [n|].
    - split; [intros _; exact (last_notified _ _ _ _ T)|reflexivity].
    - split; [discriminate|contradiction]. }
  split; [exact R|]. exists u, t. split; [exact Eu|]. destruct R as [_ (rest & El) _].
  destruct (a_send t) as [f|e]; [|subst w; injection H as <- <-; auto]. destruct He as [Eo He].
  destruct (a_stop t); [subst w; injection H as <- <-; auto|]. destruct He as [-> Hd]. split; [exact Hd|].
  cbn zeta in H. pose proof (f_equal (fun x => fst (fst x)) H) as Hv. pose proof (f_equal snd H) as Hout. cbn [fst snd] in Hv, Hout. subst out. clear H. split; [reflexivity|].
  rewrite (arrive_hears (fun _ o => o)), Eo, <- after_app in Hv. cbn zeta. set (h := happened used ++ hears late) in *.
  assert (forall src n, In (Hears src n) h -> received_notify n) as W'.
  { intros src m I. apply (W src). apply in_app_iff in I. apply in_app_iff. destruct I as [I|I]; [left|right; exact I].
    rewrite El. unfold happened in *. rewrite flat_map_app. apply in_app_iff. left. exact I. }
  clearbody h. clear EA Eo Hd El W. destruct (reg_state r g h) as (_ & _ & T). destruct (o_notify _) as [n|].
  - assert (forall n', last_notify r g h n' -> n' = n) as F by (intros n' X; exact (last_notify_fun _ _ _ _ _ X T)).
    assert (received_notify n /\ n_nonce n = g_nonce g) as [RN NN].
    { destruct T as (pre & s & post & E & [_ B] & _). split; [|exact B]. apply (W' s). rewrite E. apply in_app_iff. right. left. reflexivity. }
    destruct (content_cases hm (tr_key r) g n RN NN) as [(Ec & A)|[(Ec & A & O)|(Ec & A & O)]]; rewrite Ec in Hv; cbn [bind] in Hv; subst v.
    + split; [split; [intros _; exists n; auto|reflexivity]|]. split; [|auto]. split; [discriminate|]. intros (n' & X & O). rewrite (F _ X) in O. exfalso.
      destruct A as (_ & _ & _ & A1 & A2 & _), O as (_ & _ & _ & O). tauto.
    + split; [split; [discriminate|]; intros (n' & X & O'); rewrite (F _ X) in O'; contradiction|].
      split; [split; [discriminate|]; intros (n' & X & O'); rewrite (F _ X) in O'; contradiction|auto].
    + split; [split; [discriminate|]; intros (n' & X & O'); rewrite (F _ X) in O'; contradiction|].
      split; [split; [intros _; exists n; auto|reflexivity]|auto].
  - subst v. split; [split; [discriminate|]; intros (n' & X & _); exfalso; exact (T (last_notified _ _ _ _ X))|].
    split; [split; [discriminate|]; intros (n' & X & _); exfalso; exact (T (last_notified _ _ _ _ X))|auto].
Qed.
(** without the M bit it is sent once and taken to be ok, even if it could not be sent *)
Theorem C78_fire_and_forget hm r g t l late f : g_notify g = false -> a_send t = Ok f -> register hm r g (t :: l) late = (Ok (Some true), [t], false).
Proof. intros G E. unfold register. rewrite G. cbn [negb firstn]. rewrite E. reflexivity. Qed.
(** findings: the exchange can be reported as ok although no socket could send the Map-Register; a request is left behind when the
    thread is stopped or sending raises *)
Definition ex_r : etrr := Etrr (V4, 3221225985) 0 [] false None.
Definition ex_g (want : bool) : mreg := new_register (Pfx V4 (10 * 2 ^ 24) 8) ex_r [new_loc (ex_l V4 10 1) true (AIP V4 10)] [] want nat_nonce 0 0.
Theorem C78_refuted hm :
  ~ (forall r g l late, (3 <= length l)%nat -> fst (fst (register hm r g l late)) = Ok (Some true) -> exists t f, In t l /\ a_send t = Ok (Some f)) /\
  ~ (forall r g l late, (3 <= length l)%nat -> snd (register hm r g l late) = false) /\
  ~ (forall r nonce l late, (3 <= length l)%nat -> snd (get_nat_info r nonce l late) = false).
Proof.
  split; [|split]; intros H.
  - destruct (H ex_r (ex_g false) (repeat (Att [] (Ok None) [] false) 3) []) as (t & f & I & E); [cbn; lia|reflexivity|].
    apply repeat_spec in I. subst. discriminate.
  - specialize (H ex_r (ex_g true) (repeat (Att [] (Ok None) [] true) 3) []). cbn in H. specialize (H ltac:(lia)). discriminate.
  - specialize (H ex_r nat_nonce (repeat (Att [] (Ok None) [] true) 3) []). cbn in H. specialize (H ltac:(lia)). discriminate.
Qed.

(** examples: the first attempt hears only a message of somebody else, the second one is answered *)
Definition quiet_try {M} (x : M) : attempt M := Att [] (Ok (Some (V4, 10))) [((V4, 5), x)] false.
Definition heard_try {M} (x : M) : attempt M := Att [] (Ok (Some (V4, 10))) [((V4, 3221225985), x)] false.
Example C77_example : let m := nat_reply (AIP V4 99) 4342 nat_nonce in
  get_nat_info (nat_r None) nat_nonce [quiet_try m; heard_try m; quiet_try m] [] =
    (Ok (Some (LNat 4342 4342 (AIP V4 99) (AIP V4 3221225985) (AIP V4 10) [AIP V4 7])), [quiet_try m; heard_try m], false) /\
  (forall src x, In (Hears src x) (happened [quiet_try m; heard_try m; quiet_try m] ++ hears []) -> info_reply x).
Proof.
  cbn zeta. split; [reflexivity|]. intros src x I. cbn in I. repeat (destruct I as [I|I]; [try discriminate I; injection I as <- <-; repeat eexists|]). destruct I.
Qed.
(** the same address and port: no NAT; then no RTRs unless they are forced *)
Example C77_example_no_nat : let m := nat_reply (AIP V4 10) 4342 nat_nonce in let l := [quiet_try m; heard_try m; quiet_try m] in
  fst (fst (get_nat_info (nat_r None) nat_nonce l [])) = Ok None /\
  fst (fst (get_nat_info (nat_r (Some true)) nat_nonce l [])) = Ok (Some (LNat 4342 4342 (AIP V4 10) (AIP V4 3221225985) (AIP V4 10) [AIP V4 7])).
Proof. split; reflexivity. Qed.
Definition ex_n : mnot := MNot (repeat false 19) nat_nonce 0 [] (g_records (ex_g true)) 0 0.
Example C78_example hm : register hm ex_r (ex_g true) [quiet_try ex_n; heard_try ex_n; quiet_try ex_n] [] =
    (Ok (Some true), [quiet_try ex_n; heard_try ex_n], false) /\
  (forall src x, In (Hears src x) (happened [quiet_try ex_n; heard_try ex_n; quiet_try ex_n] ++ hears []) -> received_notify x).
Proof.
  split; [reflexivity|]. assert (received_notify ex_n) as R.
  { destruct (mnot_to_bytes ex_n) as [d|] eqn:E; [|vm_compute in E; discriminate]. exists d. vm_compute in E. injection E as <-. vm_compute. reflexivity. }
  intros src x I. cbn [happened flat_map quiet_try heard_try during hears map app a_before a_send a_in fst snd In] in I.
  repeat (destruct I as [I|I]; [try discriminate I; injection I as <- <-; exact R|]). destruct I.
Qed.
Print Assumptions C77_detection.
Print Assumptions C77_verdict_unique.
Print Assumptions C77_disabled.
Print Assumptions C77_refuted.
Print Assumptions C78_exchange.
Print Assumptions C78_fire_and_forget.
Print Assumptions C78_refuted.
