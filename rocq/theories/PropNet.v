(** * Properties C62-C66 and C71-C73 *)
From Verif Require Import Base BaseLemmas Afi Spec SpecLemmas Records Tree SpecTree TreeProofs PropTree2 Net SpecNet.

(** ** C62: send_message *)
Section Send.
Variable ser : res bytes.
Variable net : nat -> res Z.
Variable port : Z.

Fixpoint try_all (n : nat) (l : list (sock * (fam * Z))) : list attempt * res sm_result :=
  match l with
  | [] => ([], Ok None)
  | (k, (v, z)) :: l =>
      match ser with
      | Err e => ([], Err e)
      | Ok data =>
          let a := Att k (v, z) port data in
          match net n with
          | Err e => ([a], Err e)
          | Ok c =>
              if c =? lenZ data then ([a], Ok (Some (k_name k, (v, z, port))))
              else let '(t, r) := try_all (S n) l in (a :: t, r)
          end
      end
  end.

Lemma try_socks_all v z l : forall n, try_socks ser net port n v z l = try_all n (map (fun k => (k, (v, z))) l).
Proof.
  induction l as [|k l IH]; intros n; cbn; [reflexivity|].
  destruct ser; [|reflexivity]. destruct (net n); [|reflexivity]. destruct (_ =? _); [reflexivity|]. rewrite IH. reflexivity.
Qed.

Lemma try_all_app l1 l2 : forall n, try_all n (l1 ++ l2) =
  let '(t, r) := try_all n l1 in
  match r with
  | Ok None => let '(t', r') := try_all (n + length t)%nat l2 in (t ++ t', r')
  | _ => (t, r)
  end.
Proof.
  induction l1 as [|[k [v z]] l1 IH]; intros n; cbn.
  - rewrite Nat.add_0_r. destruct (try_all n l2); reflexivity.
  - destruct ser as [d|]; [|reflexivity]. destruct (net n); [|reflexivity]. destruct (_ =? _); [reflexivity|].
    rewrite IH. destruct (try_all (S n) l1) as [t [[x|]|e]]; try reflexivity.
    cbn [length]. replace (n + S (length t))%nat with (S n + length t)%nat by lia. destruct (try_all _ l2); reflexivity.
Qed.

Lemma offers_step socks d v z dests : shown d = Some (v, z) ->
  offers socks (d :: dests) = map (fun k => (k, (v, z))) (matching v socks) ++ offers socks dests.
Proof.
  intros S. unfold offers at 1. cbn [flat_map]. rewrite S. f_equal. induction socks as [|k socks IH]; cbn; [reflexivity|].
  rewrite IH. destruct v, (k_fam k) eqn:E; cbn; reflexivity.
Qed.

Lemma send_all socks dests : Forall is_address dests -> forall n,
  send_message ser net port n socks dests = try_all n (offers socks dests).
Proof.
  induction 1 as [|d dests (v & z & S) _ IH]; intros n; [reflexivity|].
  rewrite (offers_step _ _ _ _ _ S), try_all_app, <- try_socks_all. cbn [send_message]. apply as_address_shown in S. rewrite S.
  destruct (try_socks _ _ _ n v z _) as [t [[x|]|e]]; try reflexivity. rewrite IH. reflexivity.
Qed.

Lemma try_all_spec l : forall n atts r, try_all n l = (atts, r) ->
  map (fun a => (at_sock a, at_to a)) atts = firstn (length atts) l /\
  (forall a, In a atts -> at_port a = port /\ ser = Ok (at_data a)) /\
  (forall i a, nth_error atts i = Some a -> (S i < length atts)%nat -> exists c, net (n + i)%nat = Ok c /\ c <> lenZ (at_data a)) /\
  match r with
  | Ok (Some (name, to)) => exists l' a, atts = l' ++ [a] /\ net (n + length l')%nat = Ok (lenZ (at_data a)) /\
                              name = k_name (at_sock a) /\ to = (at_to a, port)
  | Ok None => length atts = length l /\ forall i a, nth_error atts i = Some a -> exists c, net (n + i)%nat = Ok c /\ c <> lenZ (at_data a)
  | Err e => (atts = [] /\ l <> [] /\ ser = Err e) \/ (exists l' a, atts = l' ++ [a] /\ net (n + length l')%nat = Err e)
  end.
Proof.
  induction l as [|[k [v z]] l IH]; intros n atts r H; cbn in H.
  - injection H as <- <-. cbn. split; [reflexivity|]. split; [intros a []|]. split; [intros [|i] a E; discriminate E|].
    split; [reflexivity|]. intros [|i] a E; discriminate E.
  - destruct ser as [data|e] eqn:Es.
    2: { injection H as <- <-. cbn. split; [reflexivity|]. split; [intros a []|]. split; [intros [|i] a E; discriminate E|].
         left. repeat split; discriminate. }
    destruct (net n) as [c|e] eqn:En.
    2: { injection H as <- <-. cbn. split; [reflexivity|]. split; [intros a [<-|[]]; auto|]. split; [intros i a _ Hl; lia|].
         right. exists [], (Att k (v, z) port data). cbn. rewrite Nat.add_0_r. auto. }
    destruct (Z.eqb_spec c (lenZ data)) as [->|Hc].
    { injection H as <- <-. cbn. split; [reflexivity|]. split; [intros a [<-|[]]; auto|]. split; [intros i a _ Hl; lia|].
      exists [], (Att k (v, z) port data). cbn. rewrite Nat.add_0_r. auto. }
    destruct (try_all (S n) l) as [t r'] eqn:Et. injection H as <- <-.
    destruct (IH _ _ _ Et) as (H1 & H2 & H3 & H4). cbn [map length firstn]. split; [cbn; rewrite H1; reflexivity|].
    split; [intros a [<-|Ha]; [auto|apply H2; exact Ha]|]. split.
    { intros [|i] a E Hl; [injection E as <-; rewrite Nat.add_0_r; eauto|]. cbn in E.
      destruct (H3 i a E ltac:(lia)) as (c' & E' & N'). exists c'. split; [rewrite <- E'; f_equal; lia|exact N']. }
    destruct r' as [[[name to]|]|e].
    + destruct H4 as (l' & a & -> & E & ? & ?). exists (Att k (v, z) port data :: l'), a. cbn.
      split; [reflexivity|]. split; [rewrite <- E; f_equal; lia|auto].
    + destruct H4 as [HL H4]. split; [lia|]. intros [|i] a E; [injection E as <-; rewrite Nat.add_0_r; eauto|]. cbn in E.
      destruct (H4 i a E) as (c' & E' & N'). exists c'. split; [rewrite <- E'; f_equal; lia|exact N'].
    + right. destruct H4 as [(-> & Hl & He)|(l' & a & -> & E)]; [congruence|].
      exists (Att k (v, z) port data :: l'), a. cbn. split; [reflexivity|]. rewrite <- E; f_equal; lia.
Qed.
End Send.

(** [net i] is what the OS gives to call number [i] of sendto.  The calls made are an initial part of the
    offers, in order, each with the serialised message; every call but the last fell short; the
    message is reported as sent exactly by the last call, or nothing was sent in full by any offer, or
    the last call (or the serialisation) raised. *)
Theorem C62_attempts_in_order : forall ser net port socks dests atts r,
  Forall is_address dests ->
  send_message ser net port 0 socks dests = (atts, r) ->
  (exists rest, offers socks dests = map (fun a => (at_sock a, at_to a)) atts ++ rest /\
     match r with
     | Ok None => rest = [] /\
         forall i a, nth_error atts i = Some a -> exists c, net i = Ok c /\ c <> lenZ (at_data a)
     | Ok (Some (name, to)) =>
         exists l a, atts = l ++ [a] /\ net (length l) = Ok (lenZ (at_data a)) /\
           name = k_name (at_sock a) /\ to = (at_to a, port)
     | Err e => (atts = [] /\ rest <> [] /\ ser = Err e) \/ (exists l a, atts = l ++ [a] /\ net (length l) = Err e)
     end) /\
  (forall a, In a atts -> at_port a = port /\ ser = Ok (at_data a)) /\
  (forall i a, nth_error atts i = Some a -> (S i < length atts)%nat -> exists c, net i = Ok c /\ c <> lenZ (at_data a)).
Proof.
  intros ser net port socks dests atts r Hd H. rewrite send_all in H by exact Hd.
  destruct (try_all_spec _ _ _ _ _ _ _ H) as (H1 & H2 & H3 & H4). split; [|split; [exact H2|exact H3]].
  exists (skipn (length atts) (offers socks dests)). split; [rewrite H1; symmetry; apply firstn_skipn|].
  destruct r as [[[name to]|]|e]; [exact H4| |].
  - destruct H4 as [HL H4]. split; [|exact H4]. rewrite HL. apply skipn_all.
  - destruct H4 as [(-> & Hl & He)|H4]; [left|right; exact H4]. cbn. auto.
Qed.
Print Assumptions C62_attempts_in_order.

Theorem C62_right_family : forall ser net port socks dests atts r,
  send_message ser net port 0 socks dests = (atts, r) ->
  forall a, In a atts -> In (at_sock a) socks /\ k_fam (at_sock a) = fst (at_to a) /\ exists d, In d dests /\ shown d = Some (at_to a).
Proof.
  intros ser net port socks dests. generalize 0%nat. induction dests as [|d dests IH]; intros n atts r H a Ha; cbn in H.
  - injection H as <- <-. destruct Ha.
  - destruct (as_address d) as [[v z]|e0] eqn:Ed; [|injection H as <- <-; destruct Ha]. apply as_address_shown in Ed.
    destruct (try_socks ser net port n v z (matching v socks)) as [t r1] eqn:Et.
    assert (forall x, In x t -> In (at_sock x) socks /\ k_fam (at_sock x) = fst (at_to x) /\ at_to x = (v, z)) as HT.
    { assert (forall k, In k (matching v socks) -> In k socks /\ k_fam k = v) as HM.
      { intros k Hk. apply filter_In in Hk. destruct Hk as [? Hk]. split; [assumption|]. destruct (k_fam k), v; cbn in Hk; congruence. }
      clear H IH. revert n t r1 Et HM. generalize (matching v socks) as l. induction l as [|k l IH]; intros n t r1 Et HM x Hx; cbn in Et.
      - injection Et as <- <-. destruct Hx.
      - destruct ser; [|injection Et as <- <-; destruct Hx].
        assert (In k socks /\ k_fam k = v) as [K1 K2] by (apply HM; left; reflexivity).
        destruct (net n); [|injection Et as <- <-; destruct Hx as [<-|[]]; cbn; auto].
        destruct (_ =? _); [injection Et as <- <-; destruct Hx as [<-|[]]; cbn; auto|].
        destruct (try_socks _ _ _ (S n) v z l) as [t' r'] eqn:E'. injection Et as <- <-.
        destruct Hx as [<-|Hx]; [cbn; auto|]. eapply IH; [exact E'|intros; apply HM; right; assumption|exact Hx]. }
    assert (forall x, In x t -> In (at_sock x) socks /\ k_fam (at_sock x) = fst (at_to x) /\ exists d', In d' (d :: dests) /\ shown d' = Some (at_to x)) as HT'.
    { intros x Hx. destruct (HT x Hx) as (? & ? & E). split; [assumption|]. split; [assumption|]. rewrite E. exists d. split; [left; reflexivity|exact Ed]. }
    destruct r1 as [[y|]|e].
    + injection H as <- <-. auto.
    + destruct (send_message ser net port (n + length t) socks dests) as [t' r'] eqn:E'. injection H as <- <-.
      apply in_app_iff in Ha. destruct Ha as [Ha|Ha]; [auto|]. destruct (IH _ _ _ E' a Ha) as (? & ? & d' & ? & ?). split; [assumption|]. split; [assumption|]. exists d'. split; [right; assumption|assumption].
    + injection H as <- <-. auto.
Qed.

(** A destination that is shown as no address ends the search with a ValueError or TypeError, unless the message was sent
    before; destinations after it are not tried. *)
Theorem C62_no_address : forall ser net port socks good bad rest, Forall is_address good -> shown bad = None ->
  exists e, (e = EValue \/ e = EType) /\
  send_message ser net port 0 socks (good ++ bad :: rest) =
    let '(atts, r) := send_message ser net port 0 socks good in
    (atts, match r with Ok None => Err e | _ => r end).
Proof.
  intros ser net port socks good bad rest G S. apply as_address_not in S.
  assert (exists e, (e = EValue \/ e = EType) /\ as_address bad = Err e) as (e & He & E) by (destruct S; eauto).
  exists e. split; [exact He|]. generalize 0%nat. induction G as [|d good (v & z & D) _ IH]; intros n; cbn [app send_message].
  - rewrite E. reflexivity.
  - apply as_address_shown in D. rewrite D. destruct (try_socks ser net port n v z (matching v socks)) as [t [[x|]|e']]; [reflexivity| |reflexivity].
    rewrite IH. destruct (send_message ser net port (n + length t) socks good) as [t' r']. reflexivity.
Qed.
Print Assumptions C62_no_address.

(** sockets without an address send nothing, and a message of at least one byte is then never reported as sent *)
Theorem C62_unbound_sockets : forall data (s : nat -> asock) (os : nat -> res Z) port socks dests,
  Forall is_address dests -> data <> [] -> (forall i, as_sock (s i) = None) ->
  snd (send_message (Ok data) (fun i => auto_sendto (s i) (os i)) port 0 socks dests) = Ok None.
Proof.
  intros data s os port socks dests Hd Hn Hs.
  destruct (send_message _ _ _ _ _ _) as [atts r] eqn:E. destruct (C62_attempts_in_order _ _ _ _ _ _ _ Hd E) as ((rest & _ & HR) & HA & _).
  cbn [snd]. assert (forall i, auto_sendto (s i) (os i) = Ok 0) as A0 by (intros i; unfold auto_sendto; rewrite Hs; reflexivity).
  destruct r as [[[name to]|]|e]; [|reflexivity|].
  - destruct HR as (l & a & -> & En & _). rewrite A0 in En. destruct (HA a) as [_ Ea]; [apply in_or_app; right; left; reflexivity|].
    injection Ea as Ea; rewrite <- Ea in En. destruct data; [congruence|]. unfold lenZ in En. cbn in En. discriminate En.
  - destruct HR as [(_ & _ & Hx)|(l & a & -> & En)]; [discriminate|]. rewrite A0 in En. discriminate.
Qed.

(** ** Address blocks *)
Lemma in_pfx_top p v z : in_pfx p v z <-> x_fam p = v /\ top v (x_len p) z = x_net p / 2 ^ (wz v - x_len p).
Proof. unfold in_pfx, in_prefix, top. tauto. Qed.

Ltac blocks := unfold in_blocks; cbn [In app loopback_blocks link_local_blocks multicast_blocks unspecified_blocks reserved_blocks].
Lemma in_blocks_cons p l v z : in_blocks (p :: l) v z <-> in_pfx p v z \/ in_blocks l v z.
Proof.
  unfold in_blocks. split.
  - intros (q & [<-|H] & Hq); eauto.
  - intros [H|(q & H & Hq)]; [exists p|exists q]; split; auto; [left; reflexivity|right; exact H].
Qed.
Lemma in_blocks_nil v z : in_blocks [] v z <-> False.
Proof. unfold in_blocks. split; [intros (q & [] & _)|tauto]. Qed.
Lemma in_pfx_V4 a n z : in_pfx (Pfx V4 a n) V4 z <-> (top V4 n z =? a / 2 ^ (32 - n)) = true.
Proof. rewrite in_pfx_top. cbn [x_fam x_len x_net wz]. rewrite Z.eqb_eq. tauto. Qed.
Lemma in_pfx_V6 a n z : in_pfx (Pfx V6 a n) V6 z <-> (top V6 n z =? a / 2 ^ (128 - n)) = true.
Proof. rewrite in_pfx_top. cbn [x_fam x_len x_net wz]. rewrite Z.eqb_eq. tauto. Qed.
Lemma in_pfx_46 a n z : in_pfx (Pfx V4 a n) V6 z <-> False.
Proof. unfold in_pfx. cbn. split; [intros [H _]; discriminate H|tauto]. Qed.
Lemma in_pfx_64 a n z : in_pfx (Pfx V6 a n) V4 z <-> False.
Proof. unfold in_pfx. cbn. split; [intros [H _]; discriminate H|tauto]. Qed.
Lemma top_full v z : top v (wz v) z = z.
Proof. unfold top. rewrite Z.sub_diag. apply Z.div_1_r. Qed.

Ltac to_tests := unfold block6; rewrite ?in_blocks_cons, ?in_blocks_nil, ?in_pfx_V4, ?in_pfx_V6, ?in_pfx_46, ?in_pfx_64.
Ltac consts := repeat match goal with
  |- context[?a / 2 ^ ?b] => let x := eval vm_compute in (a / 2 ^ b) in change (a / 2 ^ b) with x end.

Lemma usable_spec v z : usable v z = true <-> bindable v z.
Proof.
  unfold usable, bindable, loopback_blocks, link_local_blocks, multicast_blocks, unspecified_blocks. cbn [app].
  pose proof (top_full v z) as TF. destruct v; [change (wz V4) with 32 in TF|change (wz V6) with 128 in TF]; to_tests; rewrite TF; consts;
  unfold is_loopback, is_link_local, is_multicast, is_unspecified; rewrite negb_true_iff, <- not_true_iff_false, !orb_true_iff; tauto.
Qed.
Lemma suitable_spec v z : suitable v z = true <-> takeable v z.
Proof.
  unfold suitable, takeable, loopback_blocks, link_local_blocks, multicast_blocks, unspecified_blocks, reserved_blocks. cbn [app].
  pose proof (top_full v z) as TF. destruct v; [change (wz V4) with 32 in TF|change (wz V6) with 128 in TF]; to_tests; rewrite TF; consts;
  unfold is_loopback, is_link_local, is_multicast, is_unspecified, is_reserved; rewrite negb_true_iff, <- not_true_iff_false, !orb_true_iff; tauto.
Qed.
Lemma zero_not_usable v : usable v 0 = false.
Proof. unfold usable, is_unspecified. cbn. rewrite orb_true_r. reflexivity. Qed.
Lemma suitable_usable v z : suitable v z = true -> usable v z = true.
Proof.
  unfold suitable, usable. rewrite !negb_true_iff, <- !not_true_iff_false, !orb_true_iff. tauto.
Qed.

(** ** C63: AutoUDPSocket *)
Lemma rb_run_app v h1 : forall s h2, rb_run v s (h1 ++ h2) =
  let '(s1, t1) := rb_run v s h1 in let '(s2, t2) := rb_run v s1 h2 in (s2, t1 ++ t2).
Proof.
  induction h1 as [|[z o] h1 IH]; intros s h2; cbn.
  - destruct (rb_run v s h2); reflexivity.
  - destruct (rebind v z o s) as [[s1 ops] b]. rewrite IH. destruct (rb_run v s1 h1) as [s2 t2]. destruct (rb_run v s2 h2). rewrite app_assoc. reflexivity.
Qed.

Definition os_inv v (s : asock) (tr : list osop) (ids : list nat) : Prop :=
  (as_sock s = None <-> as_bound s = 0) /\
  (forall i, as_sock s = Some i -> usable v (as_bound s) = true /\ In (OsBind i (as_bound s)) tr /\ In i ids /\ ~ In (OsClose i) tr) /\
  (forall i, In (OsOpen i) tr -> as_sock s = Some i \/ In (OsClose i) tr) /\
  (forall i, In (OsClose i) tr -> In i ids).

Lemma rebind_inv v z o s tr ids s' ops b : os_inv v s tr ids -> NoDup (ids ++ os_id o) ->
  rebind v z o s = (s', ops, b) ->
  os_inv v s' (tr ++ ops) (ids ++ os_id o) /\
  (as_bound s' <> 0 -> as_bound s' = z) /\
  b = (match as_sock s' with Some _ => true | None => false end).
Proof.
  intros (I1 & I2 & I3 & I4) ND H. unfold rebind in H. destruct (Z.eqb_spec z (as_bound s)) as [Ez|Ez].
  - injection H as <- <- <-. rewrite app_nil_r. split; [|auto]. split; [exact I1|]. split; [|split; [exact I3|]].
    + intros i Hi. destruct (I2 i Hi) as (? & ? & ? & ?). repeat split; try assumption. apply in_or_app; auto.
    + intros i Hi. apply in_or_app; auto.
  - set (close := match as_sock s with Some i => [OsClose i] | None => [] end) in H.
    assert (forall i, In (OsOpen i) (tr ++ close) -> In (OsClose i) (tr ++ close)) as OC.
    { intros i Hi. apply in_app_iff in Hi. apply in_or_app. unfold close in *. destruct (as_sock s) as [j|] eqn:Ej.
      - destruct Hi as [Hi|[Hi|[]]]; [|discriminate]. destruct (I3 i Hi) as [[= ->]|]; [right; left; reflexivity|auto].
      - destruct Hi as [Hi|[]]. destruct (I3 i Hi) as [|]; [discriminate|auto]. }
    assert (forall i, In (OsClose i) (tr ++ close) -> In i ids) as CI.
    { intros i Hi. apply in_app_iff in Hi. destruct Hi as [Hi|Hi]; [auto|]. unfold close in Hi. destruct (as_sock s) as [j|] eqn:Ej; [|destruct Hi].
      destruct Hi as [[= ->]|[]]. apply I2. reflexivity. }
    assert (os_inv v (ASock None 0) (tr ++ close) (ids ++ os_id o)) as INone.
    { split; [cbn; tauto|]. split; [discriminate|]. split; [auto|]. intros i Hi. apply in_or_app. auto. }
    destruct (usable v z) eqn:Eu.
    + destruct o as [j| |j].
      * injection H as <- <- <-. split; [|split; [auto|reflexivity]]. cbn [as_sock as_bound os_id] in *.
        assert (z <> 0) as Hz by (intros ->; rewrite zero_not_usable in Eu; discriminate).
        assert (~ In j ids) as Hj.
        { intros Hj. apply NoDup_remove_2 in ND. apply ND. rewrite app_nil_r. exact Hj. }
        rewrite app_assoc. split; [split; [discriminate|cbn; intros E; congruence]|]. split; [|split].
        -- intros i [= <-]. split; [exact Eu|]. split; [apply in_or_app; right; right; left; reflexivity|].
           split; [apply in_or_app; right; left; reflexivity|]. intros Hc. apply in_app_iff in Hc.
           destruct Hc as [Hc|[Hc|[Hc|[]]]]; try discriminate. apply Hj, CI, Hc.
        -- intros i Hi. apply in_app_iff in Hi. destruct Hi as [Hi|[Hi|[Hi|[]]]]; [right|left|discriminate].
           ++ apply in_or_app; left; apply OC, Hi.
           ++ injection Hi as ->. reflexivity.
        -- intros i Hi. apply in_app_iff in Hi. apply in_or_app. destruct Hi as [Hi|[Hi|[Hi|[]]]]; try discriminate. left; apply CI, Hi.
      * injection H as <- <- <-. split; [exact INone|]. split; [cbn; congruence|reflexivity].
      * injection H as <- <- <-. split; [|split; [cbn; congruence|reflexivity]]. rewrite app_assoc.
        split; [cbn; tauto|]. split; [discriminate|]. split.
        -- intros i Hi. right. apply in_app_iff in Hi. destruct Hi as [Hi|[Hi|[Hi|[]]]]; [|injection Hi as ->|discriminate].
           ++ apply in_or_app; left; apply OC, Hi.
           ++ apply in_or_app; right; right; left; reflexivity.
        -- intros i Hi. apply in_or_app. apply in_app_iff in Hi. destruct Hi as [Hi|[Hi|[Hi|[]]]]; [left; apply CI, Hi|discriminate|injection Hi as ->; right; left; reflexivity].
    + injection H as <- <- <-. split; [exact INone|]. split; [cbn; congruence|reflexivity].
Qed.

Lemma rb_run_inv v h : fresh_ids h -> forall s tr, rb_run v asock0 h = (s, tr) ->
  os_inv v s tr (flat_map (fun e => os_id (snd e)) h).
Proof.
  induction h as [|[z o] h IH] using rev_ind; intros F s tr H.
  - injection H as <- <-. split; [cbn; tauto|]. split; [discriminate|]. split; intros i [].
  - rewrite rb_run_app in H. destruct (rb_run v asock0 h) as [s1 t1] eqn:E1. cbn in H.
    destruct (rebind v z o s1) as [[s2 ops] b] eqn:E2. injection H as <- <-. rewrite app_nil_r.
    unfold fresh_ids in *. rewrite flat_map_app in F |- *. cbn [flat_map snd] in *. rewrite app_nil_r in *.
    assert (NoDup (flat_map (fun e => os_id (snd e)) h)) as F1.
    { clear - F. induction (os_id o) as [|x l IH]; [rewrite app_nil_r in F; exact F|]. apply NoDup_remove_1 in F. auto. }
    eapply rebind_inv; [apply IH; [exact F1|reflexivity]|exact F|exact E2].
Qed.

(** After any history of rebinds the last of which saw the address [z]: the socket is open exactly when an
    address is recorded; then it is bound to [z], which is a bindable address, and was not closed;
    every other socket ever opened was closed; and rebind says whether the socket is open. *)
Theorem C63_bound_to_current_address : forall v h z o s tr, fresh_ids (h ++ [(z, o)]) ->
  rb_run v asock0 (h ++ [(z, o)]) = (s, tr) ->
  (as_sock s = None <-> as_bound s = 0) /\
  (forall i, as_sock s = Some i -> as_bound s = z /\ bindable v z /\ In (OsBind i z) tr /\ ~ In (OsClose i) tr) /\
  (forall i, In (OsOpen i) tr -> as_sock s <> Some i -> In (OsClose i) tr) /\
  snd (rebind v z o (fst (rb_run v asock0 h))) = (match as_sock s with Some _ => true | None => false end).
Proof.
  intros v h z o s tr F H. pose proof (rb_run_inv _ _ F _ _ H) as (I1 & I2 & I3 & I4).
  rewrite rb_run_app in H. destruct (rb_run v asock0 h) as [s1 t1] eqn:E1. cbn in H.
  destruct (rebind v z o s1) as [[s2 ops] b] eqn:E2. injection H as <- <-. rewrite app_nil_r in *.
  unfold fresh_ids in F. rewrite flat_map_app in F. cbn [flat_map snd] in F. rewrite app_nil_r in F.
  assert (fresh_ids h) as F1.
  { clear - F. unfold fresh_ids. induction (os_id o) as [|x l IH]; [rewrite app_nil_r in F; exact F|]. apply NoDup_remove_1 in F. auto. }
  destruct (rebind_inv _ _ _ _ _ _ _ _ _ (rb_run_inv _ _ F1 _ _ E1) F E2) as (_ & Hb & Hr).
  split; [exact I1|]. split; [|split].
  - intros i Hi. destruct (I2 i Hi) as (U & B & _ & C).
    assert (as_bound s2 = z) as <- by (apply Hb; intros E0; apply I1 in E0; congruence).
    split; [reflexivity|]. split; [apply usable_spec, U|auto].
  - intros i Hi Hn. destruct (I3 i Hi); [congruence|assumption].
  - cbn [fst snd]. rewrite E2. exact Hr.
Qed.
Print Assumptions C63_bound_to_current_address.

(** and if the address is bindable and the OS lets us, it is bound *)
Theorem C63_binds : forall v h z i, bindable v z -> fresh_ids (h ++ [(z, BindOk i)]) ->
  as_bound (fst (rb_run v asock0 (h ++ [(z, BindOk i)]))) = z /\ as_sock (fst (rb_run v asock0 (h ++ [(z, BindOk i)]))) <> None.
Proof.
  intros v h z i U F. destruct (rb_run v asock0 (h ++ [(z, BindOk i)])) as [s tr] eqn:E.
  pose proof (C63_bound_to_current_address _ _ _ _ _ _ F E) as (I1 & I2 & _). cbn [fst].
  rewrite rb_run_app in E. destruct (rb_run v asock0 h) as [s1 t1]. cbn in E. apply usable_spec in U.
  assert (z <> 0) as Hz by (intros ->; rewrite zero_not_usable in U; discriminate).
  unfold rebind in E. rewrite U in E. destruct (Z.eqb_spec z (as_bound s1)) as [Ez|].
  - injection E as <- <-. split; [auto|]. intros E0. apply I1 in E0. congruence.
  - injection E as <- <-. split; [reflexivity|discriminate].
Qed.

(** what reading and writing give after any history of address changes and bind outcomes: nothing, and no exception,
    while there is no socket; what the OS gives while there is one, a socket error when reading being no data from the
    address bound to *)
Theorem C63_reads_and_writes : forall v h z o s tr, fresh_ids (h ++ [(z, o)]) ->
  rb_run v asock0 (h ++ [(z, o)]) = (s, tr) ->
  ((~ bindable v z \/ auto_fileno s = None) ->
     auto_fileno s = None /\ (forall os, auto_sendto s os = Ok 0) /\ (forall os, auto_recvfrom s os = Ok ([], (0, 0)))) /\
  (forall i, auto_fileno s = Some i ->
     In (OsBind i z) tr /\ ~ In (OsClose i) tr /\ (forall os, auto_sendto s os = os) /\
     (forall d a p, auto_recvfrom s (RecvData d (Some a) p) = Ok (d, (a, p))) /\
     auto_recvfrom s RecvErr = Ok ([], (z, 0)) /\
     (* the text of the sender's address is not an address, as for fe80::1%eth0: ValueError *)
     forall d p, auto_recvfrom s (RecvData d None p) = Err EValue).
Proof.
  intros v h z o s tr F E. destruct (C63_bound_to_current_address _ _ _ _ _ _ F E) as (I1 & I2 & _). unfold auto_fileno. split.
  - intros H. assert (as_sock s = None) as En.
    { destruct (as_sock s) as [i|] eqn:Es; [|reflexivity]. destruct H as [H|H]; [|exact H]. destruct H. exact (proj1 (proj2 (I2 i eq_refl))). }
    split; [exact En|]. unfold auto_sendto, auto_recvfrom. rewrite En. split; [reflexivity|]. rewrite (proj1 I1 En). reflexivity.
  - intros i Hi. destruct (I2 i Hi) as (Eb & _ & Ho & Hc). unfold auto_sendto, auto_recvfrom. rewrite Hi, Eb. repeat split; assumption.
Qed.

(** ** C64: AutoAddress *)
Lemma pick_spec v l : interface_address v (Some l) (pick v l).
Proof.
  induction l as [|[y|] l IH]; cbn.
  - right. split; [reflexivity|]. intros y (l1 & l2 & E & _). injection E as E. destruct l1; discriminate.
  - destruct (suitable v y) eqn:Es.
    + left. exists [], l. split; [reflexivity|]. split; [apply suitable_spec, Es|intros ? []].
    + assert (~ takeable v y) as Ny by (intros Ht; apply suitable_spec in Ht; congruence).
      destruct IH as [(l1 & l2 & E & T & N)|[-> N]].
      * left. exists (y :: l1), l2. injection E as E. split; [cbn; do 2 f_equal; exact E|]. split; [exact T|]. intros x [<-|Hx]; auto.
      * right. split; [reflexivity|]. intros x (l1 & l2 & E & T & NN). destruct l1 as [|y' l1]; cbn in E.
        -- injection E as -> ->. contradiction.
        -- injection E as -> ->. apply (N x). exists l1, l2. split; [reflexivity|]. split; [exact T|]. intros; apply NN; right; assumption.
  - right. split; [reflexivity|]. intros x (l1 & l2 & E & _). destruct l1; discriminate.
Qed.
Lemma new_ip_spec v i : interface_address v i (new_ip v i).
Proof. destruct i as [l|]; [apply pick_spec|]. right. split; [reflexivity|]. intros y (l1 & l2 & E & _). discriminate. Qed.

Lemma au_targets_spec v h : NoDup (au_targets (au_run v h)) /\ forall t, In t (au_targets (au_run v h)) <-> In (AuAdd t) h.
Proof.
  unfold au_run. induction h as [|e h [ND IH]] using rev_ind; [cbn; split; [constructor|tauto]|].
  rewrite fold_left_app. cbn [fold_left]. destruct e as [t|i]; cbn [au_step].
  - unfold add_target. cbn [au_targets]. destruct (existsb _ _) eqn:E.
    + apply existsb_exists in E. destruct E as (x & Hx & Ex). apply Nat.eqb_eq in Ex. subst x. split; [exact ND|].
      intros u. rewrite in_app_iff. cbn. rewrite IH. split; [tauto|]. intros [|[[= <-]|[]]]; [assumption|apply IH, Hx].
    + split.
      * constructor; [|exact ND]. intros Hx. rewrite <- not_true_iff_false in E. apply E, existsb_exists. exists t. split; [exact Hx|apply Nat.eqb_refl].
      * intros u. rewrite in_app_iff. cbn. rewrite IH. split; [intros [->|]; auto|]. intros [|[[= <-]|[]]]; auto.
  - assert (au_targets (fst (update_address v i (fold_left (au_step v) h (Auto 0 [])))) = au_targets (fold_left (au_step v) h (Auto 0 []))) as ->
      by (unfold update_address; destruct (_ =? _); reflexivity).
    split; [exact ND|]. intros u. rewrite in_app_iff. cbn. rewrite IH. split; [tauto|]. intros [|[|[]]]; [assumption|discriminate].
Qed.

(** After any history of registrations of listeners and of polls, a poll that finds the interface in state
    [i] sets the address to what the interface gives, and calls every registered listener exactly once
    if the address changed and nobody otherwise. *)
Theorem C64_follows_interface : forall v h i,
  let before := au_run v h in
  let after := fst (update_address v i before) in
  let notified := snd (update_address v i before) in
  interface_address v i (au_ip after) /\
  (au_ip after = au_ip before -> notified = []) /\
  (au_ip after <> au_ip before -> NoDup notified /\ forall t, In t notified <-> In (AuAdd t) h).
Proof.
  intros v h i before after notified. subst after notified. unfold update_address.
  pose proof (new_ip_spec v i) as N. destruct (Z.eqb_spec (au_ip before) (new_ip v i)) as [E|E]; cbn.
  - rewrite E. split; [exact N|]. split; [auto|congruence].
  - split; [exact N|]. split; [congruence|]. intros _. apply au_targets_spec.
Qed.
Print Assumptions C64_follows_interface.

(** what the interface gives is determined by its state *)
Theorem C64_deterministic : forall v i y z, interface_address v i y -> interface_address v i z -> y = z.
Proof.
  assert (forall v i y z, first_suitable v i y -> first_suitable v i z -> y = z) as U.
  { intros v i y z (l1 & l2 & -> & T & N) (k1 & k2 & E & T' & N'). injection E as E.
    revert k1 E N'. induction l1 as [|a l1 IH]; intros [|b k1] E N'; cbn in E.
    - injection E as ->. reflexivity.
    - injection E as -> _. destruct (N' b); [left; reflexivity|exact T].
    - injection E as <- _. destruct (N a); [left; reflexivity|exact T'].
    - injection E as -> E. apply (IH (fun x Hx => N x (or_intror Hx)) k1 E). intros x Hx. apply N'. right; exact Hx. }
  intros v i y z [Hy|[-> Hy]] [Hz|[-> Hz]]; [eapply U; eauto| | |reflexivity].
  - destruct (Hz _ Hy).
  - destruct (Hy _ Hz).
Qed.

(** ** C71: the two together *)
Lemma poll_inv v i o h a s : polls v i o h = (a, s) ->
  au_targets a = [0%nat] /\ (as_sock s = None <-> as_bound s = 0) /\ (as_sock s <> None -> as_bound s = au_ip a).
Proof.
  unfold polls. revert a s. induction h as [|[j o'] h IH] using rev_ind; intros a s H.
  - cbn in H. unfold new_pair in H. injection H as <- <-. unfold update_address. cbn [au_ip au_targets].
    assert (forall z, au_targets (add_target 0 (fst (if 0 =? z then (Auto 0 [], @nil nat) else (Auto z [], @nil nat)))) = [0%nat]) as AT
      by (intros z; destruct (0 =? z); reflexivity).
    split; [apply AT|]. generalize (new_ip v i) as z; intros z.
    assert (au_ip (fst (if 0 =? z then (Auto 0 [], @nil nat) else (Auto z [], @nil nat))) = z) as Ez by (destruct (Z.eqb_spec 0 z) as [E0|]; [rewrite <- E0|]; reflexivity).
    assert (au_ip (add_target 0 (fst (if 0 =? z then (Auto 0 [], @nil nat) else (Auto z [], @nil nat)))) = z) as Ez' by (destruct (Z.eqb_spec 0 z) as [E0|]; [rewrite <- E0|]; reflexivity).
    rewrite Ez, Ez'. unfold rebind, asock0. cbn [as_bound as_sock]. destruct (Z.eqb_spec z 0) as [->|Hz]; [cbn; split; [tauto|congruence]|].
    destruct (usable v z) eqn:Eu; [destruct o|]; cbn; (split; [split; congruence|congruence]).
  - rewrite fold_left_app in H. cbn [fold_left] in H.
    destruct (fold_left (poll v) h (new_pair v i o)) as [a1 s1] eqn:E1. destruct (IH _ _ eq_refl) as (T & I1 & I2).
    unfold poll, update_address in H. cbn [fst snd] in H. destruct (Z.eqb_spec (au_ip a1) (new_ip v j)) as [E|E].
    + injection H as <- <-. auto.
    + rewrite T in H. cbn [au_ip] in H. injection H as <- <-. cbn [au_targets au_ip]. split; [reflexivity|].
      set (z := new_ip v j) in *. clearbody z. unfold rebind. destruct (Z.eqb_spec z (as_bound s1)) as [Ez|Ez]; cbn [fst]; [auto|].
      destruct (usable v z) eqn:Eu; [destruct o'|]; cbn; (split; [|congruence]); try tauto.
      split; [discriminate|intros ->; rewrite zero_not_usable in Eu; discriminate].
Qed.

(** at every moment an open socket is bound to the current address of its interface *)
Theorem C71_open_socket_current_partial : forall v i o h a s, polls v i o h = (a, s) -> as_sock s <> None -> as_bound s = au_ip a.
Proof. intros v i o h a s H. apply (poll_inv _ _ _ _ _ _ H). Qed.

(** but a bind that failed is not tried again while the address stays the same, whatever the OS would say *)
Theorem C71_failed_bind_not_retried : forall v i o h a s, polls v i o h = (a, s) -> as_sock s = None ->
  forall h', (forall j o', In (j, o') h' -> interface_address v j (au_ip a)) -> polls v i o (h ++ h') = (a, s).
Proof.
  intros v i o h a s H Hn h' Hh. unfold polls in *. rewrite fold_left_app, H. clear H. induction h' as [|[j o'] h' IH]; [reflexivity|].
  cbn [fold_left]. assert (poll v (a, s) (j, o') = (a, s)) as ->; [|apply IH; intros; eapply Hh; right; eassumption].
  unfold poll, update_address. cbn [fst snd]. rewrite (C64_deterministic v j _ _ (new_ip_spec v j) (Hh j o' (or_introl eq_refl))), Z.eqb_refl. reflexivity.
Qed.
Theorem C71_refuted : ~ (forall v i o h j id a s,
  polls v i o (h ++ [(j, BindOk id)]) = (a, s) -> bindable v (au_ip a) -> as_sock s <> None).
Proof.
  intros H. set (i := Some [Some (ip4 192 0 2 1)]).
  destruct (polls V4 i NoSocket ([] ++ [(i, BindOk 1)])) as [a s] eqn:E. vm_compute in E.
  eapply (H V4 i NoSocket [] i 1%nat); [exact E| |].
  - injection E as <- <-. apply usable_spec. reflexivity.
  - injection E as <- <-. reflexivity.
Qed.

(** ** C65: message numbers *)

Lemma counter_spec (k : nat) : let c := if Nat.eqb k 0 then 0 else (Z.of_nat k - 1) mod maxint + 1 in
  (if c =? maxint then 1 else c + 1) = Z.of_nat k mod maxint + 1.
Proof.
  assert (0 < maxint) as HM by reflexivity. assert (1 < maxint) as HM1 by reflexivity. cbv zeta. generalize dependent maxint. intros M HM HM1.
  destruct (Nat.eqb_spec k 0) as [->|Hk].
  - destruct (Z.eqb_spec 0 M); [lia|]. rewrite Z.mod_0_l by lia. reflexivity.
  - set (x := Z.of_nat k - 1). replace (Z.of_nat k) with (x + 1) by lia. assert (0 <= x) by lia.
    pose proof (Z.mod_pos_bound x M HM) as B. pose proof (Z.div_mod x M ltac:(lia)) as D.
    destruct (Z.eqb_spec (x mod M + 1) M) as [E|E].
    + replace (x + 1) with ((x / M + 1) * M) by nia. rewrite Z.mod_mul by lia. reflexivity.
    + f_equal. apply Z.mod_unique with (x / M); lia.
Qed.

Lemma take_nrs_spec : forall h k,
  take_nrs (if Nat.eqb k 0 then 0 else (Z.of_nat k - 1) mod maxint + 1) h =
  (fix go (k : nat) (h : list (option Z)) : list Z :=
     match h with
     | [] => []
     | Some n :: h => if n =? 0 then (Z.of_nat k mod maxint + 1) :: go (S k) h else n :: go k h
     | None :: h => (Z.of_nat k mod maxint + 1) :: go (S k) h
     end) k h.
Proof.
  induction h as [|e h IH]; intros k; [reflexivity|].
  pose proof (counter_spec k) as C. cbv zeta in C. specialize (IH (S k)) as IHS. cbn [Nat.eqb] in IHS.
  replace (Z.of_nat (S k) - 1) with (Z.of_nat k) in IHS by lia.
  cbn [take_nrs]. unfold take_nr. destruct e as [n|]; [destruct (n =? 0)|]; rewrite ?C, ?IHS, ?IH; reflexivity.
Qed.

(** The message whose construction is preceded by [k] automatically numbered ones gets number
    [k mod largest_int + 1] (or the number it was given): 1, 2, ..., largest_int, 1, 2, ... *)
Theorem C65_numbers : forall h1 e h2,
  nth_error (take_nrs 0 (h1 ++ e :: h2)) (length h1) =
  Some (match e with
        | Some n => if n =? 0 then Z.of_nat (autos h1) mod largest_int + 1 else n
        | None => Z.of_nat (autos h1) mod largest_int + 1
        end).
Proof.
  change largest_int with maxint. intros h1 e h2. rewrite (take_nrs_spec _ 0). replace (autos h1) with (0 + autos h1)%nat by reflexivity. generalize 0%nat as k.
  induction h1 as [|x h1 IH]; intros k; cbn [app length nth_error].
  - replace (k + autos [])%nat with k by (cbn; lia). destruct e as [n|]; [destruct (n =? 0)|]; reflexivity.
  - unfold autos in *. destruct x as [n|]; cbn [filter length]; [destruct (n =? 0); cbn [length]|];
      rewrite IH; destruct e as [m|]; [destruct (m =? 0)| |destruct (m =? 0)| |destruct (m =? 0)|]; do 3 f_equal; lia.
Qed.
Print Assumptions C65_numbers.

(** hence in 1..largest_int, and different for messages less than largest_int apart *)
Theorem C65_range_and_distinct : forall n i j a b,
  nth_error (take_nrs 0 (repeat None n)) i = Some a -> nth_error (take_nrs 0 (repeat None n)) j = Some b ->
  1 <= a <= largest_int /\ (i <> j -> Z.abs (Z.of_nat i - Z.of_nat j) < largest_int -> a <> b).
Proof.
  change largest_int with maxint.
  assert (0 < maxint) as HM by reflexivity.
  assert (forall n i a, nth_error (take_nrs 0 (repeat None n)) i = Some a -> a = Z.of_nat i mod maxint + 1) as E.
  { intros n i a H. assert (i < n)%nat as Hi.
    { apply nth_error_Some' in H || (assert (nth_error (take_nrs 0 (repeat None n)) i <> None) as H' by congruence; apply nth_error_Some in H').
      assert (forall c m, length (take_nrs c (repeat None m)) = m) as L.
      { intros c m. revert c. induction m as [|m IH]; intros c; cbn; [reflexivity|]. rewrite IH. reflexivity. }
      rewrite L in H'. exact H'. }
    replace n with (i + S (n - S i))%nat in H by lia. rewrite repeat_app in H. cbn [repeat] in H.
    pose proof (C65_numbers (repeat None i) None (repeat None (n - S i))) as T. rewrite repeat_length in T. change largest_int with maxint in T. rewrite T in H. injection H as <-.
    f_equal. f_equal. f_equal. unfold autos. clear. induction i; cbn; [reflexivity|]. f_equal. exact IHi. }
  intros n i j a b Ha Hb. apply E in Ha, Hb. subst a b. split; [pose proof (Z.mod_pos_bound (Z.of_nat i) maxint HM); lia|].
  generalize dependent maxint. intros M HM _ Hij HD HE.
  assert (Z.of_nat i mod M = Z.of_nat j mod M) as Hm by lia. clear HE.
  pose proof (Z.div_mod (Z.of_nat i) M ltac:(lia)). pose proof (Z.div_mod (Z.of_nat j) M ltac:(lia)).
  set (a := Z.of_nat i / M) in *. set (b := Z.of_nat j / M) in *.
  assert (Z.abs (M * (a - b)) < M) as HA by (replace (M * (a - b)) with (Z.of_nat i - Z.of_nat j) by lia; exact HD).
  assert (a = b) by nia. apply Hij. apply Nat2Z.inj. congruence.
Qed.

(** ** C66: fix_config *)
Lemma root_ok_spec v x : root_ok (Pfx v 0 0) x = true <-> whole_space v x.
Proof.
  unfold root_ok, whole_space. destruct x as [n|]; [|split; [discriminate|intros (n & [=] & _)]].
  rewrite andb_true_iff, pfx_eqb_spec. unfold is_container. split.
  - intros [H1 H2]. exists n. split; [reflexivity|]. split; [exact H2|]. destruct (n_cls n); try discriminate; [auto|right; eauto].
  - intros (m & [= <-] & H2 & H3). split; [|exact H2]. destruct H3 as [->|(d & ->)]; reflexivity.
Qed.

Lemma assoc_put_other {A} k k' (x : A) d : k <> k' -> assoc k (put k' x d) = assoc k d.
Proof.
  intros N. induction d as [|[j y] d IH]; cbn.
  - destruct (Z.eqb_spec k' k); [congruence|reflexivity].
  - destruct (Z.eqb_spec j k') as [->|]; cbn.
    + destruct (Z.eqb_spec k' k); [congruence|reflexivity].
    + destruct (j =? k); [reflexivity|exact IH].
Qed.

Lemma fix_instance_spec i4 i6 k x y : fix_instance i4 i6 k x = Ok y <-> complete_instance (k, x) /\ y = x.
Proof.
  unfold fix_instance, complete_instance. split.
  - destruct k as [k|]; [|discriminate]. destruct x as [d|]; [|discriminate].
    destruct (assoc 1 d) as [x4|] eqn:E4.
    2: { destruct (assoc 2 _); rewrite ?(assoc_put_other 1 4), ?E4 by lia; discriminate. }
    destruct (assoc 2 d) as [x6|] eqn:E6.
    2: { rewrite (assoc_put_other 1 4), E4 by lia. rewrite (assoc_put_other 2 4), E6 by lia.
         destruct (guard _ _); discriminate. }
    rewrite E4, E6. unfold guard. destruct (root_ok root4 x4) eqn:R4; [|discriminate]. destruct (root_ok root6 x6) eqn:R6; [|discriminate].
    cbn. intros [= <-]. split; [|reflexivity]. exists k, d, x4, x6. split; [reflexivity|].
    split; [exact E4|]. split; [apply root_ok_spec, R4|]. split; [exact E6|apply root_ok_spec, R6].
  - intros [(k0 & d & x4 & x6 & [= -> ->] & E4 & W4 & E6 & W6) ->]. rewrite E4, E6, E4. apply root_ok_spec in W4, W6.
    unfold root4, root6. rewrite W4. cbn [guard bind]. rewrite E6, W6. reflexivity.
Qed.

(** What fix_config accepts, exactly; and what it accepts it leaves alone, apart from the parsed
    LISTEN_ON texts. *)
Theorem C66_accepts_exactly : forall fresh s s',
  fix_config fresh s = Ok s' <->
  exists l l' d,
    st_listen s = Some l /\
    Forall2 (fun a b => (exists v z, a = LAddr v z /\ b = a) \/ (exists v z, a = LText (Some (v, z)) /\ b = LAddr v z)) l l' /\
    st_instances s = Some d /\ Forall complete_instance d /\
    st_petr_ok s = true /\ st_natt_ok s = true /\ st_nfq4_ok s = true /\ st_nfq6_ok s = true /\
    s' = Settings (Some l') (Some d) true true true true.
Proof.
  intros fresh s s'.
  assert (forall l l', mapM fix_listen1 l = Ok l' <->
    Forall2 (fun a b => (exists v z, a = LAddr v z /\ b = a) \/ (exists v z, a = LText (Some (v, z)) /\ b = LAddr v z)) l l') as HL.
  { induction l as [|a l IH]; intros l'; cbn.
    - split; [intros [= <-]; constructor|intros H; inversion H; reflexivity].
    - split.
      + intros H. bo H b Eb. bo H bs Ebs. okinj H. constructor; [|apply IH, Ebs].
        destruct a as [v z|[[v z]|]]; cbn in Eb; [injection Eb as <-; left; eauto|injection Eb as <-; right; eauto|discriminate].
      + intros H. inversion H as [|? b ? bs Hb Hbs]; subst. apply IH in Hbs. rewrite Hbs.
        destruct Hb as [(v & z & -> & ->)|(v & z & -> & ->)]; reflexivity. }
  assert (forall d d', mapM (fun e => let* x := fix_instance (fst (fresh (fst e))) (snd (fresh (fst e))) (fst e) (snd e) in Ok (fst e, x)) d = Ok d' <->
    Forall complete_instance d /\ d' = d) as HI.
  { induction d as [|[k x] d IH]; intros d'; cbn [mapM fst snd].
    - split; [intros [= <-]; auto|intros [_ ->]; reflexivity].
    - split.
      + intros H. bo H y Ey. bo Ey x' Ex. okinj Ey. apply fix_instance_spec in Ex. destruct Ex as [C ->].
        bo H ys Eys. okinj H. apply IH in Eys. destruct Eys as [F ->]. auto.
      + intros [F ->]. inversion F as [|? ? C F']; subst. assert (d = d) as R by reflexivity. pose proof (proj2 (IH d) (conj F' R)) as ->.
        pose proof (proj2 (fix_instance_spec (fst (fresh k)) (snd (fresh k)) k x x) (conj C eq_refl)) as ->. reflexivity. }
  unfold fix_config. split.
  - intros H. destruct (st_listen s) as [l|]; [|discriminate]. bo H l' El. destruct (st_instances s) as [d|]; [|discriminate].
    bo H d' Ed. apply HI in Ed. destruct Ed as [F ->]. apply HL in El.
    bo H [] G1. bo H [] G2. bo H [] G3. bo H [] G4. unfold guard in *.
    destruct (st_petr_ok s); [|discriminate]. destruct (st_natt_ok s); [|discriminate]. destruct (st_nfq4_ok s); [|discriminate].
    destruct (st_nfq6_ok s); [|discriminate]. okinj H. exists l, l', d. repeat (split; [solve [reflexivity|assumption]|]). reflexivity.
  - intros (l & l' & d & -> & FL & -> & FI & -> & -> & -> & -> & ->). apply HL in FL. rewrite FL.
    pose proof (proj2 (HI d d) (conj FI eq_refl)) as ->. reflexivity.
Qed.
Print Assumptions C66_accepts_exactly.

(** So a configuration in which any instance lacks an address family is refused. *)
Theorem C66_missing_family_refused : forall fresh s k d insts,
  st_instances s = Some insts -> In (KInt k, CDict d) insts -> (assoc 1 d = None \/ assoc 2 d = None) ->
  forall s', fix_config fresh s <> Ok s'.
Proof.
  intros fresh s k d insts Hs Hin HN s' H. apply C66_accepts_exactly in H. destruct H as (l & l' & d' & _ & _ & E & F & _).
  rewrite E in Hs. injection Hs as ->. rewrite Forall_forall in F. destruct (F _ Hin) as (k' & d2 & x4 & x6 & [= _ <-] & E4 & _ & E6 & _).
  destruct HN; congruence.
Qed.
Theorem C66_refuted : ~ (forall fresh s, (forall insts k d, st_instances s = Some insts -> In (k, CDict d) insts ->
    (exists z, k = KInt z) /\ forall a x, assoc a d = Some x -> (a = 1 /\ whole_space V4 x) \/ (a = 2 /\ whole_space V6 x)) ->
  (exists l, st_listen s = Some l /\ forall x, In x l -> exists v z, x = LAddr v z) ->
  st_instances s <> None -> (forall insts k, st_instances s = Some insts -> ~ In (k, CNoDict) insts) ->
  st_petr_ok s = true -> st_natt_ok s = true -> st_nfq4_ok s = true -> st_nfq6_ok s = true ->
  exists s', fix_config fresh s = Ok s').
Proof.
  intros H. set (n6 := CNode (Node 1 root6 NContainer [])).
  set (s := Settings (Some []) (Some [(KInt 0, CDict [(2, n6)])]) true true true true).
  assert (exists s', fix_config (fun _ => (7, 8)%nat) s = Ok s') as (s' & E).
  { apply H; try reflexivity.
    - intros insts k d [= <-] [[= <- <-]|[]]. split; [eauto|]. intros a x E. cbn [assoc] in E. destruct (Z.eqb_spec 2 a) as [<-|]; [|discriminate].
      injection E as <-. right. split; [reflexivity|]. apply root_ok_spec. reflexivity.
    - exists []. split; [reflexivity|intros x []].
    - discriminate.
    - intros insts k [= <-] [E|[]]. discriminate. }
  revert E. apply (C66_missing_family_refused _ s 0 [(2, n6)] _ eq_refl); [left; reflexivity|left; reflexivity].
Qed.

(** a configuration that is accepted *)
Example fix_config_ok :
  fix_config (fun _ => (7, 8)%nat)
    (Settings (Some [LText (Some (V4, 5))]) (Some [(KInt 0, CDict [(1, CNode (Node 1 root4 NContainer [])); (2, CNode (Node 2 root6 (NAuth []) []))])])
       true true true true) =
  Ok (Settings (Some [LAddr V4 5]) (Some [(KInt 0, CDict [(1, CNode (Node 1 root4 NContainer [])); (2, CNode (Node 2 root6 (NAuth []) []))])])
       true true true true).
Proof. reflexivity. Qed.

(** ** C72: the xTR-ID *)
Lemma mac_int_spec m : Forall octet m -> forall acc, 0 <= acc ->
  acc * 256 ^ lenZ m <= mac_int acc m < (acc + 1) * 256 ^ lenZ m.
Proof.
  induction 1 as [|o m Ho _ IH]; intros acc Ha; cbn [mac_int].
  - unfold lenZ. cbn. lia.
  - rewrite Z.shiftl_mul_pow2 by lia. change (2 ^ 8) with 256. unfold octet in Ho. specialize (IH (acc * 256 + o) ltac:(lia)).
    unfold lenZ in *. cbn [length]. rewrite Nat2Z.inj_succ, Z.pow_succ_r by lia. assert (0 < 256 ^ Z.of_nat (length m)) by (apply Z.pow_pos_nonneg; lia). nia.
Qed.
Lemma mac_int_inj m1 : forall m2 a1 a2, length m1 = length m2 -> Forall octet m1 -> Forall octet m2 -> 0 <= a1 -> 0 <= a2 ->
  mac_int a1 m1 = mac_int a2 m2 -> a1 = a2 /\ m1 = m2.
Proof.
  induction m1 as [|o m1 IH]; intros [|p m2] a1 a2 L F1 F2 H1 H2 E; try discriminate; cbn [mac_int] in E; [auto|].
  inversion F1; inversion F2; subst. unfold octet in *. rewrite !Z.shiftl_mul_pow2 in E by lia. change (2 ^ 8) with 256 in E.
  destruct (IH m2 (a1 * 256 + o) (a2 * 256 + p)) as [E1 ->]; [injection L as ->; reflexivity|assumption..|lia|lia|exact E|].
  assert (a1 = a2 /\ o = p) as [-> ->] by lia. auto.
Qed.
Lemma lor_watermark z : 0 <= z < 2 ^ 64 -> Z.lor z watermark = z + watermark.
Proof.
  intros Hz.
  assert (Z.land z watermark = 0) as L.
  { apply Z.bits_inj_0. intros n. rewrite Z.land_spec. destruct (Z.ltb_spec n 0); [rewrite Z.testbit_neg_r by lia; reflexivity|].
    destruct (Z.ltb_spec n 64).
    - replace watermark with (6013542892925185646 * 2 ^ 64) by reflexivity. rewrite Z.mul_pow2_bits_low by lia. apply andb_false_r.
    - rewrite Z.bits_above_log2; [reflexivity|lia|]. destruct (Z.eq_dec z 0) as [->|]; [cbn; lia|].
      apply Z.log2_lt_pow2; [lia|]. apply Z.lt_le_trans with (2 ^ 64); [lia|apply Z.pow_le_mono_r; lia]. }
  rewrite (Z.add_nocarry_lxor _ _ L), (Z.lxor_lor _ _ L). reflexivity.
Qed.
Lemma mac_int_zero m : Forall octet m -> (mac_int 0 m = 0 <-> forall o, In o m -> o = 0).
Proof.
  intros F. split.
  - intros E o Ho. assert (mac_int 0 (repeat 0 (length m)) = 0) as Ez by (induction (length m); [reflexivity|exact IHn]).
    assert (mac_int 0 m = mac_int 0 (repeat 0 (length m))) as E2 by congruence. destruct (mac_int_inj m (repeat 0 (length m)) 0 0) as [_ Em]; try assumption; try lia.
    + rewrite repeat_length; reflexivity.
    + apply Forall_forall. intros x Hx. apply repeat_spec in Hx. subst. unfold octet; lia.
    + rewrite Em in Ho. apply repeat_spec in Ho. exact Ho.
  - intros H. clear F. assert (forall o, In o m -> o = 0) as H' by exact H. clear H. induction m as [|o m IH]; [reflexivity|].
    cbn. rewrite (H' o) by (left; reflexivity). apply IH. intros x Hx. apply H'. right; exact Hx.
Qed.

(** The xTR-ID is made from the first usable MAC address of the machine; it fits in the 128-bit field, it is
    not 0 (which would mean "none"), and different MAC addresses give different xTR-IDs. *)
Theorem C72_xtr_id : forall macs, Forall mac macs ->
  (get_xtr_id macs = 0 /\ forall m, In m macs -> ~ mac_usable m) \/
  (exists l1 m l2, macs = l1 ++ m :: l2 /\ (forall x, In x l1 -> ~ mac_usable x) /\ mac_usable m /\
     get_xtr_id macs = mac_int 0 m + 0x5374656666616e6e0000000000000000 /\
     0 < get_xtr_id macs < 2 ^ 128).
Proof.
  induction 1 as [|m macs [L6 Fm] _ IH]; [left; split; [reflexivity|intros m []]|].
  assert (forall P : Prop, (Z.odd (match m with o :: _ => o | [] => 0 end) = true \/ mac_int 0 m = 0 -> ~ mac_usable m)) as NU.
  { intros _ Hx (o & Ho & Hne & Hodd). destruct Hx as [Hx|Hx]; [destruct m; cbn in *; congruence|]. apply (mac_int_zero m Fm) with (o := o) in Hx; [congruence|exact Ho]. }
  cbn [get_xtr_id].
  assert (forall x, ~ mac_usable m -> x = get_xtr_id macs ->
    (x = 0 /\ (forall m0, In m0 (m :: macs) -> ~ mac_usable m0)) \/
    (exists l1 m0 l2, m :: macs = l1 ++ m0 :: l2 /\ (forall x, In x l1 -> ~ mac_usable x) /\ mac_usable m0 /\
       x = mac_int 0 m0 + 0x5374656666616e6e0000000000000000 /\ 0 < x < 2 ^ 128)) as K.
  { intros x Nm ->. destruct IH as [[-> N]|(l1 & m0 & l2 & -> & N & U & E & R)].
    - left. split; [reflexivity|]. intros m0 [<-|H]; auto.
    - right. exists (m :: l1), m0, l2. split; [reflexivity|]. split; [intros x [<-|Hx]; auto|]. auto. }
  destruct (Z.odd _) eqn:Eo; [apply K; [apply (NU True); auto|reflexivity]|].
  destruct (Z.eqb_spec (mac_int 0 m) 0) as [E0|E0]; [apply K; [apply (NU True); auto|reflexivity]|].
  right. exists [], m, macs. split; [reflexivity|]. split; [intros x []|].
  pose proof (mac_int_spec m Fm 0 ltac:(lia)) as B. unfold lenZ in B. rewrite L6 in B.
  change (256 ^ Z.of_nat 6) with 281474976710656 in B.
  rewrite lor_watermark by lia. split; [|split; [reflexivity|unfold watermark; lia]].
  destruct m as [|o m]; [discriminate|]. cbn in Eo. unfold mac_usable. cbn [hd].
  assert (exists x, In x (o :: m) /\ x <> 0) as (x & Hx & Hn); [|eauto].
  assert (forall l, (exists x : Z, In x l /\ x <> 0) \/ forall x, In x l -> x = 0) as D.
  { induction l as [|a l [(x & ? & ?)|IHl]]; [right; intros x []|left; exists x; split; [right|]; assumption|].
    destruct (Z.eq_dec a 0) as [->|]; [right; intros x [<-|]; auto|left; exists a; split; [left; reflexivity|assumption]]. }
  destruct (D (o :: m)) as [|N]; [assumption|]. destruct E0. apply mac_int_zero; assumption.
Qed.
Theorem C72_distinct : forall m1 m2 l1 l2, mac m1 -> mac m2 -> mac_usable m1 -> mac_usable m2 -> Forall mac l1 -> Forall mac l2 ->
  get_xtr_id (m1 :: l1) = get_xtr_id (m2 :: l2) -> m1 = m2.
Proof.
  intros m1 m2 l1 l2 M1 M2 U1 U2 F1 F2 E.
  assert (forall m l, mac m -> mac_usable m -> Forall mac l -> get_xtr_id (m :: l) = mac_int 0 m + 0x5374656666616e6e0000000000000000) as K.
  { intros m l Mm Um Fl. destruct (C72_xtr_id (m :: l) (Forall_cons _ Mm Fl)) as [[_ N]|([|x l'] & m' & l2' & Em & N & _ & E' & _)].
    - destruct (N m); [left; reflexivity|exact Um].
    - cbn in Em. injection Em as <- <-. exact E'.
    - cbn in Em. injection Em as <- _. destruct (N m); [left; reflexivity|exact Um]. }
  rewrite (K m1 l1), (K m2 l2) in E by assumption. destruct M1 as [L1 O1], M2 as [L2 O2].
  destruct (mac_int_inj m1 m2 0 0) as [_ ->]; auto; try congruence; try lia.
Qed.
Print Assumptions C72_xtr_id.

(** ** Non-vacuity *)
Example send_example :
  send_message (Ok (B [1; 2])) (fun i => match i with 1%nat => Ok 2 | _ => Ok 0 end) 4342 0
    [Sock 1 V4 (V4, 7, 0); Sock 2 V6 (V6, 8, 0); Sock 3 V6 (V6, 9, 0)] [AIP V6 99; AIP V4 5] =
  ([Att (Sock 2 V6 (V6, 8, 0)) (V6, 99) 4342 (B [1; 2]); Att (Sock 3 V6 (V6, 9, 0)) (V6, 99) 4342 (B [1; 2])],
   Ok (Some ((V6, 9, 0), (V6, 99, 4342)))).
Proof. reflexivity. Qed.
Example rebind_example :
  fst (rb_run V4 asock0 [(ip4 192 0 2 1, BindOk 1); (ip4 127 0 0 1, BindOk 2); (ip4 192 0 2 9, BindOk 3)]) = ASock (Some 3%nat) (ip4 192 0 2 9).
Proof. reflexivity. Qed.
Example update_example : update_address V4 (Some [Some (ip4 127 0 0 1); Some (ip4 10 0 0 1); None]) (au_run V4 [AuAdd 4; AuAdd 5; AuAdd 4])
  = (Auto (ip4 10 0 0 1) [5; 4]%nat, [5; 4]%nat).
Proof. reflexivity. Qed.
