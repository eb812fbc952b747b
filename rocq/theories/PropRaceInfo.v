(** * Property C128: the Info-Reply that decides about a NAT *)
From Verif Require Import Base BaseLemmas Afi Records Control Auth Tree MapServer Etr SpecEtr PropEtr PropEtr2 Packet Daemon Exchange SpecExch PropExch RaceInfo SpecRaceInfo.

Section P.
Variable r : etrr.
Variable nonce : bytes.
Notation run := (irace r nonce).
Notation step := (imove_step r nonce).
Lemma run_app h m : run (h ++ [m]) = step (run h) m.
Proof. unfold irace. rewrite fold_left_app. reflexivity. Qed.
Lemma replied_mono h x m : ireplied r nonce h m -> ireplied r nonce (h ++ [x]) m.
Proof. intros (src & I & G). exists src. split; [apply in_or_app; left; exact I|exact G]. Qed.
Lemma sent_mono h x f : isent r nonce h f -> isent r nonce (h ++ [x]) f.
Proof. intros (h1 & h2 & k & -> & E). exists h1, (h2 ++ [x]), k. split; [rewrite <- app_assoc; reflexivity|exact E]. Qed.
Lemma undecided_mono h x : undecided r nonce h -> undecided r nonce (h ++ [x]).
Proof. intros (h1 & h2 & y & -> & E). exists h1, (h2 ++ [x]), y. split; [rewrite <- app_assoc; reflexivity|exact E]. Qed.
Lemma matches_for src m : reply_matches r nonce src m = true <-> reply_for r nonce src m.
Proof.
  unfold reply_matches, reply_for. split.
  - intros H. apply andb_prop in H. destruct H as [A B]. apply same_src in A. apply bytes_eqb_spec in B. auto.
  - intros [A B]. apply same_src in A. apply bytes_eqb_spec in B. rewrite A, B. reflexivity.
Qed.

(** ** The replies *)
Definition known (h : list imove) (x : stored) : Prop :=
  ireplied r nonce h (st_msg x) /\ match st_priv x with Some f => isent r nonce h f | None => True end.
Lemma known_mono h x : forall y, known h y -> known (h ++ [x]) y.
Proof. intros y [A B]. split; [apply replied_mono, A|]. destruct (st_priv y); [apply sent_mono, B|exact I]. Qed.
Lemma patch_msgs f l : map st_msg (patch_last f l) = map st_msg l.
Proof. induction l as [|x [|y l] IH]; [reflexivity|reflexivity|]. cbn [patch_last map] in *. f_equal. exact IH. Qed.
Lemma patch_app f l x : patch_last f (l ++ [x]) = l ++ [Stored (st_msg x) (Some f)].
Proof. induction l as [|y l IH]; [reflexivity|]. cbn [app]. destruct (l ++ [x]) eqn:E; [destruct l; discriminate|]. cbn [patch_last]. f_equal. exact IH. Qed.
Lemma patch_length f l : length (patch_last f l) = length l.
Proof. rewrite <- (map_length st_msg), patch_msgs. apply map_length. Qed.

(** what the verdict rests on: a reply [m] that was heard, with the private address [p] it had when it was looked at *)
Definition some_on (h : list imove) (l : list info) (i : nat) : Prop :=
  exists m p d, nth_error l i = Some m /\ match p with Some f => isent r nonce h f | None => True end /\ nat_data m p d /\
    (nat_seen d \/ tr_use_rtr r = Some true).
Definition none_on (h : list imove) : Prop :=
  In IAskStop h \/ undecided r nonce h \/
  exists m p d, ireplied r nonce h m /\ match p with Some f => isent r nonce h f | None => True end /\ nat_data m p d /\ ~ nat_seen d /\ tr_use_rtr r <> Some true.
Record inv (h : list imove) (w : ipair) : Prop := {
  v_from : forall f, ip_from w = Some f -> isent r nonce h f;
  v_stop : ip_stop w = true -> In IAskStop h;
  v_objs : Forall (known h) (ip_replies w);
  v_main : match ip_main w with
           | ITesting src m => In (IHear src m) h | IStoring m => ireplied r nonce h m
           | IPatching f => isent r nonce h f | _ => True end;
  v_reg : match ip_reg w with
          | IAssigning _ (Some f) => isent r nonce h f
          | IDone (Ok (Some i)) => some_on h (map st_msg (ip_replies w)) i
          | IDone (Ok None) => none_on h
          | _ => True end }.
Lemma looks_data x : info_reply (st_msg x) -> nat_data (st_msg x) (st_priv x) (looks x).
Proof.
  intros (mp & ep & g & ms & p & rt & E). unfold looks. exists mp, ep, g, ms, p, rt. split; [exact E|].
  destruct (st_priv x) as [f|]; [|exact E]. unfold set_private. rewrite E. reflexivity.
Qed.
Lemma some_mono h x l i : some_on h l i -> some_on (h ++ [x]) l i.
Proof. intros (m & p & d & A & B & C). exists m, p, d. split; [exact A|]. split; [|exact C]. destruct p; [apply sent_mono, B|exact I]. Qed.
Lemma some_longer h l l' i : some_on h l i -> some_on h (l ++ l') i.
Proof. intros (m & p & d & A & B). exists m, p, d. split; [rewrite nth_error_app1; [exact A|apply nth_error_Some; congruence]|exact B]. Qed.
Lemma none_mono h x : none_on h -> none_on (h ++ [x]).
Proof.
  intros [A|[A|(m & p & d & A & B & C)]]; [left; apply in_or_app; auto|right; left; apply undecided_mono, A|].
  right. right. exists m, p, d. split; [apply replied_mono, A|]. split; [|exact C]. destruct p; [apply sent_mono, B|exact I].
Qed.
Lemma inv_mono h x w : inv h w -> inv (h ++ [x]) w.
Proof.
  intros [A B C D E]. constructor.
  - intros f F. apply sent_mono, A, F.
  - intros S. apply in_or_app. auto.
  - eapply Forall_impl; [|exact C]. apply known_mono.
  - destruct (ip_main w); auto; [apply in_or_app; auto|apply replied_mono, D|apply sent_mono, D].
  - destruct (ip_reg w) as [|k [f|]| | | | | | | |[[i|]|]]; auto; [apply sent_mono, E|apply some_mono, E|apply none_mono, E].
Qed.
Definition replies_in (h : list imove) : Prop := forall src m, In (IHear src m) h -> info_reply m.
Lemma inv_run h : replies_in h -> inv h (run h).
Proof.
  induction h as [|m h IH] using rev_ind; intros Hd.
  - constructor; cbn; auto; try discriminate.
  - rewrite run_app. assert (inv h (run h)) as I0 by (apply IH; intros src x J; apply (Hd src x), in_or_app; auto).
    pose proof (inv_mono h m _ I0) as [A B C D E]. remember (run h) as w eqn:Ew.
    destruct m as [src x| | |sent]; cbn [imove_step].
    + destruct (ip_main w) eqn:M; [destruct (ip_listed w)|..]; try (constructor; rewrite ?M; auto; fail).
      constructor; cbn [main_at ip_from ip_replies ip_stop ip_main ip_reg]; auto. apply in_or_app. right. left. reflexivity.
    + unfold imain_goes. destruct (ip_main w) as [|src x|x| |f|] eqn:M; try (constructor; cbn [main_at ip_from ip_replies ip_stop ip_main ip_reg]; rewrite ?M; auto; fail).
      * constructor; cbn [main_at ip_from ip_replies ip_stop ip_main ip_reg]; auto. destruct (reply_matches r nonce src x) eqn:G; [|exact Logic.I].
        exists src. split; [exact D|apply matches_for, G].
      * constructor; cbn [main_at ip_from ip_replies ip_stop ip_main ip_reg]; auto.
        -- apply Forall_app. split; [exact C|]. constructor; [|constructor]. split; [exact D|exact Logic.I].
        -- destruct (ip_reg w) as [|k [f|]| | | | | | | |[[i|]|]]; auto. rewrite map_app. apply some_longer, E.
      * constructor; cbn [main_at ip_from ip_replies ip_stop ip_main ip_reg]; auto. destruct (ip_from w) eqn:F; [apply A; reflexivity|exact Logic.I].
      * constructor; cbn [main_at ip_from ip_replies ip_stop ip_main ip_reg]; rewrite ?patch_msgs; auto.
        destruct (ip_replies w) as [|y l _] using rev_ind; [constructor|]. rewrite patch_app. apply Forall_app in C. destruct C as [C1 C2].
        apply Forall_app. split; [exact C1|]. constructor; [|constructor]. apply Forall_inv in C2. destruct C2 as [C2 _]. split; [exact C2|exact D].
    + constructor; cbn [main_at ip_from ip_replies ip_stop ip_main ip_reg]; auto. intros _. apply in_or_app. right. left. reflexivity.
    + assert (NR : forall a, (match a with IAssigning _ (Some _) | IDone (Ok _) => False | _ => True end) -> inv (h ++ [IRegGoes sent]) (ireg_to w a)).
      { intros a Ha. constructor; cbn [ireg_to ip_from ip_replies ip_stop ip_main ip_reg]; auto. destruct a as [|k [f|]| | | | | | | |[[i|]|]]; auto; destruct Ha. }
      assert (ND : forall v, (match v with Ok (Some i) => some_on (h ++ [IRegGoes sent]) (map st_msg (ip_replies w)) i | Ok None => none_on (h ++ [IRegGoes sent]) | _ => True end) ->
        inv (h ++ [IRegGoes sent]) (ireg_to w (IDone v))).
      { intros v Hv. constructor; cbn [ireg_to ip_from ip_replies ip_stop ip_main ip_reg]; auto. }
      unfold ireg_goes. destruct (ip_reg w) as [k|k f|k|k|k| | | |i|v] eqn:R.
      * destruct sent as [[f|]|e]; [|apply NR; exact Logic.I..]. constructor; cbn [ireg_to ip_from ip_replies ip_stop ip_main ip_reg]; auto.
        exists h, [], k. split; [reflexivity|]. rewrite <- Ew. exact R.
      * constructor; cbn [ireg_to ip_from ip_replies ip_stop ip_main ip_reg]; auto. intros f' ->. exact E.
      * apply NR. exact Logic.I.
      * destruct (ip_stop w) eqn:S; [apply ND; left; apply B; reflexivity|apply NR; exact Logic.I].
      * destruct (ip_event w); [|destruct k]; apply NR; exact Logic.I.
      * constructor; cbn [ireg_to ip_from ip_replies ip_stop ip_main ip_reg]; auto.
      * destruct (ip_event w) eqn:V; [apply NR; exact Logic.I|]. apply ND. unfold without_nat. destruct (ip_from w); [|exact Logic.I].
        assert (none_on (h ++ [IRegGoes sent])) as X.
        { right. left. exists h, [], sent. split; [reflexivity|]. rewrite <- Ew. auto. }
        destruct (tr_use_rtr r) as [[|]|]; exact X.
      * destruct (ip_replies w); apply NR; exact Logic.I.
      * apply ND. unfold compare_addrs. destruct (nth_error (ip_replies w) i) as [x|] eqn:Nx; [|exact Logic.I].
        destruct (proj1 (Forall_forall _ _) C x (nth_error_In _ _ Nx)) as [Kx Kp].
        assert (info_reply (st_msg x)) as Ix by (destruct Kx as (src & J & _); exact (Hd src _ J)).
        pose proof (looks_data x Ix) as Dx. destruct (looks x) as [| | | | | | | |mp ep g ms pr rt] eqn:Lx; try exact Logic.I.
        assert (nth_error (map st_msg (ip_replies w)) i = Some (st_msg x)) as Nm by (rewrite nth_error_map, Nx; reflexivity).
        destruct (negb (addr_same g pr) || negb (ep =? 4342)) eqn:Sn.
        -- exists (st_msg x), (st_priv x), (LNat mp ep g ms pr rt). apply (seen_spec mp ep g ms pr rt) in Sn. auto.
        -- assert (~ nat_seen (LNat mp ep g ms pr rt)) as Ns by (intros X; apply (seen_spec mp ep g ms pr rt) in X; congruence).
           unfold without_nat. destruct (ip_from w); [|exact Logic.I].
           destruct (tr_use_rtr r) as [[|]|] eqn:U.
           ++ exists (st_msg x), (st_priv x), (LNat mp ep g ms pr rt). auto.
           ++ right. right. exists (st_msg x), (st_priv x), (LNat mp ep g ms pr rt). repeat (split; [assumption|]). congruence.
           ++ right. right. exists (st_msg x), (st_priv x), (LNat mp ep g ms pr rt). repeat (split; [assumption|]). congruence.
      * constructor; rewrite ?R; auto.
Qed.

(** ** While nothing is half recorded *)
Definition mid (a : imain_at) : Prop := a = IReading \/ exists f, a = IPatching f.
Definition raw_last (l : list stored) : Prop := exists l' x, l = l' ++ [x] /\ st_priv x = None.
Definition own_last (l : list stored) : Prop := exists l' x f, l = l' ++ [x] /\ st_priv x = Some f.
Definition own_at (l : list stored) (i : nat) : Prop := exists x f, nth_error l i = Some x /\ st_priv x = Some f.
Record inv2 (h : list imove) (w : ipair) : Prop := {
  e_from : ip_event w = true \/ ip_main w = ISetting \/ (exists f, ip_main w = IPatching f) -> ip_from w <> None;
  e_none : match ip_reg w with IAssigning _ None => False | _ => True end;
  e_mid : mid (ip_main w) -> raw_last (ip_replies w);
  e_set : ip_main w = ISetting -> own_last (ip_replies w);
  e_last : ip_event w = true -> own_last (ip_replies w) \/ mid (ip_main w);
  e_reg : match ip_reg w with
          | IFetching => ip_event w = true
          | IComparing i => ip_event w = true /\ (own_at (ip_replies w) i \/ mid (ip_main w) /\ S i = length (ip_replies w))
          | _ => True end }.
Lemma own_more l l' i : own_at l i -> own_at (l ++ l') i.
Proof. intros (x & f & A & B). exists x, f. split; [rewrite nth_error_app1; [exact A|apply nth_error_Some; congruence]|exact B]. Qed.
Lemma own_patch l i f : raw_last l -> own_at l i -> own_at (patch_last f l) i.
Proof.
  intros (l' & x & -> & Rx) (y & g & A & B). rewrite patch_app. exists y, g. split; [|exact B].
  destruct (Nat.lt_ge_cases i (length l')) as [L|L].
  - rewrite nth_error_app1 in * by exact L. exact A.
  - exfalso. rewrite nth_error_app2 in A by exact L. destruct (i - length l')%nat as [|k]; [injection A as <-; congruence|destruct k; discriminate].
Qed.
Lemma own_last_at l : own_last l -> own_at l (length l - 1).
Proof.
  intros (l' & x & f & -> & E). exists x, f. split; [|exact E]. rewrite app_length. cbn [length].
  replace (length l' + 1 - 1)%nat with (length l') by lia. rewrite nth_error_app2 by lia. rewrite Nat.sub_diag. reflexivity.
Qed.
Lemma can_prefix h x : can_send r nonce (h ++ [x]) -> can_send r nonce h.
Proof. intros C h1 h2 k E. apply (C h1 (h2 ++ [x])). rewrite E, <- app_assoc. reflexivity. Qed.
Lemma settled_prefix h x : settled r nonce (h ++ [x]) -> settled r nonce h.
Proof. intros C h1 h2 y i E. apply (C h1 (h2 ++ [x]) y). rewrite E, <- app_assoc. reflexivity. Qed.
Ltac fields := cbn [main_at ireg_to ip_from ip_replies ip_event ip_stop ip_main ip_reg ip_listed].
Lemma inv2_run h : can_send r nonce h -> inv2 h (run h).
Proof.
  induction h as [|m h IH] using rev_ind; intros Cs.
  - constructor; cbn; auto; try discriminate; try (intros [X|[X|[f X]]]; discriminate). intros [X|[f X]]; discriminate.
  - rewrite run_app. pose proof (IH (can_prefix _ _ Cs)) as [A N M St L G]. remember (run h) as w eqn:Ew.
    assert (NM : ~ mid IElsewhere) by (intros [X|[f X]]; discriminate).
    assert (NT : forall s x, ~ mid (ITesting s x)) by (intros s x [X|[f X]]; discriminate).
    assert (NS : forall x, ~ mid (IStoring x)) by (intros x [X|[f X]]; discriminate).
    assert (NSt : ~ mid ISetting) by (intros [X|[f X]]; discriminate).
    destruct m as [src x| | |sent]; cbn [imove_step].
    + destruct (ip_main w) eqn:Em; [destruct (ip_listed w)|..]; try (constructor; rewrite ?Em; auto; fail).
      constructor; fields; auto.
      * intros [X|[X|[f X]]]; try discriminate. apply A. auto.
      * intros X. destruct (NT _ _ X).
      * discriminate.
      * intros X. destruct (L X) as [Y|Y]; [left; exact Y|destruct (NM Y)].
      * destruct (ip_reg w); auto. destruct G as [G1 [G2|[G2 _]]]; [auto|destruct (NM G2)].
    + unfold imain_goes. destruct (ip_main w) as [|src x|x| |f|] eqn:Em; try (constructor; rewrite ?Em; auto; fail).
      * assert (forall a, (a = IElsewhere \/ a = IStoring x) -> inv2 (h ++ [IMainGoes]) (main_at w a)) as K.
        { intros a Ha. assert (~ mid a) as Na by (destruct Ha as [-> | ->]; auto).
          constructor; fields; auto.
          - intros [X|[X|[f X]]]; [apply A; auto|destruct Ha as [-> | ->]; discriminate..].
          - intros X. contradiction.
          - intros X. destruct Ha as [-> | ->]; discriminate.
          - intros X. destruct (L X) as [Y|Y]; [left; exact Y|destruct (NT _ _ Y)].
          - destruct (ip_reg w); auto. destruct G as [G1 [G2|[G2 _]]]; [auto|destruct (NT _ _ G2)]. }
        apply K. destruct (reply_matches r nonce src x); auto.
      * constructor; fields; auto.
        -- intros [X|[X|[f X]]]; try discriminate. apply A. auto.
        -- intros _. exists (ip_replies w), (Stored x None). auto.
        -- discriminate.
        -- intros _. right. left. reflexivity.
        -- destruct (ip_reg w); auto. destruct G as [G1 [G2|[G2 _]]]; [split; [exact G1|left; apply own_more, G2]|destruct (NS _ G2)].
      * destruct (ip_from w) as [f|] eqn:F.
        -- constructor; fields; auto; try congruence.
           ++ intros _. apply M. left. reflexivity.
           ++ intros _. right. right. eauto.
           ++ destruct (ip_reg w); auto. destruct G as [G1 [G2|[_ G2]]]; [auto|]. split; [exact G1|]. right. split; [right; eauto|exact G2].
        -- assert (ip_event w = false) as Ev by (destruct (ip_event w); auto; destruct (A (or_introl eq_refl) eq_refl)).
           constructor; fields; auto; try congruence.
           ++ intros [X|[X|[f X]]]; congruence.
           ++ destruct (ip_reg w); auto. destruct G as [G1 _]. congruence.
      * assert (R : raw_last (ip_replies w)) by (apply M; right; eauto).
        assert (O : own_last (patch_last f (ip_replies w))).
        { destruct R as (l & y & -> & Ry). rewrite patch_app. exists l, (Stored (st_msg y) (Some f)), f. auto. }
        constructor; fields; auto.
        -- intros _. apply A. right. right. eauto.
        -- intros X. destruct (NSt X).
        -- destruct (ip_reg w); auto. destruct G as [G1 [G2|[_ G2]]]; (split; [exact G1|left]); [apply own_patch; assumption|].
           replace i with (length (patch_last f (ip_replies w)) - 1)%nat; [apply own_last_at; exact O|]. rewrite patch_length. lia.
      * constructor; fields; auto.
        -- intros X. destruct (NM X).
        -- destruct (ip_reg w); auto. destruct G as [_ [G2|[G2 _]]]; [auto|destruct (NSt G2)].
    + constructor; fields; auto.
    + assert (NR : forall a, (match a with IAssigning _ None | IFetching | IComparing _ => False | _ => True end) -> inv2 (h ++ [IRegGoes sent]) (ireg_to w a)).
      { intros a Ha. constructor; fields; auto; destruct a as [|k [f|]| | | | | | | |]; auto; destruct Ha. }
      unfold ireg_goes. destruct (ip_reg w) as [k|k f|k|k|k| | | |i|v] eqn:R.
      * destruct sent as [[f|]|e]; [apply NR; exact Logic.I| |apply NR; exact Logic.I].
        destruct (Cs h [] k eq_refl). rewrite <- Ew. exact R.
      * destruct f as [f|]; [|destruct N]. constructor; fields; auto. discriminate.
      * apply NR. exact Logic.I.
      * destruct (ip_stop w); apply NR; exact Logic.I.
      * destruct (ip_event w); [|destruct k]; apply NR; exact Logic.I.
      * constructor; fields; auto.
      * destruct (ip_event w) eqn:V; [|apply NR; exact Logic.I]. constructor; fields; auto.
      * destruct (ip_replies w) as [|y l] eqn:El; [apply NR; exact Logic.I|]. rewrite <- El in *. constructor; fields; auto.
        split; [exact G|]. destruct (L G) as [X|X]; [left; apply own_last_at, X|right]. split; [exact X|]. rewrite El. cbn [length]. lia.
      * apply NR. exact Logic.I.
      * constructor; fields; rewrite ?R; auto.
Qed.

Definition some_own (h : list imove) (l : list stored) (i : nat) : Prop :=
  exists x f, nth_error l i = Some x /\ st_priv x = Some f /\ (nat_seen (looks x) \/ tr_use_rtr r = Some true).
Definition none_own (h : list imove) : Prop :=
  In IAskStop h \/ undecided r nonce h \/
  exists m f d, ireplied r nonce h m /\ isent r nonce h f /\ nat_data m (Some f) d /\ ~ nat_seen d /\ tr_use_rtr r <> Some true.
Lemma none_own_mono h x : none_own h -> none_own (h ++ [x]).
Proof.
  intros [A|[A|(m & p & d & A & B & C)]]; [left; apply in_or_app; auto|right; left; apply undecided_mono, A|].
  right. right. exists m, p, d. split; [apply replied_mono, A|]. split; [apply sent_mono, B|exact C].
Qed.
Lemma done_run h : replies_in h -> can_send r nonce h -> settled r nonce h ->
  match ip_reg (run h) with
  | IDone (Ok (Some i)) => some_own h (ip_replies (run h)) i
  | IDone (Ok None) => none_own h
  | _ => True end.
Proof.
  induction h as [|m h IH] using rev_ind; intros Hd Cs Se; [exact Logic.I|].
  assert (Hd' : replies_in h) by (intros src x J; apply (Hd src x), in_or_app; auto).
  specialize (IH Hd' (can_prefix _ _ Cs) (settled_prefix _ _ Se)). rewrite run_app.
  pose proof (inv_run h Hd') as I1. pose proof (inv2_run h (can_prefix _ _ Cs)) as I2. remember (run h) as w eqn:Ew.
  destruct m as [src x| | |sent]; cbn [imove_step].
  - destruct (ip_main w) eqn:Em; [destruct (ip_listed w)|..]; fields; (destruct (ip_reg w) as [| | | | | | | | |[[i|]|]]; auto; try (apply none_own_mono, IH)).
  - unfold imain_goes. destruct (ip_main w) as [|src x|x| |f|] eqn:Em; fields;
      (destruct (ip_reg w) as [| | | | | | | | |[[i|]|]]; auto; try (apply none_own_mono, IH)).
    + destruct IH as (y & g & A & B & C). exists y, g. split; [rewrite nth_error_app1; [exact A|apply nth_error_Some; congruence]|auto].
    + destruct IH as (y & g & A & B & C). exists y, g. split; [|auto].
      destruct (e_mid _ _ I2) as (l' & z & E & Rz); [right; exists f; exact Em|]. rewrite E in *. rewrite patch_app.
      destruct (Nat.lt_ge_cases i (length l')) as [L|L].
      * rewrite nth_error_app1 in * by exact L. exact A.
      * exfalso. rewrite nth_error_app2 in A by exact L. destruct (i - length l')%nat as [|k]; [injection A as <-; congruence|destruct k; discriminate].
  - fields. destruct (ip_reg w) as [| | | | | | | | |[[i|]|]]; auto. apply none_own_mono, IH.
  - unfold ireg_goes. destruct (ip_reg w) as [k|k f|k|k|k| | | |i|v] eqn:R; fields; auto.
    + destruct sent; fields; auto.
    + destruct (ip_stop w) eqn:S; fields; auto. left. apply in_or_app. left. apply (v_stop _ _ I1). exact S.
    + destruct (ip_event w); [|destruct k]; fields; auto.
    + destruct (ip_event w) eqn:V; fields; auto. unfold without_nat. destruct (ip_from w); [|exact Logic.I].
      assert (none_own (h ++ [IRegGoes sent])) as X.
      { right. left. exists h, [], sent. split; [reflexivity|]. rewrite <- Ew. auto. }
      destruct (tr_use_rtr r) as [[|]|]; exact X.
    + destruct (ip_replies w); fields; auto.
    + pose proof (e_reg _ _ I2) as G. rewrite R in G. destruct G as [_ G].
      assert (own_at (ip_replies w) i) as (x & f & Nx & Px).
      { destruct G as [G|[G _]]; [exact G|]. exfalso. destruct (Se h [] sent i eq_refl) as [S1 S2]; [rewrite <- Ew; exact R|].
        rewrite <- Ew in *. destruct G as [G|[f G]]; [exact (S1 G)|exact (S2 f G)]. }
      unfold compare_addrs. rewrite Nx. destruct (proj1 (Forall_forall _ _) (v_objs _ _ I1) x (nth_error_In _ _ Nx)) as [Kx Kp]. rewrite Px in Kp.
      assert (info_reply (st_msg x)) as Ix by (destruct Kx as (src & J & _); exact (Hd' src _ J)).
      pose proof (looks_data x Ix) as Dx. rewrite Px in Dx. destruct (looks x) as [| | | | | | | |mp ep g ms pr rt] eqn:Lx; try exact Logic.I.
      destruct (negb (addr_same g pr) || negb (ep =? 4342)) eqn:Sn.
      * exists x, f. rewrite Lx. apply (seen_spec mp ep g ms pr rt) in Sn. auto.
      * assert (~ nat_seen (LNat mp ep g ms pr rt)) as Ns by (intros X; apply (seen_spec mp ep g ms pr rt) in X; congruence).
        assert (tr_use_rtr r <> Some true -> none_own (h ++ [IRegGoes sent])) as W.
        { intros U. right. right. exists (st_msg x), f, (LNat mp ep g ms pr rt). split; [apply replied_mono, Kx|]. split; [apply sent_mono, Kp|]. auto. }
        unfold without_nat. destruct (ip_from w); [|exact Logic.I].
        destruct (tr_use_rtr r) as [[|]|] eqn:U.
        -- exists x, f. auto.
        -- apply W. congruence.
        -- apply W. congruence.
    + rewrite R. destruct v as [[i|]|]; auto. apply none_own_mono, IH.
Qed.

(** ** One answer only *)
Definition is_answer (m : imove) : bool := match m with IHear src x => reply_matches r nonce src x | _ => false end.
Definition answers (h : list imove) : nat := length (filter is_answer h).
Definition busy (a : imain_at) : bool := match a with IElsewhere => false | ITesting src x => reply_matches r nonce src x | _ => true end.
Lemma answers_app h m : answers (h ++ [m]) = (answers h + if is_answer m then 1 else 0)%nat.
Proof. unfold answers. rewrite filter_app, app_length. cbn [filter]. destruct (is_answer m); reflexivity. Qed.
Lemma count_run h : let w := run h in ((if ip_event w then 1 else 0) + (if busy (ip_main w) then 1 else 0) <= answers h)%nat /\
  match ip_reg w with IFetching | IComparing _ => ip_event w = true | _ => True end.
Proof.
  cbv zeta. induction h as [|m h IH] using rev_ind; [split; [cbn; lia|exact Logic.I]|]. rewrite run_app, answers_app. destruct IH as [C G]. remember (run h) as w eqn:Ew. clear Ew.
  destruct m as [src x| | |sent]; cbn [imove_step is_answer].
  - destruct (ip_main w) eqn:Em; [destruct (ip_listed w)|..]; fields; rewrite ?Em in *; cbn [busy] in *; (split; [|exact G]); lia.
  - unfold imain_goes. destruct (ip_main w) as [|src x|x| |f|] eqn:Em; fields; rewrite ?Em in *; cbn [busy] in *.
    + split; [lia|exact G].
    + split; [|exact G]. destruct (reply_matches r nonce src x); cbn [busy]; lia.
    + split; [lia|exact G].
    + split; [|exact G]. destruct (ip_from w); cbn [busy]; lia.
    + split; [lia|exact G].
    + split; [destruct (ip_event w); lia|]. destruct (ip_reg w); auto.
  - fields. split; [lia|exact G].
  - assert (forall a, match a with IFetching | IComparing _ => ip_event w = true | _ => True end ->
      ((if ip_event (ireg_to w a) then 1 else 0) + (if busy (ip_main (ireg_to w a)) then 1 else 0) <= answers h + 0)%nat /\
      match ip_reg (ireg_to w a) with IFetching | IComparing _ => ip_event (ireg_to w a) = true | _ => True end) as K.
    { intros a Ha. fields. split; [lia|exact Ha]. }
    unfold ireg_goes. destruct (ip_reg w) as [k|k f|k|k|k| | | |i|v] eqn:R.
    + destruct sent; apply K; exact Logic.I.
    + fields. split; [lia|exact Logic.I].
    + apply K; exact Logic.I.
    + destruct (ip_stop w); apply K; exact Logic.I.
    + assert (forall b : bool, (if b then ireg_to w IRemoving else match k with O => ireg_to w IRemoving | S k => ireg_to w (ISending k) end) = ireg_to w (if b then IRemoving else match k with O => IRemoving | S k => ISending k end)) as -> by (intros []; [reflexivity|destruct k; reflexivity]). apply K. destruct (ip_event w); [|destruct k]; exact Logic.I.
    + fields. split; [lia|exact Logic.I].
    + assert (forall b : bool, (if b then ireg_to w IFetching else ireg_to w (IDone (without_nat r w None))) = ireg_to w (if b then IFetching else IDone (without_nat r w None))) as -> by (intros []; reflexivity). apply K. destruct (ip_event w); [reflexivity|exact Logic.I].
    + destruct (ip_replies w); apply K; auto.
    + apply K; exact Logic.I.
    + rewrite R. split; [lia|exact Logic.I].
Qed.
Lemma answers_two h : (2 <= answers h)%nat -> two_replies r nonce h.
Proof.
  intros H. assert (forall l, (1 <= answers l)%nat -> exists a s x b, l = a ++ IHear s x :: b /\ reply_for r nonce s x /\ S (answers b) = answers l) as One.
  { induction l as [|m l IH]; [cbn; lia|]. unfold answers. cbn [filter]. destruct (is_answer m) eqn:E.
    - intros _. destruct m as [s x| | |]; try discriminate. exists [], s, x, l. split; [reflexivity|]. split; [apply matches_for, E|reflexivity].
    - intros L. destruct (IH L) as (a & s & x & b & -> & F & C). exists (m :: a), s, x, b. split; [reflexivity|]. split; [exact F|exact C]. }
  destruct (One h) as (a & s1 & x1 & b & -> & F1 & C1); [lia|]. destruct (One b) as (b1 & s2 & x2 & c & -> & F2 & C2); [lia|].
  exists a, s1, x1, b1, s2, x2, c. auto.
Qed.
Lemma single_settled h : ~ two_replies r nonce h -> settled r nonce h.
Proof.
  intros T h1 h2 x i E Ci. assert (~ (2 <= answers h1)%nat) as N.
  { intros C. apply T. destruct (answers_two _ C) as (a & s1 & m1 & b & s2 & m2 & c & -> & F). exists a, s1, m1, b, s2, m2, (c ++ IRegGoes x :: h2).
    split; [|exact F]. rewrite E. rewrite <- app_assoc. cbn [app]. rewrite <- app_assoc. reflexivity. }
  destruct (count_run h1) as [C G]. rewrite Ci in G. rewrite G in C.
  split; [intros M|intros f M]; rewrite M in C; cbn [busy] in C; lia.
Qed.
End P.

(** ** C128 *)
Theorem C128_verdict r nonce h : (forall src m, In (IHear src m) h -> info_reply m) ->
  match ip_reg (irace r nonce h) with
  | IDone (Ok (Some i)) => exists m p d, ireplied r nonce h m /\ (p = None \/ exists f, p = Some f /\ isent r nonce h f) /\ nat_data m p d /\
      (nat_seen d \/ tr_use_rtr r = Some true) /\ exists x, nth_error (ip_replies (irace r nonce h)) i = Some x /\ st_msg x = m
  | IDone (Ok None) => In IAskStop h \/ undecided r nonce h \/
      exists m p d, ireplied r nonce h m /\ (p = None \/ exists f, p = Some f /\ isent r nonce h f) /\ nat_data m p d /\ ~ nat_seen d /\ tr_use_rtr r <> Some true
  | _ => True
  end.
Proof.
  intros Hd. pose proof (inv_run r nonce h Hd) as [_ _ O _ G]. destruct (ip_reg (irace r nonce h)) as [| | | | | | | | |[[i|]|]]; auto.
  - destruct G as (m & p & d & A & B & C & D). rewrite nth_error_map in A. destruct (nth_error (ip_replies (irace r nonce h)) i) as [x|] eqn:E; [|discriminate].
    injection A as A. exists m, p, d. split; [rewrite <- A; exact (proj1 (proj1 (Forall_forall _ _) O x (nth_error_In _ _ E)))|].
    split; [destruct p; [right; eauto|left; reflexivity]|]. split; [exact C|]. split; [exact D|]. exists x. auto.
  - destruct G as [G|[G|(m & p & d & A & B & C)]]; [left; exact G|right; left; exact G|]. right. right. exists m, p, d. split; [exact A|].
    split; [destruct p; [right; eauto|left; reflexivity]|exact C].
Qed.
Theorem C128_settled_partial r nonce h : (forall src m, In (IHear src m) h -> info_reply m) -> can_send r nonce h -> settled r nonce h ->
  match ip_reg (irace r nonce h) with
  | IDone (Ok (Some i)) => exists m f d, ireplied r nonce h m /\ isent r nonce h f /\ nat_data m (Some f) d /\
      (nat_seen d \/ tr_use_rtr r = Some true) /\ returned (irace r nonce h) i d
  | IDone (Ok None) => In IAskStop h \/ undecided r nonce h \/
      exists m f d, ireplied r nonce h m /\ isent r nonce h f /\ nat_data m (Some f) d /\ ~ nat_seen d /\ tr_use_rtr r <> Some true
  | _ => True
  end.
Proof.
  intros Hd Cs Se. pose proof (inv_run r nonce h Hd) as [_ _ O _ _]. pose proof (done_run r nonce h Hd Cs Se) as G.
  destruct (ip_reg (irace r nonce h)) as [| | | | | | | | |[[i|]|]]; auto.
  destruct G as (x & f & A & B & C). destruct (proj1 (Forall_forall _ _) O x (nth_error_In _ _ A)) as [K1 K2]. rewrite B in K2.
  exists (st_msg x), f, (looks x). split; [exact K1|]. split; [exact K2|]. split.
  - rewrite <- B. apply looks_data. destruct K1 as (src & J & _). exact (Hd src _ J).
  - split; [exact C|]. exists x. auto.
Qed.
(** two answers must be at hand for one of them to be looked at half recorded *)
Theorem C128_needs_two r nonce h : ~ two_replies r nonce h -> settled r nonce h.
Proof. apply single_settled. Qed.

(** ** Not so in general: the Map-Server answers twice that there is no NAT, and a NAT is found *)
Definition ri_r : etrr := Etrr (V4, 1) 1 (B [9]) false None.
Definition ri_nonce : bytes := B [1;2;3;4;5;6;7;8].
Definition ri_m : info := Info true (repeat false 27) ri_nonce 1 [] 1440 (repeat false 8) (ANet V4 (10 * 2 ^ 24) 8) (LNat 0 4342 (AIP V4 10) (AIP V4 1) (AIP V4 0) []).
Definition ri_go : imove := IRegGoes (Ok None).
Definition ri_send : imove := IRegGoes (Ok (Some (V4, 10))).
Definition ri_hear : imove := IHear (V4, 1) ri_m.
Definition ri_history : list imove :=
  [ri_send; ri_go; ri_hear; IMainGoes; IMainGoes; IMainGoes; IMainGoes; IMainGoes; ri_hear; IMainGoes; IMainGoes;
   ri_go; ri_go; ri_go; ri_go; ri_go; ri_go; ri_go].
(** the same two answers, the second one recorded in time *)
Definition ri_orderly : list imove :=
  [ri_send; ri_go; ri_hear; IMainGoes; IMainGoes; IMainGoes; IMainGoes; IMainGoes; ri_hear; IMainGoes; IMainGoes; IMainGoes; IMainGoes; IMainGoes;
   ri_go; ri_go; ri_go; ri_go; ri_go; ri_go; ri_go].
Definition ri_said (m : imove) : list info := match m with IHear _ n => [n] | _ => [] end.
Lemma ri_all h : flat_map ri_said h = [ri_m; ri_m] -> forall src m, In (IHear src m) h -> m = ri_m.
Proof.
  intros E src m I. assert (In m (flat_map ri_said h)) as J by (apply in_flat_map; exists (IHear src m); split; [exact I|left; reflexivity]).
  rewrite E in J. destruct J as [J|[J|[]]]; auto.
Qed.
Lemma ri_info : info_reply ri_m.
Proof. repeat eexists. Qed.
Lemma sent_in h f : isent ri_r ri_nonce h f -> In (IRegGoes (Ok (Some f))) h.
Proof. intros (h1 & h2 & k & -> & _). apply in_or_app. right. left. reflexivity. Qed.
Fixpoint along (c : ipair -> imove -> bool) (w : ipair) (h : list imove) : bool :=
  match h with [] => true | m :: h => c w m && along c (imove_step ri_r ri_nonce w m) h end.
Lemma along_spec c h : forall w, along c w h = true -> forall h1 h2 m, h = h1 ++ m :: h2 -> c (fold_left (imove_step ri_r ri_nonce) h1 w) m = true.
Proof.
  induction h as [|x h IH]; intros w A h1 h2 m E; [destruct h1; discriminate|]. cbn [along] in A. apply andb_prop in A. destruct A as [A1 A2].
  destruct h1 as [|y h1]; injection E as <- E; [exact A1|]. cbn [fold_left]. exact (IH _ A2 h1 h2 m E).
Qed.
Definition fit_send (w : ipair) (m : imove) : bool := match m, ip_reg w with IRegGoes (Ok None), ISending _ => false | _, _ => true end.
Lemma fit_can h : along fit_send ifresh h = true -> can_send ri_r ri_nonce h.
Proof. intros A h1 h2 k E R. pose proof (along_spec _ _ _ A h1 h2 _ E) as F. unfold fit_send in F. unfold irace in R. rewrite R in F. discriminate. Qed.
Definition fit_set (w : ipair) (m : imove) : bool := match ip_reg w, ip_main w with IComparing _, (IReading | IPatching _) => false | _, _ => true end.
Lemma fit_settled h : along fit_set ifresh h = true -> settled ri_r ri_nonce h.
Proof.
  intros A h1 h2 x i E R. pose proof (along_spec _ _ _ A h1 h2 _ E) as F. unfold fit_set in F. unfold irace in R |- *. rewrite R in F.
  split; [intros M|intros f M]; rewrite M in F; discriminate.
Qed.
Definition ri_from (m : imove) : list (fam * Z) := match m with IRegGoes (Ok (Some f)) => [f] | _ => [] end.
Lemma ri_sent h f : isent ri_r ri_nonce h f -> In f (flat_map ri_from h).
Proof. intros S. apply sent_in in S. apply in_flat_map. eexists. split; [exact S|left; reflexivity]. Qed.
Theorem C128_refuted : ~ (forall r nonce h i, (forall src m, In (IHear src m) h -> info_reply m) -> can_send r nonce h -> tr_use_rtr r = None ->
  ip_reg (irace r nonce h) = IDone (Ok (Some i)) -> exists m f d, ireplied r nonce h m /\ isent r nonce h f /\ nat_data m (Some f) d /\ nat_seen d).
Proof.
  intros C. destruct (C ri_r ri_nonce ri_history 1%nat) as (m & f & d & (src & I & _) & S & (mp & ep & g & ms & p & rt & E1 & ->) & N).
  - intros src m I. rewrite (ri_all ri_history eq_refl src m I). apply ri_info.
  - apply fit_can. vm_compute. reflexivity.
  - reflexivity.
  - vm_compute. reflexivity.
  - apply (ri_all ri_history eq_refl) in I. subst m. cbn [ri_m i_data] in E1. injection E1 as <- <- <- <- <- <-.
    apply ri_sent in S. change (In f [(V4, 10)]) in S. destruct S as [<-|[]].
    cbn [fst snd] in N. apply (seen_spec 0 4342 (AIP V4 10) (AIP V4 1) (AIP V4 10) []) in N. discriminate.
Qed.
Example C128_orderly : (forall src m, In (IHear src m) ri_orderly -> info_reply m) /\ can_send ri_r ri_nonce ri_orderly /\ settled ri_r ri_nonce ri_orderly /\
  two_replies ri_r ri_nonce ri_orderly /\ ip_reg (irace ri_r ri_nonce ri_orderly) = IDone (Ok None) /\ ip_listed (irace ri_r ri_nonce ri_orderly) = false.
Proof.
  split; [intros src m I; rewrite (ri_all ri_orderly eq_refl src m I); apply ri_info|]. split; [|split; [|split]].
  - apply fit_can. vm_compute. reflexivity.
  - apply fit_settled. vm_compute. reflexivity.
  - exists [ri_send; ri_go], (V4, 1), ri_m, [IMainGoes; IMainGoes; IMainGoes; IMainGoes; IMainGoes], (V4, 1), ri_m,
      [IMainGoes; IMainGoes; IMainGoes; IMainGoes; IMainGoes; ri_go; ri_go; ri_go; ri_go; ri_go; ri_go; ri_go].
    split; [reflexivity|]. split; split; reflexivity.
  - split; vm_compute; reflexivity.
Qed.
(** one answer behind a NAT: found, with the address the request was sent from as the private one *)
Definition ri_nat : info := Info true (repeat false 27) ri_nonce 1 [] 1440 (repeat false 8) (ANet V4 (10 * 2 ^ 24) 8) (LNat 0 4342 (AIP V4 77) (AIP V4 1) (AIP V4 0) [AIP V4 5]).
Example C128_behind : let h := [ri_send; ri_go; IHear (V4, 1) ri_nat; IMainGoes; IMainGoes; IMainGoes; IMainGoes; IMainGoes; ri_go; ri_go; ri_go; ri_go; ri_go; ri_go; ri_go] in
  ip_reg (irace ri_r ri_nonce h) = IDone (Ok (Some 0%nat)) /\ returned (irace ri_r ri_nonce h) 0 (LNat 0 4342 (AIP V4 77) (AIP V4 1) (AIP V4 10) [AIP V4 5]).
Proof. cbv zeta. split; [vm_compute; reflexivity|]. eexists. split; vm_compute; reflexivity. Qed.

Print Assumptions C128_verdict.
Print Assumptions C128_settled_partial.
Print Assumptions C128_needs_two.
Print Assumptions C128_refuted.
