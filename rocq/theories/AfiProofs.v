(** * Proofs about the address codec. *)
From Verif Require Import Base BaseLemmas Afi Spec.

(** ** Induction over nested addresses *)
Section AddrInd.
  Variable P : addr -> Prop.
  Hypothesis Hnone : P ANone.
  Hypothesis Hip : forall v z, P (AIP v z).
  Hypothesis Hnet : forall v z n, P (ANet v z n).
  Hypothesis Hnull : P LNull.
  Hypothesis Hlist : forall l, Forall P l -> P (LList l).
  Hypothesis Hinst : forall i a m, P a -> P (LInst i a m).
  Hypothesis Has : forall i a, P a -> P (LAs i a).
  Hypothesis Hgeo : forall g a, P a -> P (LGeo g a).
  Hypothesis Hnat : forall mp ep g m p l, P g -> P m -> P p -> Forall P l -> P (LNat mp ep g m p l).
  Fixpoint addr_ind' (a : addr) : P a :=
    let all := fix all (l : list addr) : Forall P l :=
      match l with
      | [] => Forall_nil P
      | x :: r => Forall_cons x (addr_ind' x) (all r)
      end in
    match a with
    | ANone => Hnone
    | AIP v z => Hip v z
    | ANet v z n => Hnet v z n
    | LNull => Hnull
    | LList l => Hlist l (all l)
    | LInst i a m => Hinst i a m (addr_ind' a)
    | LAs i a => Has i a (addr_ind' a)
    | LGeo g a => Hgeo g a (addr_ind' a)
    | LNat mp ep g m p l => Hnat mp ep g m p l (addr_ind' g) (addr_ind' m) (addr_ind' p) (all l)
    end.
End AddrInd.

Lemma fam_eqb_spec a b : fam_eqb a b = true <-> a = b.
Proof. destruct a, b; cbn; split; congruence. Qed.

Lemma fam_eqb_refl a : fam_eqb a a = true.
Proof. destruct a; reflexivity. Qed.

(** ** Fuel *)
Lemma rd_all_ext rd1 rd2 n s :
  (forall s', (length s' <= length s)%nat -> rd1 s' = rd2 s') ->
  (forall s' a r, rd2 s' = Ok (a, r) -> (length r <= length s')%nat) ->
  rd_all rd1 n s = rd_all rd2 n s.
Proof.
  revert s; induction n as [|n IH]; intros s Hext Hlen; destruct s as [|b s]; try reflexivity.
  cbn [rd_all]. rewrite Hext by lia.
  destruct (rd2 (b :: s)) as [[a r]|e] eqn:E; [|reflexivity]. cbn [bind].
  rewrite IH; [reflexivity| |exact Hlen].
  intros s' Hs'. apply Hext. apply Hlen in E. lia.
Qed.

Lemma rd_all_nofuel rd n s :
  (length s <= n)%nat ->
  (forall s', (length s' <= length s)%nat -> rd s' <> Err EFuel) ->
  (forall s' a r, rd s' = Ok (a, r) -> (length r < length s')%nat) ->
  rd_all rd n s <> Err EFuel.
Proof.
  revert s; induction n as [|n IH]; intros s Hn Hf Hlen; destruct s as [|b s];
    cbn [rd_all length] in *; try discriminate; try lia.
  destruct (rd (b :: s)) as [[a r]|e] eqn:E; cbn [bind].
  - pose proof (Hlen _ _ _ E) as Hr. cbn [length] in Hr.
    specialize (IH r). destruct (rd_all rd n r) eqn:E2; cbn [bind]; [discriminate|].
    intros Habs; injection Habs as ->. apply IH; auto; try lia.
    intros s' Hs'. apply Hf. lia.
  - specialize (Hf (b :: s)). cbn [length] in Hf. intros Habs; injection Habs as ->.
    apply Hf; [lia|exact E].
Qed.

Lemma afi_body_consumes rd pl s a r :
  afi_body rd pl s = Ok (a, r) -> exists c, s = c ++ r /\ (16 <= length c)%nat.
Proof.
  unfold afi_body. intros H. apply bind_ok in H; destruct H as [[afi s1] [E H]]; cbn beta iota in H. rinv.
  destruct (afi =? 0).
  { destruct pl as [n|]; [destruct (n =? 0)|]; try discriminate; okinj H;
      (eexists; split; [reflexivity|rewrite enc_length; lia]). }
  destruct (afi =? 1).
  { mon H. rinv. okinj H. rewrite app_assoc. eexists; split; [reflexivity|].
    rewrite app_length, !enc_length; lia. }
  destruct (afi =? 2).
  { mon H. rinv. okinj H. rewrite app_assoc. eexists; split; [reflexivity|].
    rewrite app_length, !enc_length; lia. }
  destruct (afi =? AFI_LCAF); [|discriminate].
  mon H. rinv. okinj H. rewrite !app_assoc. eexists; split; [reflexivity|].
  rewrite !app_length, !enc_length; lia.
Qed.

Lemma rd_afi_consumes f pl s a r :
  rd_afi f pl s = Ok (a, r) -> exists c, s = c ++ r /\ (16 <= length c)%nat.
Proof. destruct f; cbn [rd_afi]; [discriminate|]. apply afi_body_consumes. Qed.

Lemma rd_afi_len f pl s a r :
  rd_afi f pl s = Ok (a, r) -> (length r < length s)%nat.
Proof. intros H. apply rd_afi_consumes in H. destruct H as [c [-> Hc]]. rewrite app_length; lia. Qed.

Lemma rd_geo_len s g r : rd_geo s = Ok (g, r) -> (length r <= length s)%nat.
Proof.
  unfold rd_geo. intros H. mon H. rinv. okinj H.
  cbn [length]. rewrite !app_length. cbn [length]. rewrite !app_length. lia.
Qed.

Lemma lcaf_ext rd1 rd2 type pl rsvd2 data :
  (forall s', (length s' <= length data)%nat -> rd1 s' = rd2 s') ->
  (forall s' a r, rd2 s' = Ok (a, r) -> (length r < length s')%nat) ->
  lcaf_from_data rd1 type pl rsvd2 data = lcaf_from_data rd2 type pl rsvd2 data.
Proof.
  intros Hext Hlen. unfold lcaf_from_data.
  destruct (type =? 0); [reflexivity|].
  destruct (type =? 1).
  { rewrite (rd_all_ext _ (fun s => let* '(a, r) := rd2 s in let* a' := with_prefix a pl in Ok (a', r))).
    - reflexivity.
    - intros s' Hs'. rewrite Hext by exact Hs'. reflexivity.
    - intros s' a r H. mon H. okinj H. apply Hlen in E. lia. }
  destruct (type =? 2).
  { destruct (rd_uint 32 data) as [[i s]|] eqn:E; [cbn [bind]|reflexivity].
    rinv. rewrite Hext; [reflexivity|]. rewrite app_length; lia. }
  destruct (type =? 3).
  { destruct (rd_uint 32 data) as [[i s]|] eqn:E; [cbn [bind]|reflexivity].
    rinv. rewrite Hext; [reflexivity|]. rewrite app_length; lia. }
  destruct (type =? 5).
  { destruct (rd_geo data) as [[i s]|] eqn:E; [cbn [bind]|reflexivity].
    apply rd_geo_len in E. rewrite Hext; [reflexivity|lia]. }
  destruct (type =? 7); [|reflexivity].
  destruct (rd_uint 16 data) as [[mp s]|] eqn:E1; [cbn [bind]|reflexivity]. rinv.
  destruct (rd_uint 16 s) as [[ep s0]|] eqn:E1; [cbn [bind]|reflexivity]. rinv.
  rewrite !app_length in Hext.
  rewrite Hext by lia. destruct (rd2 s0) as [[g s1]|] eqn:E2; [cbn [bind]|reflexivity].
  apply Hlen in E2.
  rewrite Hext by lia. destruct (rd2 s1) as [[m s2]|] eqn:E3; [cbn [bind]|reflexivity].
  apply Hlen in E3.
  rewrite Hext by lia. destruct (rd2 s2) as [[p s3]|] eqn:E4; [cbn [bind]|reflexivity].
  apply Hlen in E4.
  rewrite (rd_all_ext rd1 rd2); [reflexivity| |].
  - intros s' Hs'. apply Hext. lia.
  - intros s' a r H. apply Hlen in H. lia.
Qed.

Lemma ip_network_nofuel a : ip_network a <> Err EFuel.
Proof.
  induction a; cbn [ip_network]; repeat match goal with |- context [if ?c then _ else _] => destruct c end; try discriminate.
  - assumption.
Qed.

Lemma with_prefix_nofuel a pl : with_prefix a pl <> Err EFuel.
Proof.
  destruct pl as [n|]; cbn [with_prefix]; [|discriminate].
  pose proof (ip_network_nofuel a) as H. destruct (ip_network a) as [net|e]; cbn [bind]; [|congruence].
  destruct net; cbn; try discriminate.
  repeat match goal with |- context [if ?c then _ else _] => destruct c; cbn end; discriminate.
Qed.

Ltac nofuel_step :=
  match goal with
  | |- bind (with_prefix ?a ?p) _ <> _ =>
      pose proof (with_prefix_nofuel a p); destruct (with_prefix a p); cbn [bind]; [|congruence]
  | |- bind (rd_uint ?n ?s) _ <> _ =>
      let E := fresh "E" in destruct (rd_uint n s) as [[? ?]|?] eqn:E; cbn [bind];
      [| let X := fresh in intros X; injection X as ->; apply rd_uint_err in E; destruct E; discriminate]
  | |- bind (rd_bits ?n ?s) _ <> _ =>
      let E := fresh "E" in destruct (rd_bits n s) as [[? ?]|?] eqn:E; cbn [bind];
      [| let X := fresh in intros X; injection X as ->; apply rd_bits_err in E; destruct E; discriminate]
  end.

Lemma rd_geo_nofuel s : rd_geo s <> Err EFuel.
Proof.
  unfold rd_geo.
  destruct s as [|b s]; cbn [rd_bool bind]; [discriminate|].
  do 3 nofuel_step. destruct b2; cbn [rd_bool bind]; [discriminate|].
  do 3 nofuel_step. unfold rd_int.
  match goal with |- context [rd_bits ?n ?s] => destruct (rd_bits n s) as [[? ?]|?] eqn:EE end; cbn [bind]; [discriminate|].
  intros X; injection X as ->. apply rd_bits_err in EE. destruct EE; discriminate.
Qed.

Lemma lcaf_nofuel rd type pl rsvd2 data :
  (forall s', (length s' <= length data)%nat -> rd s' <> Err EFuel) ->
  (forall s' a r, rd s' = Ok (a, r) -> (length r < length s')%nat) ->
  lcaf_from_data rd type pl rsvd2 data <> Err EFuel.
Proof.
  intros Hf Hlen. unfold lcaf_from_data.
  assert (forall s', (length s' <= length data)%nat ->
     (let* '(a, r) := rd s' in let* a' := with_prefix a pl in Ok (a', r)) <> Err EFuel) as Hf'.
  { intros s' Hs'. specialize (Hf s' Hs'). destruct (rd s') as [[a r]|]; cbn [bind]; [|congruence].
    nofuel_step. discriminate. }
  destruct (type =? 0); [discriminate|].
  destruct (type =? 1).
  { match goal with |- bind (rd_all ?f ?n ?s) _ <> _ =>
      assert (rd_all f n s <> Err EFuel) as Hn end.
    { apply rd_all_nofuel; [lia|exact Hf'|].
      intros s' a r H. mon H. okinj H. apply Hlen in E. lia. }
    match goal with |- bind ?x _ <> _ => destruct x; cbn [bind]; [discriminate|congruence] end. }
  assert (forall s', (length s' <= length data)%nat ->
     forall (k : addr -> addr), (let* '(a, s) := rd s' in let* a' := with_prefix a pl in Ok (k a')) <> Err EFuel) as Hk.
  { intros s' Hs' k. specialize (Hf s' Hs'). destruct (rd s') as [[a r]|]; cbn [bind]; [|congruence].
    nofuel_step. discriminate. }
  destruct (type =? 2).
  { nofuel_step. apply (Hk b (ltac:(rinv; rewrite app_length; lia)) (fun a' => LInst z a' rsvd2)). }
  destruct (type =? 3).
  { nofuel_step. apply (Hk b (ltac:(rinv; rewrite app_length; lia)) (fun a' => LAs z a')). }
  destruct (type =? 5).
  { pose proof (rd_geo_nofuel data) as Hg. destruct (rd_geo data) as [[g s]|] eqn:E; cbn [bind]; [|congruence].
    apply rd_geo_len in E. apply (Hk s (ltac:(lia)) (fun a' => LGeo g a')). }
  destruct (type =? 7); [|discriminate].
  nofuel_step. nofuel_step. rinv. rewrite !app_length in Hf.
  assert (forall s', (length s' <= length b0)%nat -> rd s' <> Err EFuel) as Hf2 by (intros; apply Hf; lia).
  clear Hf Hf' Hk. rename Hf2 into Hf.
  pose proof (Hf b0 (ltac:(lia))) as H0.
  destruct (rd b0) as [[g s1]|] eqn:E0; cbn [bind]; [|congruence]. apply Hlen in E0.
  pose proof (Hf s1 (ltac:(lia))) as H1.
  destruct (rd s1) as [[m s2]|] eqn:E1; cbn [bind]; [|congruence]. apply Hlen in E1.
  pose proof (Hf s2 (ltac:(lia))) as H2.
  destruct (rd s2) as [[p s3]|] eqn:E2; cbn [bind]; [|congruence]. apply Hlen in E2.
  assert (rd_all rd (length s3) s3 <> Err EFuel) as Hn.
  { apply rd_all_nofuel; [lia| |exact Hlen]. intros; apply Hf; lia. }
  match goal with |- bind ?x _ <> _ => destruct x; cbn [bind]; [discriminate|congruence] end.
Qed.

Lemma afi_body_ext rd1 rd2 pl s :
  (forall s', (length s' < length s)%nat -> rd1 s' = rd2 s') ->
  (forall s' a r, rd2 s' = Ok (a, r) -> (length r < length s')%nat) ->
  afi_body rd1 pl s = afi_body rd2 pl s.
Proof.
  intros Hext Hlen. unfold afi_body.
  destruct (rd_uint 16 s) as [[afi s0]|] eqn:E; cbn [bind]; [|reflexivity]. rinv.
  destruct (afi =? 0); [reflexivity|]. destruct (afi =? 1); [reflexivity|].
  destruct (afi =? 2); [reflexivity|]. destruct (afi =? AFI_LCAF); [|reflexivity].
  repeat match goal with
  | |- bind (rd_uint ?n ?s) _ = _ =>
      let E := fresh "E" in destruct (rd_uint n s) as [[? ?]|] eqn:E; cbn [bind]; [|reflexivity]
  | |- bind (rd_bits ?n ?s) _ = _ =>
      let E := fresh "E" in destruct (rd_bits n s) as [[? ?]|] eqn:E; cbn [bind]; [|reflexivity]
  end.
  rinv. rewrite (lcaf_ext rd1 rd2); [reflexivity| |exact Hlen].
  intros s' Hs'. apply Hext. rewrite !app_length, !enc_length. lia.
Qed.

Lemma afi_body_nofuel rd pl s :
  (forall s', (length s' < length s)%nat -> rd s' <> Err EFuel) ->
  (forall s' a r, rd s' = Ok (a, r) -> (length r < length s')%nat) ->
  afi_body rd pl s <> Err EFuel.
Proof.
  intros Hf Hlen. unfold afi_body. nofuel_step. rinv.
  destruct (z =? 0). { destruct pl as [n|]; [destruct (n =? 0)|]; discriminate. }
  destruct (z =? 1). { repeat nofuel_step. discriminate. }
  destruct (z =? 2). { repeat nofuel_step. discriminate. }
  destruct (z =? AFI_LCAF); [|discriminate].
  repeat nofuel_step. rinv.
  match goal with |- bind (lcaf_from_data rd ?a pl ?b ?c) _ <> _ =>
    assert (lcaf_from_data rd a pl b c <> Err EFuel) as Hlf end.
  { apply lcaf_nofuel; [|exact Hlen]. intros s' Hs'. apply Hf. rewrite !app_length, !enc_length. lia. }
  match goal with |- bind ?x _ <> _ => destruct x; cbn [bind]; [discriminate|congruence] end.
Qed.

Lemma rd_afi_indep f1 f2 pl s :
  (length s < f1)%nat -> (length s < f2)%nat -> rd_afi f1 pl s = rd_afi f2 pl s.
Proof.
  revert f2 pl s; induction f1 as [|f1 IH]; intros [|f2] pl s H1 H2; try lia.
  cbn [rd_afi]. apply afi_body_ext.
  - intros s' Hs'. apply IH; lia.
  - intros s' a r. apply rd_afi_len.
Qed.

Lemma rd_afi_nofuel f pl s : (length s < f)%nat -> rd_afi f pl s <> Err EFuel.
Proof.
  revert pl s; induction f as [|f IH]; intros pl s H; [lia|]. cbn [rd_afi].
  apply afi_body_nofuel.
  - intros s' Hs'. apply IH; lia.
  - intros s' a r. apply rd_afi_len.
Qed.

(** The fuel-free reading equation of [read_afi]. *)
Lemma read_afi_eq pl s : read_afi pl s = afi_body (read_afi None) pl s.
Proof.
  unfold read_afi at 1. cbn [rd_afi]. apply afi_body_ext.
  - intros s' Hs'. unfold read_afi. apply rd_afi_indep; lia.
  - intros s' a r. apply rd_afi_len.
Qed.

Lemma read_afi_nofuel pl s : read_afi pl s <> Err EFuel.
Proof. apply rd_afi_nofuel; lia. Qed.

Lemma read_afi_len pl s a r : read_afi pl s = Ok (a, r) -> (length r < length s)%nat.
Proof. apply rd_afi_len. Qed.

(** ** Shapes of encodings *)
Lemma concatM_ok {A B} (f : A -> res (list B)) l b :
  concatM f l = Ok b <-> exists bs, Forall2 (fun x y => f x = Ok y) l bs /\ b = concat bs.
Proof.
  unfold concatM. split.
  - intros H. mon1 H. okinj H. apply mapM_Forall2 in E. eauto.
  - intros [bs [H ->]]. apply mapM_Forall2 in H. rewrite H. reflexivity.
Qed.

Lemma lcaf_wrap_ok type rsvd2 data b :
  lcaf_wrap type rsvd2 data = Ok b <->
  exists d, data = Ok d /\ 0 <= type < 2 ^ Z.of_nat 8 /\ 0 <= rsvd2 < 2 ^ Z.of_nat 8 /\
    0 <= Z.of_nat (length d) / 8 < 2 ^ Z.of_nat 16 /\
    b = enc 16 AFI_LCAF ++ zeros 8 ++ zeros 8 ++ enc 8 type ++ enc 8 rsvd2 ++
        enc 16 (Z.of_nat (length d) / 8) ++ d.
Proof.
  unfold lcaf_wrap. split.
  - intros H. mon H. winv. subst. okinj H. eauto 10.
  - intros [d [-> [H1 [H2 [H3 ->]]]]]. wrun. reflexivity.
Qed.

Lemma w_afi_len8 a b : w_afi a = Ok b -> exists n, length b = (8 * n)%nat /\ (2 <= n)%nat.
Proof.
  revert b. induction a using addr_ind'; intros b Hb; cbn [w_afi] in Hb.
  - okinj Hb. exists 2%nat. split; [reflexivity|lia].
  - mon Hb. winv. okinj Hb. rewrite app_length, !enc_length.
    destruct v; [exists 6%nat | exists 18%nat]; split; (reflexivity || lia).
  - mon Hb. winv. okinj Hb. rewrite app_length, !enc_length.
    destruct v; [exists 6%nat | exists 18%nat]; split; (reflexivity || lia).
  - apply lcaf_wrap_ok in Hb. destruct Hb as [d [Hd [_ [_ [_ ->]]]]]. okinj Hd.
    exists 8%nat. split; [reflexivity|lia].
  - apply lcaf_wrap_ok in Hb. destruct Hb as [d [Hd [_ [_ [_ ->]]]]].
    apply concatM_ok in Hd. destruct Hd as [bs [Hbs ->]].
    assert (exists n, length (concat bs) = (8 * n)%nat) as [n Hn].
    { clear - H Hbs. revert bs Hbs; induction H as [|x l Hx Hl IH]; intros bs Hbs; inversion Hbs; subst.
      - exists 0%nat; reflexivity.
      - destruct (Hx _ H1) as [n [Hn _]]. destruct (IH _ H3) as [m Hm].
        exists (n + m)%nat. cbn. rewrite app_length. lia. }
    exists (8 + n)%nat. rewrite !app_length, !enc_length, zeros_length. lia.
  - apply lcaf_wrap_ok in Hb. destruct Hb as [d [Hd [_ [_ [_ ->]]]]]. mon Hd. winv. okinj Hd.
    destruct (IHa _ E0) as [n [Hn _]]. exists (12 + n)%nat.
    rewrite !app_length, !enc_length, zeros_length. lia.
  - apply lcaf_wrap_ok in Hb. destruct Hb as [d [Hd [_ [_ [_ ->]]]]]. mon Hd. winv. okinj Hd.
    destruct (IHa _ E0) as [n [Hn _]]. exists (12 + n)%nat.
    rewrite !app_length, !enc_length, zeros_length. lia.
  - apply lcaf_wrap_ok in Hb. destruct Hb as [d [Hd [_ [_ [_ ->]]]]]. mon Hd.
    destruct (IHa _ E0) as [n [Hn _]]. unfold w_geo in E. mon E. winv. okinj E. okinj Hd.
    exists (20 + n)%nat.
    repeat rewrite ?app_length, ?enc_length, ?zeros_length; cbn [length];
      repeat rewrite ?app_length, ?enc_length, ?zeros_length. lia.
  - apply lcaf_wrap_ok in Hb. destruct Hb as [d [Hd [_ [_ [_ ->]]]]]. mon Hd. winv. okinj Hd.
    destruct (IHa1 _ E1) as [n1 [Hn1 _]]. destruct (IHa2 _ E2) as [n2 [Hn2 _]].
    destruct (IHa3 _ E3) as [n3 [Hn3 _]].
    apply concatM_ok in E4. destruct E4 as [bs [Hbs ->]].
    assert (exists n, length (concat bs) = (8 * n)%nat) as [n Hn].
    { clear - H Hbs. revert bs Hbs; induction H as [|x l Hx Hl IH]; intros bs Hbs; inversion Hbs; subst.
      - exists 0%nat; reflexivity.
      - destruct (Hx _ H1) as [n [Hn _]]. destruct (IH _ H3) as [m Hm].
        exists (n + m)%nat. cbn. rewrite app_length. lia. }
    exists (12 + n1 + n2 + n3 + n)%nat. rewrite !app_length, !enc_length, zeros_length. lia.
Qed.

Lemma len8_div (d : bits) n : length d = (8 * n)%nat -> (Z.to_nat (Z.of_nat (length d) / 8) * 8)%nat = length d.
Proof.
  intros ->. replace (Z.of_nat (8 * n)) with (Z.of_nat n * 8) by lia.
  rewrite Z.div_mul by lia. lia.
Qed.

(** Reading a wrapped LCAF back. *)
Lemma read_lcaf_eq type rsvd2 d n pl t :
  length d = (8 * n)%nat ->
  0 <= type < 2 ^ Z.of_nat 8 -> 0 <= rsvd2 < 2 ^ Z.of_nat 8 ->
  0 <= Z.of_nat (length d) / 8 < 2 ^ Z.of_nat 16 ->
  read_afi pl ((enc 16 AFI_LCAF ++ zeros 8 ++ zeros 8 ++ enc 8 type ++ enc 8 rsvd2 ++
        enc 16 (Z.of_nat (length d) / 8) ++ d) ++ t) =
  let* a := lcaf_from_data (read_afi None) type pl rsvd2 d in Ok (a, t).
Proof.
  intros Hd Ht Hr Hl. rewrite read_afi_eq. unfold afi_body.
  rewrite <- !app_assoc. rewrite rd_uint_enc by (unfold AFI_LCAF; cbn; lia).
  cbn [bind]. change (AFI_LCAF =? 0) with false. change (AFI_LCAF =? 1) with false.
  change (AFI_LCAF =? 2) with false. rewrite Z.eqb_refl.
  rewrite rd_bits_app by apply zeros_length. cbn [bind].
  rewrite rd_bits_app by apply zeros_length. cbn [bind].
  rewrite !rd_uint_enc by assumption. cbn [bind].
  rewrite rd_uint_enc by assumption. cbn [bind].
  rewrite rd_uint_enc by assumption. cbn [bind].
  rewrite rd_bits_app by (symmetry; eapply len8_div; eauto). reflexivity.
Qed.

(** ** with_prefix *)
Lemma wz_eq v : wz v = match v with V4 => 32 | V6 => 128 end.
Proof. destruct v; reflexivity. Qed.

Lemma mask_to_spec v n z :
  0 <= n <= wz v -> (mask_to v n z =? z) = true <-> z mod 2 ^ (wz v - n) = 0.
Proof.
  intros Hn. unfold mask_to.
  assert (Hp : 0 < 2 ^ (wz v - n)) by (apply Z.pow_pos_nonneg; lia).
  pose proof (Z.div_mod z (2 ^ (wz v - n))) as Hd. rewrite Z.eqb_eq. split; intros; lia.
Qed.

Lemma with_prefix_ip v z n :
  with_prefix (AIP v z) (Some n) =
  if (0 <=? n) && (n <=? wz v) && (mask_to v n z =? z) then Ok (ANet v z n) else Err EValue.
Proof.
  cbn [with_prefix ip_network bind supernet].
  replace (wz v =? 0) with false by (destruct v; reflexivity).
  destruct (wz v <? n) eqn:E1; cbn [bind].
  { replace (n <=? wz v) with false by lia. rewrite andb_false_r. reflexivity. }
  destruct (n <? 0) eqn:E2; cbn [bind].
  { replace (0 <=? n) with false by lia. reflexivity. }
  replace (0 <=? n) with true by lia. replace (n <=? wz v) with true by lia. cbn [andb].
  cbn [first_is]. rewrite fam_eqb_refl. cbn [andb].
  destruct (mask_to v n z =? z) eqn:E3; [|reflexivity]. apply Z.eqb_eq in E3. rewrite E3. reflexivity.
Qed.

(** with_prefix only ever succeeds with a prefix on a plain IP address *)
Lemma with_prefix_inv a pl a' :
  with_prefix a pl = Ok a' ->
  match pl with
  | None => a' = a
  | Some n => exists v z, a = AIP v z /\ a' = ANet v z n /\ 0 <= n <= wz v /\ mask_to v n z = z
  end.
Proof.
  destruct pl as [n|]; [|cbn; congruence].
  destruct a as [| v z | | | | | | |]; try (cbn [with_prefix]; intros H; mon H;
     match goal with H : first_is ?s _ = true |- _ => destruct s; cbn in H; discriminate end).
  rewrite with_prefix_ip. intros H.
  destruct ((0 <=? n) && (n <=? wz v) && (mask_to v n z =? z)) eqn:E; [|discriminate].
  okinj H. exists v, z. rewrite !andb_true_iff in E. destruct E as [[? ?] ?].
  repeat split; try reflexivity; lia.
Qed.

(** ** Round trip (C01/C02) *)

(** An address as it reads back with prefix length [pl]. *)
Definition rd_ok (pl : option Z) (a : addr) (b : bits) : Prop :=
  forall t, read_afi pl (b ++ t) = Ok (a, t).

Lemma rd_all_roundtrip rd l bs n :
  Forall2 (fun a b => b <> [] /\ forall t, rd (b ++ t) = Ok (a, t)) l bs ->
  (length (concat bs) <= n)%nat ->
  rd_all rd n (concat bs) = Ok l.
Proof.
  intros H. revert n. induction H as [|a b l bs [Hb Hr] Hl IH]; intros n Hn.
  - destruct n; reflexivity.
  - cbn [concat] in *. rewrite app_length in Hn.
    destruct b as [|x b]; [congruence|]. destruct n as [|n]; [cbn in Hn; lia|].
    cbn [rd_all app]. specialize (Hr (concat bs)). cbn [app] in Hr. rewrite Hr. cbn [bind].
    rewrite IH by (cbn in Hn; lia). reflexivity.
Qed.

Lemma rd_geo_enc g b t : w_geo g = Ok b -> rd_geo (b ++ t) = Ok (g, t).
Proof.
  unfold w_geo, rd_geo. intros H. mon H. winv. okinj H.
  cbn [app rd_bool bind]. rewrite <- !app_assoc. cbn [app].
  rewrite rd_uint_enc by assumption. cbn [bind]. rewrite <- ?app_assoc.
  rewrite rd_uint_enc by assumption. cbn [bind].
  rewrite rd_uint_enc by assumption. cbn [bind app rd_bool].
  rewrite <- ?app_assoc.
  rewrite rd_uint_enc by assumption. cbn [bind].
  rewrite rd_uint_enc by assumption. cbn [bind].
  rewrite rd_uint_enc by assumption. cbn [bind].
  unfold rd_int. rewrite rd_bits_app by apply enc_length. cbn [bind].
  rewrite signed_enc by (try assumption; lia). destruct g; reflexivity.
Qed.

Lemma w_geo_len g b : w_geo g = Ok b -> length b = 96%nat.
Proof.
  unfold w_geo. intros H. mon H. winv. okinj H.
  repeat rewrite ?app_length, ?enc_length; cbn [length]; repeat rewrite ?app_length, ?enc_length. lia.
Qed.

Lemma rt_list l bs :
  Forall (fun a => forall b, w_afi a = Ok b -> no_nets a = true -> rd_ok None a b) l ->
  forallb no_nets l = true ->
  Forall2 (fun x y => w_afi x = Ok y) l bs ->
  Forall2 (fun a b => b <> [] /\ forall t, read_afi None (b ++ t) = Ok (a, t)) l bs.
Proof.
  intros H Hn Hbs. revert H Hn. induction Hbs as [|x y l bs Hx Hl IH]; intros H Hn; constructor.
  - inversion H; subst. cbn in Hn. apply andb_true_iff in Hn. destruct Hn as [Hn _].
    split; [|apply H2; assumption].
    intros ->. apply w_afi_len8 in Hx. cbn in Hx. destruct Hx as [n [? ?]]. lia.
  - inversion H; subst. cbn in Hn. apply andb_true_iff in Hn. destruct Hn as [_ Hn]. apply IH; assumption.
Qed.

Lemma concat_len8 l bs :
  Forall2 (fun x y => w_afi x = Ok y) l bs -> exists n, length (concat bs) = (8 * n)%nat.
Proof.
  induction 1 as [|x y l bs Hx Hl [n Hn]]; [exists 0%nat; reflexivity|].
  apply w_afi_len8 in Hx. destruct Hx as [m [Hm _]]. exists (m + n)%nat. cbn. rewrite app_length. lia.
Qed.

Theorem afi_roundtrip a b : w_afi a = Ok b -> no_nets a = true -> rd_ok None a b.
Proof.
  revert b. induction a using addr_ind'; intros b Hb Hn t; cbn [w_afi no_nets] in Hb, Hn.
  - okinj Hb. rewrite read_afi_eq. unfold afi_body. rewrite <- enc_0, rd_uint_enc by (cbn; lia).
    reflexivity.
  - mon Hb. winv. okinj Hb. rewrite read_afi_eq. unfold afi_body.
    rewrite <- app_assoc, rd_uint_enc by (destruct v; cbn; lia). cbn [bind].
    destruct v; cbn [Z.eqb Pos.eqb width] in *; rewrite rd_uint_enc by assumption; reflexivity.
  - discriminate.
  - apply lcaf_wrap_ok in Hb. destruct Hb as [d [Hd [Ht [Hr [Hl ->]]]]]. okinj Hd.
    rewrite (read_lcaf_eq 0 0 [] 0) by auto. reflexivity.
  - apply lcaf_wrap_ok in Hb. destruct Hb as [d [Hd [Ht [Hr [Hl ->]]]]].
    apply concatM_ok in Hd. destruct Hd as [bs [Hbs ->]].
    destruct (concat_len8 _ _ Hbs) as [n Hn8].
    rewrite (read_lcaf_eq 1 0 _ n) by auto. cbn [lcaf_from_data Z.eqb Pos.eqb].
    rewrite (rd_all_roundtrip _ l bs) ; [reflexivity| |lia].
    pose proof (rt_list _ _ H Hn Hbs) as HH.
    clear - HH. induction HH as [|x y l bs [H1 H2] HH IH]; constructor; [|exact IH].
    split; [exact H1|]. intros t. rewrite H2. reflexivity.
  - apply lcaf_wrap_ok in Hb. destruct Hb as [d [Hd [Ht [Hr [Hl ->]]]]]. mon Hd. winv. okinj Hd.
    destruct (w_afi_len8 _ _ E0) as [n [Hn8 _]].
    rewrite (read_lcaf_eq 2 m _ (4 + n)) by (auto; rewrite app_length, enc_length; lia).
    cbn [lcaf_from_data Z.eqb Pos.eqb]. rewrite rd_uint_enc by assumption. cbn [bind].
    specialize (IHa _ E0 Hn []). rewrite app_nil_r in IHa. rewrite IHa. reflexivity.
  - apply lcaf_wrap_ok in Hb. destruct Hb as [d [Hd [Ht [Hr [Hl ->]]]]]. mon Hd. winv. okinj Hd.
    destruct (w_afi_len8 _ _ E0) as [n [Hn8 _]].
    rewrite (read_lcaf_eq 3 0 _ (4 + n)) by (auto; rewrite app_length, enc_length; lia).
    cbn [lcaf_from_data Z.eqb Pos.eqb]. rewrite rd_uint_enc by assumption. cbn [bind].
    specialize (IHa _ E0 Hn []). rewrite app_nil_r in IHa. rewrite IHa. reflexivity.
  - apply lcaf_wrap_ok in Hb. destruct Hb as [d [Hd [Ht [Hr [Hl ->]]]]]. mon Hd. okinj Hd.
    destruct (w_afi_len8 _ _ E0) as [n [Hn8 _]]. pose proof (w_geo_len _ _ E) as Hg.
    rewrite (read_lcaf_eq 5 0 _ (12 + n)) by (auto; rewrite app_length, Hg; lia).
    cbn [lcaf_from_data Z.eqb Pos.eqb]. rewrite (rd_geo_enc g) by assumption. cbn [bind].
    specialize (IHa _ E0 Hn []). rewrite app_nil_r in IHa. rewrite IHa. reflexivity.
  - apply lcaf_wrap_ok in Hb. destruct Hb as [d [Hd [Ht [Hr [Hl ->]]]]]. mon Hd. winv. okinj Hd.
    rewrite !andb_true_iff in Hn. destruct Hn as [[[Hn1 Hn2] Hn3] Hn4].
    apply concatM_ok in E4. destruct E4 as [bs [Hbs ->]].
    destruct (concat_len8 _ _ Hbs) as [n Hn8].
    destruct (w_afi_len8 _ _ E1) as [n1 [Hl1 _]]. destruct (w_afi_len8 _ _ E2) as [n2 [Hl2 _]].
    destruct (w_afi_len8 _ _ E3) as [n3 [Hl3 _]].
    rewrite (read_lcaf_eq 7 0 _ (4 + n1 + n2 + n3 + n)) by (auto; rewrite !app_length, !enc_length; lia).
    cbn [lcaf_from_data Z.eqb Pos.eqb]. rewrite rd_uint_enc by assumption. cbn [bind].
    rewrite rd_uint_enc by assumption. cbn [bind].
    rewrite (IHa1 _ E1 Hn1). cbn [bind]. rewrite (IHa2 _ E2 Hn2). cbn [bind].
    rewrite (IHa3 _ E3 Hn3). cbn [bind].
    rewrite (rd_all_roundtrip _ l bs); [reflexivity| |lia].
    exact (rt_list _ _ H Hn4 Hbs).
Qed.

Lemma wf_net_prefix v z n : wf_ip (ANet v z n) = true -> with_prefix (AIP v z) (Some n) = Ok (ANet v z n).
Proof.
  cbn [wf_ip]. rewrite !andb_true_iff. intros [[[_ H1] H2] H3].
  rewrite with_prefix_ip, H1, H2, H3. reflexivity.
Qed.

Lemma net_as_ip v z n b : w_afi (ANet v z n) = Ok b -> w_afi (AIP v z) = Ok b.
Proof. exact (fun H => H). Qed.

Lemma net_read v z n b t :
  w_afi (ANet v z n) = Ok b -> read_afi None (b ++ t) = Ok (AIP v z, t).
Proof. intros H. apply (afi_roundtrip (AIP v z)); [exact H|reflexivity]. Qed.

Theorem afi_prefix_roundtrip n a b :
  prefix_form n a -> wf_addr a = true -> w_afi a = Ok b -> rd_ok (Some n) a b.
Proof.
  intros Hf Hw Hb t. destruct Hf as [v z|i v z m|i v z|g v z|l Hl].
  - pose proof (wf_net_prefix v z n Hw) as Hp.
    cbn [w_afi] in Hb. mon Hb. winv. okinj Hb. rewrite read_afi_eq. unfold afi_body.
    rewrite <- app_assoc, rd_uint_enc by (destruct v; cbn; lia). cbn [bind].
    destruct v; cbn [Z.eqb Pos.eqb width] in *; rewrite rd_uint_enc by assumption; cbn [bind]; rewrite Hp; reflexivity.
  - pose proof (wf_net_prefix v z n Hw) as Hp. cbn [w_afi] in Hb.
    apply lcaf_wrap_ok in Hb. destruct Hb as [d [Hd [Ht [Hr [Hl ->]]]]].
    fold (w_afi (ANet v z n)) in Hd. mon1 Hd. mon1 Hd. winv. okinj Hd.
    destruct (w_afi_len8 _ _ E0) as [k [Hn8 _]].
    rewrite (read_lcaf_eq 2 m _ (4 + k)) by (auto; rewrite app_length, enc_length; lia).
    cbn [lcaf_from_data Z.eqb Pos.eqb]. rewrite rd_uint_enc by assumption. cbn [bind].
    pose proof (net_read _ _ _ _ [] E0) as IHa. rewrite app_nil_r in IHa. rewrite IHa. cbn [bind]. rewrite Hp. reflexivity.
  - pose proof (wf_net_prefix v z n Hw) as Hp. cbn [w_afi] in Hb.
    apply lcaf_wrap_ok in Hb. destruct Hb as [d [Hd [Ht [Hr [Hl ->]]]]].
    fold (w_afi (ANet v z n)) in Hd. mon1 Hd. mon1 Hd. winv. okinj Hd.
    destruct (w_afi_len8 _ _ E0) as [k [Hn8 _]].
    rewrite (read_lcaf_eq 3 0 _ (4 + k)) by (auto; rewrite app_length, enc_length; lia).
    cbn [lcaf_from_data Z.eqb Pos.eqb]. rewrite rd_uint_enc by assumption. cbn [bind].
    pose proof (net_read _ _ _ _ [] E0) as IHa. rewrite app_nil_r in IHa. rewrite IHa. cbn [bind]. rewrite Hp. reflexivity.
  - pose proof (wf_net_prefix v z n Hw) as Hp. cbn [w_afi] in Hb.
    apply lcaf_wrap_ok in Hb. destruct Hb as [d [Hd [Ht [Hr [Hl ->]]]]].
    fold (w_afi (ANet v z n)) in Hd. mon1 Hd. mon1 Hd. okinj Hd.
    destruct (w_afi_len8 _ _ E0) as [k [Hn8 _]]. pose proof (w_geo_len _ _ E) as Hg.
    rewrite (read_lcaf_eq 5 0 _ (12 + k)) by (auto; rewrite app_length, Hg; lia).
    cbn [lcaf_from_data Z.eqb Pos.eqb]. rewrite (rd_geo_enc g) by assumption. cbn [bind].
    pose proof (net_read _ _ _ _ [] E0) as IHa. rewrite app_nil_r in IHa. rewrite IHa. cbn [bind]. rewrite Hp. reflexivity.
  - cbn [w_afi] in Hb.
    apply lcaf_wrap_ok in Hb. destruct Hb as [d [Hd [Ht [Hr [Hll ->]]]]].
    apply concatM_ok in Hd. destruct Hd as [bs [Hbs ->]].
    destruct (concat_len8 _ _ Hbs) as [k Hn8].
    rewrite (read_lcaf_eq 1 0 _ k) by auto. cbn [lcaf_from_data Z.eqb Pos.eqb].
    rewrite (rd_all_roundtrip _ l bs) ; [reflexivity| |lia].
    clear - Hl Hbs. induction Hbs as [|x y l bs Hx Hbs IH]; constructor; inversion Hl; subst.
    + destruct H1 as [v [z [-> Hw]]]. split.
      * intros ->. apply w_afi_len8 in Hx. cbn in Hx. destruct Hx as [k [? ?]]. lia.
      * intros t. rewrite (net_read _ _ _ _ _ Hx). cbn [bind]. rewrite (wf_net_prefix _ _ _ Hw). reflexivity.
    + apply IH; assumption.
Qed.

(** ** Every decoded address re-encodes stably (C05), locality (C04) *)
Lemma rd_all_inv rd n s l :
  rd_all rd n s = Ok l ->
  (forall a s r, rd s = Ok (a, r) -> exists c, s = c ++ r) ->
  exists cs, s = concat cs /\
    Forall2 (fun a c => exists r, rd (c ++ r) = Ok (a, r)) l cs.
Proof.
  intros H Hc. revert s l H; induction n as [|n IH]; intros s l H; destruct s as [|b s]; cbn [rd_all] in H.
  - okinj H. exists []. split; [reflexivity|constructor].
  - discriminate.
  - okinj H. exists []. split; [reflexivity|constructor].
  - mon H. okinj H. destruct (Hc _ _ _ E) as [c Hs].
    destruct (IH _ _ E0) as [cs [-> Hf]]. exists (c :: cs). split; [exact Hs|].
    constructor; [|exact Hf]. eexists. rewrite <- Hs. exact E.
Qed.

(** [stable pl a c]: consumed bits [c] gave [a]; [a] re-encodes, not longer, and reads back. *)
Definition stable (pl : option Z) (a : addr) (n : nat) : Prop :=
  exists b, w_afi a = Ok b /\ (length b <= n)%nat /\ rd_ok pl a b.

Lemma lcaf_restable type rsvd2 a pl d n c :
  0 <= type < 2 ^ Z.of_nat 8 -> 0 <= rsvd2 < 2 ^ Z.of_nat 8 ->
  w_afi a = lcaf_wrap type rsvd2 (Ok d) ->
  length d = (8 * n)%nat -> (length d <= c)%nat ->
  Z.of_nat c <= 8 * 65535 ->
  lcaf_from_data (read_afi None) type pl rsvd2 d = Ok a ->
  stable pl a (64 + c).
Proof.
  intros Ht Hr Hw Hd Hc Hmax Hl.
  assert (0 <= Z.of_nat (length d) / 8 < 2 ^ Z.of_nat 16) as Hx.
  { replace (Z.of_nat (length d)) with (Z.of_nat n * 8) by lia. rewrite Z.div_mul by lia. cbn; lia. }
  eexists. split.
  - rewrite Hw. apply lcaf_wrap_ok. exists d. repeat split; try reflexivity; try assumption; lia.
  - split.
    + rewrite !app_length, !enc_length, !zeros_length. lia.
    + intros t. rewrite (read_lcaf_eq type rsvd2 d n) by assumption. rewrite Hl. reflexivity.
Qed.

Lemma w_ip_enc v z : 0 <= z < 2 ^ wz v ->
  w_afi (AIP v z) = Ok (enc 16 (match v with V4 => 1 | V6 => 2 end) ++ enc (width v) z).
Proof. intros H. cbn [w_afi]. rewrite w_uint_in by exact H. reflexivity. Qed.

Lemma w_net_enc v z n : 0 <= z < 2 ^ wz v ->
  w_afi (ANet v z n) = Ok (enc 16 (match v with V4 => 1 | V6 => 2 end) ++ enc (width v) z).
Proof. exact (w_ip_enc v z). Qed.

Lemma read_ip_enc v z t pl : 0 <= z < 2 ^ wz v ->
  read_afi pl ((enc 16 (match v with V4 => 1 | V6 => 2 end) ++ enc (width v) z) ++ t) =
  let* a := with_prefix (AIP v z) pl in Ok (a, t).
Proof.
  intros Hz. rewrite read_afi_eq. unfold afi_body.
  rewrite <- app_assoc, rd_uint_enc by (destruct v; cbn; lia). cbn [bind].
  destruct v; cbn [Z.eqb Pos.eqb width] in *; rewrite rd_uint_enc by exact Hz; reflexivity.
Qed.

Lemma ip_stable v z pl a :
  0 <= z < 2 ^ wz v -> with_prefix (AIP v z) pl = Ok a -> stable pl a (16 + width v).
Proof.
  intros Hz H. exists (enc 16 (match v with V4 => 1 | V6 => 2 end) ++ enc (width v) z).
  split; [|split].
  - apply with_prefix_inv in H. destruct pl as [n|].
    + destruct H as [v' [z' [H1 [-> _]]]]. injection H1 as <- <-. apply w_net_enc; exact Hz.
    + subst a. apply w_ip_enc; exact Hz.
  - rewrite app_length, !enc_length. lia.
  - intros t. rewrite read_ip_enc by exact Hz. rewrite H. reflexivity.
Qed.

(** After applying a prefix the encoding is unchanged *)
Lemma with_prefix_enc a pl a' : with_prefix a pl = Ok a' -> w_afi a' = w_afi a.
Proof.
  intros H. apply with_prefix_inv in H. destruct pl as [n|]; [|congruence].
  destruct H as [v [z [-> [-> _]]]]. reflexivity.
Qed.

Lemma stable_len8 a b : w_afi a = Ok b -> exists n, length b = (8 * n)%nat.
Proof. intros H. apply w_afi_len8 in H. destruct H as [n [H _]]; eauto. Qed.

Lemma stable_list (pl : option Z) l l' (cs : list bits) :
  Forall2 (fun a c => stable None a (length c)) l cs ->
  Forall2 (fun a a' => with_prefix a pl = Ok a') l l' ->
  exists bs, Forall2 (fun a b => w_afi a = Ok b) l' bs /\
    (length (concat bs) <= length (concat cs))%nat /\
    Forall2 (fun a b => b <> [] /\ forall t,
      (let* '(a0, r) := read_afi None (b ++ t) in let* a' := with_prefix a0 pl in Ok (a', r)) = Ok (a, t)) l' bs.
Proof.
  intros H. revert l'. induction H as [|a c l cs [b [Hb [Hlen Hrd]]] Hl IH]; intros l' Hp; inversion Hp; subst.
  - exists []. split; [constructor|split; [cbn; lia|constructor]].
  - destruct (IH _ H3) as [bs [H4 [H5 H6]]].
    exists (b :: bs). split; [|split].
    + constructor; [|exact H4]. rewrite (with_prefix_enc _ _ _ H1). exact Hb.
    + cbn. rewrite !app_length. lia.
    + constructor; [|exact H6]. split.
      * intros ->. apply w_afi_len8 in Hb. cbn in Hb. destruct Hb as [k [? ?]]. lia.
      * intros t. rewrite Hrd. cbn [bind]. rewrite H1. reflexivity.
Qed.

Lemma rd_all_map rd (g : addr -> res addr) n s l :
  rd_all (fun s => let* '(a, r) := rd s in let* a' := g a in Ok (a', r)) n s = Ok l ->
  exists l0, rd_all rd n s = Ok l0 /\ Forall2 (fun a a' => g a = Ok a') l0 l.
Proof.
  revert s l; induction n as [|n IH]; intros s l H; destruct s as [|b s]; cbn [rd_all] in *.
  - okinj H. exists []. split; [reflexivity|constructor].
  - discriminate.
  - okinj H. exists []. split; [reflexivity|constructor].
  - mon H. okinj H. mon E. okinj E.
    destruct (IH _ _ E0) as [l0 [H1 H2]]. rewrite E1. cbn [bind]. rewrite H1. cbn [bind].
    eexists; split; [reflexivity|]. constructor; assumption.
Qed.

Lemma mapM_concat_ok l bs : Forall2 (fun a b => w_afi a = Ok b) l bs -> concatM w_afi l = Ok (concat bs).
Proof. intros H. apply concatM_ok. eauto. Qed.

Lemma read_afi_consumes pl s a r :
  read_afi pl s = Ok (a, r) -> exists c, s = c ++ r /\ (16 <= length c)%nat.
Proof. apply rd_afi_consumes. Qed.

Lemma rd_all_stable n s l :
  (forall d, (length d <= length s)%nat -> forall a r, read_afi None d = Ok (a, r) ->
     exists c, d = c ++ r /\ rd_ok None a c /\ stable None a (length c)) ->
  rd_all (read_afi None) n s = Ok l ->
  exists cs, s = concat cs /\ Forall2 (fun a c => stable None a (length c)) l cs.
Proof.
  revert s l. induction n as [|n IHn]; intros s l0 IH Hall; destruct s as [|b s]; cbn [rd_all] in Hall.
  - okinj Hall. exists []. split; [reflexivity|constructor].
  - discriminate.
  - okinj Hall. exists []. split; [reflexivity|constructor].
  - apply bind_ok in Hall. destruct Hall as [[a r] [E Hall]]. apply bind_ok in Hall.
    destruct Hall as [l [E0 Hall]]. okinj Hall.
    destruct (IH (b :: s) (le_n _) _ _ E) as [c [Hs [_ Hst]]].
    destruct (IHn r l) as [cs [Hcs Hf]]; [|assumption|].
    { intros d Hd. apply IH. rewrite Hs, app_length. lia. }
    exists (c :: cs). split; [rewrite Hs, Hcs; reflexivity|]. constructor; assumption.
Qed.

(** main inversion: by strong induction on the number of bits available *)
Theorem read_afi_stable pl s a r :
  read_afi pl s = Ok (a, r) ->
  exists c, s = c ++ r /\ rd_ok pl a c /\ stable pl a (length c).
Proof.
  remember (length s) as n eqn:Hn. revert pl s a r Hn.
  induction n as [n IH] using lt_wf_ind. intros pl s a r -> H.
  assert (forall d, (length d < length s)%nat -> forall a r, read_afi None d = Ok (a, r) ->
     exists c, d = c ++ r /\ rd_ok None a c /\ stable None a (length c)) as IH'.
  { intros d Hd a0 r0 H0. eapply IH; eauto. }
  clear IH. rewrite read_afi_eq in H. unfold afi_body in H. apply bind_ok in H; destruct H as [[afi s1] [E H]]; cbn beta iota in H. rinv.
  destruct (afi =? 0) eqn:E0.
  { apply Z.eqb_eq in E0; subst afi.
    assert (H' : match pl with Some n => n = 0 | None => True end /\ a = ANone /\ r = s1).
    { destruct pl as [n|]; [destruct (n =? 0) eqn:En; [|discriminate]|];
        okinj H; repeat split; auto; lia. }
    destruct H' as [Hpl [-> ->]]. clear H.
    assert (rd_ok pl ANone (enc 16 0)) as Hrd.
    { intros t. rewrite read_afi_eq. unfold afi_body. rewrite rd_uint_enc by (cbn; lia). cbn [bind].
      destruct pl as [n|]; [subst n|]; reflexivity. }
    exists (enc 16 0). split; [reflexivity|]. split; [exact Hrd|].
    exists (enc 16 0). split; [reflexivity|]. split; [lia|exact Hrd]. }
  destruct (afi =? 1) eqn:E1.
  { apply Z.eqb_eq in E1; subst afi. mon H. rinv. okinj H.
    exists (enc 16 1 ++ enc 32 z). split; [rewrite <- app_assoc; reflexivity|]. split.
    - intros t. rewrite (read_ip_enc V4) by (unfold wz, width; lia). rewrite E1. reflexivity.
    - rewrite app_length, !enc_length. apply (ip_stable V4 z); [unfold wz, width; lia | exact E1]. }
  destruct (afi =? 2) eqn:E2.
  { apply Z.eqb_eq in E2; subst afi. mon H. rinv. okinj H.
    exists (enc 16 2 ++ enc 128 z). split; [rewrite <- app_assoc; reflexivity|]. split.
    - intros t. rewrite (read_ip_enc V6) by (unfold wz, width; lia). rewrite E2. reflexivity.
    - rewrite app_length, !enc_length. apply (ip_stable V6 z); [unfold wz, width; lia | exact E2]. }
  destruct (afi =? AFI_LCAF) eqn:E3; [|discriminate].
  apply Z.eqb_eq in E3; subst afi.
  mon H. rinv. okinj H.
  match goal with H : lcaf_from_data _ ?ty _ ?r2 ?d = Ok ?a |- context [?f1 ++ ?f2 ++ enc 8 ?ty ++ enc 8 ?r2 ++ enc 16 ?len ++ ?d ++ ?rest] =>
    rename H into Hlc; rename d into data; rename ty into type; rename r2 into rsvd2; rename len into dlen;
    rename f1 into rs1; rename f2 into fl; rename rest into s2; rename a into res end.
  assert (length data = (8 * Z.to_nat dlen)%nat) as Hdl by lia.
  exists (enc 16 AFI_LCAF ++ rs1 ++ fl ++ enc 8 type ++ enc 8 rsvd2 ++ enc 16 dlen ++ data).
  split; [rewrite <- !app_assoc; reflexivity|].
  assert (length (enc 16 AFI_LCAF ++ rs1 ++ fl ++ enc 8 type ++ enc 8 rsvd2 ++ enc 16 dlen ++ data)
    = (64 + length data)%nat) as Hlen.
  { rewrite !app_length, !enc_length. lia. }
  split.
  { intros t. rewrite read_afi_eq. unfold afi_body. rewrite <- !app_assoc.
    rewrite rd_uint_enc by (unfold AFI_LCAF; cbn; lia). cbn [bind].
    change (AFI_LCAF =? 0) with false. change (AFI_LCAF =? 1) with false.
    change (AFI_LCAF =? 2) with false. rewrite Z.eqb_refl.
    rewrite rd_bits_app by assumption. cbn [bind]. rewrite rd_bits_app by assumption. cbn [bind].
    rewrite rd_uint_enc by assumption. cbn [bind]. rewrite rd_uint_enc by assumption. cbn [bind].
    rewrite rd_uint_enc by assumption. cbn [bind]. rewrite rd_bits_app by lia. cbn [bind].
    rewrite Hlc. reflexivity. }
  rewrite Hlen. clear Hlen.
  assert (Z.of_nat (length data) <= 8 * 65535) as Hmax.
  { match goal with H : 0 <= dlen < _ |- _ => cbn in H end. lia. }
  assert (forall d, (length d <= length data)%nat -> forall a r, read_afi None d = Ok (a, r) ->
     exists c, d = c ++ r /\ rd_ok None a c /\ stable None a (length c)) as IH.
  { intros d Hd. apply IH'. rewrite !app_length, !enc_length. lia. }
  clear IH'.
  assert (0 <= type < 2 ^ Z.of_nat 8) as Hty by assumption.
  assert (0 <= rsvd2 < 2 ^ Z.of_nat 8) as Hr2' by assumption.
  unfold lcaf_from_data in Hlc.
  destruct (type =? 0) eqn:T0.
  { apply Z.eqb_eq in T0; subst type. okinj Hlc.
    apply (lcaf_restable 0 0 LNull pl [] 0 (length data)); try reflexivity; cbn; try lia. }
  destruct (type =? 1) eqn:T1.
  { apply Z.eqb_eq in T1; subst type. bo Hlc l E. okinj Hlc.
    apply rd_all_map in E. destruct E as [l0 [Hall Hpfx]].
    assert (exists cs, data = concat cs /\ Forall2 (fun a c => stable None a (length c)) l0 cs) as [cs [Hcs Hst]].
    { eapply rd_all_stable; eassumption. }
    destruct (stable_list pl l0 l cs Hst Hpfx) as [bs [Hbs [Hle Hrt]]].
    destruct (concat_len8 _ _ Hbs) as [k Hk].
    apply (lcaf_restable 1 0 (LList l) pl (concat bs) k (length data)); try assumption; try (cbn; lia).
    - cbn [w_afi]. rewrite (mapM_concat_ok _ _ Hbs). reflexivity.
    - rewrite Hcs. exact Hle.
    - cbn [lcaf_from_data Z.eqb Pos.eqb]. rewrite (rd_all_roundtrip _ l bs); [reflexivity|exact Hrt|lia]. }
  destruct (type =? 2) eqn:T2.
  { apply Z.eqb_eq in T2; subst type. bo Hlc [z b] F. bo Hlc [a b0] F0. bo Hlc a0 F1. okinj Hlc. rinv.
    destruct (IH b) with (a := a) (r := b0) as [c [Hs [_ [bb [Hb [Hle Hrd]]]]]]; [rewrite app_length; lia | assumption |].
    destruct (stable_len8 _ _ Hb) as [k Hk].
    apply (lcaf_restable 2 rsvd2 (LInst z a0 rsvd2) pl (enc 32 z ++ bb) (4 + k)); try assumption.
    - cbn [w_afi]. rewrite w_uint_in by assumption. cbn [bind]. rewrite (with_prefix_enc _ _ _ F1), Hb. reflexivity.
    - rewrite app_length, enc_length. lia.
    - subst b. rewrite !app_length, !enc_length. lia.
    - cbn [lcaf_from_data Z.eqb Pos.eqb]. rewrite rd_uint_enc by assumption. cbn [bind].
      specialize (Hrd []). rewrite app_nil_r in Hrd. rewrite Hrd. cbn [bind]. rewrite F1. reflexivity. }
  destruct (type =? 3) eqn:T3.
  { apply Z.eqb_eq in T3; subst type. bo Hlc [z b] F. bo Hlc [a b0] F0. bo Hlc a0 F1. okinj Hlc. rinv.
    destruct (IH b) with (a := a) (r := b0) as [c [Hs [_ [bb [Hb [Hle Hrd]]]]]]; [rewrite app_length; lia | assumption |].
    destruct (stable_len8 _ _ Hb) as [k Hk].
    apply (lcaf_restable 3 0 (LAs z a0) pl (enc 32 z ++ bb) (4 + k)); try assumption; try (cbn; lia).
    - cbn [w_afi]. rewrite w_uint_in by assumption. cbn [bind]. rewrite (with_prefix_enc _ _ _ F1), Hb. reflexivity.
    - rewrite app_length, enc_length. lia.
    - subst b. rewrite !app_length, !enc_length. lia.
    - cbn [lcaf_from_data Z.eqb Pos.eqb]. rewrite rd_uint_enc by assumption. cbn [bind].
      specialize (Hrd []). rewrite app_nil_r in Hrd. rewrite Hrd. cbn [bind]. rewrite F1. reflexivity. }
  destruct (type =? 5) eqn:T5.
  { apply Z.eqb_eq in T5; subst type. bo Hlc [g b] F. bo Hlc [a b0] F0. bo Hlc a0 F1. okinj Hlc.
    assert (exists bg, w_geo g = Ok bg /\ data = bg ++ b) as [bg [Hbg Hdata]].
    { clear - F. unfold rd_geo in F. mon F. rinv. okinj F.
      unfold w_geo; cbn [g_north g_latd g_latm g_lats g_east g_lond g_lonm g_lons g_alt]. wrun. cbn [bind].
      match goal with |- context [w_int 32 ?z] => assert (w_int 32 z = Ok (enc 32 z)) as Hw by (apply w_int_ok; auto) end.
      rewrite Hw. cbn [bind]. eexists; split; [reflexivity|].
      cbn [app]. rewrite <- !app_assoc. cbn [app]. rewrite <- !app_assoc. reflexivity. }
    pose proof (w_geo_len _ _ Hbg) as Hgl.
    destruct (IH b) with (a := a) (r := b0) as [c [Hs [_ [bb [Hb [Hle Hrd]]]]]]; [subst data; rewrite app_length; lia | assumption |].
    destruct (stable_len8 _ _ Hb) as [k Hk].
    apply (lcaf_restable 5 0 (LGeo g a0) pl (bg ++ bb) (12 + k)); try assumption; try (cbn; lia).
    - cbn [w_afi]. rewrite Hbg. cbn [bind]. rewrite (with_prefix_enc _ _ _ F1), Hb. reflexivity.
    - rewrite app_length. lia.
    - subst data b. rewrite !app_length. lia.
    - cbn [lcaf_from_data Z.eqb Pos.eqb]. rewrite (rd_geo_enc g) by assumption. cbn [bind].
      specialize (Hrd []). rewrite app_nil_r in Hrd. rewrite Hrd. cbn [bind]. rewrite F1. reflexivity. }
  destruct (type =? 7) eqn:T7; [|discriminate].
  apply Z.eqb_eq in T7; subst type. bo Hlc [z b] F. bo Hlc [z0 b0] F0. bo Hlc [a b1] F1. bo Hlc [a0 b2] F2. bo Hlc [a1 b3] F3. bo Hlc rtrs Hall. okinj Hlc. rinv.
  rewrite !app_length, !enc_length in IH.
  destruct (IH b0) with (a := a) (r := b1) as [c1 [Hs1 [_ [bb1 [Hb1 [Hle1 Hrd1]]]]]]; [lia | assumption |].
  subst b0. rewrite !app_length in IH.
  destruct (IH b1) with (a := a0) (r := b2) as [c2 [Hs2 [_ [bb2 [Hb2 [Hle2 Hrd2]]]]]]; [lia | assumption |].
  subst b1. rewrite !app_length in IH.
  destruct (IH b2) with (a := a1) (r := b3) as [c3 [Hs3 [_ [bb3 [Hb3 [Hle3 Hrd3]]]]]]; [lia | assumption |].
  subst b2. rewrite !app_length in IH.
  assert (exists cs, b3 = concat cs /\ Forall2 (fun a c => stable None a (length c)) rtrs cs) as [cs [Hcs Hst]].
  { eapply rd_all_stable; [|eassumption]. intros d Hd. apply IH. lia. }
  assert (Forall2 (fun a a' => with_prefix a None = Ok a') rtrs rtrs) as Hpfx.
  { clear. induction rtrs; constructor; auto. }
  destruct (stable_list None rtrs rtrs cs Hst Hpfx) as [bs [Hbs [Hle Hrt]]].
  destruct (concat_len8 _ _ Hbs) as [k Hk].
  destruct (stable_len8 _ _ Hb1) as [k1 Hk1]. destruct (stable_len8 _ _ Hb2) as [k2 Hk2].
  destruct (stable_len8 _ _ Hb3) as [k3 Hk3].
  apply (lcaf_restable 7 0 (LNat z z0 a a0 a1 rtrs) pl (enc 16 z ++ enc 16 z0 ++ bb1 ++ bb2 ++ bb3 ++ concat bs) (4 + k1 + k2 + k3 + k)); try assumption; try (cbn; lia).
  - cbn [w_afi]. wrun. cbn [bind]. rewrite Hb1, Hb2, Hb3. cbn [bind].
    rewrite (mapM_concat_ok _ _ Hbs). reflexivity.
  - rewrite !app_length, !enc_length. lia.
  - rewrite Hcs. rewrite !app_length, !enc_length. lia.
  - cbn [lcaf_from_data Z.eqb Pos.eqb]. rewrite rd_uint_enc by assumption. cbn [bind].
    rewrite rd_uint_enc by assumption. cbn [bind].
    rewrite Hrd1. cbn [bind]. rewrite Hrd2. cbn [bind]. rewrite Hrd3. cbn [bind].
    rewrite (rd_all_roundtrip _ rtrs bs); [reflexivity| |lia].
    clear - Hrt. induction Hrt as [|x y l bs [H1 H2] HH IH]; constructor; [|exact IH].
    split; [exact H1|]. intros t. specialize (H2 t).
    destruct (read_afi None (y ++ t)) as [[a0 r0]|]; cbn [bind with_prefix] in H2; congruence.
Qed.
