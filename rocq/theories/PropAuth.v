(** * Authentication: C41-C44 *)
From Verif Require Import Base BaseLemmas Afi AfiProofs Spec SpecLemmas Records Control SpecRec
  RecordsProofs ControlProofs PropControl Auth SpecAuth.

(** ** Serialisation around the authentication data *)
Definition a_w (m : amsg) : res bits :=
  match m with AReg m => w_mreg m | ANot m => w_mnot m | AInfo m => w_info m end.
Lemma a_to_bytes_w m : a_to_bytes m = let* b := a_w m in bytes_of_bits b.
Proof. destruct m; reflexivity. Qed.

Definition a_san (m : amsg) : res amsg :=
  match m with
  | AReg m => let* m := sanitize_mreg m in Ok (AReg m)
  | ANot m => let* m := sanitize_mnot m in Ok (ANot m)
  | AInfo m => let* m := sanitize_info m in Ok (AInfo m)
  end.

Lemma sanitize_mreg_idem m m' : sanitize_mreg m = Ok m' -> sanitize_mreg m' = Ok m'.
Proof.
  unfold sanitize_mreg. intros H. bo H [] E1. bo H [] E2. bo H [] E3. bo H rs E4. okinj H.
  cbn [g_proxy g_rtr g_notify g_rsv1 g_rsv2 g_nonce g_key g_authdata g_records g_xtr g_site].
  rewrite E1, E2, E3. cbn [bind]. rewrite (mapM_idem _ _ _ sanitize_mrec_idem E4). reflexivity.
Qed.
Lemma sanitize_mnot_idem m m' : sanitize_mnot m = Ok m' -> sanitize_mnot m' = Ok m'.
Proof.
  unfold sanitize_mnot. intros H. bo H [] E1. bo H [] E2. bo H [] E3. bo H [] E4. bo H rs E5. okinj H.
  cbn [n_rsv n_nonce n_key n_authdata n_records n_xtr n_site].
  rewrite E1, E2, E3, E4. cbn [bind]. rewrite (mapM_idem _ _ _ sanitize_mrec_idem E5). reflexivity.
Qed.
Lemma sanitize_info_id m m' : sanitize_info m = Ok m' -> m' = m.
Proof. unfold sanitize_info. intros H. mon H. okinj H. reflexivity. Qed.

Lemma a_san_idem m m' : a_san m = Ok m' -> a_san m' = Ok m'.
Proof.
  destruct m; cbn; intros H; bo H x E; okinj H; cbn.
  - rewrite (sanitize_mreg_idem _ _ E). reflexivity.
  - rewrite (sanitize_mnot_idem _ _ E). reflexivity.
  - pose proof (sanitize_info_id _ _ E) as ->. rewrite E. reflexivity.
Qed.

Lemma a_w_san m b : a_w m = Ok b -> exists m', a_san m = Ok m' /\ a_w m' = Ok b.
Proof.
  destruct m as [m|m|m]; cbn; intros H.
  - unfold w_mreg in H. bo H x E. rewrite E. cbn. eexists; split; [reflexivity|]. cbn.
    unfold w_mreg. rewrite (sanitize_mreg_idem _ _ E). exact H.
  - unfold w_mnot in H. bo H x E. rewrite E. cbn. eexists; split; [reflexivity|]. cbn.
    unfold w_mnot. rewrite (sanitize_mnot_idem _ _ E). exact H.
  - pose proof H as H'. unfold w_info in H. bo H x E. rewrite E. cbn.
    pose proof (sanitize_info_id _ _ E) as ->. eauto.
Qed.

Lemma a_san_after m m' : a_san m = Ok m' -> after m = m'.
Proof.
  assert (forall l l', mapM sanitize_mrec l = Ok l' -> after_mrecs l = l') as HL.
  { induction l as [|r l IH]; cbn; intros l' H; [okinj H; reflexivity|].
    bo H y E. bo H ys E2. okinj H. rewrite E. f_equal. auto. }
  destruct m as [m|m|m]; cbn [a_san after]; intros H; bo H x E; okinj H.
  - unfold sanitize_mreg in E. bo E [] E1. bo E [] E2. bo E [] E3. bo E rs E4. okinj E.
    apply guard_ok in E1. apply guard_ok in E2. apply guard_ok in E3. rewrite E1, E2, E3. cbn [andb].
    rewrite (HL _ _ E4). reflexivity.
  - unfold sanitize_mnot in E. bo E [] E1. bo E [] E2. bo E [] E3. bo E [] E4. bo E rs E5. okinj E.
    apply guard_ok in E1. apply guard_ok in E2. apply guard_ok in E3. apply guard_ok in E4.
    rewrite E1, E2, E3, E4. cbn [andb]. rewrite (HL _ _ E5). reflexivity.
  - pose proof (sanitize_info_id _ _ E) as ->. reflexivity.
Qed.

Lemma a_san_set m a : a_san (set_auth m a) = let* m' := a_san m in Ok (set_auth m' a).
Proof.
  destruct m as [m|m|m]; cbn.
  - unfold sanitize_mreg. cbn [g_proxy g_rtr g_notify g_rsv1 g_rsv2 g_nonce g_key g_authdata g_records g_xtr g_site].
    destruct (guard (fits 128 _) _); cbn; [|reflexivity]. destruct (guard (fits 64 _) _); cbn; [|reflexivity].
    destruct (guard (key_ok _) _); cbn; [|reflexivity]. destruct (mapM _ _); reflexivity.
  - unfold sanitize_mnot. cbn [n_rsv n_nonce n_key n_authdata n_records n_xtr n_site].
    destruct (guard (fits 128 _) _); cbn; [|reflexivity]. destruct (guard (fits 64 _) _); cbn; [|reflexivity].
    destruct (guard (blen _ =? _) _); cbn; [|reflexivity].
    destruct (guard (key_ok _) _); cbn; [|reflexivity]. destruct (mapM _ _); reflexivity.
  - unfold sanitize_info. cbn [i_reply i_rsv1 i_nonce i_key i_authdata i_ttl i_rsv2 i_eid i_data].
    destruct (guard (blen _ =? _) _); cbn; [|reflexivity].
    destruct (guard (key_ok _) _); cbn; [|reflexivity].
    destruct (guard (_ && _) _); cbn; [|reflexivity].
    destruct (guard (is_net _) _); cbn; [|reflexivity].
    destruct (i_reply m) eqn:E1, (i_data m) eqn:E2; cbn; rewrite ?E1, ?E2; reflexivity.
Qed.

Lemma set_auth_set m a b : set_auth (set_auth m a) b = set_auth m b.
Proof. destruct m as [[]|[]|[]]; reflexivity. Qed.
Lemma set_auth_id m : set_auth m (a_auth m) = m.
Proof. destruct m as [[]|[]|[]]; reflexivity. Qed.
Lemma a_auth_set m a : a_auth (set_auth m a) = a.
Proof. destruct m; reflexivity. Qed.
Lemma a_key_set m a : a_key (set_auth m a) = a_key m.
Proof. destruct m; reflexivity. Qed.
Lemma kind_set m a : kind (set_auth m a) = kind m.
Proof. destruct m; reflexivity. Qed.
Lemma a_san_same m m' : a_san m = Ok m' -> a_key m' = a_key m /\ a_auth m' = a_auth m /\ kind m' = kind m.
Proof.
  destruct m as [m|m|m]; cbn [a_san]; intros H; bo H x E; okinj H; cbn.
  - unfold sanitize_mreg in E. mon E. okinj E. cbn. auto.
  - unfold sanitize_mnot in E. mon E. okinj E. cbn. auto.
  - pose proof (sanitize_info_id _ _ E) as ->. auto.
Qed.

Lemma a_san_arrives m m' : a_san m = Ok m' -> arrives_a m m'.
Proof.
  destruct m as [m|m|m]; cbn [a_san]; intros H; bo H x E; okinj H; cbn.
  - unfold sanitize_mreg in E. bo E [] E1. bo E [] E2. bo E [] E3. bo E rs E4. okinj E.
    constructor; cbn; auto 10. eapply mapM_rel; [|exact E4]. exact sanitize_mrec_arrives.
  - unfold sanitize_mnot in E. bo E [] E1. bo E [] E2. bo E [] E3. bo E [] E4. bo E rs E5. okinj E.
    constructor; cbn; auto 10. eapply mapM_rel; [|exact E5]. exact sanitize_mrec_arrives.
  - exact (sanitize_info_id _ _ E).
Qed.

Lemma a_san_obj m m' : obj_a m -> a_san m = Ok m' -> obj_a m'.
Proof.
  destruct m as [m|m|m]; cbn [a_san]; intros Ho H; bo H x E; okinj H; cbn in *.
  - unfold sanitize_mreg in E. bo E [] E1. bo E [] E2. bo E [] E3. bo E rs E4. okinj E.
    destruct Ho as (H1 & H2 & H3 & H4). repeat split; auto.
    exact (mapM_Forall _ _ _ _ sanitize_mrec_wf H4 E4).
  - unfold sanitize_mnot in E. bo E [] E1. bo E [] E2. bo E [] E3. bo E [] E4. bo E rs E5. okinj E.
    destruct Ho as (H1 & H2). repeat split; auto.
    exact (mapM_Forall _ _ _ _ sanitize_mrec_wf H2 E5).
  - pose proof (sanitize_info_id _ _ E) as ->. exact Ho.
Qed.
Lemma obj_set m a : obj_a m -> obj_a (set_auth m a).
Proof. destruct m as [[]|[]|[]]; exact (fun x => x). Qed.

(** ** Where the authentication data is in the bytes *)
Definition w16 (z : Z) : bytes := match bytes_of_bits (enc 16 z) with Ok b => b | Err _ => [] end.
Lemma w16_bits z : bits_of_bytes (w16 z) = enc 16 z.
Proof.
  unfold w16. destruct (bytes_of_bits_total (enc 16 z) 2) as (b & E & _); [apply enc_length|].
  rewrite E. apply bytes_of_bits_ok in E. symmetry. exact E.
Qed.
Lemma w16_len z : length (w16 z) = 2%nat.
Proof.
  unfold w16. destruct (bytes_of_bits_total (enc 16 z) 2) as (b & E & L); [apply enc_length|].
  rewrite E. exact L.
Qed.

Definition auth_split (m : amsg) : Prop := exists pre post : bits,
  length pre = (8 * 14)%nat /\ al8 post /\
  forall a, a_w (set_auth m a) =
    let* n := w_uint 16 (blen a) in Ok (pre ++ n ++ bits_of_bytes a ++ post).

Lemma w_authdata_app k a : fits 16 k = true ->
  w_authdata k a = let* n := w_uint 16 (blen a) in Ok (enc 16 k ++ n ++ bits_of_bytes a).
Proof. unfold w_authdata, w_uint at 1. intros ->. cbn [bind]. reflexivity. Qed.
Lemma al8_app a b : al8 a -> al8 b -> al8 (a ++ b).
Proof. intros [n H] [k H']. exists (n + k)%nat. rewrite app_length. lia. Qed.

Ltac splitlen := repeat (first [rewrite app_length | rewrite bits_of_bytes_length | rewrite enc_length | progress cbn [length]]); lia.

Lemma a_w_split m b : obj_a m -> a_w m = Ok b -> auth_split m.
Proof.
  intros Ho Hw. destruct m as [m|m|m].
  - cbn [a_w] in Hw. unfold w_mreg in Hw. bo Hw m' E.
    pose proof (a_san_obj (AReg m) (AReg m') Ho) as Ho'. cbn [a_san] in Ho'. rewrite E in Ho'. specialize (Ho' eq_refl).
    bo Hw ty E5. bo Hw cnt E6. bo Hw au E7. bo Hw rb E8. bo Hw xs E9. okinj Hw. winv.
    unfold w_authdata in E7. bo E7 kb E7k. bo E7 lb E7l. okinj E7. winv.
    destruct Ho' as (R1 & R2 & R3 & R4).
    exists (enc 4 3 ++ (g_proxy m' :: g_rsv1 m') ++ (g_has_xtr m' :: g_rtr m' :: g_rsv2 m')
       ++ (g_notify m' :: enc 8 (lenZ (g_records m'))) ++ bits_of_bytes (g_nonce m') ++ enc 16 (g_key m')).
    exists (rb ++ xs). split; [splitlen|]. split.
    { apply al8_app; [|eapply al8_xtr; exact E9]. exact (al8_concatM _ _ _ _ al8_mrec R4 E8). }
    intros a. cbn [a_w set_auth]. unfold w_mreg.
    pose proof (a_san_set (AReg m) a) as HS. cbn [a_san set_auth] in HS. rewrite E in HS. cbn [bind set_auth] in HS.
    match type of HS with bind ?x _ = _ => destruct x as [y|] eqn:E' end; cbn [bind] in HS; [|discriminate].
    cbn [bind].
    assert (y = MReg (g_proxy m') (g_rtr m') (g_notify m') (g_rsv1 m') (g_rsv2 m') (g_nonce m')
                         (g_key m') a (g_records m') (g_xtr m') (g_site m')) as -> by congruence.
    unfold g_has_xtr in *.
    cbn [g_proxy g_rtr g_notify g_rsv1 g_rsv2 g_nonce g_key g_authdata g_records g_xtr g_site].
    rewrite (w_uint_in 4) by (cbn; lia). rewrite (w_uint_in 8) by assumption. cbn [bind].
    rewrite w_authdata_app by (apply fits_spec; assumption).
    destruct (w_uint 16 (blen a)); cbn [bind]; [|reflexivity].
    rewrite E8. cbn [bind]. rewrite E9. cbn [bind]. f_equal. rewrite <- ?app_assoc. cbn [app]. rewrite <- ?app_assoc. cbn [app].
    rewrite <- ?app_assoc. reflexivity.
  - cbn [a_w] in Hw. unfold w_mnot in Hw. bo Hw m' E.
    pose proof (a_san_obj (ANot m) (ANot m') Ho) as Ho'. cbn [a_san] in Ho'. rewrite E in Ho'. specialize (Ho' eq_refl).
    bo Hw ty E5. bo Hw cnt E6. bo Hw au E7. bo Hw rb E8. bo Hw xs E9. okinj Hw. winv.
    unfold w_authdata in E7. bo E7 kb E7k. bo E7 lb E7l. okinj E7. winv.
    destruct Ho' as (R1 & R2).
    assert (length (n_nonce m') = 8%nat) as R3.
    { unfold sanitize_mnot in E. bo E [] G1. bo E [] G2. bo E [] G3. bo E [] G4. bo E rs G5. okinj E.
      cbn. apply guard_ok in G3. unfold blen in G3. lia. }
    exists (enc 4 4 ++ (n_has_xtr m' :: n_rsv m') ++ enc 8 (lenZ (n_records m')) ++ bits_of_bytes (n_nonce m') ++ enc 16 (n_key m')).
    exists (rb ++ xs). split; [splitlen|]. split.
    { apply al8_app; [|eapply al8_xtr; exact E9]. exact (al8_concatM _ _ _ _ al8_mrec R2 E8). }
    intros a. cbn [a_w set_auth]. unfold w_mnot.
    pose proof (a_san_set (ANot m) a) as HS. cbn [a_san set_auth] in HS. rewrite E in HS. cbn [bind set_auth] in HS.
    match type of HS with bind ?x _ = _ => destruct x as [y|] eqn:E' end; cbn [bind] in HS; [|discriminate].
    cbn [bind].
    assert (y = MNot (n_rsv m') (n_nonce m') (n_key m') a (n_records m') (n_xtr m') (n_site m')) as -> by congruence.
    unfold n_has_xtr in *.
    cbn [n_rsv n_nonce n_key n_authdata n_records n_xtr n_site].
    rewrite (w_uint_in 4) by (cbn; lia). rewrite (w_uint_in 8) by assumption. cbn [bind].
    rewrite w_authdata_app by (apply fits_spec; assumption).
    destruct (w_uint 16 (blen a)); cbn [bind]; [|reflexivity].
    rewrite E8. cbn [bind]. rewrite E9. cbn [bind]. f_equal. rewrite <- ?app_assoc. cbn [app]. rewrite <- ?app_assoc. cbn [app].
    rewrite <- ?app_assoc. reflexivity.
  - cbn [a_w] in Hw. unfold w_info in Hw. bo Hw m' E. pose proof (sanitize_info_id _ _ E) as ->.
    bo Hw ty E5. bo Hw au E7. bo Hw tb E8. bo Hw n' E9. bo Hw ml E10. bo Hw eb E11. bo Hw db E12. okinj Hw. winv.
    unfold w_authdata in E7. bo E7 kb E7k. bo E7 lb E7l. okinj E7. winv.
    destruct Ho as (R1 & R2 & R4 & R5).
    assert (length (i_nonce m) = 8%nat) as R3.
    { unfold sanitize_info in E. bo E [] G1. apply guard_ok in G1. unfold blen in G1. lia. }
    exists (enc 4 7 ++ (i_reply m :: i_rsv1 m) ++ bits_of_bytes (i_nonce m) ++ enc 16 (i_key m)).
    exists (enc 32 (i_ttl m) ++ i_rsv2 m ++ enc 8 n' ++ eb ++ db). split; [splitlen|]. split.
    { repeat apply al8_app; try (eapply al8_afi; eassumption); [exists 4%nat|exists 1%nat|exists 1%nat]; rewrite ?enc_length; lia. }
    intros a. cbn [a_w set_auth]. unfold w_info.
    pose proof (a_san_set (AInfo m) a) as HS. cbn [a_san set_auth] in HS. rewrite E in HS. cbn [bind set_auth] in HS.
    match type of HS with bind ?x _ = _ => destruct x as [y|] eqn:E' end; cbn [bind] in HS; [|discriminate].
    cbn [bind].
    assert (y = Info (i_reply m) (i_rsv1 m) (i_nonce m) (i_key m) a (i_ttl m) (i_rsv2 m)
                           (i_eid m) (i_data m)) as -> by congruence.
    cbn [i_reply i_rsv1 i_nonce i_key i_authdata i_ttl i_rsv2 i_eid i_data].
    rewrite (w_uint_in 4) by (cbn; lia). cbn [bind].
    rewrite w_authdata_app by (apply fits_spec; assumption).
    destruct (w_uint 16 (blen a)); cbn [bind]; [|reflexivity].
    rewrite (w_uint_in 32) by assumption. cbn [bind]. rewrite E9. cbn [bind]. rewrite (w_uint_in 8) by assumption. cbn [bind].
    rewrite E11, E12. cbn [bind]. f_equal. rewrite <- ?app_assoc. cbn [app]. rewrite <- ?app_assoc. cbn [app].
    rewrite <- ?app_assoc. reflexivity.
Qed.

Lemma a_bytes_split m out : obj_a m -> a_to_bytes m = Ok out ->
  exists pre post, length pre = 14%nat /\
    forall a, blen a < 65536 -> a_to_bytes (set_auth m a) = Ok (pre ++ w16 (blen a) ++ a ++ post).
Proof.
  intros Ho H. rewrite a_to_bytes_w in H. bo H b E.
  destruct (a_w_split _ _ Ho E) as (pre & post & L & A & HS).
  destruct (bytes_of_bits_total _ _ L) as (pb & Ep & Lp). apply bytes_of_bits_ok in Ep.
  destruct (al8_out _ A) as (qb & Eq). apply bytes_of_bits_ok in Eq.
  exists pb, qb. split; [exact Lp|]. intros a Ha. rewrite a_to_bytes_w, HS.
  rewrite w_uint_in by (unfold blen in *; cbn; lia). cbn [bind]. apply bytes_of_bits_ok.
  rewrite !bits_of_bytes_app, w16_bits, Ep, Eq. reflexivity.
Qed.

Lemma a_bytes_auth_len m out : a_to_bytes m = Ok out -> blen (a_auth m) < 65536.
Proof.
  rewrite a_to_bytes_w. intros H. bo H b E.
  destruct m; cbn [a_w a_auth] in *; [unfold w_mreg in E|unfold w_mnot in E|unfold w_info in E]; bo E m' S.
  - bo E x E1. bo E y E2. bo E z E3. unfold w_authdata in E3. bo E3 kb E4. bo E3 lb E5. winv.
    unfold sanitize_mreg in S. mon S. okinj S. cbn in *. lia.
  - bo E x E1. bo E y E2. bo E z E3. unfold w_authdata in E3. bo E3 kb E4. bo E3 lb E5. winv.
    unfold sanitize_mnot in S. mon S. okinj S. cbn in *. lia.
  - pose proof (sanitize_info_id _ _ S) as ->. bo E x E1. bo E z E3.
    unfold w_authdata in E3. bo E3 kb E4. bo E3 lb E5. winv. cbn in *. lia.
Qed.

Lemma digest_len_spec k n : digest_len k = Some n <-> digest_size k n.
Proof.
  unfold digest_len, digest_size. destruct (k =? 1) eqn:E1; [|destruct (k =? 2) eqn:E2].
  - split; [intros [= <-]; left; split; [lia|reflexivity]|intros [[_ ->]|[E _]]; [reflexivity|lia]].
  - split; [intros [= <-]; right; split; [lia|reflexivity]|intros [[E _]|[_ ->]]; [lia|reflexivity]].
  - split; [discriminate|intros [[E _]|[E _]]; lia].
Qed.

Lemma key_known m out : a_to_bytes m = Ok out ->
  a_key m = 0 \/ exists n, digest_size (a_key m) n.
Proof.
  rewrite a_to_bytes_w. intros H. bo H b E. destruct (a_w_san _ _ E) as (m' & S & _).
  assert (key_ok (a_key m) = true) as K.
  { destruct m as [m|m|m]; cbn in S |- *; bo S x S1.
    - unfold sanitize_mreg in S1. bo S1 [] E1. bo S1 [] E2. bo S1 [] E3. apply guard_ok in E3. exact E3.
    - unfold sanitize_mnot in S1. bo S1 [] E1. bo S1 [] E2. bo S1 [] E3. bo S1 [] E4. apply guard_ok in E4. exact E4.
    - unfold sanitize_info in S1. bo S1 [] E1. bo S1 [] E2. apply guard_ok in E2. exact E2. }
  unfold key_ok in K. unfold digest_size.
  destruct (a_key m =? 0) eqn:E0; [left; lia|right].
  destruct (a_key m =? 1) eqn:E1; [exists 20%nat; left; split; [lia|reflexivity]|].
  destruct (a_key m =? 2) eqn:E2; [exists 32%nat; right; split; [lia|reflexivity]|discriminate].
Qed.

Lemma san_of_bytes m out : a_to_bytes m = Ok out -> exists m', a_san m = Ok m' /\ a_to_bytes m' = Ok out.
Proof.
  rewrite a_to_bytes_w. intros H. bo H b E. destruct (a_w_san _ _ E) as (m' & S & W).
  exists m'. split; [exact S|]. rewrite a_to_bytes_w, W. exact H.
Qed.

Lemma digest_size_small k n : digest_size k n -> (n = 20 \/ n = 32)%nat /\ k <> 0.
Proof. intros [[-> ->]|[-> ->]]; split; auto; lia. Qed.

Lemma calculate_known hm m key out n m' :
  obj_a m -> a_to_bytes m = Ok out -> digest_size (a_key m) n -> a_san m = Ok m' ->
  exists z, a_to_bytes (set_auth m (repeat zero_byte n)) = Ok z /\
            calculate hm m key = (m', Ok (hm (a_key m) key z)).
Proof.
  intros Ho H D S. destruct (digest_size_small _ _ D) as [N K0].
  destruct (a_bytes_split _ _ Ho H) as (pre & post & L & HS).
  exists (pre ++ w16 (blen (repeat zero_byte n)) ++ repeat zero_byte n ++ post).
  assert (a_to_bytes (set_auth m (repeat zero_byte n)) = Ok (pre ++ w16 (blen (repeat zero_byte n)) ++ repeat zero_byte n ++ post)) as HZ.
  { apply HS. unfold blen. rewrite repeat_length. lia. }
  split; [exact HZ|]. unfold calculate. rewrite (proj2 (Z.eqb_neq _ _) K0).
  rewrite (proj2 (digest_len_spec _ _) D), HZ.
  assert (a_san (set_auth m (repeat zero_byte n)) = Ok (set_auth m' (repeat zero_byte n))) as S2
    by (rewrite a_san_set, S; reflexivity).
  rewrite (a_san_after _ _ S2), set_auth_set.
  destruct (a_san_same _ _ S) as (_ & EA & _). rewrite <- EA, set_auth_id. reflexivity.
Qed.

Lemma zeroed_split (pre post a : bytes) x n : length pre = 14%nat -> length x = 2%nat -> length a = n ->
  zeroed n (pre ++ x ++ a ++ post) = pre ++ x ++ repeat zero_byte n ++ post /\
  auth_field n (pre ++ x ++ a ++ post) = a.
Proof.
  intros L1 L2 L3. unfold zeroed, auth_field, slice.
  assert (forall t, pre ++ x ++ t = (pre ++ x) ++ t) as EA by (intros; rewrite app_assoc; reflexivity).
  assert (length (pre ++ x) = 16%nat) as L4 by (rewrite app_length; lia).
  rewrite !EA.
  assert (firstn 16 ((pre ++ x) ++ a ++ post) = pre ++ x) as F1.
  { rewrite firstn_app, firstn_all2 by lia. rewrite L4, Nat.sub_diag. cbn [firstn]. apply app_nil_r. }
  assert (skipn 16 ((pre ++ x) ++ a ++ post) = a ++ post) as F2.
  { rewrite skipn_app, skipn_all2 by lia. rewrite L4, Nat.sub_diag. reflexivity. }
  assert (skipn (16 + n) ((pre ++ x) ++ a ++ post) = post) as F3.
  { rewrite (app_assoc (pre ++ x)). rewrite skipn_app, skipn_all2 by (rewrite app_length; lia).
    replace (16 + n - length ((pre ++ x) ++ a))%nat with 0%nat by (rewrite app_length; lia). reflexivity. }
  split; [rewrite F1, F3; reflexivity|].
  rewrite F2. rewrite firstn_app, firstn_all2 by lia.
  replace (n - length a)%nat with 0%nat by lia. cbn. apply app_nil_r.
Qed.

(** what the digest is computed over, seen on the wire *)
Lemma zeroed_wire m out n z : obj_a m -> a_to_bytes m = Ok out -> (n < 1000)%nat ->
  a_to_bytes (set_auth m (repeat zero_byte n)) = Ok z -> length (a_auth m) = n ->
  z = zeroed n out /\ auth_field n out = a_auth m.
Proof.
  intros Ho H Hn HZ L. destruct (a_bytes_split _ _ Ho H) as (pre & post & LP & HS).
  pose proof (HS (a_auth m) (a_bytes_auth_len _ _ H)) as H1. rewrite set_auth_id, H in H1. apply (f_equal (fun r => match r with Ok x => x | Err _ => [] end)) in H1. cbn beta iota in H1. subst out.
  rewrite HS in HZ by (unfold blen; rewrite repeat_length; lia). injection HZ as <-.
  destruct (zeroed_split pre post (a_auth m) (w16 (blen (a_auth m))) n LP (w16_len _) L) as [-> ->].
  split; [|reflexivity]. unfold blen. rewrite repeat_length, L. reflexivity.
Qed.

(** C42: [verify_authentication_data] of a serialisable message never raises and is true exactly
    when the [n] bytes of authentication data are the HMAC of the serialised message with these
    bytes zeroed ([zeroed], SpecAuth.v); with key id 0, exactly when there is none. *)
Theorem C42_verify_iff_mac : forall hm (m : amsg) (key out : bytes),
  digests hm -> obj_a m -> a_to_bytes m = Ok out ->
  exists v : bool, snd (verify hm m key) = Ok v /\
    (a_key m = 0 -> (v = true <-> a_auth m = [])) /\
    (forall n, digest_size (a_key m) n ->
       (v = true <->
        length (a_auth m) = n /\ auth_field n out = a_auth m /\
        auth_field n out = hm (a_key m) key (zeroed n out))).
Proof.
  intros hm m key out HD Ho H.
  destruct (key_known _ _ H) as [K|[n D]].
  - unfold verify, calculate. rewrite K, Z.eqb_refl. cbn [bind snd]. eexists. split; [reflexivity|]. split.
    + intros _. apply bytes_eqb_spec.
    + intros n D. destruct (digest_size_small _ _ D). congruence.
  - destruct (san_of_bytes _ _ H) as (m' & S & _).
    destruct (calculate_known hm m key out n m' Ho H D S) as (z & HZ & HC).
    unfold verify. rewrite HC. cbn [bind snd]. eexists. split; [reflexivity|].
    destruct (digest_size_small _ _ D) as [N K0]. split; [congruence|].
    intros n' D'. assert (n' = n) as -> by (unfold digest_size in *; lia).
    rewrite bytes_eqb_spec. destruct (a_san_same _ _ S) as (_ & -> & _).
    split.
    + intros E. assert (length (a_auth m) = n) as L by (rewrite E; apply HD; exact D).
      destruct (zeroed_wire m out n z Ho H) as [-> F]; auto; [lia|]. rewrite F. auto.
    + intros (L & F & E). destruct (zeroed_wire m out n z Ho H) as [-> _]; auto; [lia|]. congruence.
Qed.
Print Assumptions C42_verify_iff_mac.

(** two verified messages with the same key id and the same authentication data have the same
    bytes outside that field or exhibit a collision of the MAC *)
Theorem C42_same_mac_same_message : forall hm (m1 m2 : amsg) (key out1 out2 : bytes) n,
  digests hm -> obj_a m1 -> obj_a m2 -> a_to_bytes m1 = Ok out1 -> a_to_bytes m2 = Ok out2 ->
  a_key m2 = a_key m1 -> digest_size (a_key m1) n ->
  snd (verify hm m1 key) = Ok true -> snd (verify hm m2 key) = Ok true ->
  a_auth m1 = a_auth m2 ->
  zeroed n out1 = zeroed n out2 \/
  (zeroed n out1 <> zeroed n out2 /\ hm (a_key m1) key (zeroed n out1) = hm (a_key m1) key (zeroed n out2)).
Proof.
  intros hm m1 m2 key out1 out2 n HD Ho1 Ho2 H1 H2 EK D V1 V2 EA.
  destruct (C42_verify_iff_mac hm m1 key out1 HD Ho1 H1) as (v1 & E1 & _ & I1).
  destruct (C42_verify_iff_mac hm m2 key out2 HD Ho2 H2) as (v2 & E2 & _ & I2).
  assert (v1 = true) as -> by congruence. assert (v2 = true) as -> by congruence.
  destruct (proj1 (I1 n D) eq_refl) as (L1 & F1 & M1). rewrite EK in I2.
  destruct (proj1 (I2 n D) eq_refl) as (L2 & F2 & M2).
  destruct (bytes_eqb (zeroed n out1) (zeroed n out2)) eqn:E.
  - left. apply bytes_eqb_spec. exact E.
  - right. split; [|congruence]. intros C. apply bytes_eqb_spec in C. congruence.
Qed.
Print Assumptions C42_same_mac_same_message.

(** C41 *)
Lemma parse_back m out : obj_a m -> a_to_bytes m = Ok out ->
  exists m', a_san m = Ok m' /\ forall more, a_from_bytes (kind m) (out ++ more) = Ok m'.
Proof.
  intros Ho H. destruct m as [m|m|m]; cbn [obj_a a_to_bytes kind a_from_bytes a_san] in *.
  - apply to_bytes_ok in H. destruct (mreg_rt _ _ Ho H) as (rs & P1 & _ & P3).
    unfold w_mreg in H. bo H m' E. pose proof E as E'. unfold sanitize_mreg in E. bo E [] G1. bo E [] G2. bo E [] G3. bo E rs' G4. okinj E.
    assert (rs' = rs) as -> by congruence.
    rewrite E'. cbn [bind]. eexists. split; [reflexivity|]. intros more.
    unfold mreg_from_bytes. erewrite from_bytes_app by exact P3. reflexivity.
  - apply to_bytes_ok in H. destruct (mnot_rt _ _ Ho H) as (rs & P1 & _ & P3).
    unfold w_mnot in H. bo H m' E. pose proof E as E'. unfold sanitize_mnot in E. bo E [] G1. bo E [] G2. bo E [] G3. bo E [] G4. bo E rs' G5. okinj E.
    assert (rs' = rs) as -> by congruence.
    rewrite E'. cbn [bind]. eexists. split; [reflexivity|]. intros more.
    unfold mnot_from_bytes. erewrite from_bytes_app by exact P3. reflexivity.
  - pose proof (C29_info_roundtrip _ _ Ho H) as P. apply to_bytes_ok in H.
    unfold w_info in H. bo H m' E. pose proof (sanitize_info_id _ _ E) as ->.
    rewrite E. cbn [bind]. eexists. split; [reflexivity|]. intros more. rewrite P. reflexivity.
Qed.

Lemma verify_true_if hm m key out : digests hm -> obj_a m -> a_to_bytes m = Ok out ->
  (a_key m = 0 -> a_auth m = []) ->
  (forall n z, digest_size (a_key m) n -> a_to_bytes (set_auth m (repeat zero_byte n)) = Ok z ->
     a_auth m = hm (a_key m) key z) ->
  snd (verify hm m key) = Ok true.
Proof.
  intros HD Ho H H0 Hk. destruct (key_known _ _ H) as [K|[n D]].
  - unfold verify, calculate. rewrite K, Z.eqb_refl. cbn [bind snd]. rewrite (H0 K). reflexivity.
  - destruct (san_of_bytes _ _ H) as (m' & S & _).
    destruct (calculate_known hm m key out n m' Ho H D S) as (z & HZ & HC).
    unfold verify. rewrite HC. cbn [bind snd]. destruct (a_san_same _ _ S) as (_ & -> & _).
    rewrite (Hk n z D HZ), bytes_eqb_refl. reflexivity.
Qed.

(** a serialisable message: [insert_authentication_data] succeeds; the message then verifies and is
    serialisable, and what a receiver parses from its bytes (whatever follows them) verifies *)
Theorem C41_inserted_verifies : forall hm (m : amsg) (key out0 : bytes),
  digests hm -> obj_a m -> a_to_bytes m = Ok out0 ->
  exists m1, insert hm m key = (m1, Ok tt) /\
    snd (verify hm m1 key) = Ok true /\
    exists out m2, a_to_bytes m1 = Ok out /\
      (forall more, a_from_bytes (kind m) (out ++ more) = Ok m2) /\
      snd (verify hm m2 key) = Ok true.
Proof.
  intros hm m key out0 HD Ho H.
  destruct (san_of_bytes _ _ H) as (m' & S & H').
  pose proof (a_san_obj _ _ Ho S) as Ho'. pose proof (a_san_idem _ _ S) as S'.
  destruct (a_san_same _ _ S) as (EK & EA & EKd).
  destruct (a_bytes_split _ _ Ho' H') as (pre & post & LP & HS).
  assert (exists m1 a, insert hm m key = (m1, Ok tt) /\
     ((m1 = set_auth m [] /\ a = []) \/ m1 = set_auth m' a) /\
     blen a < 65536 /\ (a_key m = 0 -> a = []) /\
     (forall n z, digest_size (a_key m) n -> a_to_bytes (set_auth m' (repeat zero_byte n)) = Ok z -> a = hm (a_key m) key z))
    as (m1 & a & EI & Em1 & La & A0 & An).
  { destruct (key_known _ _ H) as [K|[n D]].
    - exists (set_auth m []), []. unfold insert, calculate. rewrite K, Z.eqb_refl.
      repeat split; auto; try (cbn; lia).
      intros n z D. destruct (digest_size_small _ _ D). congruence.
    - destruct (calculate_known hm m key _ n m' Ho H D S) as (z & HZ & HC).
      exists (set_auth m' (hm (a_key m) key z)), (hm (a_key m) key z).
      unfold insert. rewrite HC. split; [reflexivity|]. split; [auto|].
      destruct (digest_size_small _ _ D) as [N K0].
      split; [unfold blen; rewrite (HD _ _ D); lia|]. split; [congruence|].
      intros n' z' D' HZ'. assert (n' = n) as -> by (unfold digest_size in *; lia).
      destruct (san_of_bytes _ _ HZ) as (m0 & S0 & H0). rewrite a_san_set, S in S0. cbn in S0. injection S0 as <-.
      congruence. }
  exists m1. split; [exact EI|].
  (* every state with the normalised attributes and authentication data a verifies *)
  assert (forall mm, obj_a mm -> a_san mm = Ok (set_auth m' a) -> forall o, a_to_bytes mm = Ok o -> snd (verify hm mm key) = Ok true) as HV.
  { intros mm Hom Sm o Hmo. destruct (a_san_same _ _ Sm) as (k1 & k2 & _). rewrite a_key_set, EK in k1. rewrite a_auth_set in k2.
    apply (verify_true_if hm mm key o); auto; rewrite <- ?k1, <- ?k2; auto.
    intros n z D HZ. destruct (san_of_bytes _ _ HZ) as (m0 & S0 & H0).
    rewrite a_san_set, Sm in S0. cbn in S0. injection S0 as <-. rewrite set_auth_set in H0. eauto. }
  assert (obj_a m1 /\ a_san m1 = Ok (set_auth m' a) /\ kind m1 = kind m) as (Ho1 & S1 & K1).
  { destruct Em1 as [[-> ->]| ->].
    - rewrite a_san_set, S, kind_set. cbn. auto using obj_set.
    - rewrite a_san_set, S', kind_set. cbn. auto using obj_set. }
  assert (exists o, a_to_bytes m1 = Ok o) as [o Hmo].
  { destruct Em1 as [[-> ->]| ->]; [|eauto].
    destruct (a_bytes_split _ _ Ho H) as (pre' & post' & _ & HS'). eauto. }
  split; [exact (HV _ Ho1 S1 _ Hmo)|].
  destruct (parse_back _ _ Ho1 Hmo) as (m2 & S2 & P2). rewrite K1 in P2.
  exists o, m2. split; [exact Hmo|]. split; [exact P2|].
  assert (m2 = set_auth m' a) as -> by congruence.
  apply (HV _ (obj_set _ a Ho')) with (o := pre ++ w16 (blen a) ++ a ++ post); auto.
  rewrite a_san_set, S'. reflexivity.
Qed.
Print Assumptions C41_inserted_verifies.

(** C43: on success nothing but the normalisation of the records changes (the authentication data
    is the same, [arrives_a]); when calculate raises for an unknown key id nothing changes;
    an exception during serialisation leaves the authentication data zeroed. *)
Theorem C43_calculate_unchanged_partial : forall hm (m m' : amsg) (key : bytes),
  (forall d, calculate hm m key = (m', Ok d) -> m' = m \/ arrives_a m m') /\
  (forall v, verify hm m key = (m', Ok v) -> m' = m \/ arrives_a m m') /\
  (forall e, calculate hm m key = (m', Err e) ->
     a_key m' = a_key m /\ ((m' = m /\ ~ exists n, digest_size (a_key m) n) \/
                            exists n, digest_size (a_key m) n /\ a_auth m' = repeat zero_byte n)).
Proof.
  intros hm m m' key.
  assert (forall d, calculate hm m key = (m', Ok d) -> m' = m \/ arrives_a m m') as HC.
  { unfold calculate. intros d. destruct (a_key m =? 0); [intros [= <- _]; auto|].
    destruct (digest_len (a_key m)) as [n|]; [|discriminate].
    destruct (a_to_bytes (set_auth m _)) as [z|] eqn:HZ; [|discriminate]. intros [= <- _]. right.
    destruct (san_of_bytes _ _ HZ) as (m0 & S0 & _). rewrite (a_san_after _ _ S0).
    rewrite a_san_set in S0. bo S0 m1 S1. okinj S0. rewrite set_auth_set.
    destruct (a_san_same _ _ S1) as (_ & <- & _). rewrite set_auth_id. apply a_san_arrives. exact S1. }
  split; [exact HC|]. split.
  - unfold verify. intros v. destruct (calculate hm m key) as [m1 r] eqn:E. intros [= -> H].
    bo H d H1. subst r. eauto.
  - unfold calculate. intros e. destruct (a_key m =? 0) eqn:K0; [discriminate|].
    destruct (digest_len (a_key m)) as [n|] eqn:DL.
    + destruct (a_to_bytes (set_auth m _)) as [z|] eqn:HZ; [discriminate|]. intros [= <- _].
      assert (forall x, a_key (after x) = a_key x /\ a_auth (after x) = a_auth x) as HA.
      { intros [x|x|x]; cbn; try (destruct (_ && _ && _)); cbn; auto. }
      destruct (HA (set_auth m (repeat zero_byte n))) as [-> ->]. rewrite a_key_set, a_auth_set.
      split; [reflexivity|]. right. exists n. split; [|reflexivity]. apply digest_len_spec. exact DL.
    + intros [= <- _]. split; [reflexivity|]. left. split; [reflexivity|]. intros [n D]. apply digest_len_spec in D. congruence.
Qed.
Print Assumptions C43_calculate_unchanged_partial.

(** what is kept when an operation raises: everything but the authentication data *)
Lemma kept_refl r : kept_record r r.
Proof. unfold kept_record. repeat split; auto. Qed.
Lemma kept_san r r' : sanitize_mrec r = Ok r' -> kept_record r r'.
Proof.
  intros S. pose proof (sanitize_mrec_inv _ _ S) as (_ & _ & _ & _ & L & So & Eq). destruct (sort_locs_idem _ _ L So) as [_ HP].
  rewrite Eq. unfold kept_record. cbn [mr_ttl mr_auth mr_rsv mr_ver mr_eid mr_locs mr_action]. repeat (split; [reflexivity|]).
  split; [apply Permutation.Permutation_sym; exact HP|]. destruct (mr_locs r); [left; reflexivity|right; split; [discriminate|reflexivity]].
Qed.
Lemma kept_after l : Forall2 kept_record l (after_mrecs l).
Proof.
  assert (forall l, Forall2 kept_record l l) as R by (induction l0; constructor; auto using kept_refl).
  induction l as [|r l IH]; cbn [after_mrecs]; [constructor|]. destruct (sanitize_mrec r) as [r'|] eqn:E; constructor; auto using kept_san.
  unfold after_mrec. rewrite E. destruct (_ && _); [|apply kept_refl].
  unfold kept_record. cbn [mr_ttl mr_auth mr_rsv mr_ver mr_eid mr_locs mr_action]. repeat (split; [reflexivity|]).
  destruct (mr_locs r); [left; reflexivity|right; split; [discriminate|reflexivity]].
Qed.
Lemma kept_after_msg m a : kept_but_auth m (after (set_auth m a)).
Proof.
  assert (forall l, Forall2 kept_record l l) as R by (induction l; constructor; auto using kept_refl).
  destruct m as [m|m|m]; cbn [after set_auth]; [destruct (_ && _)..|];
    cbn [kept_but_auth g_proxy g_rtr g_notify g_rsv1 g_rsv2 g_nonce g_key g_xtr g_site g_records n_rsv n_nonce n_key n_xtr n_site n_records i_reply i_rsv1 i_rsv2 i_nonce i_key i_ttl i_eid i_data];
    repeat split; auto using kept_after.
Qed.
Theorem C43_exception_keeps : forall hm (m m' : amsg) (key : bytes) e,
  calculate hm m key = (m', Err e) \/ verify hm m key = (m', Err e) \/ insert hm m key = (m', Err e) ->
  kept_but_auth m m' /\
  ((m' = m /\ ~ exists n, digest_size (a_key m) n) \/ exists n, digest_size (a_key m) n /\ a_auth m' = repeat zero_byte n).
Proof.
  intros hm m m' key e H. assert (calculate hm m key = (m', Err e)) as E.
  { unfold verify, insert in H. destruct (calculate hm m key) as [m1 [d|x]] eqn:E.
    - destruct H as [H|[H|H]]; discriminate.
    - destruct H as [H|[H|H]]; injection H as <- <-; reflexivity. }
  clear H. destruct (C43_calculate_unchanged_partial hm m m' key) as (_ & _ & F). split; [|exact (proj2 (F e E))].
  unfold calculate in E. destruct (a_key m =? 0); [discriminate|]. destruct (digest_len (a_key m)) as [n|].
  - destruct (a_to_bytes _); [discriminate|]. injection E as <- _. apply kept_after_msg.
  - injection E as <- _. rewrite <- (set_auth_id m). pose proof (kept_after_msg m (a_auth m)) as K.
    assert (forall l, Forall2 kept_record l l) as R by (induction l; constructor; auto using kept_refl).
    clear K F. rewrite set_auth_id. destruct m; cbn [kept_but_auth]; repeat split; auto.
Qed.
Print Assumptions C43_exception_keeps.

(** the full property fails: verifying a Map-Notify with a bad record wipes its authentication data *)
Definition bad_notify : amsg :=
  ANot (MNot (zeros 19) ex_nonce 1 (B [1;2;3]) [MRec (-1) 0 true (zeros 16) 0 (ANet V4 0 0) []] 0 0).
Theorem C43_exception_refuted : forall hm (key : bytes),
  exists m', verify hm bad_notify key = (m', Err EValue) /\
             a_auth bad_notify = B [1;2;3] /\ a_auth m' = repeat zero_byte 20.
Proof. intros hm key. eexists. split; [reflexivity|]. split; reflexivity. Qed.
Print Assumptions C43_exception_refuted.

(** C44: if the received bytes are what the parsed message serialises to, verification is over
    exactly these bytes... *)
Theorem C44_received_bytes_partial : forall hm (m : amsg) (key d : bytes) n,
  digests hm -> obj_a m -> a_to_bytes m = Ok d -> digest_size (a_key m) n -> length (a_auth m) = n ->
  auth_field n d = hm (a_key m) key (zeroed n d) ->
  snd (verify hm m key) = Ok true.
Proof.
  intros hm m key d n HD Ho H D L E.
  destruct (C42_verify_iff_mac hm m key d HD Ho H) as (v & V & _ & I). rewrite V. f_equal.
  apply (I n D). repeat split; auto.
  destruct (a_bytes_split _ _ Ho H) as (pre & post & LP & HS).
  pose proof (HS (a_auth m) (a_bytes_auth_len _ _ H)) as H1. rewrite set_auth_id, H in H1. apply (f_equal (fun r => match r with Ok x => x | Err _ => [] end)) in H1. cbn beta iota in H1. subst d.
  apply (zeroed_split pre post (a_auth m) _ n LP (w16_len _) L).
Qed.
Print Assumptions C44_received_bytes_partial.

(** ...but a received Map-Register with the I bit set and "unspecified" (all-zero) xTR-ID and
    site-ID, as the protocol allows, is re-serialised without them: whatever the HMAC function is,
    the correctly authenticated message verifies only if the function collides on two different
    messages. *)
Definition zero_ids_register (auth : bytes) : bytes :=
  B [50; 0; 1; 0] ++ ex_nonce ++ B [0; 1; 0; 20] ++ auth ++ repeat zero_byte 24.
Definition reserialised : bytes :=
  B [48; 0; 1; 0] ++ ex_nonce ++ B [0; 1; 0; 20] ++ repeat zero_byte 20.
Theorem C44_received_bytes_refuted : forall hm (key : bytes),
  digests hm ->
  let received a := zero_ids_register a in
  let mac := hm 1 key (zeroed 20 (received (repeat zero_byte 20))) in
  exists m, a_from_bytes KReg (received mac) = Ok m /\
    auth_field 20 (received mac) = hm 1 key (zeroed 20 (received mac)) /\
    zeroed 20 (received mac) <> reserialised /\
    (snd (verify hm m key) = Ok true <-> hm 1 key (zeroed 20 (received mac)) = hm 1 key reserialised).
Proof.
  intros hm key HD received mac.
  assert (length mac = 20%nat) as L by (apply HD; left; auto).
  assert (forall a, length a = 20%nat -> zeroed 20 (received a) = received (repeat zero_byte 20) /\ auth_field 20 (received a) = a) as Z.
  { intros a La. unfold received, zero_ids_register.
    destruct (zeroed_split (B [50; 0; 1; 0] ++ ex_nonce ++ B [0;1]) (repeat zero_byte 24) a (B [0;20]) 20 eq_refl eq_refl La) as [Z1 Z2].
    split; [exact Z1|exact Z2]. }
  destruct (Z mac L) as [Z1 Z2]. rewrite Z1, Z2.
  assert (forall a, length a = 20%nat -> a_from_bytes KReg (received a) =
     Ok (AReg (MReg false false true (zeros 1) (zeros 15) ex_nonce 1 a [] 0 0))) as P.
  { intros a La. do 20 (destruct a as [|[? ? ? ? ? ? ? ?] a]; [discriminate La|]). destruct a; [|discriminate La].
    vm_compute. reflexivity. }
  eexists. split; [apply P; exact L|]. split; [reflexivity|]. split.
  { intros C. apply (f_equal (fun l => nth 0 l zero_byte)) in C. vm_compute in C. discriminate C. }
  unfold verify, calculate. cbn [a_key g_key Z.eqb Pos.eqb].
  change (digest_len 1) with (Some 20%nat). cbn beta iota zeta.
  assert (a_to_bytes (set_auth (AReg (MReg false false true (zeros 1) (zeros 15) ex_nonce 1 mac [] 0 0)) (repeat zero_byte 20)) = Ok reserialised) as R
    by (vm_compute; reflexivity).
  rewrite R. cbn [bind snd]. rewrite a_auth_set. cbn [a_auth g_authdata].
  pose proof (bytes_eqb_spec mac (hm 1 key reserialised)) as BS.
  destruct (bytes_eqb mac (hm 1 key reserialised)).
  - split; [intros _; apply BS; reflexivity|reflexivity].
  - split; [discriminate|]. intros C. apply BS in C. discriminate.
Qed.
Print Assumptions C44_received_bytes_refuted.

(** ** Non-vacuity: three serialisable messages and a function with the digest sizes *)
Definition toy_hm (k : Z) (key msg : bytes) : bytes :=
  firstn (if (k =? 1)%Z then 20 else 32)%nat (key ++ msg ++ repeat zero_byte 32).
Example C41_example :
  digests toy_hm /\
  Forall (fun m => obj_a m /\ is_ok (a_to_bytes m) = true) [AReg ex_mreg; ANot ex_mnot; AInfo ex_info] /\
  snd (verify toy_hm (AReg ex_mreg) (B [5])) = Ok false /\
  snd (verify toy_hm (fst (insert toy_hm (AReg ex_mreg) (B [5]))) (B [5])) = Ok true.
Proof.
  split.
  { intros k n [[-> ->]|[-> ->]] key msg; unfold toy_hm; cbn [Z.eqb Pos.eqb];
      rewrite firstn_length, !app_length, repeat_length; lia. }
  split; [|split; vm_compute; reflexivity].
  apply Forall_cons; [|apply Forall_cons; [|apply Forall_cons; [|apply Forall_nil]]];
    (split; [repeat split; repeat constructor|vm_compute; reflexivity]).
Qed.
