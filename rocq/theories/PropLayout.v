(** * Property C33: positions of the fields on the wire. *)
From Coq Require Import Permutation Sorted.
From Verif Require Import Base BaseLemmas Afi AfiProofs Spec SpecLemmas Records Control SpecRec
  RecordsProofs ControlProofs PropControl.

Lemma skipn_bits n b p s :
  bits_of_bytes b = p ++ bits_of_bytes s -> length p = (8 * n)%nat -> skipn n b = s.
Proof.
  intros H Hp.
  assert (exists x, p = bits_of_bytes x /\ length x = n) as [x [-> Hx]].
  { destruct (bytes_of_bits_total p n Hp) as [x [Hx Hl]]. apply bytes_of_bits_ok in Hx. eauto. }
  rewrite <- bits_of_bytes_app in H. apply bits_of_bytes_inj in H. subst b n.
  rewrite skipn_app, skipn_all, Nat.sub_diag. reflexivity.
Qed.

Ltac lens H :=
  let L := fresh "L" in
  pose proof (f_equal (@length bool) H) as L;
  rewrite ?bits_of_bytes_app, ?app_length in L; cbn [length] in L;
  rewrite ?app_length, ?enc_length, ?zeros_length, ?bits_of_bytes_length in L;
  cbn [length] in L.

Lemma be_bits b p : bits_of_bytes b = p -> be b = ub p.
Proof. intros <-. apply be_ub. Qed.

(** al8 piece as bytes *)
Lemma al8_bytes_of b : al8 b -> exists x, b = bits_of_bytes x.
Proof. intros H. destruct (al8_out _ H) as [x Hx]. apply bytes_of_bits_ok in Hx. eauto. Qed.



Lemma wrap_layout a t r d b :
  lcaf_wrap t r (Ok (bits_of_bytes d)) = Ok b -> wire_data a t r d ->
  exists out, b = bits_of_bytes out /\ wire a out.
Proof.
  intros H Hd. unfold lcaf_wrap in H. bo H tb E1. bo H rb E2. cbn [bind] in H. bo H nb E3. winv. okinj H.
  assert (length (bits_of_bytes d) = 8 * length d)%nat as Hl by apply bits_of_bytes_length.
  match goal with |- exists out, ?b = _ /\ _ => assert (al8 b) as Ha end.
  { exists (8 + length d)%nat. rewrite !app_length, !enc_length, !zeros_length, Hl. lia. }
  destruct (al8_bytes_of _ Ha) as [out Ho]. exists out. split; [exact Ho|]. symmetry in Ho. lens Ho.
  assert (skipn 8 out = d) as Hs.
  { eapply skipn_bits; [rewrite Ho; repeat rewrite app_assoc; reflexivity|].
    rewrite !app_length, !enc_length, !zeros_length. reflexivity. }
  rewrite Hl in *. rewrite Nat.mul_comm, Nat2Z.inj_mul, Z.div_mul in * by lia.
  apply (wire_lcaf a t r); [lia| | | | | | |rewrite Hs; exact Hd]; rewrite ?Hs; fld Ho.
Qed.

Lemma ip_layout v z b :
  w_uint (width v) z = Ok b ->
  exists out, enc 16 (afi_number v) ++ b = bits_of_bytes out /\
    length out = (2 + width v / 8)%nat /\ field 0 16 out = afi_number v /\ be (skipn 2 out) = z.
Proof.
  intros H. winv.
  assert (al8 (enc (width v) z)) as Ha.
  { exists (width v / 8)%nat. rewrite enc_length. destruct v; reflexivity. }
  destruct (al8_bytes_of _ Ha) as [x Hx].
  assert (al8 (enc 16 (afi_number v) ++ enc (width v) z)) as Ha2.
  { exists (2 + width v / 8)%nat. rewrite app_length, !enc_length. destruct v; reflexivity. }
  destruct (al8_bytes_of _ Ha2) as [out Ho]. exists out. split; [exact Ho|]. symmetry in Ho. 
  pose proof (f_equal (@length bool) Ho) as L. rewrite app_length, !enc_length, bits_of_bytes_length in L.
  assert (length out = 2 + width v / 8)%nat as L2.
  { destruct v; cbn [width] in L; [change (32 / 8)%nat with 4%nat|change (128/8)%nat with 16%nat]; cbn [width]; 
     [change (32 / 8)%nat with 4%nat|change (128/8)%nat with 16%nat]; lia. }
  split; [exact L2|]. split.
  - fld Ho. apply ub_enc. destruct v; cbn; lia.
  - rewrite (skipn_bits 2 out (enc 16 (afi_number v)) x).
    + rewrite be_ub, <- Hx. apply ub_enc. assumption.
    + rewrite <- Hx. exact Ho.
    + rewrite enc_length. reflexivity.
Qed.

Lemma wires_of l bs : 
  Forall (fun a => forall b, w_afi a = Ok b -> exists out, b = bits_of_bytes out /\ wire a out) l ->
  concatM w_afi l = Ok bs -> exists outs, bs = bits_of_bytes (concat outs) /\ wires l outs.
Proof.
  intros HF H. apply concatM_ok in H. destruct H as [ls [H ->]].
  induction H as [|a b l ls Ha Hl IH]; [exists []; split; [reflexivity|constructor]|].
  inversion HF as [|? ? H1 H2]; subst. destruct (IH H2) as [outs [E W]]. destruct (H1 _ Ha) as [o [-> Wo]].
  exists (o :: outs). cbn [concat]. rewrite bits_of_bytes_app, <- E. split; [reflexivity|constructor; assumption].
Qed.

Lemma bytes_app_ex p k d : length p = (8 * k)%nat -> exists o, p ++ bits_of_bytes d = bits_of_bytes o /\ skipn k o = d /\
  length o = (k + length d)%nat.
Proof.
  intros H. destruct (bytes_of_bits_total p k H) as [x [Hx Hl]]. apply bytes_of_bits_ok in Hx. subst p.
  exists (x ++ d). rewrite bits_of_bytes_app. split; [reflexivity|]. subst k.
  rewrite skipn_app, skipn_all, Nat.sub_diag, app_length. split; reflexivity.
Qed.

Theorem C33_address_layout : forall (a : addr) (b : bits),
  w_afi a = Ok b -> exists out, b = bits_of_bytes out /\ wire a out.
Proof.
  intros a. induction a as [|v z|v z len| |l HF|iid a mask IHa|asn a IHa|g a IHa|mp ep g m p rtrs IHa1 IHa2 IHa3 HF] using addr_ind'; intros b H.
  - cbn in H. okinj H. exists (B [0;0]). split; [reflexivity|]. constructor; reflexivity.
  - cbn [w_afi] in H. bo H x E. okinj H. destruct (ip_layout _ _ _ E) as (out & Ho & H1 & H2 & H3).
    exists out. split; [exact Ho|]. constructor; assumption.
  - cbn [w_afi] in H. bo H x E. okinj H. destruct (ip_layout _ _ _ E) as (out & Ho & H1 & H2 & H3).
    exists out. split; [exact Ho|]. constructor; assumption.
  - apply (wrap_layout LNull 0 0 []); [exact H|constructor].
  - cbn [w_afi] in H. destruct (concatM w_afi l) as [bs|] eqn:E; [|unfold lcaf_wrap in H; mon H; discriminate].
    match goal with HF : Forall _ l |- _ => destruct (wires_of _ _ HF E) as [outs [-> W]] end.
    eapply wrap_layout; [exact H|]. constructor. exact W.
  - cbn [w_afi] in H.
    match type of H with lcaf_wrap _ _ ?d = _ => destruct d as [bs|] eqn:E end; [|unfold lcaf_wrap in H; mon H; discriminate].
    bo E ib E1. bo E db E2. okinj E. winv. destruct (IHa _ E2) as [o [-> Wo]].
    destruct (bytes_app_ex (enc 32 iid) 4 o (enc_length _ _)) as (d & Hd & Hs & Hl). rewrite Hd in H.
    eapply wrap_layout; [exact H|]. symmetry in Hd. constructor; [lia| |rewrite Hs; exact Wo]. fld Hd.
  - cbn [w_afi] in H.
    match type of H with lcaf_wrap _ _ ?d = _ => destruct d as [bs|] eqn:E end; [|unfold lcaf_wrap in H; mon H; discriminate].
    bo E ib E1. bo E db E2. okinj E. winv. destruct (IHa _ E2) as [o [-> Wo]].
    destruct (bytes_app_ex (enc 32 asn) 4 o (enc_length _ _)) as (d & Hd & Hs & Hl). rewrite Hd in H.
    eapply wrap_layout; [exact H|]. symmetry in Hd. constructor; [lia| |rewrite Hs; exact Wo]. fld Hd.
  - cbn [w_afi] in H.
    match type of H with lcaf_wrap _ _ ?d = _ => destruct d as [bs|] eqn:E end; [|unfold lcaf_wrap in H; mon H; discriminate].
    bo E ib E1. bo E db E2. okinj E. destruct (IHa _ E2) as [o [-> Wo]]. unfold w_geo in E1.
    bo E1 b1 G1. bo E1 b2 G2. bo E1 b3 G3. bo E1 b4 G4. bo E1 b5 G5. bo E1 b6 G6. bo E1 b7 G7. okinj E1. winv.
    match type of H with context [?p ++ bits_of_bytes o] => destruct (bytes_app_ex p 12 o) as (d & Hd & Hs & Hl) end.
    { cbn [app]. repeat (rewrite ?app_length, ?enc_length; cbn [length]). reflexivity. }
    rewrite Hd in H. eapply wrap_layout; [exact H|]. symmetry in Hd.
    flat Hd. constructor; [lia| | | | | | | | | |rewrite Hs; exact Wo]; fld Hd.
    apply ub_enc_mod.
  - cbn [w_afi] in H.
    match type of H with lcaf_wrap _ _ ?d = _ => destruct d as [bs|] eqn:E end; [|unfold lcaf_wrap in H; mon H; discriminate].
    bo E b1 E1. bo E b2 E2. bo E b3 E3. bo E b4 E4. bo E b5 E5. bo E b6 E6. okinj E. winv.
    destruct (IHa1 _ E3) as [o1 [-> W1]]. destruct (IHa2 _ E4) as [o2 [-> W2]]. destruct (IHa3 _ E5) as [o3 [-> W3]].
    match goal with HF : Forall _ _ |- _ => destruct (wires_of _ _ HF E6) as [outs [-> W]] end.
    rewrite <- !bits_of_bytes_app in H. rewrite app_assoc in H.
    match type of H with context [(?p ++ ?q) ++ bits_of_bytes ?o] => destruct (bytes_app_ex (p ++ q) 4 o) as (d & Hd & Hs & Hl) end.
    { rewrite app_length, !enc_length. reflexivity. }
    rewrite Hd in H. eapply wrap_layout; [exact H|]. symmetry in Hd.
    flat Hd. econstructor; [lia| | |exact W1|exact W2|exact W3|exact W|exact Hs]; fld Hd.
Qed.
Print Assumptions C33_address_layout.

Example C33_example_address : is_ok (w_afi (LInst 5 (LNat 1 2 (AIP V4 3) ANone (AIP V6 9) [AIP V4 4; LList [LNull]]) 32)) = true.
Proof. vm_compute. reflexivity. Qed.

(** ** records *)
Lemma layout_cons out o w v l : (o + w <= 8 * length out)%nat -> field o w out = v -> layout out l ->
  layout out ((o, w, v) :: l).
Proof. intros. constructor; auto. Qed.
Ltac lay H := flat H; repeat (apply layout_cons; [lia|fld H|]); try constructor.

Lemma concat_bytes {A} (P : A -> Prop) (w : A -> res bits) l b :
  (forall x b, P x -> w x = Ok b -> al8 b) -> Forall P l -> concatM w l = Ok b ->
  exists bs, mapM (to_bytes w) l = Ok bs /\ b = bits_of_bytes (concat bs).
Proof.
  intros Hw HP H. apply concatM_ok in H. destruct H as [ls [H ->]].
  induction H as [|x y l ls Hx Hl IH]; [exists []; split; reflexivity|].
  inversion HP; subst. destruct IH as [bs [E1 E2]]; [assumption|].
  destruct (al8_bytes_of y) as [o ->]; [eauto|]. exists (o :: bs). split.
  - cbn [mapM]. replace (to_bytes w x) with (@Ok bytes o) by (symmetry; apply to_bytes_ok; exact Hx).
    cbn [bind]. rewrite E1. reflexivity.
  - cbn [concat]. rewrite bits_of_bytes_app, E2. reflexivity.
Qed.

Theorem C33_locator_layout : forall (l : loc) (out : bytes),
  obj_loc l -> loc_to_bytes l = Ok out ->
  layout out [(0, 8, l_prio l); (8, 8, l_weight l); (16, 8, l_mprio l); (24, 8, l_mweight l);
              (32, 13, ub (l_rsv l)); (45, 1, Z.b2z (l_local l)); (46, 1, Z.b2z (l_probed l)); (47, 1, Z.b2z (l_reach l))]%nat /\
  wire (l_addr l) (skipn 6 out).
Proof.
  intros l out Hl H. apply to_bytes_ok in H. unfold w_loc in H. bo H [] E0. bo H a E1. bo H b E2. bo H c E3.
  bo H d E4. bo H e E5. okinj H. winv. destruct (C33_address_layout _ _ E5) as [x [-> W]]. symmetry in H. lens H.
  unfold obj_loc in Hl. rewrite Hl in L. split; [lay H|].
  rewrite (skipn_bits 6 out (enc 8 (l_prio l) ++ enc 8 (l_weight l) ++ enc 8 (l_mprio l) ++ enc 8 (l_mweight l) ++ l_rsv l ++ [l_local l; l_probed l; l_reach l]) x).
  - exact W.
  - rewrite H. rewrite <- !app_assoc. reflexivity.
  - rewrite !app_length, !enc_length, Hl. reflexivity.
Qed.
Print Assumptions C33_locator_layout.

Theorem C33_mapping_record_layout : forall (r : mrec) (out : bytes),
  obj_mrec r -> mrec_to_bytes r = Ok out ->
  exists v z n locs eid ls,
    mr_eid r = ANet v z n /\ sorted_of (mr_locs r) locs /\
    layout out [(0, 32, mr_ttl r); (32, 8, lenZ (mr_locs r)); (40, 8, n);
                (48, 3, if has_locators (mr_locs r) then 0%Z else mr_action r); (51, 1, Z.b2z (mr_auth r));
                (52, 16, ub (mr_rsv r)); (68, 12, mr_ver r)]%nat /\
    skipn 10 out = eid ++ concat ls /\ wire (mr_eid r) eid /\ mapM loc_to_bytes locs = Ok ls.
Proof.
  intros r out Hw H. apply to_bytes_ok in H. unfold w_mrec in H. bo H r' Es.
  pose proof (sanitize_mrec_wf _ _ Hw Es) as (Hr & _ & Hl).
  pose proof (sanitize_mrec_arrives _ _ Es) as A. destruct A as [A1 A2 A3 A4 A5 A6 A7 A8].
  pose proof (sanitize_mrec_inv _ _ Es) as (_ & _ & _ & Hnet & _).
  unfold enc_mrec in H. rewrite A1, A4, A5, A6, A7 in H.
  destruct (mr_eid r) as [| |v z n| | | | | |] eqn:Ee; try discriminate. cbn [prefixlen] in H.
  bo H a E1. bo H b E2. cbn [bind] in H. bo H c E3. bo H d E4. bo H e E5. bo H f E6. bo H g E7. okinj H. winv.
  destruct (C33_address_layout _ _ E6) as [x [-> W]].
  destruct (concat_bytes obj_loc w_loc _ _ al8_loc Hl E7) as [ls [Els ->]].
  symmetry in H. rewrite A5 in Hr. lens H. rewrite Hr in L.
  exists v, z, n, (mr_locs r'), x, ls. split; [reflexivity|]. split; [exact A8|]. split; [|split; [|split; [exact W|exact Els]]].
  - assert (mr_action r' = if has_locators (mr_locs r) then 0 else mr_action r) as <-.
    { destruct (mr_locs r); [apply A2; reflexivity|apply A3; discriminate]. }
    assert (lenZ (mr_locs r) = lenZ (mr_locs r')) as ->.
    { unfold lenZ. f_equal. apply Permutation_length. apply A8. }
    lay H.
  - eapply skipn_bits; [rewrite H, bits_of_bytes_app; repeat rewrite app_assoc; reflexivity|].
    rewrite !app_length, !enc_length. cbn [length]. rewrite Hr. reflexivity.
Qed.
Print Assumptions C33_mapping_record_layout.

Theorem C33_referral_record_layout : forall (r : rrec) (out : bytes),
  obj_rrec r -> rrec_to_bytes r = Ok out ->
  exists i v z n m locs eid ls,
    (rr_eid r = LInst i (ANet v z n) m \/ rr_eid r = ANet v z n /\ i = 0 /\ m = 32) /\ sorted_of (rr_locs r) locs /\
    layout out [(0, 32, rr_ttl r); (32, 8, lenZ (rr_locs r)); (40, 8, n);
                (48, 3, rr_action r); (51, 1, Z.b2z (rr_auth r)); (52, 1, Z.b2z (rr_incomplete r));
                (53, 11, ub (rr_rsv r)); (64, 4, 0%Z); (68, 12, rr_ver r)]%nat /\
    skipn 10 out = eid ++ concat ls /\ wire (LInst i (ANet v z n) m) eid /\ mapM loc_to_bytes locs = Ok ls.
Proof.
  intros r out Hw H. apply to_bytes_ok in H. unfold w_rrec in H. bo H r' Es.
  pose proof (sanitize_rrec_wf _ _ Hw Es) as (Hr & _ & Hl).
  pose proof (sanitize_rrec_arrives _ _ Es) as A. destruct A as [A1 A2 A3 A4 A5 A6 A7 A8 A9 A10].
  destruct Hw as (_ & Hp & _).
  assert (exists i v z n m, (rr_eid r = LInst i (ANet v z n) m \/ rr_eid r = ANet v z n /\ i = 0 /\ m = 32) /\
    rr_eid r' = LInst i (ANet v z n) m) as (i & v & z & n & m & He & He').
  { destruct (rr_eid r) as [| |v z n| | |i [| |v z n| | | | | |] m| | |] eqn:Ee; cbn in Hp; try contradiction.
    - exists 0, v, z, n, 32. split; [right; auto|apply A8; reflexivity].
    - exists i, v, z, n, m. split; [left; auto|apply A9; reflexivity]. }
  unfold enc_rrec in H. rewrite A1, A2, A3, A4, A5, A6, A7, He' in H. cbn [prefixlen] in H.
  bo H a E1. bo H b E2. cbn [bind] in H. bo H c E3. bo H d E4. bo H s E4'. bo H e E5. bo H f E6. bo H g E7. bo H [] E8. okinj H.
  apply guard_ok in E8. apply Z.eqb_eq in E8. rewrite E8 in *. winv.
  destruct (C33_address_layout _ _ E6) as [x [-> W]].
  destruct (concat_bytes obj_loc w_loc _ _ al8_loc Hl E7) as [ls [Els ->]].
  symmetry in H. rewrite A5 in Hr. lens H. rewrite Hr in L.
  exists i, v, z, n, m, (rr_locs r'), x, ls. split; [exact He|]. split; [exact A10|]. split; [|split; [|split; [exact W|exact Els]]].
  - assert (lenZ (rr_locs r) = lenZ (rr_locs r')) as ->.
    { unfold lenZ. f_equal. apply Permutation_length. apply A10. }
    lay H.
  - eapply skipn_bits; [rewrite H, bits_of_bytes_app; repeat rewrite app_assoc; reflexivity|].
    rewrite !app_length, !enc_length. cbn [length]. rewrite Hr. reflexivity.
Qed.
Print Assumptions C33_referral_record_layout.

(** ** messages *)
Lemma san_records rs rs' b :
  Forall obj_mrec rs -> mapM sanitize_mrec rs = Ok rs' -> concatM w_mrec rs' = Ok b ->
  lenZ rs' = lenZ rs /\ exists bs, mapM mrec_to_bytes rs = Ok bs /\ b = bits_of_bytes (concat bs).
Proof.
  intros Hw Hs H. split; [unfold lenZ; rewrite (mapM_length _ _ _ Hs); reflexivity|].
  assert (concatM w_mrec rs = Ok b) as H'.
  { unfold concatM in *. rewrite <- H. f_equal. clear H Hw. revert rs' Hs.
    induction rs as [|r rs IH]; intros rs' Hs; cbn [mapM] in Hs; [okinj Hs; reflexivity|].
    bo Hs r' E. bo Hs l E2. okinj Hs. cbn [mapM]. rewrite (IH _ E2).
    replace (w_mrec r') with (w_mrec r); [reflexivity|]. unfold w_mrec. rewrite E, (sanitize_mrec_idem _ _ E). reflexivity. }
  exact (concat_bytes obj_mrec w_mrec _ _ al8_mrec Hw H').
Qed.
Lemma san_rrecords rs rs' b :
  Forall obj_rrec rs -> mapM sanitize_rrec rs = Ok rs' -> concatM w_rrec rs' = Ok b ->
  lenZ rs' = lenZ rs /\ exists bs, mapM rrec_to_bytes rs = Ok bs /\ b = bits_of_bytes (concat bs).
Proof.
  intros Hw Hs H. split; [unfold lenZ; rewrite (mapM_length _ _ _ Hs); reflexivity|].
  assert (concatM w_rrec rs = Ok b) as H'.
  { unfold concatM in *. rewrite <- H. f_equal. clear H Hw. revert rs' Hs.
    induction rs as [|r rs IH]; intros rs' Hs; cbn [mapM] in Hs; [okinj Hs; reflexivity|].
    bo Hs r' E. bo Hs l E2. okinj Hs. cbn [mapM]. rewrite (IH _ E2).
    replace (w_rrec r') with (w_rrec r); [reflexivity|]. unfold w_rrec. rewrite E, (sanitize_rrec_idem _ _ E). reflexivity. }
  exact (concat_bytes obj_rrec w_rrec _ _ al8_rrec Hw H').
Qed.

(** nonces are put at bytes 4..11; short ones are preceded by zero bytes *)
Theorem C33_map_reply_layout : forall (m : mrep) (out : bytes),
  obj_mrep m -> mrep_to_bytes m = Ok out ->
  layout out [(0, 4, 2%Z); (4, 1, Z.b2z (p_probe m)); (5, 1, Z.b2z (p_enlra m)); (6, 1, Z.b2z (p_security m));
              (7, 17, ub (p_rsv m)); (24, 8, lenZ (p_records m)); (32, 64, be (p_nonce m))]%nat /\
  exists rs, skipn 12 out = concat rs /\ mapM mrec_to_bytes (p_records m) = Ok rs.
Proof.
  intros m out [Hr Hw] H. apply to_bytes_ok in H. unfold w_mrep, sanitize_mrep in H.
  bo H m' E. bo E [] E1. bo E [] E2. bo E rs E3. okinj E.
  cbn [p_probe p_enlra p_security p_rsv p_nonce p_records] in H.
  bo H a F1. bo H b F2. bo H c F3. bo H [] F4. okinj H. winv.
  destruct (san_records _ _ _ Hw E3 F3) as [Hn [bs [Hb ->]]]. rewrite Hn in *.
  assert (length (p_nonce m) <= 8)%nat as Hl by (unfold blen in E2; lia).
  assert (length (pad_nonce (p_nonce m)) = 64)%nat as Hp.
  { unfold pad_nonce. rewrite app_length, zeros_length, bits_of_bytes_length. lia. }
  assert (ub (pad_nonce (p_nonce m)) = be (p_nonce m)) as Hv.
  { unfold pad_nonce. rewrite ub_app, ub_zeros, be_ub. lia. }
  symmetry in H. lens H. rewrite Hr, Hp in L. split; [lay H|].
  - rewrite Hv. reflexivity.
  - exists bs. split; [|exact Hb]. eapply skipn_bits; [rewrite H; repeat rewrite app_assoc; reflexivity|].
    rewrite !app_length, !enc_length, Hp. cbn [length]. rewrite Hr. reflexivity.
Qed.
Print Assumptions C33_map_reply_layout.

Definition xtr_bytes (has : bool) (xtr site : Z) (b : bytes) : Prop :=
  if has then length b = 24%nat /\ field 0 128 b = xtr /\ field 128 64 b = site else b = [].

Lemma w_xtr_layout h x s b : w_xtr h x s = Ok b -> exists o, b = bits_of_bytes o /\ xtr_bytes h x s o.
Proof.
  intros H. destruct (al8_bytes_of b (al8_xtr _ _ _ _ H)) as [o ->]. exists o. split; [reflexivity|].
  unfold w_xtr in H. destruct h; cbn [xtr_bytes].
  - bo H a E1. bo H b E2. okinj H. winv. symmetry in H. lens H. split; [lia|]. split; fld H.
  - okinj H. apply bits_of_bytes_inj. auto.
Qed.

Ltac aplen := repeat (rewrite ?app_length, ?enc_length, ?bits_of_bytes_length; cbn [length]); lia.

Theorem C33_map_register_layout : forall (m : mreg) (out : bytes),
  obj_mreg m -> mreg_to_bytes m = Ok out ->
  let has := negb (g_xtr m =? 0) || negb (g_site m =? 0) || g_rtr m in
  let authlen := length (g_authdata m) in
  layout out [(0, 4, 3%Z); (4, 1, Z.b2z (g_proxy m)); (5, 1, ub (g_rsv1 m)); (6, 1, Z.b2z has); (7, 1, Z.b2z (g_rtr m));
              (8, 15, ub (g_rsv2 m)); (23, 1, Z.b2z (g_notify m)); (24, 8, lenZ (g_records m)); (32, 64, be (g_nonce m));
              (96, 16, g_key m); (112, 16, Z.of_nat authlen)]%nat /\
  slice 16 authlen out = g_authdata m /\
  exists rs xs, skipn (16 + authlen) out = concat rs ++ xs /\ mapM mrec_to_bytes (g_records m) = Ok rs /\
    xtr_bytes has (g_xtr m) (g_site m) xs.
Proof.
  intros m out (Hr1 & Hr2 & Hnon & Hw) H. apply to_bytes_ok in H. unfold w_mreg, sanitize_mreg in H.
  bo H m' E. bo E [] E1. bo E [] E2. bo E [] E3. bo E rs E4. okinj E.
  cbn [g_proxy g_rtr g_notify g_rsv1 g_rsv2 g_nonce g_key g_authdata g_records g_xtr g_site] in H.
  bo H ty E5. bo H cnt E6. bo H au E7. bo H rb E8. bo H xs E9. okinj H.
  unfold w_authdata in E7. bo E7 k E10. bo E7 nl E11. okinj E7. winv.
  destruct (san_records _ _ _ Hw E4 E8) as [Hn [bs [Hb ->]]]. rewrite Hn in *.
  destruct (w_xtr_layout _ _ _ _ E9) as [xo [-> Hx]].
  unfold g_has_xtr in H, Hx. cbn [g_xtr g_site g_rtr] in H, Hx. cbn zeta.
  set (has := negb (g_xtr m =? 0) || negb (g_site m =? 0) || g_rtr m) in *. unfold blen in *.
  symmetry in H. lens H. rewrite Hr1, Hr2, Hnon in L. rewrite be_ub.
  assert (length (bits_of_bytes (g_nonce m)) = 64%nat) as Hnn by (rewrite bits_of_bytes_length; lia).
  split; [lay H|]. split.
  - apply (slice_bits 16 _ out (enc 4 3 ++ (g_proxy m :: g_rsv1 m) ++ (has :: g_rtr m :: g_rsv2 m) ++ (g_notify m :: enc 8 (lenZ (g_records m)))
        ++ bits_of_bytes (g_nonce m) ++ enc 16 (g_key m) ++ enc 16 (Z.of_nat (length (g_authdata m)))) _ 
        (bits_of_bytes (concat bs) ++ bits_of_bytes xo)); [|aplen|reflexivity].
    rewrite H. repeat rewrite <- app_assoc; cbn [app]; repeat rewrite <- app_assoc. reflexivity.
  - exists bs, xo. split; [|split; assumption].
    apply (skipn_bits _ out (enc 4 3 ++ (g_proxy m :: g_rsv1 m) ++ (has :: g_rtr m :: g_rsv2 m) ++ (g_notify m :: enc 8 (lenZ (g_records m)))
        ++ bits_of_bytes (g_nonce m) ++ enc 16 (g_key m) ++ enc 16 (Z.of_nat (length (g_authdata m))) ++ bits_of_bytes (g_authdata m))); [|aplen].
    rewrite H, bits_of_bytes_app. repeat rewrite <- app_assoc; cbn [app]; repeat rewrite <- app_assoc. reflexivity.
Qed.
Print Assumptions C33_map_register_layout.

Theorem C33_map_notify_layout : forall (m : mnot) (out : bytes),
  obj_mnot m -> mnot_to_bytes m = Ok out ->
  let has := negb (n_xtr m =? 0) || negb (n_site m =? 0) in
  let authlen := length (n_authdata m) in
  layout out [(0, 4, 4%Z); (4, 1, Z.b2z has); (5, 19, ub (n_rsv m)); (24, 8, lenZ (n_records m)); (32, 64, be (n_nonce m));
              (96, 16, n_key m); (112, 16, Z.of_nat authlen)]%nat /\
  slice 16 authlen out = n_authdata m /\
  exists rs xs, skipn (16 + authlen) out = concat rs ++ xs /\ mapM mrec_to_bytes (n_records m) = Ok rs /\
    xtr_bytes has (n_xtr m) (n_site m) xs.
Proof.
  intros m out (Hr1 & Hw) H. apply to_bytes_ok in H. unfold w_mnot, sanitize_mnot in H.
  bo H m' E. bo E [] E1. bo E [] E2. bo E [] E3. bo E [] E3'. bo E rs E4. okinj E.
  cbn [n_rsv n_nonce n_key n_authdata n_records n_xtr n_site] in H.
  bo H ty E5. bo H cnt E6. bo H au E7. bo H rb E8. bo H xs E9. okinj H.
  unfold w_authdata in E7. bo E7 k E10. bo E7 nl E11. okinj E7. winv.
  destruct (san_records _ _ _ Hw E4 E8) as [Hn [bs [Hb ->]]]. rewrite Hn in *.
  destruct (w_xtr_layout _ _ _ _ E9) as [xo [-> Hx]].
  unfold n_has_xtr in H, Hx. cbn [n_xtr n_site] in H, Hx. cbn zeta.
  set (has := negb (n_xtr m =? 0) || negb (n_site m =? 0)) in *. unfold blen in *.
  assert (length (n_nonce m) = 8%nat) as Hnon by lia.
  symmetry in H. lens H. rewrite Hr1, Hnon in L. rewrite be_ub.
  assert (length (bits_of_bytes (n_nonce m)) = 64%nat) as Hnn by (rewrite bits_of_bytes_length; lia).
  split; [lay H|]. split.
  - apply (slice_bits 16 _ out (enc 4 4 ++ (has :: n_rsv m) ++ enc 8 (lenZ (n_records m))
        ++ bits_of_bytes (n_nonce m) ++ enc 16 (n_key m) ++ enc 16 (Z.of_nat (length (n_authdata m)))) _ 
        (bits_of_bytes (concat bs) ++ bits_of_bytes xo)); [|aplen|reflexivity].
    rewrite H. repeat rewrite <- app_assoc; cbn [app]; repeat rewrite <- app_assoc. reflexivity.
  - exists bs, xo. split; [|split; assumption].
    apply (skipn_bits _ out (enc 4 4 ++ (has :: n_rsv m) ++ enc 8 (lenZ (n_records m))
        ++ bits_of_bytes (n_nonce m) ++ enc 16 (n_key m) ++ enc 16 (Z.of_nat (length (n_authdata m))) ++ bits_of_bytes (n_authdata m))); [|aplen].
    rewrite H, bits_of_bytes_app. repeat rewrite <- app_assoc; cbn [app]; repeat rewrite <- app_assoc. reflexivity.
Qed.
Print Assumptions C33_map_notify_layout.

Theorem C33_map_referral_layout : forall (m : mref) (out : bytes),
  obj_mref m -> mref_to_bytes m = Ok out ->
  layout out [(0, 4, 6%Z); (4, 20, ub (f_rsv m)); (24, 8, lenZ (f_records m)); (32, 64, be (f_nonce m))]%nat /\
  exists rs, skipn 12 out = concat rs /\ mapM rrec_to_bytes (f_records m) = Ok rs.
Proof.
  intros m out [Hr Hw] H. apply to_bytes_ok in H. unfold w_mref, sanitize_mref in H.
  bo H m' E. bo E [] E2. bo E rs E3. okinj E.
  cbn [f_rsv f_nonce f_records] in H.
  bo H a F1. bo H b F2. bo H c F3. okinj H. winv.
  destruct (san_rrecords _ _ _ Hw E3 F3) as [Hn [bs [Hb ->]]]. rewrite Hn in *.
  assert (length (f_nonce m) = 8)%nat as Hl by (unfold blen in E2; lia).
  assert (length (bits_of_bytes (f_nonce m)) = 64%nat) as Hnn by (rewrite bits_of_bytes_length; lia).
  rewrite be_ub. symmetry in H. lens H. rewrite Hr, Hl in L. split; [lay H|].
  exists bs. split; [|exact Hb]. 
  apply (skipn_bits _ out (enc 4 6 ++ f_rsv m ++ enc 8 (lenZ (f_records m)) ++ bits_of_bytes (f_nonce m))); [|aplen].
  rewrite H. repeat rewrite <- app_assoc. reflexivity.
Qed.
Print Assumptions C33_map_referral_layout.

Theorem C33_info_layout : forall (m : info) (out : bytes),
  obj_info m -> info_to_bytes m = Ok out ->
  let authlen := length (i_authdata m) in
  exists v z n eid data,
  i_eid m = ANet v z n /\
  layout out [(0, 4, 7%Z); (4, 1, Z.b2z (i_reply m)); (5, 27, ub (i_rsv1 m)); (32, 64, be (i_nonce m));
              (96, 16, i_key m); (112, 16, Z.of_nat authlen)]%nat /\
  slice 16 authlen out = i_authdata m /\
  layout (skipn (16 + authlen) out) [(0, 32, i_ttl m); (32, 8, ub (i_rsv2 m)); (40, 8, n)]%nat /\
  skipn (22 + authlen) out = eid ++ data /\ wire (i_eid m) eid /\ wire (i_data m) data.
Proof.
  intros m out (Hr1 & Hr2 & _ & _) H authlen. apply to_bytes_ok in H. unfold w_info in H. bo H m' E.
  assert (m' = m /\ is_net (i_eid m) = true /\ length (i_nonce m) = 8%nat) as (-> & Hnet & Hnon).
  { unfold sanitize_info in E. bo E [] E1. bo E [] E2. bo E [] E3. bo E [] E4. bo E [] E5. okinj E. winv. unfold blen in E1.
    repeat split; auto. lia. }
  destruct (i_eid m) as [| |v z n| | | | | |] eqn:Ee; try discriminate. cbn [prefixlen] in H.
  bo H ty E5. bo H au E7. bo H tb E8. cbn [bind] in H. bo H ml E10. bo H eb E11. bo H db E12. okinj H.
  unfold w_authdata in E7. bo E7 k E13. bo E7 nl E14. okinj E7. winv.
  destruct (C33_address_layout _ _ E11) as [eo [-> We]]. destruct (C33_address_layout _ _ E12) as [do [-> Wd]].
  exists v, z, n, eo, do. unfold blen in *. symmetry in H. lens H. rewrite Hr1, Hr2, Hnon in L. rewrite be_ub.
  assert (length (bits_of_bytes (i_nonce m)) = 64%nat) as Hnn by (rewrite bits_of_bytes_length; lia).
  set (P := enc 4 7 ++ (i_reply m :: i_rsv1 m) ++ bits_of_bytes (i_nonce m) ++ enc 16 (i_key m) ++ enc 16 (Z.of_nat authlen)).
  split; [reflexivity|]. split; [lay H|]. split; [|split].
  - apply (slice_bits 16 _ out P _ (enc 32 (i_ttl m) ++ i_rsv2 m ++ enc 8 n ++ bits_of_bytes eo ++ bits_of_bytes do)); [|unfold P; aplen|reflexivity].
    rewrite H. unfold P. repeat rewrite <- app_assoc; cbn [app]; repeat rewrite <- app_assoc. reflexivity.
  - assert (exists q, enc 32 (i_ttl m) ++ i_rsv2 m ++ enc 8 n ++ bits_of_bytes eo ++ bits_of_bytes do = bits_of_bytes q) as [q Hq].
    { rewrite <- bits_of_bytes_app. apply al8_bytes_of. exists (6 + (length eo + length do))%nat. rewrite bits_of_bytes_app. aplen. }
    rewrite (skipn_bits _ out (P ++ bits_of_bytes (i_authdata m)) q); [| |unfold P, authlen; aplen].
    + symmetry in Hq. lens Hq. rewrite Hr2 in L0. lay Hq.
    + rewrite H, <- Hq. unfold P. repeat rewrite <- app_assoc; cbn [app]; repeat rewrite <- app_assoc. reflexivity.
  - split; [|split; assumption].
    apply (skipn_bits _ out (P ++ bits_of_bytes (i_authdata m) ++ enc 32 (i_ttl m) ++ i_rsv2 m ++ enc 8 n)); [|unfold P, authlen; aplen].
    rewrite H, bits_of_bytes_app. unfold P. repeat rewrite <- app_assoc; cbn [app]; repeat rewrite <- app_assoc. reflexivity.
Qed.
Print Assumptions C33_info_layout.

(** an EID item of a Map-Request: reserved byte, mask length, address *)
Definition eid_item (e : addr) (b : bytes) : Prop :=
  exists v z n, as_prefix e (ANet v z n) /\ layout b [(0, 8, 0%Z); (8, 8, n)]%nat /\ wire (ANet v z n) (skipn 2 b).

Lemma ip_network_as_prefix e net : ip_network e = Ok net -> exists v z n, net = ANet v z n /\ as_prefix e net.
Proof.
  revert net. induction e as [|v z|v z len| |l HF|iid a mask IHe|asn a IHe|g a IHe|mp ep g m p rtrs IHa1 IHa2 IHa3 HF] using addr_ind'; cbn [ip_network]; intros net Hn; try discriminate;
    try (destruct (fmt_raises _); discriminate).
  - okinj Hn. repeat eexists. constructor.
  - okinj Hn. repeat eexists. constructor.
  - destruct (iid =? 0) eqn:E; [|destruct (fmt_raises _); discriminate]. apply Z.eqb_eq in E. subst.
    destruct (IHe _ Hn) as (v & z & n & -> & Ha). exists v, z, n. split; [reflexivity|]. constructor. exact Ha.
Qed.

Lemma w_eid_layout e b : w_eid e = Ok b -> exists o, b = bits_of_bytes o /\ eid_item e o.
Proof.
  intros H. unfold w_eid in H. bo H net E1. destruct (ip_network_as_prefix _ _ E1) as (v & z & n & -> & Ha).
  cbn [prefixlen] in H. cbn [bind] in H. bo H nb E2. bo H ab E3. okinj H. winv.
  destruct (C33_address_layout _ _ E3) as [ao [-> W]].
  rewrite app_assoc. destruct (bytes_app_ex (zeros 8 ++ enc 8 n) 2 ao) as (o & Ho & Hs & Hl).
  { rewrite app_length, zeros_length, enc_length. reflexivity. }
  exists o. split; [exact Ho|]. exists v, z, n. split; [exact Ha|]. symmetry in Ho.
  split; [lay Ho; reflexivity|rewrite Hs; exact W].
Qed.

Theorem C33_map_request_layout : forall (m : mreq) (out : bytes),
  obj_mreq m -> mreq_to_bytes m = Ok out ->
  exists src rlocs eids reply,
  layout out [(0, 4, 1%Z); (4, 1, Z.b2z (q_auth m)); (5, 1, match q_reply m with None => 0%Z | Some _ => 1%Z end);
              (6, 1, Z.b2z (q_probe m)); (7, 1, Z.b2z (q_smr m)); (8, 1, Z.b2z (q_pitr m)); (9, 1, Z.b2z (q_smri m));
              (10, 9, ub (q_rsv m)); (19, 5, (lenZ (q_rlocs m) - 1)%Z); (24, 8, lenZ (q_eids m)); (32, 64, be (q_nonce m))]%nat /\
  skipn 12 out = src ++ concat rlocs ++ concat eids ++ reply /\
  wire (q_src m) src /\ Forall2 wire (q_rlocs m) rlocs /\ Forall2 eid_item (q_eids m) eids /\
  match q_reply m with None => reply = [] | Some r => mrec_to_bytes r = Ok reply end.
Proof.
  intros m out (Hr & _ & _ & Hrep) H. apply to_bytes_ok in H. unfold w_mreq, sanitize_mreq in H.
  bo H m' E. bo E [] E1. bo E [] E2. bo E [] E3. bo E [] E4. bo E [] E5. bo E [] E6. bo E rep E7. okinj E.
  cbn [q_auth q_probe q_smr q_pitr q_smri q_rsv q_nonce q_src q_rlocs q_eids q_reply] in H.
  bo H ty F1. bo H irc F2. bo H cnt F3. bo H sb F4. bo H rb F5. bo H eb F6. bo H rp F7. okinj H. winv.
  destruct (C33_address_layout _ _ F4) as [so [-> Ws]].
  assert (exists rs, rb = bits_of_bytes (concat rs) /\ Forall2 wire (q_rlocs m) rs) as [rs [-> Wr]].
  { apply concatM_ok in F5. destruct F5 as [ls [F5 ->]]. clear - F5.
    induction F5 as [|x y l ls Hx Hl [rs [E IH]]]; [exists []; split; [reflexivity|constructor]|].
    destruct (C33_address_layout _ _ Hx) as [o [-> W]]. exists (o :: rs). cbn [concat]. rewrite E, bits_of_bytes_app.
    split; [reflexivity|constructor; assumption]. }
  assert (exists es, eb = bits_of_bytes (concat es) /\ Forall2 eid_item (q_eids m) es) as [es [-> We]].
  { apply concatM_ok in F6. destruct F6 as [ls [F6 ->]]. clear - F6.
    induction F6 as [|x y l ls Hx Hl [rs [E IH]]]; [exists []; split; [reflexivity|constructor]|].
    destruct (w_eid_layout _ _ Hx) as [o [-> W]]. exists (o :: rs). cbn [concat]. rewrite E, bits_of_bytes_app.
    split; [reflexivity|constructor; assumption]. }
  assert (exists po, rp = bits_of_bytes po /\ match q_reply m with None => po = [] | Some r => mrec_to_bytes r = Ok po end /\
     match rep with Some _ => true | None => false end = match q_reply m with Some _ => true | None => false end) as [po (-> & Wp & Hbit)].
  { destruct (q_reply m) as [r|]; cbn [obj_opt] in Hrep.
    - bo E7 r' G. okinj E7. assert (w_mrec r = Ok rp) as F8.
      { unfold w_mrec in F7 |- *. rewrite (sanitize_mrec_idem _ _ G) in F7. rewrite G. exact F7. }
      destruct (al8_bytes_of rp) as [o ->]; [apply (al8_mrec r); assumption|]. exists o. split; [reflexivity|]. split; [|reflexivity].
      apply to_bytes_ok. exact F8.
    - okinj E7. okinj F7. exists []. repeat split. }
  unfold blen in *. assert (length (q_nonce m) = 8%nat) as Hnon by lia.
  assert (length (bits_of_bytes (q_nonce m)) = 64%nat) as Hnn by (rewrite bits_of_bytes_length; lia).
  exists so, rs, es, po. rewrite be_ub.
  replace (match rep with Some _ => true | None => false end) with (match q_reply m with Some _ => true | None => false end) in H.
  assert ((match q_reply m with None => 0%Z | Some _ => 1%Z end) = Z.b2z (match q_reply m with Some _ => true | None => false end)) as Hb
    by (destruct (q_reply m); reflexivity).
  rewrite Hb. match type of Hb with _ = Z.b2z ?x => set (mdp := x) in *; clearbody mdp end.
  symmetry in H. lens H. rewrite Hr, Hnon in L. 
  split; [lay H|]. split; [|repeat split; assumption].
  apply (skipn_bits _ out (enc 4 1 ++ (q_auth m :: mdp :: q_probe m :: q_smr m :: q_pitr m :: q_smri m :: q_rsv m) 
     ++ enc 5 (lenZ (q_rlocs m) - 1) ++ enc 8 (lenZ (q_eids m)) ++ bits_of_bytes (q_nonce m))); [|aplen].
  rewrite H, !bits_of_bytes_app. repeat rewrite <- app_assoc; cbn [app]; repeat rewrite <- app_assoc. reflexivity.
Qed.
Print Assumptions C33_map_request_layout.

(** the hypotheses are met by the example messages of PropControl.v *)
Example C33_examples : is_ok (mreq_to_bytes ex_mreq) && is_ok (mrep_to_bytes ex_mrep) && is_ok (mreg_to_bytes ex_mreg)
  && is_ok (mnot_to_bytes ex_mnot) && is_ok (mref_to_bytes ex_mref) && is_ok (info_to_bytes ex_info) = true.
Proof. vm_compute. reflexivity. Qed.
