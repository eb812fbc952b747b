(** * Control messages: round trips. *)
From Coq Require Import Permutation Sorted.
From Verif Require Import Base BaseLemmas Afi AfiProofs Spec Records Control SpecRec RecordsProofs.

(** ** Lists of records *)
Lemma Forall2_length {A B} (R : A -> B -> Prop) l l' : Forall2 R l l' -> length l = length l'.
Proof. induction 1; cbn; congruence. Qed.

Lemma mapM_idem {A} (f : A -> res A) l l' :
  (forall x y, f x = Ok y -> f y = Ok y) -> mapM f l = Ok l' -> mapM f l' = Ok l'.
Proof.
  intros Hf H. apply mapM_Forall2 in H. apply mapM_Forall2.
  induction H as [|x y l l' Hx Hl IH]; constructor; eauto.
Qed.

Lemma mapM_Forall {A} (P : A -> Prop) (f : A -> res A) l l' :
  (forall x y, P x -> f x = Ok y -> P y) -> Forall P l -> mapM f l = Ok l' -> Forall P l'.
Proof.
  intros Hf HP H. apply mapM_Forall2 in H.
  induction H as [|x y l l' Hx Hl IH]; constructor; inversion HP; subst; eauto.
Qed.

Lemma mapM_rel {A} (R : A -> A -> Prop) (f : A -> res A) l l' :
  (forall x y, f x = Ok y -> R x y) -> mapM f l = Ok l' -> Forall2 R l l'.
Proof.
  intros Hf H. apply mapM_Forall2 in H.
  induction H as [|x y l l' Hx Hl IH]; constructor; eauto.
Qed.

Lemma records_rt {A} (P : A -> Prop) (san : A -> res A) (w : A -> res bits) (rd : bits -> res (A * bits)) rs b :
  (forall x b, P x -> w x = Ok b -> exists x', san x = Ok x' /\ P x' /\ forall t, rd (b ++ t) = Ok (x', t)) ->
  mapM san rs = Ok rs -> Forall P rs -> concatM w rs = Ok b ->
  forall t, rd_n rd (length rs) (b ++ t) = Ok (rs, t).
Proof.
  intros Hrt Hs HP H t. apply concatM_ok in H. destruct H as [bs [H ->]]. apply rd_n_app.
  apply mapM_Forall2 in Hs.
  induction H as [|x y l bs Hx Hl IH]; constructor; inversion HP; inversion Hs; subst; auto.
  destruct (Hrt x y) as (x' & E1 & _ & E2); auto. congruence.
Qed.

Lemma mrecs_rt rs b :
  mapM sanitize_mrec rs = Ok rs -> Forall obj_mrec rs -> concatM w_mrec rs = Ok b ->
  forall t, rd_n rd_mrec (length rs) (b ++ t) = Ok (rs, t).
Proof. apply records_rt. exact mrec_rt. Qed.
Lemma rrecs_rt rs b :
  mapM sanitize_rrec rs = Ok rs -> Forall obj_rrec rs -> concatM w_rrec rs = Ok b ->
  forall t, rd_n rd_rrec (length rs) (b ++ t) = Ok (rs, t).
Proof. apply records_rt. exact rrec_rt. Qed.

Lemma rd_records_stable {A} (P : A -> Prop) (san : A -> res A) (w : A -> res bits) (rd : bits -> res (A * bits)) n s rs r :
  (forall s x t, rd s = Ok (x, t) -> P x /\ san x = Ok x /\ exists b, w x = Ok b) ->
  rd_n rd n s = Ok (rs, r) ->
  length rs = n /\ Forall P rs /\ mapM san rs = Ok rs /\ exists b, concatM w rs = Ok b.
Proof.
  intros Hst H. apply rd_n_inv in H. destruct H as [Hn H]. split; [exact Hn|].
  assert (Forall (fun x => P x /\ san x = Ok x /\ exists b, w x = Ok b) rs) as HF.
  { eapply Forall_impl; [|exact H]. intros x [s0 [r0 Hx]]. eauto. }
  clear H. split; [|split].
  - eapply Forall_impl; [|exact HF]. cbn; intros; tauto.
  - apply mapM_Forall2. clear Hn. induction HF as [|x l Hx Hl IH]; constructor; tauto.
  - apply concatM_total. eapply Forall_impl; [|exact HF]. cbn; intros; tauto.
Qed.

(** ** Authentication data, xTR ids *)
Lemma authdata_rt k a b t : w_authdata k a = Ok b -> rd_authdata (b ++ t) = Ok (k, a, t).
Proof.
  unfold w_authdata, rd_authdata. intros H. mon H. winv. okinj H. rewrite <- !app_assoc.
  rewrite !rd_uint_enc by assumption. cbn [bind]. rewrite rd_uint_enc by assumption. cbn [bind].
  unfold blen. rewrite Nat2Z.id. rewrite rd_bytes_app by reflexivity. reflexivity.
Qed.

Lemma xtr_rt (has : bool) x s b t :
  w_xtr has x s = Ok b -> rd_xtr has (b ++ t) = Ok ((if has then x else 0), (if has then s else 0), t).
Proof.
  unfold w_xtr, rd_xtr. destruct has.
  - intros H. mon H. winv. okinj H. rewrite <- !app_assoc.
    do 2 (rewrite rd_uint_enc by assumption; cbn [bind]). reflexivity.
  - intros H. okinj H. reflexivity.
Qed.

Lemma rd_authdata_inv s k a r : rd_authdata s = Ok (k, a, r) -> exists b, w_authdata k a = Ok b.
Proof.
  unfold rd_authdata. intros H. bo H [k' s1] E1. bo H [n s2] E2. bo H [a' s3] E3. okinj H.
  apply rd_uint_range in E1. apply rd_uint_range in E2. apply rd_bytes_ok in E3. destruct E3 as [_ E3].
  unfold w_authdata. rewrite w_uint_in by assumption. cbn [bind]. unfold blen. rewrite E3.
  rewrite w_uint_in by (rewrite Z2Nat.id; lia). cbn [bind]. eauto.
Qed.

(** ** Map-Reply *)
Lemma pad_nonce_rt n t : (length n <= 8)%nat ->
  rd_bytes 8 (pad_nonce n ++ t) = Ok (repeat zero_byte (8 - length n) ++ n, t).
Proof.
  intros H. unfold pad_nonce.
  assert (forall k, zeros (8 * k) = bits_of_bytes (repeat zero_byte k)) as Hz.
  { induction k as [|k IH]; [reflexivity|]. replace (8 * S k)%nat with (8 + 8 * k)%nat by lia.
    unfold zeros in *. rewrite repeat_app, IH. reflexivity. }
  rewrite Hz, <- bits_of_bytes_app. apply rd_bytes_app. rewrite app_length, repeat_length. lia.
Qed.

Notation wf_mrep := obj_mrep (only parsing).

Lemma guard_tt c e u : guard c e = Ok u -> guard c e = Ok tt.
Proof. destruct u; auto. Qed.

Theorem mrep_rt m b :
  wf_mrep m -> w_mrep m = Ok b ->
  exists rs, mapM sanitize_mrec (p_records m) = Ok rs /\ Forall obj_mrec rs /\
    forall t, rd_mrep (b ++ t) =
      Ok (MRep (p_probe m) (p_enlra m) (p_security m) (p_rsv m)
               (repeat zero_byte (8 - length (p_nonce m)) ++ p_nonce m) rs, t).
Proof.
  intros [Hr Hw] H. unfold w_mrep, sanitize_mrep in H.
  bo H m' E. bo E [] E1. bo E [] E2. bo E rs E3. okinj E.
  cbn [p_probe p_enlra p_security p_rsv p_nonce p_records] in H.
  bo H ty E4. bo H cnt E5. bo H rb E6. bo H [] E7. okinj H. winv.
  exists rs. pose proof (mapM_Forall _ _ _ _ sanitize_mrec_wf Hw E3) as Hw'.
  pose proof (mapM_idem _ _ _ sanitize_mrec_idem E3) as Hid.
  split; [first [exact E3|exact E4]|]. split; [exact Hw'|]. intros t.
  unfold rd_mrep. rewrite <- !app_assoc. rewrite rd_uint_enc by (cbn; lia). cbn [bind guard Z.eqb Pos.eqb app rd_bool].
  rewrite <- ?app_assoc. rewrite rd_bits_app by exact Hr. cbn [bind].
  rewrite rd_uint_enc by assumption. cbn [bind].
  rewrite pad_nonce_rt by (unfold blen in E2; lia). cbn [bind].
  unfold lenZ. rewrite Nat2Z.id. rewrite mrecs_rt by assumption. cbn [bind].
  rewrite E1. unfold sanitize_mrep. cbn [p_probe p_enlra p_security p_rsv p_nonce p_records guard bind]. rewrite E1.
  cbn [guard bind]. unfold blen at 1 2. rewrite app_length, repeat_length.
  replace (8 - length (p_nonce m) + length (p_nonce m))%nat with 8%nat by (unfold blen in E2; lia).
  cbn [Z.of_nat Pos.of_succ_nat Pos.succ Z.eqb Pos.eqb orb guard bind]. rewrite Hid. reflexivity.
Qed.

Theorem rd_mrep_stable s m t :
  rd_mrep s = Ok (m, t) ->
  wf_mrep m /\ length (p_nonce m) = 8%nat /\ sanitize_mrep m = Ok m /\ exists b, w_mrep m = Ok b.
Proof.
  unfold rd_mrep. intros H.
  bo H [ty s1] E1. bo H [] E2. bo H [pr s3] E3. bo H [en s4] E4. bo H [se s5] E5. bo H [rsv s6] E6.
  bo H [cnt s7] E7. bo H [nonce s8] E8. bo H [rs s9] E9. bo H [] E10. bo H m' E11. okinj H.
  unfold sanitize_mrep in E11. bo E11 [] G1. bo E11 [] G2. bo E11 rs' G3. okinj E11.
  cbn [p_probe p_enlra p_security p_rsv p_nonce p_records] in *.
  destruct (rd_records_stable _ _ _ _ _ _ _ _ rd_mrec_stable E9) as (Hn & HP & Hs & b & Hb).
  assert (rs' = rs) as -> by congruence.
  apply rd_bits_ok in E6. apply rd_bytes_ok in E8.
  assert (sanitize_mrep (MRep pr en se rsv nonce rs) = Ok (MRep pr en se rsv nonce rs)) as HS.
  { unfold sanitize_mrep. cbn [p_probe p_enlra p_security p_rsv p_nonce p_records]. rewrite G1, G2. cbn [bind].
    rewrite Hs. reflexivity. }
  repeat split; cbn; try tauto.
  unfold w_mrep. rewrite HS. cbn [bind p_probe p_enlra p_security p_rsv p_nonce p_records].
  apply rd_uint_range in E7.
  rewrite w_uint_in by (cbn; lia).
  cbn [bind]. rewrite w_uint_in by (unfold lenZ; rewrite Hn, Z2Nat.id; lia). cbn [bind]. rewrite Hb. cbn [bind]. rewrite E10. cbn [bind]. eauto.
Qed.

(** ** Map-Register *)
Notation wf_mreg := obj_mreg (only parsing).

Lemma has_xtr_val (r : bool) x s :
  let has := negb (x =? 0) || negb (s =? 0) || r in
  (if has then x else 0) = x /\ (if has then s else 0) = s.
Proof. cbn zeta. destruct (x =? 0) eqn:E1, (s =? 0) eqn:E2, r; cbn; split; lia. Qed.

Theorem mreg_rt m b :
  wf_mreg m -> w_mreg m = Ok b ->
  exists rs, mapM sanitize_mrec (g_records m) = Ok rs /\ Forall obj_mrec rs /\
    forall t, rd_mreg (b ++ t) =
      Ok (MReg (g_proxy m) (g_rtr m) (g_notify m) (g_rsv1 m) (g_rsv2 m) (g_nonce m) (g_key m)
               (g_authdata m) rs (g_xtr m) (g_site m), t).
Proof.
  intros (Hr1 & Hr2 & Hnon & Hw) H. unfold w_mreg, sanitize_mreg in H.
  bo H m' E. bo E [] E1. bo E [] E2. bo E [] E3. bo E rs E4. okinj E.
  unfold g_has_xtr in H.
  cbn [g_proxy g_rtr g_notify g_rsv1 g_rsv2 g_nonce g_key g_authdata g_records g_xtr g_site] in H.
  bo H ty E5. bo H cnt E6. bo H au E7. bo H rb E8. bo H xs E9. okinj H. winv.
  exists rs. pose proof (mapM_Forall _ _ _ _ sanitize_mrec_wf Hw E4) as Hw'.
  pose proof (mapM_idem _ _ _ sanitize_mrec_idem E4) as Hid.
  split; [first [exact E3|exact E4]|]. split; [exact Hw'|]. intros t.
  unfold rd_mreg. rewrite <- !app_assoc. rewrite rd_uint_enc by (cbn; lia). cbn [bind guard Z.eqb Pos.eqb app rd_bool].
  rewrite <- ?app_assoc. rewrite rd_bits_app by exact Hr1. cbn [bind app rd_bool].
  rewrite <- ?app_assoc. rewrite rd_bits_app by exact Hr2. cbn [bind app rd_bool].
  rewrite rd_uint_enc by assumption. cbn [bind].
  rewrite rd_bytes_app by exact Hnon. cbn [bind].
  rewrite (authdata_rt _ _ _ _ E7). cbn [bind].
  unfold lenZ. rewrite Nat2Z.id. rewrite mrecs_rt by assumption. cbn [bind].
  rewrite (xtr_rt _ _ _ _ _ E9). cbn [bind].
  destruct (has_xtr_val (g_rtr m) (g_xtr m) (g_site m)) as [-> ->].
  unfold sanitize_mreg. cbn [g_proxy g_rtr g_notify g_rsv1 g_rsv2 g_nonce g_key g_authdata g_records g_xtr g_site].
  rewrite E1, E2, E3. cbn [guard bind]. rewrite Hid. reflexivity.
Qed.

Lemma w_xtr_total has x s : 0 <= x < 2 ^ Z.of_nat 128 -> 0 <= s < 2 ^ Z.of_nat 64 -> exists b, w_xtr has x s = Ok b.
Proof.
  intros H1 H2. unfold w_xtr. destruct has; [|eauto]. rewrite w_uint_in by exact H1. cbn [bind].
  rewrite w_uint_in by exact H2. cbn [bind]. eauto.
Qed.

Theorem rd_mreg_stable s m t :
  rd_mreg s = Ok (m, t) ->
  wf_mreg m /\ sanitize_mreg m = Ok m /\ exists b, w_mreg m = Ok b.
Proof.
  unfold rd_mreg. intros H.
  bo H [ty s1] E1. bo H [] E2. bo H [pr s3] E3. bo H [r1 s4] E4. bo H [has s5] E5. bo H [rtr s6] E6.
  bo H [r2 s7] E7. bo H [no s8] E8. bo H [cnt s9] E9. bo H [nonce s10] E10. bo H [[key au] s11] E11.
  bo H [rs s12] E12. bo H [[x si] s13] E13. bo H m' E14. okinj H.
  unfold sanitize_mreg in E14. bo E14 [] G1. bo E14 [] G2. bo E14 [] G3. bo E14 rs' G4. okinj E14.
  cbn [g_proxy g_rtr g_notify g_rsv1 g_rsv2 g_nonce g_key g_authdata g_records g_xtr g_site] in *.
  destruct (rd_records_stable _ _ _ _ _ _ _ _ rd_mrec_stable E12) as (Hn & HP & Hs & b & Hb).
  assert (rs' = rs) as -> by congruence.
  apply rd_bits_ok in E4. apply rd_bits_ok in E7. apply rd_bytes_ok in E10.
  match goal with |- _ /\ sanitize_mreg ?m = Ok ?m /\ _ => assert (sanitize_mreg m = Ok m) as HS end.
  { unfold sanitize_mreg. cbn [g_proxy g_rtr g_notify g_rsv1 g_rsv2 g_nonce g_key g_authdata g_records g_xtr g_site].
    rewrite G1, G2, G3. cbn [bind]. rewrite Hs. reflexivity. }
  repeat split; cbn; try tauto.
  unfold w_mreg. rewrite HS. cbn [bind g_proxy g_rtr g_notify g_rsv1 g_rsv2 g_nonce g_key g_authdata g_records g_xtr g_site].
  apply rd_uint_range in E9.
  destruct (rd_authdata_inv _ _ _ _ E11) as [ab Hab].
  apply guard_ok, fits_spec in G1. apply guard_ok, fits_spec in G2.
  rewrite w_uint_in by (cbn; lia). cbn [bind].
  rewrite w_uint_in by (unfold lenZ; rewrite Hn, Z2Nat.id; lia). cbn [bind]. rewrite Hab. cbn [bind]. rewrite Hb. cbn [bind].
  match goal with |- context [w_xtr ?h ?x ?y] => destruct (w_xtr_total h x y) as [xb ->]; auto end.
  cbn [bind]. eauto.
Qed.

(** ** Map-Notify *)
Notation wf_mnot := obj_mnot (only parsing).

Theorem mnot_rt m b :
  wf_mnot m -> w_mnot m = Ok b ->
  exists rs, mapM sanitize_mrec (n_records m) = Ok rs /\ Forall obj_mrec rs /\
    forall t, rd_mnot (b ++ t) =
      Ok (MNot (n_rsv m) (n_nonce m) (n_key m) (n_authdata m) rs (n_xtr m) (n_site m), t).
Proof.
  intros (Hr1 & Hw) H. unfold w_mnot, sanitize_mnot in H.
  bo H m' E. bo E [] E1. bo E [] E2. bo E [] E3. bo E [] E3'. bo E rs E4. okinj E.
  unfold n_has_xtr in H.
  cbn [n_rsv n_nonce n_key n_authdata n_records n_xtr n_site] in H.
  bo H ty E5. bo H cnt E6. bo H au E7. bo H rb E8. bo H xs E9. okinj H. winv.
  exists rs. pose proof (mapM_Forall _ _ _ _ sanitize_mrec_wf Hw E4) as Hw'.
  pose proof (mapM_idem _ _ _ sanitize_mrec_idem E4) as Hid.
  split; [first [exact E3|exact E4]|]. split; [exact Hw'|]. intros t.
  unfold rd_mnot. rewrite <- !app_assoc. rewrite rd_uint_enc by (cbn; lia). cbn [bind guard Z.eqb Pos.eqb app rd_bool].
  rewrite <- ?app_assoc. rewrite rd_bits_app by exact Hr1. cbn [bind app rd_bool].
  rewrite rd_uint_enc by assumption. cbn [bind].
  rewrite rd_bytes_app by (unfold blen in E3; lia). cbn [bind].
  rewrite (authdata_rt _ _ _ _ E7). cbn [bind].
  unfold lenZ. rewrite Nat2Z.id. rewrite mrecs_rt by assumption. cbn [bind].
  rewrite (xtr_rt _ _ _ _ _ E9). cbn [bind].
  destruct (has_xtr_val false (n_xtr m) (n_site m)) as [H1 H2]. rewrite orb_false_r in H1, H2.
  rewrite H1, H2.
  unfold sanitize_mnot. cbn [n_rsv n_nonce n_key n_authdata n_records n_xtr n_site].
  rewrite E1, E2, E3, E3'. cbn [guard bind]. rewrite Hid. reflexivity.
Qed.

Theorem rd_mnot_stable s m t :
  rd_mnot s = Ok (m, t) ->
  wf_mnot m /\ sanitize_mnot m = Ok m /\ exists b, w_mnot m = Ok b.
Proof.
  unfold rd_mnot. intros H.
  bo H [ty s1] E1. bo H [] E2. bo H [has s5] E5. bo H [r1 s4] E4. 
  bo H [cnt s9] E9. bo H [nonce s10] E10. bo H [[key au] s11] E11.
  bo H [rs s12] E12. bo H [[x si] s13] E13. bo H m' E14. okinj H.
  unfold sanitize_mnot in E14. bo E14 [] G1. bo E14 [] G2. bo E14 [] G3. bo E14 [] G3'. bo E14 rs' G4. okinj E14.
  cbn [n_rsv n_nonce n_key n_authdata n_records n_xtr n_site] in *.
  destruct (rd_records_stable _ _ _ _ _ _ _ _ rd_mrec_stable E12) as (Hn & HP & Hs & b & Hb).
  assert (rs' = rs) as -> by congruence.
  apply rd_bits_ok in E4.
  match goal with |- _ /\ sanitize_mnot ?m = Ok ?m /\ _ => assert (sanitize_mnot m = Ok m) as HS end.
  { unfold sanitize_mnot. cbn [n_rsv n_nonce n_key n_authdata n_records n_xtr n_site].
    rewrite G1, G2, G3, G3'. cbn [bind]. rewrite Hs. reflexivity. }
  repeat split; cbn; try tauto.
  unfold w_mnot. rewrite HS. cbn [bind n_rsv n_nonce n_key n_authdata n_records n_xtr n_site].
  apply rd_uint_range in E9.
  destruct (rd_authdata_inv _ _ _ _ E11) as [ab Hab].
  apply guard_ok, fits_spec in G1. apply guard_ok, fits_spec in G2.
  rewrite w_uint_in by (cbn; lia). cbn [bind].
  rewrite w_uint_in by (unfold lenZ; rewrite Hn, Z2Nat.id; lia). cbn [bind]. rewrite Hab. cbn [bind]. rewrite Hb. cbn [bind].
  match goal with |- context [w_xtr ?h ?x ?y] => destruct (w_xtr_total h x y) as [xb ->]; auto end.
  cbn [bind]. eauto.
Qed.

(** ** Map-Referral *)
Notation wf_mref := obj_mref (only parsing).

Theorem mref_rt m b :
  wf_mref m -> w_mref m = Ok b ->
  exists rs, mapM sanitize_rrec (f_records m) = Ok rs /\ Forall obj_rrec rs /\
    forall t, rd_mref (b ++ t) = Ok (MRef (f_rsv m) (f_nonce m) rs, t).
Proof.
  intros (Hr1 & Hw) H. unfold w_mref, sanitize_mref in H.
  bo H m' E. bo E [] E3. bo E rs E4. okinj E.
  cbn [f_rsv f_nonce f_records] in H.
  bo H ty E5. bo H cnt E6. bo H rb E8. okinj H. winv.
  exists rs. pose proof (mapM_Forall _ _ _ _ sanitize_rrec_wf Hw E4) as Hw'.
  pose proof (mapM_idem _ _ _ sanitize_rrec_idem E4) as Hid.
  split; [first [exact E3|exact E4]|]. split; [exact Hw'|]. intros t.
  unfold rd_mref. rewrite <- !app_assoc. rewrite rd_uint_enc by (cbn; lia). cbn [bind guard Z.eqb Pos.eqb app rd_bool].
  rewrite <- ?app_assoc. rewrite rd_bits_app by exact Hr1. cbn [bind app rd_bool].
  rewrite rd_uint_enc by assumption. cbn [bind].
  rewrite rd_bytes_app by (unfold blen in E3; lia). cbn [bind].
  unfold lenZ. rewrite Nat2Z.id. rewrite rrecs_rt by assumption. cbn [bind].
  unfold sanitize_mref. cbn [f_rsv f_nonce f_records].
  rewrite E3. cbn [guard bind]. rewrite Hid. reflexivity.
Qed.

Theorem rd_mref_stable s m t :
  rd_mref s = Ok (m, t) ->
  wf_mref m /\ sanitize_mref m = Ok m /\ exists b, w_mref m = Ok b.
Proof.
  unfold rd_mref. intros H.
  bo H [ty s1] E1. bo H [] E2. bo H [r1 s4] E4. 
  bo H [cnt s9] E9. bo H [nonce s10] E10. 
  bo H [rs s12] E12. bo H m' E14. okinj H.
  unfold sanitize_mref in E14. bo E14 [] G3. bo E14 rs' G4. okinj E14.
  cbn [f_rsv f_nonce f_records] in *.
  destruct (rd_records_stable _ _ _ _ _ _ _ _ rd_rrec_stable E12) as (Hn & HP & Hs & b & Hb).
  assert (rs' = rs) as -> by congruence.
  apply rd_bits_ok in E4.
  match goal with |- _ /\ sanitize_mref ?m = Ok ?m /\ _ => assert (sanitize_mref m = Ok m) as HS end.
  { unfold sanitize_mref. cbn [f_rsv f_nonce f_records].
    rewrite G3. cbn [bind]. rewrite Hs. reflexivity. }
  repeat split; cbn; try tauto.
  unfold w_mref. rewrite HS. cbn [bind f_rsv f_nonce f_records].
  apply rd_uint_range in E9.
  rewrite w_uint_in by (cbn; lia). cbn [bind].
  rewrite w_uint_in by (unfold lenZ; rewrite Hn, Z2Nat.id; lia). cbn [bind]. rewrite Hb. cbn [bind].
  eauto.
Qed.

(** ** Info messages *)
Definition reads_back (a : addr) : Prop := forall b, w_afi a = Ok b -> rd_ok None a b.

Definition wf_info (m : info) : Prop :=
  length (i_rsv1 m) = 27%nat /\ length (i_rsv2 m) = 8%nat /\ wf_addr (i_eid m) = true /\ reads_back (i_data m).

Theorem info_rt m b :
  wf_info m -> w_info m = Ok b -> sanitize_info m = Ok m /\ forall t, rd_info (b ++ t) = Ok (m, t).
Proof.
  intros (Hr1 & Hr2 & He & Hd) H. unfold w_info in H.
  bo H m' E. assert (m' = m) as ->.
  { unfold sanitize_info in E. mon E. okinj E. reflexivity. }
  split; [exact E|]. intros t. pose proof E as Es.
  unfold sanitize_info in E. bo E [] E1. bo E [] E2. bo E [] E3. bo E [] E4. clear E.
  destruct (wf_net_inv _ (guard_ok _ _ _ E4) He) as (v & z & n & Ee & Hz & Hn2 & Hwf).
  rewrite Ee in H. cbn [prefixlen] in H.
  bo H ty E5. bo H au E7. bo H tb E8. bo H n' E9. okinj E9. bo H ml E9. bo H eb E10. bo H db E11. okinj H. winv.
  unfold rd_info. rewrite <- !app_assoc. rewrite rd_uint_enc by (cbn; lia). cbn [bind guard Z.eqb Pos.eqb app rd_bool].
  rewrite <- ?app_assoc. rewrite rd_bits_app by exact Hr1. cbn [bind app rd_bool].
  rewrite rd_bytes_app by (unfold blen in E1; lia). cbn [bind].
  rewrite (authdata_rt _ _ _ _ E7). cbn [bind].
  rewrite rd_uint_enc by assumption. cbn [bind].
  rewrite rd_bits_app by exact Hr2. cbn [bind app rd_bool].
  rewrite rd_uint_enc by assumption. cbn [bind].
  rewrite Ee in Hwf. pose proof (afi_prefix_roundtrip n (ANet v z n) eb (pf_net n v z) Hwf E10) as Hrd.
  rewrite Hrd. cbn [bind]. rewrite (Hd _ E11). cbn [bind]. rewrite <- Ee.
  destruct m; cbn in *. rewrite Es. reflexivity.
Qed.

Theorem rd_info_stable s m t :
  rd_info s = Ok (m, t) ->
  wf_info m /\ sanitize_info m = Ok m /\ exists b, w_info m = Ok b.
Proof.
  unfold rd_info. intros H.
  bo H [ty s1] E1. bo H [] E2. bo H [rp s3] E3. bo H [r1 s4] E4. bo H [nonce s5] E5. bo H [[key au] s6] E6.
  bo H [ttl s7] E7. bo H [r2 s8] E8. bo H [pl s9] E9. bo H [eid s10] E10. bo H [data s11] E11. bo H m' E12. okinj H.
  match type of E12 with sanitize_info ?x = _ => assert (m' = x) as -> end.
  { unfold sanitize_info in E12. mon E12. okinj E12. reflexivity. }
  pose proof E12 as HS. unfold sanitize_info in E12. bo E12 [] G1. bo E12 [] G2. bo E12 [] G3. bo E12 [] G4. clear E12.
  cbn [i_reply i_rsv1 i_nonce i_key i_authdata i_ttl i_rsv2 i_eid i_data] in *. apply guard_ok in G4.
  apply read_afi_plain in E10; [|destruct eid; try discriminate; reflexivity].
  destruct eid; try discriminate. destruct E10 as [[? _]|[v' [z' [E10 Hwf]]]]; [discriminate|].
  injection E10 as <- <- ->.
  destruct (read_afi_stable _ _ _ _ E11) as (c & _ & _ & db & Hdb & _ & Hrd).
  apply rd_bits_ok in E4. apply rd_bits_ok in E8.
  split; [|split; [exact HS|]].
  - repeat split; cbn; try tauto. intros b Hb. cbn in Hb. rewrite Hdb in Hb. okinj Hb. exact Hrd.
  - unfold w_info. rewrite HS. cbn [bind i_reply i_rsv1 i_nonce i_key i_authdata i_ttl i_rsv2 i_eid i_data].
    destruct (rd_authdata_inv _ _ _ _ E6) as [ab Hab]. apply rd_uint_range in E7. apply rd_uint_range in E9.
    rewrite w_uint_in by (cbn; lia). cbn [bind]. rewrite Hab. cbn [bind].
    rewrite w_uint_in by assumption. cbn [bind prefixlen]. rewrite w_uint_in by assumption. cbn [bind].
    cbn [wf_ip] in Hwf. rewrite !andb_true_iff, fits_spec in Hwf.
    rewrite w_net_enc by (unfold wz; tauto). cbn [bind]. rewrite Hdb. cbn [bind]. eauto.
Qed.

(** ** Map-Request *)
Definition wf_mreq (m : mreq) : Prop :=
  length (q_rsv m) = 9%nat /\ reads_back (q_src m) /\ forallb wf_addr (q_eids m) = true /\
  obj_opt (q_reply m).

Lemma ip_network_prefix e p : ip_network e = Ok p -> as_prefix e p.
Proof.
  revert p. induction e; cbn [ip_network]; intros p H; try discriminate.
  - okinj H. constructor.
  - okinj H. constructor.
  - destruct l; discriminate.
  - destruct (iid =? 0) eqn:E; [|destruct (fmt_raises e); discriminate].
    assert (iid = 0) as -> by lia. constructor. auto.
  - destruct (fmt_raises (LAs asn e)); discriminate.
  - destruct (fmt_raises (LGeo g e)); discriminate.
  - destruct (fmt_raises _); discriminate.
Qed.

Lemma as_prefix_wf e p : as_prefix e p -> wf_addr e = true ->
  exists v z n, p = ANet v z n /\ wf_ip p = true.
Proof.
  induction 1 as [v z|v z n|a p m H IH]; cbn [wf_addr]; intros Hw; eauto.
  - exists v, z, (wz v). split; [reflexivity|]. cbn [wf_ip] in *. rewrite Hw. cbn [andb].
    assert (0 <= wz v) by (destruct v; cbn; lia).
    replace (0 <=? wz v) with true by lia. replace (wz v <=? wz v) with true by lia. cbn [andb].
    apply mask_to_spec; [lia|]. rewrite Z.sub_diag. apply Z.mod_1_r.
Qed.

Lemma eid_rt e b : wf_addr e = true -> w_eid e = Ok b ->
  exists p, as_prefix e p /\ wf_addr p = true /\ is_net p = true /\ forall t, rd_eid (b ++ t) = Ok (p, t).
Proof.
  intros Hw H. unfold w_eid in H. bo H p E1. apply ip_network_prefix in E1. exists p. split; [exact E1|].
  destruct (as_prefix_wf _ _ E1 Hw) as (v & z & n & -> & Hwf). split; [exact Hwf|]. split; [reflexivity|].
  cbn [prefixlen] in H. bo H n' E2. okinj E2. bo H ml E3. bo H eb E4. okinj H. winv. intros t.
  unfold rd_eid. rewrite <- !app_assoc. rewrite rd_bits_app by apply zeros_length. cbn [bind].
  rewrite rd_uint_enc by assumption. cbn [bind].
  apply (afi_prefix_roundtrip n (ANet v z n) eb (pf_net n v z) Hwf E4).
Qed.

Lemma eids_rt es b : forallb wf_addr es = true -> concatM w_eid es = Ok b ->
  exists ps, Forall2 as_prefix es ps /\ forallb wf_addr ps = true /\ Forall (fun p => is_net p = true) ps /\
    forall t, rd_n rd_eid (length ps) (b ++ t) = Ok (ps, t).
Proof.
  intros Hw H. apply concatM_ok in H. destruct H as [bs [H ->]].
  assert (exists ps, Forall2 as_prefix es ps /\ forallb wf_addr ps = true /\ Forall (fun p => is_net p = true) ps /\
    Forall2 (fun p b => forall t, rd_eid (b ++ t) = Ok (p, t)) ps bs) as (ps & H1 & H2 & H3 & H4).
  { induction H as [|x y l bs Hx Hl IH].
    - exists []. repeat split; constructor.
    - cbn [forallb] in Hw. apply andb_true_iff in Hw. destruct Hw as [Hw1 Hw2].
      destruct (eid_rt _ _ Hw1 Hx) as (p & P1 & P2 & P2' & P3). destruct (IH Hw2) as (ps & Q1 & Q2 & Q3 & Q4).
      exists (p :: ps). cbn [forallb]. rewrite P2, Q2. repeat split; constructor; auto. }
  exists ps. split; [exact H1|]. split; [exact H2|]. split; [exact H3|]. intros t. apply rd_n_app. exact H4.
Qed.

Definition san_reply (o : option mrec) : res (option mrec) :=
  match o with None => Ok None | Some r => let* r' := sanitize_mrec r in Ok (Some r') end.

Lemma checks_ips l u : checkM (fun a => guard (is_ip a) EValue) l = Ok u -> Forall (fun a => is_ip a = true) l.
Proof.
  intros H. apply checkM_ok in H. destruct H as [_ H]. eapply Forall_impl; [|exact H].
  cbn. intros a Ha. apply guard_ok in Ha. exact Ha.
Qed.

Lemma rlocs_rt l b : Forall (fun a => is_ip a = true) l -> concatM w_afi l = Ok b ->
  forall t, rd_n (read_afi None) (length l) (b ++ t) = Ok (l, t).
Proof.
  intros Hi H t. apply concatM_ok in H. destruct H as [bs [H ->]]. apply rd_n_app.
  induction H as [|x y l bs Hx Hl IH]; constructor; inversion Hi; subst; auto.
  apply (afi_roundtrip x y Hx). destruct x; try discriminate; reflexivity.
Qed.

Theorem mreq_rt m b :
  wf_mreq m -> w_mreq m = Ok b ->
  exists ps rep, Forall2 as_prefix (q_eids m) ps /\ san_reply (q_reply m) = Ok rep /\ obj_opt rep /\
    forallb wf_addr ps = true /\
    forall t, rd_mreq (b ++ t) =
      Ok (MReq (q_auth m) (q_probe m) (q_smr m) (q_pitr m) (q_smri m) (q_rsv m) (q_nonce m)
               (q_src m) (q_rlocs m) ps rep, t).
Proof.
  intros (Hr & Hsrc & He & Hrep) H. unfold w_mreq, sanitize_mreq in H.
  bo H m' E. bo E [] E1. bo E [] E2. bo E [] E3. bo E [] E4. bo E [] E5. bo E [] E6. bo E rep E7. okinj E.
  cbn [q_auth q_probe q_smr q_pitr q_smri q_rsv q_nonce q_src q_rlocs q_eids q_reply] in H.
  bo H ty F1. bo H irc F2. bo H cnt F3. bo H sb F4. bo H rb F5. bo H eb F6. bo H rp F7. okinj H. winv.
  destruct (eids_rt _ _ He F6) as (ps & P1 & P2 & P3 & P4).
  fold (san_reply (q_reply m)) in E7.
  pose proof (Forall2_length _ _ _ P1) as HL.
  assert (obj_opt rep /\ san_reply rep = Ok rep /\
    forall t, (if (match rep with None => false | Some _ => true end) : bool then
                 let* '(r, s) := rd_mrec (rp ++ t) in Ok (Some r, s) else Ok (None, rp ++ t)) = Ok (rep, t)) as (R1 & R2 & R3).
  { unfold san_reply in E7. destruct (q_reply m) as [r|]; cbn [obj_opt] in Hrep.
    - bo E7 r' G. okinj E7. pose proof (sanitize_mrec_wf _ _ Hrep G) as Hw'.
      pose proof (sanitize_mrec_idem _ _ G) as Hid. cbn [obj_opt san_reply]. rewrite Hid. repeat split; try apply Hw'.
      intros t. destruct (mrec_rt _ _ Hw' F7) as (r'' & K1 & _ & K2). rewrite K2. cbn [bind]. assert (r'' = r') as -> by congruence. reflexivity.
    - okinj E7. okinj F7. repeat split. }
  exists ps, rep. split; [exact P1|]. split; [exact E7|]. split; [exact R1|]. split; [exact P2|]. intros t.
  unfold rd_mreq. rewrite <- !app_assoc. rewrite rd_uint_enc by (cbn; lia). cbn [bind guard Z.eqb Pos.eqb app rd_bool].
  rewrite <- ?app_assoc. rewrite rd_bits_app by exact Hr. cbn [bind app rd_bool].
  do 2 (rewrite rd_uint_enc by assumption; cbn [bind]).
  rewrite rd_bytes_app by (unfold blen in E3; lia). cbn [bind].
  rewrite (Hsrc _ F4). cbn [bind].
  replace (Z.to_nat (lenZ (q_rlocs m) - 1 + 1)) with (length (q_rlocs m)) by (unfold lenZ; lia).
  rewrite (rlocs_rt _ _ (checks_ips _ _ E5) F5). cbn [bind].
  unfold lenZ. rewrite Nat2Z.id, HL. rewrite P4. cbn [bind]. rewrite R3. cbn [bind].
  unfold sanitize_mreq. cbn [q_auth q_probe q_smr q_pitr q_smri q_rsv q_nonce q_src q_rlocs q_eids q_reply].
  rewrite E1. unfold lenZ in *. rewrite <- HL, E2, E3. cbn [guard bind]. rewrite E4, E5. cbn [bind].
  assert (checkM (fun e => checkM (fun a => guard (is_ip a || is_net a) EValue) (addresses_of e)) ps = Ok tt) as ->.
  { apply checkM_ok. split; [reflexivity|]. eapply Forall_impl; [|exact P3]. intros p Hp. destruct p; try discriminate.
    reflexivity. }
  cbn [bind]. fold (san_reply rep). rewrite R2. reflexivity.
Qed.

(** everything the parser returns with plain EIDs can be serialised *)
Lemma rd_eid_sane s e r : rd_eid s = Ok (e, r) -> is_net e = true ->
  wf_addr e = true /\ exists b, w_eid e = Ok b.
Proof.
  unfold rd_eid. intros H Hn. bo H [rs s1] E1. bo H [n s2] E2.
  apply read_afi_plain in H; [|destruct e; try discriminate; reflexivity].
  destruct H as [[-> _]|[v [z [-> Hwf]]]]; [discriminate|]. split; [exact Hwf|].
  unfold w_eid. cbn [ip_network bind prefixlen]. apply rd_uint_range in E2. rewrite w_uint_in by assumption. cbn [bind].
  cbn [wf_ip] in Hwf. rewrite !andb_true_iff, fits_spec in Hwf.
  rewrite w_net_enc by (unfold wz; tauto). cbn [bind]. eauto.
Qed.

Theorem rd_mreq_stable s m t :
  rd_mreq s = Ok (m, t) -> Forall (fun e => is_net e = true) (q_eids m) ->
  wf_mreq m /\ sanitize_mreq m = Ok m /\ exists b, w_mreq m = Ok b.
Proof.
  unfold rd_mreq. intros H Hnet.
  bo H [ty s1] E1. bo H [] E2. bo H [au s3] E3. bo H [mdp s4] E4. bo H [pr s5] E5. bo H [smr s6] E6.
  bo H [pi s7] E7. bo H [si s8] E8. bo H [rsv s9] E9. bo H [irc s10] E10. bo H [cnt s11] E11. bo H [nonce s12] E12.
  bo H [src s13] E13. bo H [rl s14] E14. bo H [es s15] E15. bo H [rep s16] E16. bo H m' E17. okinj H.
  unfold sanitize_mreq in E17. bo E17 [] G1. bo E17 [] G2. bo E17 [] G3. bo E17 [] G4. bo E17 [] G5. bo E17 [] G6. bo E17 rep' G7.
  okinj E17. cbn [q_auth q_probe q_smr q_pitr q_smri q_rsv q_nonce q_src q_rlocs q_eids q_reply] in *.
  fold (san_reply rep) in G7.
  assert (rep' = rep /\ obj_opt rep /\ exists b, match rep with None => Ok [] | Some r => w_mrec r end = Ok b) as (-> & R1 & rb & R2).
  { destruct mdp.
    - bo E16 [r s17] K. okinj E16. apply rd_mrec_stable in K. destruct K as (K1 & K2 & K3).
      cbn [san_reply] in G7. rewrite K2 in G7. cbn [bind] in G7. okinj G7. auto.
    - okinj E16. cbn in G7. okinj G7. repeat split. eauto. }
  match goal with |- _ /\ sanitize_mreq ?m = Ok ?m /\ _ => assert (sanitize_mreq m = Ok m) as HS end.
  { unfold sanitize_mreq. cbn [q_auth q_probe q_smr q_pitr q_smri q_rsv q_nonce q_src q_rlocs q_eids q_reply].
    rewrite G1, G2, G3. cbn [bind]. rewrite G4. cbn [bind]. rewrite G5. cbn [bind]. rewrite G6. cbn [bind].
    fold (san_reply rep). rewrite G7. reflexivity. }
  destruct (read_afi_stable _ _ _ _ E13) as (c & _ & _ & db & Hdb & _ & Hrd).
  apply rd_n_inv in E15. destruct E15 as [Hn15 E15].
  assert (Forall (fun e => wf_addr e = true /\ exists b, w_eid e = Ok b) es) as Hes.
  { rewrite Forall_forall in *. intros e He. destruct (E15 e He) as (s0 & r0 & Hr0). eapply rd_eid_sane; eauto. }
  apply rd_n_inv in E14. destruct E14 as [Hn14 E14].
  split; [|split; [exact HS|]].
  - repeat split; cbn.
    + apply rd_bits_ok in E9. tauto.
    + intros b Hb. cbn in Hb. rewrite Hdb in Hb. okinj Hb. exact Hrd.
    + apply forallb_forall. rewrite Forall_forall in Hes. intros e He. apply Hes. exact He.
    + exact R1.
  - unfold w_mreq. rewrite HS. cbn [bind q_auth q_probe q_smr q_pitr q_smri q_rsv q_nonce q_src q_rlocs q_eids q_reply].
    apply rd_uint_range in E10. apply rd_uint_range in E11.
    rewrite w_uint_in by (cbn; lia). cbn [bind].
    rewrite w_uint_in by (unfold lenZ; rewrite Hn14; lia). cbn [bind].
    rewrite w_uint_in by (unfold lenZ; rewrite Hn15; lia). cbn [bind].
    rewrite Hdb. cbn [bind].
    destruct (concatM_total w_afi rl) as [b1 Hb1].
    { eapply Forall_impl; [|exact E14]. intros a (s0 & r0 & Ha). destruct (read_afi_stable _ _ _ _ Ha) as (c' & _ & _ & b' & Hb' & _).
      eauto. }
    rewrite Hb1. cbn [bind].
    destruct (concatM_total w_eid es) as [b2 Hb2].
    { eapply Forall_impl; [|exact Hes]. cbn; intros; tauto. }
    rewrite Hb2. cbn [bind]. rewrite R2. cbn [bind]. eauto.
Qed.

(** ** Encodings of well-formed objects are whole bytes *)
Definition al8 (b : bits) : Prop := exists n, length b = (8 * n)%nat.

Lemma al8_concat l : Forall al8 l -> al8 (concat l).
Proof.
  induction 1 as [|b l [n Hn] Hl [m IH]]; [exists 0%nat; reflexivity|].
  exists (n + m)%nat. cbn [concat]. rewrite app_length. lia.
Qed.
Lemma al8_concatM {A} (P : A -> Prop) (w : A -> res bits) l b :
  (forall x b, P x -> w x = Ok b -> al8 b) -> Forall P l -> concatM w l = Ok b -> al8 b.
Proof.
  intros Hw HP H. apply concatM_ok in H. destruct H as [bs [H ->]]. apply al8_concat.
  induction H as [|x y l bs Hx Hl IH]; constructor; inversion HP; subst; eauto.
Qed.
Lemma al8_afi a b : w_afi a = Ok b -> al8 b.
Proof. intros H. apply w_afi_len8 in H. destruct H as [n [H _]]. exists n; exact H. Qed.
Lemma al8_bytes b : al8 (bits_of_bytes b).
Proof. exists (length b). apply bits_of_bytes_length. Qed.
Lemma al8_out b : al8 b -> exists out, bytes_of_bits b = Ok out.
Proof. intros [n H]. destruct (bytes_of_bits_total b n H) as [out [H' _]]. eauto. Qed.

(** collect al8 facts, then count *)
Ltac al8_count :=
  repeat match goal with
  | H : w_afi _ = Ok ?b |- _ => apply al8_afi in H
  | H : al8 _ |- _ => let n := fresh "n" in destruct H as [n H]
  end;
  unfold al8; repeat (rewrite ?app_length, ?enc_length, ?zeros_length, ?bits_of_bytes_length; cbn [length]);
  repeat match goal with H : length _ = _ |- _ => rewrite !H; clear H end.

Lemma al8_loc l b : obj_loc l -> w_loc l = Ok b -> al8 b.
Proof.
  unfold w_loc, obj_loc. intros Hl H. mon H. winv. okinj H. al8_count. eexists. 
  instantiate (1 := (6 + n)%nat). lia.
Qed.
Lemma al8_mrec r b : obj_mrec r -> w_mrec r = Ok b -> al8 b.
Proof.
  intros Hw H. unfold w_mrec in H. bo H r' Es. destruct (sanitize_mrec_wf _ _ Hw Es) as (Hr & _ & Hl).
  unfold enc_mrec in H. bo H a E1. bo H b0 E2. bo H nn E2'. bo H c E3. bo H d E4. bo H e E5. bo H f E6. bo H g E7. okinj H. winv.
  apply (al8_concatM obj_loc w_loc) in E7; [|exact al8_loc|exact Hl].
  al8_count. eexists. instantiate (1 := (10 + n + n0)%nat). lia.
Qed.
Lemma al8_rrec r b : obj_rrec r -> w_rrec r = Ok b -> al8 b.
Proof.
  intros Hw H. unfold w_rrec in H. bo H r' Es. destruct (sanitize_rrec_wf _ _ Hw Es) as (Hr & _ & Hl).
  unfold enc_rrec in H. bo H a E1. bo H b0 E2. bo H nn E2'. bo H c E3. bo H d E4. bo H sg E4'. bo H e E5. bo H f E6. bo H g E7.
  bo H [] E8. okinj H. winv.
  apply (al8_concatM obj_loc w_loc) in E7; [|exact al8_loc|exact Hl].
  al8_count. eexists. instantiate (1 := (10 + n + n0)%nat). lia.
Qed.
Lemma al8_authdata k a b : w_authdata k a = Ok b -> al8 b.
Proof. unfold w_authdata. intros H. mon H. winv. okinj H. al8_count. exists (4 + length a)%nat. lia. Qed.
Lemma al8_xtr h x s b : w_xtr h x s = Ok b -> al8 b.
Proof.
  unfold w_xtr. destruct h; intros H; [mon H; winv; okinj H; al8_count; exists 24%nat; lia|].
  okinj H. exists 0%nat. reflexivity.
Qed.
Lemma al8_mrep m b : obj_mrep m -> w_mrep m = Ok b -> al8 b.
Proof.
  intros [Hr Hw] H. unfold w_mrep, sanitize_mrep in H.
  bo H m' E. bo E [] E1. bo E [] E2. bo E rs E3. okinj E.
  cbn [p_probe p_enlra p_security p_rsv p_nonce p_records] in H.
  bo H ty E4. bo H cnt E5. bo H rb E6. bo H [] E7. okinj H. winv.
  pose proof (mapM_Forall _ _ _ _ sanitize_mrec_wf Hw E3) as Hw'.
  apply (al8_concatM obj_mrec w_mrec) in E6; [|exact al8_mrec|exact Hw'].
  assert (al8 (pad_nonce (p_nonce m))) as Hp.
  { unfold pad_nonce. al8_count. exists (8 - length (p_nonce m) + length (p_nonce m))%nat. lia. }
  al8_count. eexists. instantiate (1 := (4 + n + n0)%nat). lia.
Qed.
Lemma al8_mreg m b : obj_mreg m -> w_mreg m = Ok b -> al8 b.
Proof.
  intros (Hr1 & Hr2 & Hnon & Hw) H. unfold w_mreg, sanitize_mreg in H.
  bo H m' E. bo E [] E1. bo E [] E2. bo E [] E3. bo E rs E4. okinj E.
  cbn [g_proxy g_rtr g_notify g_rsv1 g_rsv2 g_nonce g_key g_authdata g_records g_xtr g_site] in H.
  bo H ty E5. bo H cnt E6. bo H au E7. bo H rb E8. bo H xs E9. okinj H. winv.
  pose proof (mapM_Forall _ _ _ _ sanitize_mrec_wf Hw E4) as Hw'.
  apply (al8_concatM obj_mrec w_mrec) in E8; [|exact al8_mrec|exact Hw'].
  apply al8_authdata in E7. apply al8_xtr in E9.
  al8_count. eexists. instantiate (1 := (4 + 8 + n + n0 + n1)%nat). lia.
Qed.
Lemma al8_mnot m b : obj_mnot m -> w_mnot m = Ok b -> al8 b.
Proof.
  intros (Hr1 & Hw) H. unfold w_mnot, sanitize_mnot in H.
  bo H m' E. bo E [] E1. bo E [] E2. bo E [] E3. bo E [] E3'. bo E rs E4. okinj E.
  cbn [n_rsv n_nonce n_key n_authdata n_records n_xtr n_site] in H.
  bo H ty E5. bo H cnt E6. bo H au E7. bo H rb E8. bo H xs E9. okinj H. winv.
  pose proof (mapM_Forall _ _ _ _ sanitize_mrec_wf Hw E4) as Hw'.
  apply (al8_concatM obj_mrec w_mrec) in E8; [|exact al8_mrec|exact Hw'].
  apply al8_authdata in E7. apply al8_xtr in E9.
  al8_count. eexists. instantiate (1 := (4 + length (n_nonce m) + n + n0 + n1)%nat). lia.
Qed.
Lemma al8_mref m b : obj_mref m -> w_mref m = Ok b -> al8 b.
Proof.
  intros (Hr1 & Hw) H. unfold w_mref, sanitize_mref in H.
  bo H m' E. bo E [] E3. bo E rs E4. okinj E.
  cbn [f_rsv f_nonce f_records] in H.
  bo H ty E5. bo H cnt E6. bo H rb E8. okinj H. winv.
  pose proof (mapM_Forall _ _ _ _ sanitize_rrec_wf Hw E4) as Hw'.
  apply (al8_concatM obj_rrec w_rrec) in E8; [|exact al8_rrec|exact Hw'].
  al8_count. eexists. instantiate (1 := (4 + length (f_nonce m) + n)%nat). lia.
Qed.
Lemma al8_info m b : wf_info m -> w_info m = Ok b -> al8 b.
Proof.
  intros (Hr1 & Hr2 & _ & _) H. unfold w_info in H. bo H m' E.
  assert (m' = m) as ->. { unfold sanitize_info in E. mon E. okinj E. reflexivity. }
  bo H ty E5. bo H au E7. bo H tb E8. bo H n' E9. bo H ml E10. bo H eb E11. bo H db E12. okinj H. winv.
  apply al8_authdata in E7.
  al8_count. eexists. instantiate (1 := (4 + length (i_nonce m) + 6 + n + n0 + n1)%nat). lia.
Qed.
Lemma al8_eid e b : w_eid e = Ok b -> al8 b.
Proof. unfold w_eid. intros H. mon H. winv. okinj H. al8_count. exists (2 + n)%nat. lia. Qed.
Lemma al8_mreq m b : wf_mreq m -> w_mreq m = Ok b -> al8 b.
Proof.
  intros (Hr & _ & _ & Hrep) H. unfold w_mreq, sanitize_mreq in H.
  bo H m' E. bo E [] E1. bo E [] E2. bo E [] E3. bo E [] E4. bo E [] E5. bo E [] E6. bo E rep E7. okinj E.
  cbn [q_auth q_probe q_smr q_pitr q_smri q_rsv q_nonce q_src q_rlocs q_eids q_reply] in H.
  bo H ty F1. bo H irc F2. bo H cnt F3. bo H sb F4. bo H rb F5. bo H eb F6. bo H rp F7. okinj H. winv.
  apply (al8_concatM (fun _ => True) w_afi) in F5; [|intros x b _; apply al8_afi|apply Forall_forall; auto].
  apply (al8_concatM (fun _ => True) w_eid) in F6; [|intros x b _; apply al8_eid|apply Forall_forall; auto].
  assert (al8 rp) as Hrp.
  { destruct (q_reply m) as [r|]; cbn [obj_opt] in Hrep.
    - bo E7 r' G. okinj E7. apply (al8_mrec r'); [|exact F7]. eapply sanitize_mrec_wf; eauto.
    - okinj E7. okinj F7. exists 0%nat. reflexivity. }
  al8_count. eexists. instantiate (1 := (4 + length (q_nonce m) + n + n0 + n1 + n2)%nat). lia.
Qed.
