(** * Properties C24-C29, C32, C34-C40: control messages and records. *)
From Coq Require Import Permutation Sorted.
From Verif Require Import Base BaseLemmas Afi AfiProofs Spec Records Control SpecRec RecordsProofs ControlProofs.

(** ** Byte level *)
Lemma to_bytes_ok {A} (w : A -> res bits) m out :
  to_bytes w m = Ok out <-> w m = Ok (bits_of_bytes out).
Proof.
  unfold to_bytes. split.
  - intros H. bo H b E. apply bytes_of_bits_ok in H. congruence.
  - intros ->. cbn [bind]. apply bytes_of_bits_of_bytes.
Qed.
Lemma from_bytes_app {A} (rd : bits -> res (A * bits)) out more m :
  (forall t, rd (bits_of_bytes out ++ t) = Ok (m, t)) -> from_bytes rd (out ++ more) = Ok m.
Proof. intros H. unfold from_bytes. rewrite bits_of_bytes_app, H. reflexivity. Qed.
Lemma from_bytes_ok {A} (rd : bits -> res (A * bits)) d m :
  from_bytes rd d = Ok m -> exists t, rd (bits_of_bytes d) = Ok (m, t).
Proof. unfold from_bytes. intros H. bo H [m' t] E. okinj H. eauto. Qed.

Lemma san_arrives_opt o o' : san_reply o = Ok o' -> arrives_opt o o'.
Proof.
  unfold san_reply. destruct o as [r|]; intros H; [|okinj H; exact I].
  bo H r' E. okinj H. cbn. apply sanitize_mrec_arrives. exact E.
Qed.

(** C24 *)
Theorem C24_map_request_roundtrip : forall (m : mreq) (out : bytes),
  obj_mreq m -> mreq_to_bytes m = Ok out ->
  exists m', arrives_mreq m m' /\ forall more, mreq_from_bytes (out ++ more) = Ok m'.
Proof.
  intros m out (H1 & H2 & H3 & H4) H. apply to_bytes_ok in H.
  assert (wf_mreq m) as Hw by (repeat split; auto; intros b Hb; apply afi_roundtrip; assumption).
  destruct (mreq_rt _ _ Hw H) as (ps & rep & P1 & P2 & _ & _ & P3).
  eexists. split; [|intros more; apply from_bytes_app; exact P3].
  constructor; cbn; auto 10. apply san_arrives_opt. exact P2.
Qed.
Print Assumptions C24_map_request_roundtrip.

(** C25 *)
Theorem C25_map_reply_roundtrip : forall (m : mrep) (out : bytes),
  obj_mrep m -> mrep_to_bytes m = Ok out ->
  exists m', arrives_mrep m m' /\ forall more, mrep_from_bytes (out ++ more) = Ok m'.
Proof.
  intros m out Hw H. apply to_bytes_ok in H.
  assert (length (p_nonce m) <= 8)%nat as Hn.
  { unfold w_mrep, sanitize_mrep in H. bo H m' E. bo E [] E1. bo E [] E2. apply guard_ok in E2. unfold blen in E2. lia. }
  destruct (mrep_rt _ _ Hw H) as (rs & P1 & _ & P3).
  eexists. split; [|intros more; apply from_bytes_app; exact P3].
  constructor; cbn [p_probe p_enlra p_security p_rsv p_nonce p_records]; auto 10.
  - split; [rewrite app_length, repeat_length; lia|eauto].
  - eapply mapM_rel; [|exact P1]. exact sanitize_mrec_arrives.
Qed.
Print Assumptions C25_map_reply_roundtrip.

(** C26 *)
Theorem C26_map_register_roundtrip : forall (m : mreg) (out : bytes),
  obj_mreg m -> mreg_to_bytes m = Ok out ->
  exists m', arrives_mreg m m' /\ forall more, mreg_from_bytes (out ++ more) = Ok m'.
Proof.
  intros m out Hw H. apply to_bytes_ok in H.
  destruct (mreg_rt _ _ Hw H) as (rs & P1 & _ & P3).
  eexists. split; [|intros more; apply from_bytes_app; exact P3].
  constructor; cbn; auto 10. eapply mapM_rel; [|exact P1]. exact sanitize_mrec_arrives.
Qed.
Print Assumptions C26_map_register_roundtrip.

(** C27 *)
Theorem C27_map_notify_roundtrip : forall (m : mnot) (out : bytes),
  obj_mnot m -> mnot_to_bytes m = Ok out ->
  exists m', arrives_mnot m m' /\ forall more, mnot_from_bytes (out ++ more) = Ok m'.
Proof.
  intros m out Hw H. apply to_bytes_ok in H.
  destruct (mnot_rt _ _ Hw H) as (rs & P1 & _ & P3).
  eexists. split; [|intros more; apply from_bytes_app; exact P3].
  constructor; cbn; auto 10. eapply mapM_rel; [|exact P1]. exact sanitize_mrec_arrives.
Qed.
Print Assumptions C27_map_notify_roundtrip.

(** C28 *)
Theorem C28_map_referral_roundtrip : forall (m : mref) (out : bytes),
  obj_mref m -> mref_to_bytes m = Ok out ->
  exists m', arrives_mref m m' /\ forall more, mref_from_bytes (out ++ more) = Ok m'.
Proof.
  intros m out Hw H. apply to_bytes_ok in H.
  destruct (mref_rt _ _ Hw H) as (rs & P1 & _ & P3).
  eexists. split; [|intros more; apply from_bytes_app; exact P3].
  constructor; cbn; auto 10. eapply mapM_rel; [|exact P1]. exact sanitize_rrec_arrives.
Qed.
Print Assumptions C28_map_referral_roundtrip.

(** C29 *)
Theorem C29_info_roundtrip : forall (m : info) (out : bytes),
  obj_info m -> info_to_bytes m = Ok out ->
  forall more, info_from_bytes (out ++ more) = Ok m.
Proof.
  intros m out (H1 & H2 & H3 & H4) H more. apply to_bytes_ok in H.
  assert (wf_info m) as Hw by (repeat split; auto; intros b Hb; apply afi_roundtrip; assumption).
  destruct (info_rt _ _ Hw H) as (_ & P). apply from_bytes_app. exact P.
Qed.
Print Assumptions C29_info_roundtrip.

(** ** Non-vacuity: concrete messages with several records and locators *)
Definition ex_loc (v : fam) (z : Z) : loc := Loc 1 100 255 0 (zeros 13) true false true (AIP v z).
Definition ex_rec : mrec :=
  MRec 1440 2 true (zeros 16) 7 (ANet V4 3221225984 24)
       [ex_loc V4 3232235777; ex_loc V6 42540766411282592856903984951653826561; ex_loc V4 167772161].
Definition ex_neg : mrec := MRec 15 1 false (zeros 16) 0 (ANet V6 0 0) [].
Definition ex_nonce : bytes := B [1;2;3;4;5;6;7;8].
Definition ex_mreq : mreq :=
  MReq true false true false true (zeros 9) ex_nonce (LInst 5 (AIP V4 1) 32)
       [AIP V4 167772161; AIP V6 1] [ANet V4 3221225984 24; AIP V6 5; LInst 0 (AIP V4 9) 32] (Some ex_rec).
Example C24_example : obj_mreq ex_mreq /\ is_ok (mreq_to_bytes ex_mreq) = true.
Proof. split; [repeat split; repeat constructor|vm_compute; reflexivity]. Qed.
Definition ex_mrep : mrep := MRep true false false (zeros 17) (B [9;8;7]) [ex_rec; ex_neg].
Example C25_example : obj_mrep ex_mrep /\ is_ok (mrep_to_bytes ex_mrep) = true.
Proof. split; [repeat split; repeat constructor|vm_compute; reflexivity]. Qed.
Definition ex_mreg : mreg :=
  MReg true false true (zeros 1) (zeros 15) ex_nonce 1 (B [1;2;3]) [ex_rec; ex_neg] 12345 67.
Example C26_example : obj_mreg ex_mreg /\ is_ok (mreg_to_bytes ex_mreg) = true.
Proof. split; [repeat split; repeat constructor|vm_compute; reflexivity]. Qed.
Definition ex_mnot : mnot := MNot (zeros 19) ex_nonce 2 (B [1;2;3]) [ex_neg; ex_rec] 0 67.
Example C27_example : obj_mnot ex_mnot /\ is_ok (mnot_to_bytes ex_mnot) = true.
Proof. split; [repeat split; repeat constructor|vm_compute; reflexivity]. Qed.
Definition ex_rrec : rrec :=
  RRec 1440 0 true false (zeros 11) 0 3 (ANet V4 3221225984 24) [ex_loc V4 3232235777; ex_loc V4 167772161].
Definition ex_rrec2 : rrec :=
  RRec 0 5 false true (zeros 11) 0 3 (LInst 9 (ANet V6 0 0) 32) [].
Definition ex_mref : mref := MRef (zeros 20) ex_nonce [ex_rrec; ex_rrec2].
Example C28_example : obj_mref ex_mref /\ is_ok (mref_to_bytes ex_mref) = true.
Proof. split; [repeat split; repeat constructor|vm_compute; reflexivity]. Qed.
Definition ex_info : info :=
  Info true (zeros 27) ex_nonce 1 (B [7]) 1440 (zeros 8) (ANet V4 3221225984 24)
       (LNat 4342 4341 (AIP V4 1) (AIP V4 2) ANone [AIP V4 3; AIP V4 4]).
Example C29_example : obj_info ex_info /\ is_ok (info_to_bytes ex_info) = true.
Proof. split; [repeat split; repeat constructor|vm_compute; reflexivity]. Qed.

(** C32: stability of everything the parsers return. *)
Lemma stable_top {A} (w : A -> res bits) rd m :
  (exists b, w m = Ok b) ->
  (forall b, w m = Ok b -> forall t, rd (b ++ t) = Ok (m, t)) ->
  (forall b, w m = Ok b -> al8 b) ->
  exists out, to_bytes w m = Ok out /\ from_bytes rd out = Ok m.
Proof.
  intros [b Hb] Hrt Hal. destruct (al8_out b (Hal b Hb)) as [out Hout].
  exists out. unfold to_bytes. rewrite Hb. cbn [bind]. split; [exact Hout|].
  apply bytes_of_bits_ok in Hout. subst b. rewrite <- (app_nil_r out). apply from_bytes_app. auto.
Qed.

Lemma mapM_same {A} (f : A -> res A) l l' : mapM f l = Ok l -> mapM f l = Ok l' -> l' = l.
Proof. congruence. Qed.

Theorem C32_parsed_messages_stable : forall d : bytes,
  (forall m, mrep_from_bytes d = Ok m -> exists out, mrep_to_bytes m = Ok out /\ mrep_from_bytes out = Ok m) /\
  (forall m, mreg_from_bytes d = Ok m -> exists out, mreg_to_bytes m = Ok out /\ mreg_from_bytes out = Ok m) /\
  (forall m, mnot_from_bytes d = Ok m -> exists out, mnot_to_bytes m = Ok out /\ mnot_from_bytes out = Ok m) /\
  (forall m, mref_from_bytes d = Ok m -> exists out, mref_to_bytes m = Ok out /\ mref_from_bytes out = Ok m) /\
  (forall m, info_from_bytes d = Ok m -> exists out, info_to_bytes m = Ok out /\ info_from_bytes out = Ok m) /\
  (forall m, mreq_from_bytes d = Ok m -> Forall (fun e => is_net e = true) (q_eids m) ->
     exists out, mreq_to_bytes m = Ok out /\ mreq_from_bytes out = Ok m).
Proof.
  intros d. repeat split; intros m H.
  - apply from_bytes_ok in H. destruct H as [t H]. apply rd_mrep_stable in H. destruct H as (Hw & Hn & Hs & Hb).
    apply stable_top; [exact Hb| |intros; eapply al8_mrep; eauto].
    intros b Hb' t'. destruct (mrep_rt _ _ Hw Hb') as (rs & P1 & _ & P2). rewrite P2.
    rewrite Hn. cbn [Nat.sub repeat app]. unfold sanitize_mrep in Hs. bo Hs [] E1. bo Hs [] E2. bo Hs rs' E3.
    rewrite P1 in E3. okinj E3. apply Ok_inj in Hs. rewrite Hs. reflexivity.
  - apply from_bytes_ok in H. destruct H as [t H]. apply rd_mreg_stable in H. destruct H as (Hw & Hs & Hb).
    apply stable_top; [exact Hb| |intros; eapply al8_mreg; eauto].
    intros b Hb' t'. destruct (mreg_rt _ _ Hw Hb') as (rs & P1 & _ & P2). rewrite P2.
    unfold sanitize_mreg in Hs. bo Hs [] E1. bo Hs [] E2. bo Hs [] E2'. bo Hs rs' E3.
    rewrite P1 in E3. okinj E3. apply Ok_inj in Hs. rewrite Hs. reflexivity.
  - apply from_bytes_ok in H. destruct H as [t H]. apply rd_mnot_stable in H. destruct H as (Hw & Hs & Hb).
    apply stable_top; [exact Hb| |intros; eapply al8_mnot; eauto].
    intros b Hb' t'. destruct (mnot_rt _ _ Hw Hb') as (rs & P1 & _ & P2). rewrite P2.
    unfold sanitize_mnot in Hs. bo Hs [] E1. bo Hs [] E2. bo Hs [] E2'. bo Hs [] E2''. bo Hs rs' E3.
    rewrite P1 in E3. okinj E3. apply Ok_inj in Hs. rewrite Hs. reflexivity.
  - apply from_bytes_ok in H. destruct H as [t H]. apply rd_mref_stable in H. destruct H as (Hw & Hs & Hb).
    apply stable_top; [exact Hb| |intros; eapply al8_mref; eauto].
    intros b Hb' t'. destruct (mref_rt _ _ Hw Hb') as (rs & P1 & _ & P2). rewrite P2.
    unfold sanitize_mref in Hs. bo Hs [] E1. bo Hs rs' E3.
    rewrite P1 in E3. okinj E3. apply Ok_inj in Hs. rewrite Hs. reflexivity.
  - apply from_bytes_ok in H. destruct H as [t H]. apply rd_info_stable in H. destruct H as (Hw & Hs & Hb).
    apply stable_top; [exact Hb| |intros; eapply al8_info; eauto].
    intros b Hb' t'. destruct (info_rt _ _ Hw Hb') as (_ & P2). apply P2.
  - intros Hnet. apply from_bytes_ok in H. destruct H as [t H]. apply rd_mreq_stable in H; [|exact Hnet].
    destruct H as (Hw & Hs & Hb).
    apply stable_top; [exact Hb| |intros; eapply al8_mreq; eauto].
    intros b Hb' t'. destruct (mreq_rt _ _ Hw Hb') as (ps & rep & P1 & P2 & _ & _ & P3). rewrite P3.
    assert (ps = q_eids m) as ->.
    { clear - P1 Hnet. induction P1 as [|x y l l' Hx Hl IH]; [reflexivity|]. inversion Hnet; subst.
      f_equal; [|auto]. destruct Hx; [discriminate|reflexivity|discriminate]. }
    unfold sanitize_mreq in Hs. fold (san_reply (q_reply m)) in Hs. rewrite P2 in Hs.
    bo Hs [] E1. bo Hs [] E2. bo Hs [] E3. bo Hs [] E4. bo Hs [] E5. bo Hs [] E6. cbn [bind] in Hs. apply Ok_inj in Hs. rewrite Hs. reflexivity.
Qed.
Print Assumptions C32_parsed_messages_stable.

(** the exception: a parsed Map-Request with an LCAF EID cannot be serialised again *)
Definition lcaf_eid_request : bytes :=
  B [16;0;0;1; 1;2;3;4;5;6;7;8; 0;0; 0;1;10;0;0;1;
     0;24; 64;3;0;0;2;32;0;10; 0;0;0;5; 0;1;192;0;2;0].
Theorem C32_map_request_lcaf_eid_refuted : exists d m,
  mreq_from_bytes d = Ok m /\ mreq_to_bytes m = Err EValue.
Proof. exists lcaf_eid_request. eexists. split; [vm_compute; reflexivity|]. vm_compute; reflexivity. Qed.
Print Assumptions C32_map_request_lcaf_eid_refuted.

Example C32_example : is_ok (mref_from_bytes (match mref_to_bytes ex_mref with Ok b => b | _ => [] end)) = true /\
  is_ok (mreg_from_bytes (match mreg_to_bytes ex_mreg with Ok b => b | _ => [] end)) = true /\
  is_ok (mreq_from_bytes (match mreq_to_bytes ex_mreq with Ok b => b | _ => [] end)) = true.
Proof. vm_compute. auto. Qed.

(** C34: too many items *)
Lemma concatM_len_err {A B} (w : Z -> res (list A)) (x : Z) (k : list A -> res B) e :
  w x = Err e -> is_ok (let* c := w x in k c) = false.
Proof. intros ->. reflexivity. Qed.

Lemma w_uint_big n z : 2 ^ Z.of_nat n <= z -> w_uint n z = Err ECreate.
Proof. intros H. unfold w_uint, fits. replace (z <? 2 ^ Z.of_nat n) with false by lia. rewrite andb_false_r. reflexivity. Qed.

Theorem C34_too_many_refused :
  (forall m, (255 < length (p_records m))%nat -> is_ok (mrep_to_bytes m) = false) /\
  (forall m, (255 < length (g_records m))%nat -> is_ok (mreg_to_bytes m) = false) /\
  (forall m, (255 < length (n_records m))%nat -> is_ok (mnot_to_bytes m) = false) /\
  (forall m, (255 < length (f_records m))%nat -> is_ok (mref_to_bytes m) = false) /\
  (forall m, (32 < length (q_eids m))%nat \/ (32 < length (q_rlocs m))%nat \/ q_eids m = [] \/ q_rlocs m = [] ->
     is_ok (mreq_to_bytes m) = false) /\
  (forall r, (255 < length (mr_locs r))%nat -> is_ok (mrec_to_bytes r) = false) /\
  (forall r, (255 < length (rr_locs r))%nat -> is_ok (rrec_to_bytes r) = false) /\
  (forall m, 65535 < blen (g_authdata m) -> is_ok (mreg_to_bytes m) = false) /\
  (forall m, 65535 < blen (n_authdata m) -> is_ok (mnot_to_bytes m) = false) /\
  (forall m, 65535 < blen (i_authdata m) -> is_ok (info_to_bytes m) = false) /\
  (forall l d, concatM w_afi l = Ok d -> (8 * 65535 < Z.of_nat (length d)) -> is_ok (w_afi (LList l)) = false).
Proof.
  assert (forall A (x : res A), (forall a, x = Ok a -> False) -> is_ok x = false) as Hx.
  { intros A [a|e] H; [destruct (H a eq_refl)|reflexivity]. }
  assert (forall k n, w_uint 8 (Z.of_nat n) = Ok k -> (255 < n)%nat -> False) as H8.
  { intros k n H Hn. apply w_uint_ok in H. change (2 ^ Z.of_nat 8) with 256 in H. lia. }
  assert (forall k a b, 65535 < blen a -> w_authdata k a = Ok b -> False) as Ha.
  { intros k a b Hl H. unfold w_authdata in H. mon H. winv. change (2 ^ Z.of_nat 16) with 65536 in *. lia. }
  repeat split; intros m; intros; apply Hx; intros out Hout.
  - apply to_bytes_ok in Hout. unfold w_mrep, sanitize_mrep in Hout. bo Hout m' E. bo E [] E1. bo E [] E2. bo E rs E3. okinj E.
    cbn [p_records] in Hout. bo Hout t1 F1. bo Hout t2 F2. apply (H8 _ _ F2). rewrite (mapM_length _ _ _ E3). assumption.
  - apply to_bytes_ok in Hout. unfold w_mreg, sanitize_mreg in Hout. bo Hout m' E. bo E [] E1. bo E [] E2. bo E [] E2'. bo E rs E3. okinj E.
    cbn [g_records] in Hout. bo Hout t1 F1. bo Hout t2 F2. apply (H8 _ _ F2). rewrite (mapM_length _ _ _ E3). assumption.
  - apply to_bytes_ok in Hout. unfold w_mnot, sanitize_mnot in Hout. bo Hout m' E. bo E [] E1. bo E [] E2. bo E [] E2'. bo E [] E2''. bo E rs E3. okinj E.
    cbn [n_records] in Hout. bo Hout t1 F1. bo Hout t2 F2. apply (H8 _ _ F2). rewrite (mapM_length _ _ _ E3). assumption.
  - apply to_bytes_ok in Hout. unfold w_mref, sanitize_mref in Hout. bo Hout m' E. bo E [] E1. bo E rs E3. okinj E.
    cbn [f_records] in Hout. bo Hout t1 F1. bo Hout t2 F2. apply (H8 _ _ F2). rewrite (mapM_length _ _ _ E3). assumption.
  - apply to_bytes_ok in Hout. unfold w_mreq, sanitize_mreq in Hout. bo Hout m' E. bo E [] E1. bo E [] E2.
    apply guard_ok in E1, E2. unfold lenZ in *.
    destruct H as [H|[H|[H|H]]]; [lia|lia|rewrite H in E2|rewrite H in E1]; discriminate.
  - apply to_bytes_ok in Hout. unfold w_mrec in Hout. bo Hout m' E. apply sanitize_mrec_inv in E.
    destruct E as (_ & _ & _ & _ & E1 & E2 & _). destruct (sort_locs_idem _ _ E1 E2) as [_ HP].
    unfold enc_mrec in Hout. bo Hout t1 F1. bo Hout t2 F2. apply (H8 _ _ F2). rewrite (Permutation_length HP). assumption.
  - apply to_bytes_ok in Hout. unfold w_rrec in Hout. bo Hout m' E. apply sanitize_rrec_inv in E.
    destruct E as (_ & _ & _ & _ & _ & _ & E1 & E2 & _). destruct (sort_locs_idem _ _ E1 E2) as [_ HP].
    unfold enc_rrec in Hout. bo Hout t1 F1. bo Hout t2 F2. apply (H8 _ _ F2). rewrite (Permutation_length HP). assumption.
  - apply to_bytes_ok in Hout. unfold w_mreg, sanitize_mreg in Hout. bo Hout m' E. bo E [] E1. bo E [] E2. bo E [] E2'. bo E rs E3. okinj E.
    cbn [g_authdata g_key] in Hout. bo Hout t1 F1. bo Hout t2 F2. bo Hout t3 F3. eapply Ha; eauto.
  - apply to_bytes_ok in Hout. unfold w_mnot, sanitize_mnot in Hout. bo Hout m' E. bo E [] E1. bo E [] E2. bo E [] E2'. bo E [] E2''. bo E rs E3. okinj E.
    cbn [n_authdata n_key] in Hout. bo Hout t1 F1. bo Hout t2 F2. bo Hout t3 F3. eapply Ha; eauto.
  - apply to_bytes_ok in Hout. unfold w_info in Hout. bo Hout m' E.
    assert (m' = m) as ->. { unfold sanitize_info in E. mon E. okinj E. reflexivity. }
    bo Hout t1 F1. bo Hout t3 F3. eapply Ha; eauto.
  - match goal with H : concatM w_afi _ = Ok ?d |- _ => cbn [w_afi] in Hout; rewrite H in Hout; rename H into Hd end.
    apply lcaf_wrap_ok in Hout. destruct Hout as (d' & E & _ & _ & Hlen & _). okinj E.
    apply concatM_ok in Hd. destruct Hd as [bs [Hd ->]]. apply concat_len8 in Hd. destruct Hd as [n Hn].
    change (2 ^ Z.of_nat 16) with 65536 in Hlen.
    assert (Z.of_nat (length (concat bs)) = Z.of_nat n * 8) as Hz by lia. rewrite Hz in Hlen.
    rewrite Z.div_mul in Hlen by lia. lia.
Qed.
Print Assumptions C34_too_many_refused.
(** and exactly at the limit it is accepted *)
Example C34_example :
  is_ok (mrep_to_bytes (MRep true false false (zeros 17) ex_nonce (repeat ex_neg 255))) = true /\
  is_ok (mrep_to_bytes (MRep true false false (zeros 17) ex_nonce (repeat ex_neg 256))) = false.
Proof. vm_compute. split; reflexivity. Qed.

(** C35: emitted locators *)
Lemma split_locs out h locs gs :
  Forall obj_loc locs -> Forall2 (fun l g => w_loc l = Ok g) locs gs ->
  h ++ concat gs = bits_of_bytes out ->
  exists header bs, Forall2 (fun l b => loc_to_bytes l = Ok b) locs bs /\ out = header ++ concat bs.
Proof.
  intros Hl Hg Ho.
  assert (exists bs, Forall2 (fun l b => loc_to_bytes l = Ok b) locs bs /\ concat gs = bits_of_bytes (concat bs)) as (bs & B1 & B2).
  { clear Ho. induction Hg as [|x y l gs Hx Hgs IH]; [exists []; split; [constructor|reflexivity]|].
    inversion Hl; subst. destruct IH as (bs & B1 & B2); auto.
    destruct (al8_out y) as [yb Hy]; [eapply al8_loc; eauto|].
    exists (yb :: bs). split.
    - constructor; auto. unfold loc_to_bytes, to_bytes. rewrite Hx. exact Hy.
    - cbn [concat]. rewrite bits_of_bytes_app, B2. apply bytes_of_bits_ok in Hy. congruence. }
  rewrite B2 in Ho. pose proof (f_equal (@length bool) Ho) as HL.
  rewrite app_length, !bits_of_bytes_length in HL.
  destruct (bytes_of_bits_total h (length out - length (concat bs))) as [hb [Hh _]]; [lia|].
  apply bytes_of_bits_ok in Hh. subst h. rewrite <- bits_of_bytes_app in Ho. apply bits_of_bytes_inj in Ho.
  exists hb, bs. auto.
Qed.

Theorem C35_locators_sorted_complete :
  (forall (r : mrec) (out : bytes), obj_mrec r -> mrec_to_bytes r = Ok out ->
    exists header locs bs, sorted_of (mr_locs r) locs /\
      Forall2 (fun l b => loc_to_bytes l = Ok b) locs bs /\ out = header ++ concat bs) /\
  (forall (r : rrec) (out : bytes), obj_rrec r -> rrec_to_bytes r = Ok out ->
    exists header locs bs, sorted_of (rr_locs r) locs /\
      Forall2 (fun l b => loc_to_bytes l = Ok b) locs bs /\ out = header ++ concat bs).
Proof.
  split; intros r out Hw H; apply to_bytes_ok in H.
  - unfold w_mrec in H. bo H r' Es.
    pose proof (am_locs _ _ (sanitize_mrec_arrives _ _ Es)) as Hso.
    destruct (sanitize_mrec_wf _ _ Hw Es) as (Hr & _ & Hl).
    unfold enc_mrec in H. bo H a E1. bo H b0 E2. bo H nn E2'. bo H c E3. bo H d E4. bo H e E5. bo H f E6. bo H g E7.
    apply Ok_inj in H. apply concatM_ok in E7. destruct E7 as [gs [E7 ->]].
    repeat rewrite app_assoc in H.
    destruct (split_locs _ _ _ _ Hl E7 H) as (hd & bs & B1 & B2). eauto 10.
  - unfold w_rrec in H. bo H r' Es.
    pose proof (ar_locs _ _ (sanitize_rrec_arrives _ _ Es)) as Hso.
    destruct (sanitize_rrec_wf _ _ Hw Es) as (Hr & _ & Hl).
    unfold enc_rrec in H. bo H a E1. bo H b0 E2. bo H nn E2'. bo H c E3. bo H d E4. bo H sg E4'. bo H e E5. bo H f E6. bo H g E7.
    bo H [] E8. apply Ok_inj in H. apply concatM_ok in E7. destruct E7 as [gs [E7 ->]].
    repeat rewrite app_assoc in H.
    destruct (split_locs _ _ _ _ Hl E7 H) as (hd & bs & B1 & B2). eauto 10.
Qed.
Print Assumptions C35_locators_sorted_complete.

(** the emitted bytes do not depend on the order in which distinct locators were listed *)
Definition with_locs (r : mrec) (l : list loc) : mrec :=
  MRec (mr_ttl r) (mr_action r) (mr_auth r) (mr_rsv r) (mr_ver r) (mr_eid r) l.
Definition rwith_locs (r : rrec) (l : list loc) : rrec :=
  RRec (rr_ttl r) (rr_action r) (rr_auth r) (rr_incomplete r) (rr_rsv r) (rr_sigs r) (rr_ver r) (rr_eid r) l.

Lemma sort_locs_perm l1 l2 l' :
  Forall (fun x => sanitize_loc x = Ok tt) l1 -> Permutation l1 l2 -> NoDup (map locator_number l1) ->
  sort_locs l1 = Ok l' -> sort_locs l2 = Ok l'.
Proof.
  intros Hs HP HN H. destruct (sort_locs_ok _ _ Hs H) as [Hi ->].
  rewrite sort_locs_eq by (eapply Permutation_Forall; eauto). f_equal. f_equal. symmetry. apply sorted_unique.
  - apply isort_sorted.
  - apply isort_sorted.
  - rewrite !isort_perm. apply Permutation_map. exact HP.
  - assert (Permutation (map fst (isort (map keyed l1))) (map locator_number l1)) as HQ.
    { rewrite isort_perm, map_map. reflexivity. }
    eapply Permutation_NoDup; [symmetry; exact HQ|exact HN].
Qed.

Lemma checkM_perm {A} (f : A -> res unit) l1 l2 u :
  Permutation l1 l2 -> checkM f l1 = Ok u -> checkM f l2 = Ok u.
Proof.
  intros HP H. apply checkM_ok in H. destruct H as [-> H]. apply checkM_ok. split; [reflexivity|].
  eapply Permutation_Forall; eauto.
Qed.

Theorem C35_order_independent :
  (forall (r : mrec) (l : list loc) (out : bytes),
    Permutation (mr_locs r) l -> NoDup (map locator_number (mr_locs r)) ->
    mrec_to_bytes r = Ok out -> mrec_to_bytes (with_locs r l) = Ok out) /\
  (forall (r : rrec) (l : list loc) (out : bytes),
    Permutation (rr_locs r) l -> NoDup (map locator_number (rr_locs r)) ->
    rrec_to_bytes r = Ok out -> rrec_to_bytes (rwith_locs r l) = Ok out).
Proof.
  split; intros r l out HP HN H; apply to_bytes_ok in H; apply to_bytes_ok.
  - unfold w_mrec in *. bo H r' Es. rewrite <- H. clear H.
    assert (sanitize_mrec (with_locs r l) = Ok r') as ->; [|reflexivity].
    unfold sanitize_mrec in *. cbn [with_locs mr_ttl mr_action mr_auth mr_rsv mr_ver mr_eid mr_locs].
    rewrite <- (nonempty_perm _ _ HP). cbn zeta in *.
    bo Es [] E1. rewrite E1. bo Es [] E2. rewrite E2. bo Es [] E3. rewrite E3. bo Es [] E4. rewrite E4. cbn [bind].
    bo Es [] E5. rewrite (checkM_perm _ _ _ _ HP E5). cbn [bind]. bo Es l' E6. apply checkM_ok in E5.
    rewrite (sort_locs_perm _ _ _ (proj2 E5) HP HN E6). cbn [bind]. exact Es.
  - unfold w_rrec in *. bo H r' Es. rewrite <- H. clear H.
    assert (sanitize_rrec (rwith_locs r l) = Ok r') as ->; [|reflexivity].
    pose proof Es as Es0. apply sanitize_rrec_inv in Es0. destruct Es0 as (_ & _ & _ & _ & _ & _ & Hl & _ & _).
    unfold sanitize_rrec in *. cbn [rwith_locs rr_ttl rr_action rr_auth rr_incomplete rr_rsv rr_sigs rr_ver rr_eid rr_locs].
    rewrite <- (nonempty_perm _ _ HP).
    bo Es [] E1. rewrite E1. bo Es [] E2. rewrite E2. bo Es [] E3. rewrite E3. bo Es [] E4. rewrite E4. cbn [bind].
    bo Es e E4'. rewrite E4'. cbn [bind].
    bo Es [] E5. rewrite (checkM_perm _ _ _ _ HP E5). cbn [bind]. bo Es l' E6.
    rewrite (sort_locs_perm _ _ _ Hl HP HN E6). cbn [bind]. exact Es.
Qed.
Print Assumptions C35_order_independent.
Example C35_example : obj_mrec ex_rec /\ is_ok (mrec_to_bytes ex_rec) = true /\
  NoDup (map locator_number (mr_locs ex_rec)).
Proof.
  split; [repeat split; repeat constructor|]. split; [vm_compute; reflexivity|].
  repeat constructor; cbn; intuition lia.
Qed.

(** C36: IPv4 before IPv6 fails for IPv6 addresses numerically below the IPv4 ones *)
Theorem C36_ipv4_first_refuted : exists r out r' l6 l4 z6 z4,
  mrec_to_bytes r = Ok out /\ mrec_from_bytes out = Ok r' /\
  mr_locs r' = [l6; l4] /\ l_addr l6 = AIP V6 z6 /\ l_addr l4 = AIP V4 z4.
Proof.
  exists (MRec 1440 0 true (zeros 16) 0 (ANet V4 3221225984 24) [ex_loc V4 167772161; ex_loc V6 1]).
  eexists. eexists. exists (ex_loc V6 1), (ex_loc V4 167772161), 1, 167772161.
  split; [vm_compute; reflexivity|]. split; [vm_compute; reflexivity|]. repeat split; reflexivity.
Qed.
Print Assumptions C36_ipv4_first_refuted.

(** what does hold: IPv4 locators precede every IPv6 locator outside ::/96 *)
Theorem C36_ipv4_first_partial : forall (l l' before after : list loc) (l4 l6 : loc) z4 z6,
  sorted_of l l' -> l' = before ++ l6 :: after -> In l4 after ->
  l_addr l4 = AIP V4 z4 -> 0 <= z4 < 2 ^ 32 -> l_addr l6 = AIP V6 z6 -> z6 < 2 ^ 32.
Proof.
  intros l l' before after l4 l6 z4 z6 (_ & HS & _) -> Hin H4 Hr H6.
  assert (locator_number l6 <= locator_number l4) as Hle.
  { clear - HS Hin. induction before as [|x before IH]; cbn [app] in HS; inversion HS as [|? ? HS' HF]; subst; auto.
    rewrite Forall_forall in HF. auto. }
  unfold locator_number in Hle. rewrite H4, H6 in Hle. lia.
Qed.
Print Assumptions C36_ipv4_first_partial.

(** C37 *)
Lemma forbidden4_spec z : 0 <= z < 2 ^ 32 -> forbidden4 z = true <-> forbidden_locator (AIP V4 z).
Proof.
  intros Hz. unfold forbidden4. rewrite orb_true_iff. split.
  - intros [H|H].
    + assert (z = 2 ^ 32 - 1) as -> by (change (2 ^ 32 - 1) with 4294967295; lia). constructor.
    + constructor. unfold in_prefix. change (224 * 2 ^ 24 / 2 ^ (32 - 24)) with 14680064.
      change (2 ^ (32 - 24)) with 256. symmetry. apply (Z.div_unique z 256 14680064 (z - 3758096384)); lia.
  - intros H. inversion H; subst.
    + left. reflexivity.
    + right. match goal with H : in_prefix _ _ _ _ |- _ => unfold in_prefix in H; rename H into HI end.
      change (224 * 2 ^ 24 / 2 ^ (32 - 24)) with 14680064 in HI. change (2 ^ (32 - 24)) with 256 in HI.
      pose proof (Z.div_mod z 256). pose proof (Z.mod_pos_bound z 256). lia.
Qed.
Lemma forbidden6_spec z : forbidden6 z = true <-> forbidden_locator (AIP V6 z).
Proof.
  unfold forbidden6. rewrite orb_true_iff.
  assert (forall k, 0 <= k -> (k * 2 ^ 112) / 2 ^ (128 - 16) = k) as Hk
    by (intros k _; change (128 - 16) with 112; apply Z.div_mul; apply Z.pow_nonzero; lia).
  split.
  - intros [H|H]; [apply fb_ff02|apply fb_ff12]; unfold in_prefix; rewrite Hk by lia; change (128 - 16) with 112; lia.
  - intros H; inversion H; subst; match goal with H : in_prefix _ _ _ _ |- _ => unfold in_prefix in H; rewrite Hk in H by lia;
      change (128 - 16) with 112 in H end; [left|right]; lia.
Qed.

Definition byte_range (z : Z) : Prop := 0 <= z <= 255.

Lemma sanitize_loc_iff l v z : l_addr l = AIP v z -> 0 <= z < 2 ^ wz v ->
  sanitize_loc l = Ok tt <->
  (byte_range (l_prio l) /\ byte_range (l_weight l) /\ byte_range (l_mprio l) /\ byte_range (l_mweight l) /\
   ~ forbidden_locator (AIP v z)).
Proof.
  intros Ha Hz. unfold sanitize_loc, byte_range. rewrite Ha. split.
  - intros H. bo H [] E1. bo H [] E2. bo H [] E3. bo H [] E4. winv. repeat split; try lia.
    intros Hf. destruct v; apply guard_ok in H.
    + apply forbidden4_spec in Hf; [|exact Hz]. rewrite Hf in H. discriminate.
    + apply forbidden6_spec in Hf. rewrite Hf in H. discriminate.
  - intros (H1 & H2 & H3 & H4 & H5). unfold guard.
    replace ((0 <=? l_prio l) && (l_prio l <=? 255)) with true by lia.
    replace ((0 <=? l_weight l) && (l_weight l <=? 255)) with true by lia.
    replace ((0 <=? l_mprio l) && (l_mprio l <=? 255)) with true by lia.
    replace ((0 <=? l_mweight l) && (l_mweight l <=? 255)) with true by lia. cbn [bind].
    destruct v.
    + destruct (forbidden4 z) eqn:E; [|reflexivity]. apply forbidden4_spec in E; [tauto|exact Hz].
    + destruct (forbidden6 z) eqn:E; [|reflexivity]. apply forbidden6_spec in E. tauto.
Qed.

(** plain locators are accepted exactly when their fields are bytes and the address is allowed *)
Theorem C37_locator_accepted_iff : forall (l : loc) (v : fam) (z : Z),
  obj_loc l -> l_addr l = AIP v z -> 0 <= z < 2 ^ wz v ->
  is_ok (loc_to_bytes l) = true <->
  (byte_range (l_prio l) /\ byte_range (l_weight l) /\ byte_range (l_mprio l) /\ byte_range (l_mweight l) /\
   ~ forbidden_locator (AIP v z)).
Proof.
  intros l v z Hw Ha Hz. rewrite <- (sanitize_loc_iff l v z Ha Hz). split.
  - intros H. destruct (loc_to_bytes l) as [out|] eqn:E; [|discriminate]. apply to_bytes_ok in E.
    unfold w_loc in E. bo E [] Es. exact Es.
  - intros Hs. destruct (loc_w_total _ _ _ Ha Hz Hs) as [b Hb]. destruct (al8_out b (al8_loc _ _ Hw Hb)) as [out Ho].
    unfold loc_to_bytes, to_bytes. rewrite Hb. cbn [bind]. rewrite Ho. reflexivity.
Qed.
Print Assumptions C37_locator_accepted_iff.

(** no accepted or emitted record contains anything but allowed IP addresses as locators;
    networks and missing addresses are refused *)
Definition allowed_ip (a : addr) : Prop := is_ip a = true /\ ~ forbidden_locator a.

Lemma sane_ip_allowed l : sanitize_loc l = Ok tt -> loc_ip l -> loc_range l -> allowed_ip (l_addr l).
Proof.
  intros Hs [v [z Ha]] Hr. specialize (Hr v z Ha). apply (sanitize_loc_iff l v z Ha Hr) in Hs.
  unfold allowed_ip. rewrite Ha. split; [reflexivity|tauto].
Qed.

Lemma w_loc_range l v z b : w_loc l = Ok b -> l_addr l = AIP v z -> 0 <= z < 2 ^ wz v.
Proof.
  unfold w_loc. intros H Ha. bo H [] E. bo H x1 E1. bo H x2 E2. bo H x3 E3. bo H x4 E4. bo H x5 E5.
  rewrite Ha in E5. cbn [w_afi] in E5. bo E5 x6 E6. apply w_uint_ok in E6. tauto.
Qed.

Theorem C37_no_forbidden_locators :
  (forall r out, mrec_to_bytes r = Ok out -> Forall (fun l => allowed_ip (l_addr l)) (mr_locs r)) /\
  (forall r out, rrec_to_bytes r = Ok out -> Forall (fun l => allowed_ip (l_addr l)) (rr_locs r)) /\
  (forall d r, mrec_from_bytes d = Ok r -> Forall (fun l => allowed_ip (l_addr l)) (mr_locs r)) /\
  (forall d r, rrec_from_bytes d = Ok r -> Forall (fun l => allowed_ip (l_addr l)) (rr_locs r)).
Proof.
  assert (forall locs locs' g, Forall (fun l => sanitize_loc l = Ok tt) locs -> sort_locs locs = Ok locs' ->
    concatM w_loc locs' = Ok g -> Forall (fun l => allowed_ip (l_addr l)) locs) as Hx.
  { intros locs locs' g Hs Hso Hg. destruct (sort_locs_idem _ _ Hs Hso) as [_ HP].
    destruct (sort_locs_ok _ _ Hs Hso) as [Hi _].
    apply concatM_ok in Hg. destruct Hg as [gs [Hg _]].
    assert (Forall loc_range locs) as Hr.
    { eapply Permutation_Forall; [exact HP|]. induction Hg as [|x y l gs Hx Hgs IH]; constructor.
      - intros v z Ha. eapply w_loc_range; eauto.
      - clear - Hgs. induction Hgs; constructor; auto. intros v z Ha. eapply w_loc_range; eauto. }
    rewrite Forall_forall in *. intros l Hl. apply sane_ip_allowed; auto. }
  assert (forall r out, mrec_to_bytes r = Ok out -> Forall (fun l => allowed_ip (l_addr l)) (mr_locs r)) as H1.
  { intros r out H. apply to_bytes_ok in H. unfold w_mrec in H. bo H r' Es. apply sanitize_mrec_inv in Es.
    destruct Es as (_ & _ & _ & _ & Hl & Hso & _).
    unfold enc_mrec in H. bo H a E1. bo H b0 E2. bo H nn E2'. bo H c E3. bo H d E4. bo H e E5. bo H f E6. bo H g E7. eauto. }
  assert (forall r out, rrec_to_bytes r = Ok out -> Forall (fun l => allowed_ip (l_addr l)) (rr_locs r)) as H2.
  { intros r out H. apply to_bytes_ok in H. unfold w_rrec in H. bo H r' Es. apply sanitize_rrec_inv in Es.
    destruct Es as (_ & _ & _ & _ & _ & _ & Hl & Hso & _).
    unfold enc_rrec in H. bo H a E1. bo H b0 E2. bo H nn E2'. bo H c E3. bo H d E4. bo H sg E4'. bo H e E5. bo H f E6. bo H g E7. eauto. }
  repeat split; auto; intros d r H; apply from_bytes_ok in H; destruct H as [t H].
  - apply rd_mrec_stable in H. destruct H as (Hw & _ & b & Hb). destruct (al8_out b (al8_mrec _ _ Hw Hb)) as [out Ho].
    apply (H1 r out). unfold mrec_to_bytes, to_bytes. rewrite Hb. exact Ho.
  - apply rd_rrec_stable in H. destruct H as (Hw & _ & b & Hb). destruct (al8_out b (al8_rrec _ _ Hw Hb)) as [out Ho].
    apply (H2 r out). unfold rrec_to_bytes, to_bytes. rewrite Hb. exact Ho.
Qed.
Print Assumptions C37_no_forbidden_locators.
Example C37_example_allowed : ~ forbidden_locator (AIP V4 3758096640) /\ ~ forbidden_locator (AIP V6 1).
Proof.
  split; intros H.
  - apply forbidden4_spec in H; [discriminate|change (2 ^ 32) with 4294967296; lia].
  - apply forbidden6_spec in H. discriminate.
Qed.
Example C37_example_forbidden : forbidden_locator (AIP V4 3758096385).
Proof. apply forbidden4_spec; [change (2 ^ 32) with 4294967296; lia|reflexivity]. Qed.

(** C38: an LCAF locator holding any address is always refused *)
Theorem C38_lcaf_locators_refuted : forall l : loc,
  is_lcaf (l_addr l) = true -> get_addresses (l_addr l) <> [] ->
  byte_range (l_prio l) -> byte_range (l_weight l) -> byte_range (l_mprio l) -> byte_range (l_mweight l) ->
  loc_to_bytes l = Err EValue.
Proof.
  intros l Hl Hg H1 H2 H3 H4. unfold loc_to_bytes, to_bytes, w_loc, byte_range in *.
  assert (sanitize_loc l = Err EValue) as ->; [|reflexivity].
  unfold sanitize_loc, guard.
    replace ((0 <=? l_prio l) && (l_prio l <=? 255)) with true by lia.
    replace ((0 <=? l_weight l) && (l_weight l <=? 255)) with true by lia.
    replace ((0 <=? l_mprio l) && (l_mprio l <=? 255)) with true by lia.
    replace ((0 <=? l_mweight l) && (l_mweight l <=? 255)) with true by lia. cbn [bind].
  destruct (l_addr l); try discriminate Hl;
    (destruct (get_addresses _) eqn:E; [congruence|]); rewrite Hl; reflexivity.
Qed.
Print Assumptions C38_lcaf_locators_refuted.
Example C38_example : is_lcaf (LInst 3 (AIP V4 167772161) 32) = true /\ get_addresses (LInst 3 (AIP V4 167772161) 32) <> [].
Proof. split; [reflexivity|discriminate]. Qed.

(** C39 *)
Lemma referral_table_spec a i s t : 0 <= a <= 5 -> referral_table a i s t = true <-> ddt_row a i s t.
Proof.
  intros Ha. unfold referral_table.
  destruct (a =? 0) eqn:E0; [assert (a = 0) as -> by lia|
  destruct (a =? 1) eqn:E1; [assert (a = 1) as -> by lia|
  destruct (a =? 2) eqn:E2; [assert (a = 2) as -> by lia|
  destruct (a =? 3) eqn:E3; [assert (a = 3) as -> by lia|
  destruct (a =? 4) eqn:E4; [assert (a = 4) as -> by lia|
  destruct (a =? 5) eqn:E5; [assert (a = 5) as -> by lia|lia]]]]]];
  (split; [intros H; destruct i, s; cbn in H; try discriminate;
     match type of H with (t =? ?n) = true => assert (t = n) as -> by lia end; constructor
   | intros H; inversion H; subst; reflexivity]).
Qed.

Theorem C39_referral_table :
  (forall r out, rrec_to_bytes r = Ok out ->
     ddt_row (rr_action r) (rr_incomplete r) (has_locators (rr_locs r)) (rr_ttl r)) /\
  (forall d r, rrec_from_bytes d = Ok r ->
     ddt_row (rr_action r) (rr_incomplete r) (has_locators (rr_locs r)) (rr_ttl r)) /\
  (forall r, ddt_row (rr_action r) (rr_incomplete r) (has_locators (rr_locs r)) (rr_ttl r) ->
     0 <= rr_ver r < 4096 -> obj_rrec r -> is_ok (w_afi (rr_eid r)) = true -> rr_sigs r = 0 ->
     (length (rr_locs r) <= 255)%nat ->
     Forall (fun l => l_probed l = false /\ is_ip (l_addr l) = true /\ is_ok (loc_to_bytes l) = true) (rr_locs r) ->
     is_ok (rrec_to_bytes r) = true).
Proof.
  assert (forall r r', sanitize_rrec r = Ok r' ->
     ddt_row (rr_action r) (rr_incomplete r) (has_locators (rr_locs r)) (rr_ttl r)) as Hs.
  { intros r r' H. apply sanitize_rrec_inv in H. destruct H as (_ & Ha & _ & Ht & _).
    apply referral_table_spec in Ht; [|exact Ha]. exact Ht. }
  repeat split.
  - intros r out H. apply to_bytes_ok in H. unfold w_rrec in H. bo H r' E. eauto.
  - intros d r H. apply from_bytes_ok in H. destruct H as [t H]. apply rd_rrec_stable in H.
    destruct H as (_ & H & _). eauto.
  - intros r Hrow Hver Hw Heid Hsig Hlen Hlocs.
    assert (0 <= rr_action r <= 5 /\ 0 <= rr_ttl r <= 4294967295) as [Ha Ht] by (inversion Hrow; lia).
    apply (referral_table_spec _ _ _ _ Ha) in Hrow.
    assert (Forall (fun l => sanitize_loc l = Ok tt) (rr_locs r)) as Hsl.
    { eapply Forall_impl; [|exact Hlocs]. intros l (_ & _ & Hl).
      destruct (loc_to_bytes l) as [out|] eqn:E; [|discriminate]. apply to_bytes_ok in E.
      unfold w_loc in E. bo E [] Es. exact Es. }
    assert (Forall loc_ip (rr_locs r)) as Hip.
    { eapply Forall_impl; [|exact Hlocs]. intros l (_ & Hl & _). unfold loc_ip. destruct (l_addr l); try discriminate. eauto. }
    assert (Forall loc_range (rr_locs r)) as Hrg.
    { eapply Forall_impl; [|exact Hlocs]. intros l (_ & _ & Hl) v z Hv.
      destruct (loc_to_bytes l) as [out|] eqn:E; [|discriminate]. apply to_bytes_ok in E.
      eapply w_loc_range; eauto. }
    assert (exists r', sanitize_rrec r = Ok r') as [r' Hr'].
    { unfold sanitize_rrec, guard.
      replace ((0 <=? rr_ttl r) && (rr_ttl r <=? 4294967295)) with true by lia.
      replace ((0 <=? rr_action r) && (rr_action r <=? 5)) with true by lia. cbn [bind].
      change (nonempty (rr_locs r)) with (has_locators (rr_locs r)). rewrite Hrow. cbn [bind].
      replace ((0 <=? rr_ver r) && (rr_ver r <? 4096)) with true by lia. cbn [bind].
      assert (exists e, match rr_eid r with
              | LInst i a m => Ok (LInst i a m)
              | ANet v z n => Ok (LInst 0 (ANet v z n) 32)
              | _ => Err EValue end = Ok e) as [e ->].
      { destruct Hw as (_ & He & _). destruct (rr_eid r); try destruct He; eauto. }
      cbn [bind].
      match goal with |- context [checkM ?f ?l] => assert (checkM f l = Ok tt) as -> end.
      { apply checkM_ok. split; [reflexivity|]. rewrite Forall_forall in *. intros l Hl.
        destruct (Hlocs l Hl) as (-> & _). cbn [negb bind]. auto. }
      cbn [bind]. rewrite sort_locs_eq by exact Hip. cbn [bind]. eauto. }
    pose proof (sanitize_rrec_wf _ _ Hw Hr') as Hw'. pose proof (sanitize_rrec_idem _ _ Hr') as Hid.
    pose proof (sanitize_rrec_inv _ _ Hr') as (_ & _ & _ & _ & _ & _ & _ & Hso & Heq).
    destruct (sort_locs_idem _ _ Hsl Hso) as [_ HP].
    assert (exists b, w_rrec r' = Ok b) as [b Hb].
    { destruct Hw as (_ & He & _). destruct (norm_eid_ok _ He) as (i & v & z & n & m & Ee & Hwf).
      apply (w_rrec_total r' i v z n m); auto.
      - eapply Permutation_Forall; [symmetry; exact HP|exact Hrg].
      - unfold lenZ. rewrite (Permutation_length HP). lia.
      - rewrite Heq. exact Ee.
      - destruct (rr_eid r) as [| |v' z' n'| | |i' a' m'| | |]; try contradiction; cbn [norm_eid] in Ee.
        + injection Ee as <- _ _ _ _. change (2 ^ Z.of_nat 32) with 4294967296. lia.
        + injection Ee as <- -> <-. cbn [w_afi] in Heid. unfold lcaf_wrap in Heid.
          destruct (w_uint 32 i') as [ib|] eqn:Ei; [apply w_uint_ok in Ei; tauto|].
          cbn [bind] in Heid. destruct (w_uint 8 2); destruct (w_uint 8 m'); discriminate.
      - destruct (rr_eid r) as [| |v' z' n'| | |i' a' m'| | |]; try contradiction; cbn [norm_eid] in Ee.
        + injection Ee as _ _ _ _ <-. change (2 ^ Z.of_nat 8) with 256. lia.
        + injection Ee as <- -> <-. cbn [w_afi] in Heid. unfold lcaf_wrap in Heid.
          destruct (w_uint 8 m') as [ib|] eqn:Ei; [apply w_uint_ok in Ei; tauto|].
          destruct (w_uint 8 2); discriminate.
      - rewrite Heq. exact Hsig. }
    destruct (al8_out b (al8_rrec _ _ Hw' Hb)) as [out Ho].
    unfold w_rrec in Hb. rewrite Hid in Hb. cbn [bind] in Hb.
    unfold rrec_to_bytes, to_bytes, w_rrec. rewrite Hr'. cbn [bind]. rewrite Hb. cbn [bind]. rewrite Ho. reflexivity.
Qed.
Print Assumptions C39_referral_table.
Example C39_example : ddt_row (rr_action ex_rrec) (rr_incomplete ex_rrec) (has_locators (rr_locs ex_rrec)) (rr_ttl ex_rrec)
  /\ is_ok (rrec_to_bytes ex_rrec) = true.
Proof. split; [constructor|vm_compute; reflexivity]. Qed.

(** C40: the documented limit of 255 EID records is not honoured: more than 32 are refused *)
Definition many_eids (n : nat) : mreq :=
  MReq false false false false false (zeros 9) ex_nonce ANone [AIP V4 167772161] (repeat (ANet V4 3221225984 24) n) None.
Theorem C40_up_to_255_eids_refuted :
  obj_mreq (many_eids 33) /\ (1 <= length (q_eids (many_eids 33)) <= 255)%nat /\
  mreq_to_bytes (many_eids 33) = Err EValue.
Proof. split; [repeat split; vm_compute; reflexivity|]. split; [cbn; lia|]. vm_compute. reflexivity. Qed.
Print Assumptions C40_up_to_255_eids_refuted.
Theorem C40_at_most_32_eids_partial :
  (forall m out, mreq_to_bytes m = Ok out -> (1 <= length (q_eids m) <= 32)%nat) /\
  (forall n, (1 <= n <= 32)%nat -> is_ok (mreq_to_bytes (many_eids n)) = true).
Proof.
  split.
  - intros m out H. apply to_bytes_ok in H. unfold w_mreq, sanitize_mreq in H. bo H m' E. bo E [] E1. bo E [] E2.
    apply guard_ok in E2. unfold lenZ in E2. lia.
  - intros n Hn. assert (In n (seq 1 32)) as Hin by (apply in_seq; lia).
    assert (forallb (fun n => is_ok (mreq_to_bytes (many_eids n))) (seq 1 32) = true) as HF by (vm_compute; reflexivity).
    rewrite forallb_forall in HF. auto.
Qed.
Print Assumptions C40_at_most_32_eids_partial.
