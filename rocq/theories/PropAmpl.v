(** * Property C122: how long answers are, measured against what they answer *)
From Verif Require Import Base BaseLemmas Afi AfiProofs Spec SpecLemmas SpecEid PropEid Records Control SpecRec RecordsProofs ControlProofs
  Packet PacketProofs PacketStack SpecPkt Auth SpecAuth PropAuth Tree SpecTree TreeProofs PropTree PropTree2
  Dict MapServer SpecMs PropMs PropMs2 Net Ddt SpecDdt PropDdt PropDdt2 Etr SpecEtr PropEtr Daemon SpecDaemon PropDaemon PropDaemon2 SpecAccept PropAccept PropConfirm.

Notation zlen l := (Z.of_nat (length l)).
Definition total (l : list Z) : Z := fold_right Z.add 0 l.

(** ** sizes in octets *)
Definition loc_size (l : loc) : Z := 6 + wire_size (l_addr l).
Definition rec_size (r : mrec) : Z := 10 + wire_size (mr_eid r) + total (map loc_size (mr_locs r)).
Definition ids_size (xtr site : Z) : Z := if negb (xtr =? 0) || negb (site =? 0) then 24 else 0.

Lemma wire_size_pos a : 0 <= wire_size a.
Proof.
  assert (forall l, Forall (fun a => 0 <= wire_size a) l -> 0 <= fold_right Z.add 0 (map wire_size l)) as L.
  { induction 1; cbn [map fold_right]; lia. }
  induction a using addr_ind'; cbn [wire_size]; try (destruct v); try lia;
    match goal with F : Forall _ _ |- _ => specialize (L _ F) end; lia.
Qed.
Lemma total_pos l : Forall (fun z => 0 <= z) l -> 0 <= total l.
Proof. unfold total. induction 1; cbn [fold_right]; lia. Qed.
Lemma loc_size_pos l : 0 <= loc_size l.
Proof. unfold loc_size. pose proof (wire_size_pos (l_addr l)). lia. Qed.
Lemma rec_size_pos r : 0 <= rec_size r.
Proof.
  unfold rec_size. pose proof (wire_size_pos (mr_eid r)). assert (0 <= total (map loc_size (mr_locs r))); [|lia].
  apply total_pos. rewrite Forall_forall. intros z Hz. apply in_map_iff in Hz. destruct Hz as (l & <- & _). apply loc_size_pos.
Qed.
Lemma total_app a b : total (a ++ b) = total a + total b.
Proof. unfold total. induction a; cbn [fold_right app]; lia. Qed.
Lemma total_perm a b : Permutation.Permutation a b -> total a = total b.
Proof. unfold total. induction 1; cbn [fold_right]; lia. Qed.

(** ** reading *)
Ltac len := repeat first [rewrite app_length in * | rewrite enc_length in * | rewrite bits_of_bytes_length in * | progress cbn [length] in *].
Lemma read_afi_size pl s a r : read_afi pl s = Ok (a, r) -> is_lcaf a = false -> zlen s = 8 * wire_size a + zlen r.
Proof.
  intros H Hl. rewrite read_afi_eq in H. unfold afi_body in H. bo H [afi s1] E1. rinv.
  destruct (afi =? 0).
  { destruct pl as [n|]; [destruct (n =? 0)|]; try discriminate; okinj H; rewrite app_length, enc_length; cbn [wire_size]; lia. }
  assert (forall v z a', with_prefix (AIP v z) pl = Ok a' -> wire_size a' = match v with V4 => 6 | V6 => 18 end) as Hx.
  { intros v z a' Hp. apply with_prefix_inv in Hp. destruct pl as [n|]; [|subst; reflexivity].
    destruct Hp as [v' [z' [Hp [-> _]]]]. injection Hp as <- <-. reflexivity. }
  destruct (afi =? 1).
  { bo H [z s2] E2. bo H a' E3. okinj H. rinv. rewrite (Hx _ _ _ E3), !app_length, !enc_length. lia. }
  destruct (afi =? 2).
  { bo H [z s2] E2. bo H a' E3. okinj H. rinv. rewrite (Hx _ _ _ E3), !app_length, !enc_length. lia. }
  destruct (afi =? AFI_LCAF); [|discriminate]. exfalso.
  bo H [r1 s2] E2. bo H [fl s3] E3. bo H [ty s4] E4. bo H [r2 s5] E5. bo H [ln s6] E6. bo H [d s7] E7.
  bo H a' E8. okinj H. unfold lcaf_from_data in E8.
  destruct (ty =? 0); [okinj E8; discriminate|].
  destruct (ty =? 1); [bo E8 l El; okinj E8; discriminate|].
  destruct (ty =? 2); [mon E8; okinj E8; discriminate|].
  destruct (ty =? 3); [mon E8; okinj E8; discriminate|].
  destruct (ty =? 5); [mon E8; okinj E8; discriminate|].
  destruct (ty =? 7); [mon E8; okinj E8; discriminate|]. discriminate.
Qed.

Lemma read_inst_size pl s i v z n m r : read_afi pl s = Ok (LInst i (ANet v z n) m, r) ->
  8 * (12 + wire_size (ANet v z n)) + zlen r <= zlen s.
Proof.
  intros H. rewrite read_afi_eq in H. unfold afi_body in H. bo H [afi s1] E1. rinv.
  destruct (afi =? 0). { destruct pl as [k|]; [destruct (k =? 0)|]; discriminate. }
  destruct (afi =? 1). { bo H [z' s2] E2. bo H a' E3. apply Ok_inj in H. injection H as -> ->. apply with_prefix_inv in E3.
    destruct pl; [destruct E3 as [? [? [? [? _]]]]|]; discriminate. }
  destruct (afi =? 2). { bo H [z' s2] E2. bo H a' E3. apply Ok_inj in H. injection H as -> ->. apply with_prefix_inv in E3.
    destruct pl; [destruct E3 as [? [? [? [? _]]]]|]; discriminate. }
  destruct (afi =? AFI_LCAF); [|discriminate].
  bo H [r1 s2] E2. bo H [fl s3] E3. bo H [ty s4] E4. bo H [r2 s5] E5. bo H [ln s6] E6. bo H [d s7] E7.
  bo H a' E8. apply Ok_inj in H. injection H as -> ->. rinv. unfold lcaf_from_data in E8.
  destruct (ty =? 0); [discriminate|].
  destruct (ty =? 1); [bo E8 l El; discriminate|].
  destruct (ty =? 2).
  { bo E8 [iid s8] G1. bo E8 [x s9] G2. bo E8 x' G3. apply Ok_inj in E8. injection E8 as -> -> ->. rinv.
    assert (is_lcaf x = false /\ wire_size x = wire_size (ANet v z n)) as [X1 X2].
    { apply with_prefix_inv in G3. destruct pl as [k|]; [|subst; auto]. destruct G3 as [v' [z' [-> [E _]]]]. injection E as <- <- <-. auto. }
    pose proof (read_afi_size _ _ _ _ G2 X1) as S. rewrite X2 in S. len. lia. }
  destruct (ty =? 3); [mon E8; discriminate|].
  destruct (ty =? 5); [mon E8; discriminate|].
  destruct (ty =? 7); [mon E8; discriminate|]. discriminate.
Qed.

Lemma rd_n_total {A} (rd : bits -> res (A * bits)) (size : A -> Z) (P : A -> Prop) :
  (forall s x r, rd s = Ok (x, r) -> P x -> zlen s = 8 * size x + zlen r) ->
  forall n s l r, rd_n rd n s = Ok (l, r) -> Forall P l -> zlen s = 8 * total (map size l) + zlen r.
Proof.
  intros Hr. induction n as [|n IH]; intros s l r H F; cbn [rd_n] in H.
  - okinj H. cbn. lia.
  - bo H [x s1] E1. bo H [l' s2] E2. okinj H. inversion F; subst. cbn [map total fold_right].
    rewrite (Hr _ _ _ E1), (IH _ _ _ E2) by assumption. fold (total (map size l')). lia.
Qed.
Lemma rd_loc_size s l r : rd_loc s = Ok (l, r) -> loc_ip l -> zlen s = 8 * loc_size l + zlen r.
Proof.
  unfold rd_loc. intros H (v & z & Hip). bo H [p s1] E1. bo H [w s2] E2. bo H [mp s3] E3. bo H [mw s4] E4. bo H [rsv s5] E5.
  bo H [lo s6] E6. bo H [pr s7] E7. bo H [re s8] E8. bo H [a s9] E9. bo H [] E10. okinj H. unfold loc_size. cbn [l_addr] in *.
  assert (is_lcaf a = false) as X by (rewrite Hip; reflexivity). apply read_afi_size in E9; [|exact X]. rinv.
  len. lia.
Qed.
Lemma rd_mrec_size s r t : rd_mrec s = Ok (r, t) -> zlen s = 8 * rec_size r + zlen t.
Proof.
  unfold rd_mrec. intros H. bo H [ttl s1] E1. bo H [n s2] E2. bo H [plen s3] E3. bo H [action s4] E4. bo H [auth s5] E5.
  bo H [rsv s6] E6. bo H [ver s7] E7. bo H [eid s8] E8. bo H [locs s9] E9. bo H r' E10. okinj H.
  pose proof (sanitize_mrec_inv _ _ E10) as (_ & _ & _ & Hn & Hl & Hs & Heq). cbn [mr_eid mr_locs] in *.
  destruct (sort_locs_ok _ _ Hl Hs) as [Hip _]. destruct (sort_locs_idem _ _ Hl Hs) as [_ Hp].
  apply (rd_n_total rd_loc loc_size loc_ip rd_loc_size) in E9; [|exact Hip].
  apply read_afi_size in E8; [|destruct eid; try discriminate; reflexivity].
  unfold rec_size. rewrite (total_perm _ _ (Permutation.Permutation_map loc_size Hp)). rewrite Heq. cbn [mr_eid]. rinv.
  len. lia.
Qed.
Lemma arrives_size r r' : r' = r \/ arrives_mrec r r' -> rec_size r' = rec_size r.
Proof.
  intros [->|A]; [reflexivity|]. unfold rec_size. rewrite (am_eid _ _ A). destruct (am_locs _ _ A) as [Hp _].
  rewrite (total_perm _ _ (Permutation.Permutation_map loc_size Hp)). reflexivity.
Qed.
Lemma sanitize_size r r' : sanitize_mrec r = Ok r' -> rec_size r' = rec_size r.
Proof. intros H. apply arrives_size. right. apply sanitize_mrec_arrives, H. Qed.
Lemma mapM_size l : forall l', mapM sanitize_mrec l = Ok l' -> total (map rec_size l') = total (map rec_size l).
Proof.
  induction l as [|r l IH]; intros l' H; cbn [mapM] in H; [okinj H; reflexivity|].
  bo H y E1. bo H ys E2. okinj H. cbn. rewrite (sanitize_size _ _ E1). f_equal. apply IH, E2.
Qed.

(** a Map-Register *)
Definition reg_size (g : mreg) : Z := 16 + zlen (g_authdata g) + total (map rec_size (g_records g)) + ids_size (g_xtr g) (g_site g).
Lemma rd_mreg_size s g t : rd_mreg s = Ok (g, t) -> 8 * reg_size g <= zlen s.
Proof.
  unfold rd_mreg. intros H. bo H [ty s1] E1. bo H [] E2. bo H [px s3] E3. bo H [rsv1 s4] E4. bo H [has s5] E5. bo H [rtr s6] E6.
  bo H [rsv2 s7] E7. bo H [nt s8] E8. bo H [cnt s9] E9. bo H [nonce s10] E10. bo H [[key auth] s11] E11. bo H [rs s12] E12.
  bo H [[xtr site] s13] E13. bo H m E14. okinj H.
  apply (rd_n_total rd_mrec rec_size (fun _ => True) (fun s x r H _ => rd_mrec_size s x r H)) in E12; [|apply Forall_forall; auto].
  assert (8 * ids_size xtr site <= zlen s12) as X.
  { unfold rd_xtr in E13. destruct has; [mon E13; okinj E13; rinv; unfold ids_size; rewrite !app_length, !enc_length; destruct (_ || _); lia|].
    okinj E13. cbn. lia. }
  unfold rd_authdata in E11. bo E11 [k s14] E15. bo E11 [n s15] E16. bo E11 [a s16] E17. okinj E11.
  unfold sanitize_mreg in E14. mon E14. okinj E14. cbn [g_records g_xtr g_site g_authdata] in *. unfold reg_size; cbn [g_records g_xtr g_site g_authdata].
  match goal with E : mapM _ _ = Ok _ |- _ => rewrite (mapM_size _ _ E) end. rinv.
  len. lia.
Qed.

(** a Map-Request *)
Definition eid_size (e : addr) : Z :=
  match e with ANet _ _ _ => wire_size e | LInst _ a _ => 12 + wire_size a | _ => 0 end.
Definition req_size (q : mreq) : Z := 16 + match q_eids q with e :: _ => 2 + eid_size e | [] => 0 end.
Lemma read_eid_size pl s a r : read_afi (Some pl) s = Ok (a, r) -> 8 * eid_size a + zlen r <= zlen s.
Proof.
  intros H. pose proof (read_afi_len _ _ _ _ H). destruct a as [| |v z n| | |i a m| | |]; cbn [eid_size]; try lia.
  - apply read_afi_size in H; [|reflexivity]. lia.
  - destruct (read_afi_inst _ _ _ _ _ _ H) as (v & z & -> & _). apply read_inst_size in H. lia.
Qed.
Lemma rd_n_len {A} (rd : bits -> res (A * bits)) :
  (forall s x r, rd s = Ok (x, r) -> (length r <= length s)%nat) ->
  forall n s l r, rd_n rd n s = Ok (l, r) -> (length r <= length s)%nat.
Proof.
  intros Hr. induction n as [|n IH]; intros s l r H; cbn [rd_n] in H; [okinj H; lia|].
  bo H [x s1] E1. bo H [l' s2] E2. okinj H. apply Hr in E1. apply IH in E2. lia.
Qed.
Lemma rd_mreq_size s q t : rd_mreq s = Ok (q, t) -> 8 * req_size q <= zlen s.
Proof.
  unfold rd_mreq. intros H. bo H [ty s1] E1. bo H [] E2. bo H [auth s3] E3. bo H [mdp s4] E4. bo H [pr s5] E5. bo H [smr s6] E6.
  bo H [pi s7] E7. bo H [si s8] E8. bo H [rsv s9] E9. bo H [irc s10] E10. bo H [cnt s11] E11. bo H [nonce s12] E12. bo H [src s13] E13.
  bo H [rl s14] E14. bo H [ei s15] E15. bo H [re s16] E16. bo H m E17. okinj H.
  assert (q_eids m = ei) as Q by (unfold sanitize_mreq in E17; mon E17; okinj E17; reflexivity).
  apply read_afi_consumes in E13. destruct E13 as (c & -> & Hc).
  assert (16 + zlen s14 <= zlen s13) as R.
  { assert (exists n, Z.to_nat (irc + 1) = S n) as [n En].
    { apply rd_uint_ok in E10. destruct E10 as [_ X]. exists (Z.to_nat irc). lia. }
    rewrite En in E14. cbn [rd_n] in E14. bo E14 [x s17] E18. bo E14 [l' s18] E19. okinj E14.
    apply read_afi_consumes in E18. destruct E18 as (c' & -> & Hc').
    apply rd_n_len in E19; [|intros ? ? ? X; apply read_afi_len in X; lia]. rewrite app_length. lia. }
  assert (match ei with e :: _ => 16 + 8 * eid_size e | [] => 0 end <= zlen s14) as E.
  { destruct (Z.to_nat cnt) as [|n]; cbn [rd_n] in E15; [okinj E15; lia|]. bo E15 [x s17] E18. bo E15 [l' s18] E19. okinj E15.
    unfold rd_eid in E18. bo E18 [b s19] E20. bo E18 [k s20] E21. apply read_eid_size in E18. rinv. rewrite !app_length, enc_length. lia. }
  unfold req_size. rewrite Q. rinv. len.
  destruct (q_eids m); lia.
Qed.

(** ** what a packet took at least *)
Fixpoint least (p : pkt) : Z :=
  match p with
  | PCtl (CReg g) => reg_size g
  | PCtl (CReq q) => req_size q
  | PIPv4 _ q => 20 + least q
  | PIPv6 _ q => 40 + least q
  | PHop _ _ q | PDst _ _ q | PRoute _ _ _ _ q | PFrag _ _ _ _ q | PUDP _ _ _ q | PData _ q => 8 + least q
  | PECM _ _ _ _ _ q => 4 + least q
  | PNoNext q => least q
  | _ => 0
  end.
Lemma ids_pos x y : 0 <= ids_size x y.
Proof. unfold ids_size. destruct (_ || _); lia. Qed.
Lemma recs_pos l : 0 <= total (map rec_size l).
Proof. apply total_pos. rewrite Forall_forall. intros z Hz. apply in_map_iff in Hz. destruct Hz as (r & <- & _). apply rec_size_pos. Qed.
Lemma reg_size_pos g : 0 <= reg_size g.
Proof. unfold reg_size. pose proof (ids_pos (g_xtr g) (g_site g)). pose proof (recs_pos (g_records g)). lia. Qed.
Lemma eid_size_pos e : 0 <= eid_size e.
Proof.
  pose proof (wire_size_pos e) as X. destruct e as [| | | | |i a m| | |]; cbn [eid_size]; try lia; try exact X.
Qed.
Lemma req_size_pos q : 0 <= req_size q.
Proof. unfold req_size. destruct (q_eids q) as [|e l]; [lia|]. pose proof (eid_size_pos e). lia. Qed.
Lemma least_pos p : 0 <= least p.
Proof. induction p; cbn [least]; try lia. destruct c; try lia; [apply req_size_pos|apply reg_size_pos]. Qed.

Lemma rd_uint_l n s z r : rd_uint n s = Ok (z, r) -> zlen s = Z.of_nat n + zlen r.
Proof. intros H. rinv. len. lia. Qed.
Lemma rd_bits_l n s z r : rd_bits n s = Ok (z, r) -> zlen s = Z.of_nat n + zlen r.
Proof. intros H. rinv. len. lia. Qed.
Lemma rd_bool_l s z r : rd_bool s = Ok (z, r) -> zlen s = 1 + zlen r.
Proof. intros H. rinv. len. lia. Qed.
Lemma rd_bytes_l n s b r : rd_bytes n s = Ok (b, r) -> zlen s = 8 * zlen b + zlen r.
Proof. intros H. rinv. len. lia. Qed.
Lemma bytes_l s b : bytes_of_bits s = Ok b -> zlen s = 8 * zlen b.
Proof. intros H. apply bytes_of_bits_ok in H. subst. len. lia. Qed.
Ltac lens := repeat match goal with
  | H : rd_uint _ _ = Ok (_, _) |- _ => apply rd_uint_l in H
  | H : rd_bits _ _ = Ok (_, _) |- _ => apply rd_bits_l in H
  | H : rd_bool _ = Ok (_, _) |- _ => apply rd_bool_l in H
  | H : rd_bytes _ _ = Ok (_, _) |- _ => apply rd_bytes_l in H
  | H : bytes_of_bits _ = Ok _ |- _ => apply bytes_l in H
  | H : guard _ _ = Ok _ |- _ => clear H
  end.

Lemma layer_least rec k d p : (forall k d p, rec k d = Ok p -> least p <= zlen d) -> layer rec k d = Ok p -> least p <= zlen d.
Proof.
  intros R. assert (forall dec nh b q, decode rec dec nh b = Ok q -> least q <= zlen b) as Rd.
  { intros dec nh b q. unfold decode. destruct dec; [|intros H; okinj H; cbn [least]; lia]. destruct (registry nh); [apply R|intros H; okinj H; cbn [least]; lia]. }
  assert (forall dec s q, decode_ip rec dec s = Ok q -> 8 * least q <= zlen s) as Ri.
  { intros dec s q. unfold decode_ip. destruct s as [|b s]; [intros H; okinj H; cbn [least]; lia|]. intros H. bo H [v s'] E1. bo H b' E2.
    apply bytes_l in E2. rewrite E2.
    destruct (v =? 4); [apply R in H; lia|]. destruct (v =? 6); [apply R in H; lia|]. okinj H. cbn [least]. lia. }
  unfold layer. destruct k; intros H.
  all: assert (zlen (bits_of_bytes d) = 8 * zlen d) as L by (rewrite bits_of_bytes_length; lia).
  - unfold rd_v4 in H. mon H. okinj H. cbn [least]. match goal with E : decode _ _ _ _ = Ok _ |- _ => apply Rd in E end. lens. lia.
  - unfold rd_v6 in H. mon H. okinj H. cbn [least]. match goal with E : decode _ _ _ _ = Ok _ |- _ => apply Rd in E end. lens. lia.
  - unfold rd_opts in H. bo H [nh s1] E1. bo H [l s2] E2. bo H [o s3] E3. bo H b E4. bo H q E5. okinj H. cbn [least]. apply Rd in E5.
    assert (0 <= l) as Hl by (apply rd_uint_ok in E2; lia). pose proof E3 as E3'. apply rd_bytes_ok in E3'. destruct E3' as [_ Ho]. lens. lia.
  - unfold rd_opts in H. bo H [nh s1] E1. bo H [l s2] E2. bo H [o s3] E3. bo H b E4. bo H q E5. okinj H. cbn [least]. apply Rd in E5.
    assert (0 <= l) as Hl by (apply rd_uint_ok in E2; lia). pose proof E3 as E3'. apply rd_bytes_ok in E3'. destruct E3' as [_ Ho]. lens. lia.
  - unfold rd_route in H. bo H [nh s1] E1. bo H [l s2] E2. bo H [rt s3] E3. bo H [sl s4] E4. bo H [o s5] E5. bo H b E6. bo H q E7. okinj H. cbn [least]. apply Rd in E7.
    assert (0 <= l) as Hl by (apply rd_uint_ok in E2; lia). pose proof E5 as E5'. apply rd_bytes_ok in E5'. destruct E5' as [_ Ho]. lens. lia.
  - unfold rd_frag in H. mon H. okinj H. cbn [least]. lens. lia.
  - okinj H. cbn [least]. lia.
  - unfold rd_udp in H. bo H [sp s1] E1. bo H [dp s2] E2. bo H [l s3] E3. bo H [] E4. bo H [ck s5] E5. bo H [pb s6] E6. bo H q E7.
    bo H [] E8. bo H [] E9. bo H [] E10. okinj H. cbn [least].
    assert (least q <= zlen pb) as Q by (destruct (_ || _); [eauto|]; destruct (_ || _); [eauto|]; okinj E7; cbn [least]; lia). lens. lia.
  - unfold rd_data in H. bo H [n s1] E1. bo H [l s2] E2. bo H [e s3] E3. bo H [v s4] E4. bo H [i s5] E5. bo H [u s6] E6.
    bo H [[[a b] c] s7] E7. bo H [iid s8] E8. bo H [x s9] E9. bo H q E10. bo H dh E11. okinj H. cbn [least]. apply Ri in E10.
    assert (zlen s6 = 24 + zlen s7) as Q1.
    { destruct n; [bo E7 [x1 y1] E12; okinj E7|destruct v; [bo E7 [x1 y1] E12; bo E7 [x2 y2] E13; okinj E7|bo E7 [x1 y1] E12; okinj E7]].
      - pose proof E12 as E12'. apply rd_bytes_ok in E12'. destruct E12' as [_ Ho]. lens. lia.
      - lens. lia.
      - lens. lia. }
    assert (zlen s7 = 32 + zlen s9) as Q2.
    { destruct i; [bo E8 [x1 y1] E12; okinj E8|okinj E8]; lens; lia. }
    clear E7 E8. lens. lia.
  - unfold rd_control in H. bo H [t s1] E1. destruct (t =? 8).
    + unfold rd_ecm in H. bo H [t' s2] E2. bo H [] E3. bo H [sec s4] E4. bo H [ddt s5] E5. bo H [rsv s6] E6. bo H [] E7. bo H q E8. okinj H. cbn [least].
      apply Ri in E8. lens. lia.
    + bo H [c s2] E2. okinj H. unfold rd_ctl in E2. clear E1.
      repeat (destruct (_ =? _); [bo E2 [m s3] E3; okinj E2; cbn [least]; try lia; try (apply rd_mreg_size in E3; lia); try (apply rd_mreq_size in E3; lia)|]). discriminate.
Qed.
Lemma parse_least f : forall k d p, parse f k d = Ok p -> least p <= zlen d.
Proof. induction f as [|f IH]; intros k d p H; [discriminate|]. cbn [parse] in H. eapply layer_least; [exact IH|exact H]. Qed.
Lemma chain_least n p hs m q : chain n p hs m q -> least q <= least p.
Proof. induction 1 as [|nh p m0 q0 hs n0 r E C IH]; [lia|]. destruct E; cbn [least]; lia. Qed.
Lemma upper_least p n q : upper p n q -> 20 + least q <= least p.
Proof. intros [h q0|h p0 hs n0 q0 C]; cbn [least]; [lia|]. apply chain_least in C. lia. Qed.
Lemma brings_least e m ar clock : brings e m ar clock ->
  exists d, (e = AtControl ar d clock \/ e = AtData ar d clock) /\ least m <= zlen d.
Proof.
  intros [? d ? ? E|? d ? h p n s ck q E _ U]; exists d; (split; [auto|]); apply parse_least in E; [exact E|].
  apply upper_least in U. cbn [least] in *. pose proof (least_pos q). lia.
Qed.

(** ** writing *)
Lemma concatM_size {A} (w : A -> res bits) (size : A -> Z) :
  (forall x b, w x = Ok b -> zlen b = 8 * size x) -> forall l b, concatM w l = Ok b -> zlen b = 8 * total (map size l).
Proof.
  intros Hw l b Hb. apply concatM_ok in Hb. destruct Hb as (bs & Hb & ->).
  induction Hb as [|x y l bs Hx Hl IH]; [reflexivity|]. cbn [concat map]. unfold total in *. cbn [fold_right]. rewrite app_length, Nat2Z.inj_add, IH, (Hw _ _ Hx). lia.
Qed.
Lemma w_loc_size l b : obj_loc l -> w_loc l = Ok b -> zlen b = 8 * loc_size l.
Proof.
  unfold w_loc, obj_loc, loc_size. intros O H. bo H [] E1. bo H a E2. bo H b' E3. bo H c E4. bo H d E5. bo H e E6. okinj H.
  apply wire_size_spec in E6. winv. len. lia.
Qed.
Lemma w_locs_size l : Forall obj_loc l -> forall b, concatM w_loc l = Ok b -> zlen b = 8 * total (map loc_size l).
Proof.
  intros O b Hb. apply concatM_ok in Hb. destruct Hb as (bs & Hb & ->).
  induction Hb as [|x y l bs Hx Hl IH]; [reflexivity|]. inversion O; subst. cbn [concat map]. unfold total in *. cbn [fold_right].
  rewrite app_length, Nat2Z.inj_add, IH, (w_loc_size _ _ H1 Hx) by assumption. lia.
Qed.
Lemma w_mrec_size' r b : length (mr_rsv r) = 16%nat -> Forall obj_loc (mr_locs r) -> w_mrec r = Ok b -> zlen b = 8 * rec_size r.
Proof.
  unfold w_mrec. intros O1 O3 H. bo H r' E0. rewrite <- (sanitize_size _ _ E0).
  pose proof (sanitize_mrec_inv _ _ E0) as (_ & _ & _ & Hn & Hl & Hs & Heq).
  destruct (sort_locs_wf obj_loc _ _ Hl Hs O3) as [O3' _].
  assert (length (mr_rsv r') = 16%nat) as O1' by (rewrite Heq; exact O1).
  unfold enc_mrec in H. bo H a E1. bo H b' E2. bo H n E3. bo H c E4. bo H d E5. bo H e E6. bo H f E7. bo H g E8. okinj H.
  apply wire_size_spec in E7. apply w_locs_size in E8; [|exact O3']. unfold rec_size. winv. len. lia.
Qed.
Lemma w_mrec_size r b : obj_mrec r -> w_mrec r = Ok b -> zlen b = 8 * rec_size r.
Proof. intros (O1 & _ & O3). apply w_mrec_size'; assumption. Qed.
Lemma w_mrecs_size l : Forall obj_mrec l -> forall b, concatM w_mrec l = Ok b -> zlen b = 8 * total (map rec_size l).
Proof.
  intros O b Hb. apply concatM_ok in Hb. destruct Hb as (bs & Hb & ->).
  induction Hb as [|x y l bs Hx Hl IH]; [reflexivity|]. inversion O; subst. cbn [concat map]. unfold total in *. cbn [fold_right].
  rewrite app_length, Nat2Z.inj_add, IH, (w_mrec_size _ _ H1 Hx) by assumption. lia.
Qed.
Definition not_size (n : mnot) : Z := 16 + zlen (n_authdata n) + total (map rec_size (n_records n)) + ids_size (n_xtr n) (n_site n).
Lemma mnot_size n b : obj_mnot n -> mnot_to_bytes n = Ok b -> zlen b = not_size n.
Proof.
  intros (O1 & O2) H. unfold mnot_to_bytes, to_bytes in H. bo H s E. apply bytes_l in H. unfold w_mnot, sanitize_mnot in E.
  bo E m' E0. bo E0 [] E1. bo E0 [] E2. bo E0 [] E3. bo E0 [] E3'. bo E0 rs E4. okinj E0.
  unfold n_has_xtr in E. cbn [n_rsv n_nonce n_key n_authdata n_records n_xtr n_site] in E.
  bo E ty E5. bo E cnt E6. bo E au E7. bo E rb E8. bo E xs E9. okinj E.
  pose proof (mapM_Forall _ _ _ _ sanitize_mrec_wf O2 E4) as O2'. apply w_mrecs_size in E8; [|exact O2']. rewrite (mapM_size _ _ E4) in E8.
  assert (zlen xs = 8 * ids_size (n_xtr n) (n_site n)) as X.
  { unfold w_xtr in E9. unfold ids_size. destruct (_ || _); [mon E9; winv; okinj E9; len; lia|okinj E9; reflexivity]. }
  unfold w_authdata in E7. bo E7 k E10. bo E7 l E11. okinj E7. unfold blen in *. winv. unfold not_size. len. lia.
Qed.
Lemma mref_size rsv nonce eid b : length rsv = 20%nat -> mref_to_bytes (MRef rsv nonce [not_authoritative eid]) = Ok b ->
  zlen b <= 34 + eid_size eid.
Proof.
  intros O H. unfold mref_to_bytes, to_bytes in H. bo H s E. apply bytes_l in H. unfold w_mref, sanitize_mref in E.
  cbn [f_nonce f_records f_rsv mapM] in E. bo E m' E0. bo E0 [] E1. bo E0 rs E2. bo E2 r E3. cbn [bind] in E2. okinj E2. okinj E0.
  cbn [f_nonce f_records f_rsv concatM] in E. bo E ty E4. bo E cnt E5. bo E rb E6. okinj E. apply concatM_ok in E6. destruct E6 as (bs & E6 & ->). inversion E6 as [|? w ? ? E7 E6']; subst. inversion E6'; subst. clear E6 E6'.
  unfold w_rrec in E7. rewrite (sanitize_rrec_idem _ _ E3) in E7. cbn [bind] in E7.
  unfold sanitize_rrec, not_authoritative, new_rrec in E3. cbn [rr_ttl rr_action rr_auth rr_incomplete rr_rsv rr_sigs rr_ver rr_eid rr_locs] in E3.
  bo E3 [] F1. bo E3 [] F2. bo E3 [] F3. bo E3 [] F4. bo E3 e F5. bo E3 [] F6. bo E3 ls F7. apply Ok_inj in E3. subst r.
  cbn in F7. okinj F7. unfold enc_rrec in E7. cbn [rr_ttl rr_action rr_auth rr_incomplete rr_rsv rr_sigs rr_ver rr_eid rr_locs concatM] in E7.
  bo E7 x1 G1. bo E7 x2 G2. bo E7 x3 G3. bo E7 x4 G4. bo E7 x5 G5. bo E7 x6 G6. bo E7 x7 G7. bo E7 x8 G8. bo E7 x9 G9. bo E7 x10 G10. okinj E7. okinj G9.
  apply wire_size_spec in G8. unfold blen in *. apply guard_ok in E1. winv.
  assert (wire_size e <= 12 + eid_size eid) as We.
  { destruct eid; try discriminate; okinj F5; cbn [eid_size wire_size] in *; lia. }
  cbn [concat] in H. rewrite ?app_nil_r in H. len. rewrite repeat_length in H. lia.
Qed.

(** ** C122 *)
Definition auth_size (key : Z) : nat := match digest_len key with Some n => n | None => 0 end.
Lemma a_auth_set m a : a_auth (set_auth m a) = a.
Proof. destruct m; reflexivity. Qed.
Lemma verified_len hm m key : digests hm -> snd (verify hm m key) = Ok true -> length (a_auth m) = auth_size (a_key m).
Proof.
  intros HD. unfold verify, calculate, auth_size. destruct (Z.eqb_spec (a_key m) 0) as [->|].
  - cbn [bind snd]. intros H. apply Ok_inj, bytes_eqb_spec in H. rewrite H. reflexivity.
  - destruct (digest_len (a_key m)) as [n0|] eqn:E; [|discriminate]. destruct (a_to_bytes _); cbn [bind snd]; [|discriminate].
    intros H. apply Ok_inj, bytes_eqb_spec in H. rewrite a_auth_set in H. rewrite H. apply HD. unfold digest_len in E. unfold digest_size.
    destruct (Z.eqb_spec (a_key m) 1); [injection E as <-; auto|]. destruct (Z.eqb_spec (a_key m) 2); [injection E as <-; auto|discriminate].
Qed.

(** records picked in order are together no larger than all of them *)
Lemma picked_size (rs : list mrec) : forall js l, Sorted.StronglySorted lt js ->
  Forall2 (fun j r' => exists r, nth_error rs j = Some r /\ (r' = r \/ arrives_mrec r r')) js l ->
  total (map rec_size l) <= total (map rec_size rs).
Proof.
  assert (forall rs k js l, Sorted.StronglySorted lt js -> Forall (fun j => (k <= j)%nat) js ->
    Forall2 (fun j r' => exists r, nth_error rs (j - k) = Some r /\ (r' = r \/ arrives_mrec r r')) js l ->
    total (map rec_size l) <= total (map rec_size rs)) as G.
  { clear. induction rs as [|r rs IH]; intros k js l SS F H.
    - inversion H as [|j x js' l' (r & Hr & _) H']; subst; [cbn; lia|]. destruct (j - k)%nat; discriminate.
    - destruct js as [|j js]; [inversion H; subst; cbn [map total fold_right]; apply (recs_pos (r :: rs))|].
      inversion H as [|? x ? l' (r0 & Hr & Hx) H']; subst. inversion F as [|? ? Fj F']; subst. inversion SS as [|? ? SS' L]; subst.
      destruct (Nat.eq_dec j k) as [->|Nj].
      + rewrite Nat.sub_diag in Hr. injection Hr as <-. cbn [map]. unfold total. cbn [fold_right]. fold (total (map rec_size l')) (total (map rec_size rs)).
        rewrite (arrives_size _ _ Hx). assert (total (map rec_size l') <= total (map rec_size rs)); [|lia].
        apply (IH (S k) js l' SS'); [eapply Forall_impl; [|exact L]; cbn; intros; lia|].
        clear - H' L. induction H' as [|i y js l (r1 & Hr1 & Hy) H' IH]; constructor.
        * exists r1. inversion L; subst. split; [|exact Hy]. replace (i - k)%nat with (S (i - S k)) in Hr1 by lia. exact Hr1.
        * apply IH. inversion L; assumption.
      + assert (total (map rec_size (x :: l')) <= total (map rec_size rs)) as X.
        { apply (IH (S k) (j :: js) _ SS); [constructor; [lia|eapply Forall_impl; [|exact L]; cbn; intros; lia]|].
          assert (Forall (fun i => (k < i)%nat) (j :: js)) as L' by (constructor; [lia|eapply Forall_impl; [|exact L]; cbn; intros; lia]).
          revert H L'. generalize (j :: js) as js0, (x :: l') as l0. clear. intros js l H L.
          induction H as [|i y js l (r1 & Hr1 & Hy) H' IH]; constructor.
          - exists r1. inversion L; subst. split; [|exact Hy]. replace (i - k)%nat with (S (i - S k)) in Hr1 by lia. exact Hr1.
          - apply IH. inversion L; assumption. }
        pose proof (rec_size_pos r). change (total (map rec_size (r :: rs))) with (rec_size r + total (map rec_size rs)). lia. }
  intros js l S H. apply (G rs 0%nat js l S); [apply Forall_forall; intros; lia|].
  clear - H. induction H as [|i y js l (r1 & Hr1 & Hy) H' IH]; constructor; [|exact IH]. exists r1. rewrite Nat.sub_0_r. auto.
Qed.

Lemma notify_size hm cfg P w m src clock w' m' s b : digests hm -> good_cfg cfg P -> obj_mreg m ->
  handle_map_register hm cfg w m src clock = (w', m', Ok (Some s)) -> mnot_to_bytes (s_msg s) = Ok b -> zlen b <= reg_size m.
Proof.
  intros HD G Ho H Hb. pose proof (answer_obj _ _ _ _ _ _ _ _ _ _ HD G Ho H) as On.
  destruct (C54_notify_content _ _ _ _ _ _ _ _ _ _ HD G Ho H) as (js & S & _ & _ & _ & _ & _ & _ & K & X & Y & F & js' & j & nd & _ & A & V).
  rewrite (mnot_size _ _ On Hb). unfold not_size, reg_size. rewrite X, Y. apply (picked_size _ _ _ S) in F.
  destruct A as (_ & q & so & rg & r & r' & Au & _). apply (verified_len _ _ _ HD) in V. apply (verified_len _ _ _ HD) in Au.
  cbn [a_auth a_key] in *. rewrite K in V. rewrite V, Au. lia.
Qed.
Lemma referral_size cfg sec m src port s b : handle_ddt cfg sec m src port = Ok (Some s) -> mref_to_bytes (s_msg s) = Ok b ->
  zlen b <= 32 + req_size m.
Proof.
  intros H Hb. unfold handle_ddt in H. destruct sec; [discriminate|]. unfold req_size. destruct (q_eids m) as [|eid l] eqn:Eq; [discriminate|].
  bo H path Ep. destruct path as [pl|]; [|discriminate].
  destruct (scan None (rev pl)) as [auth [h|]] eqn:Es.
  - destruct (scan_handler _ _ _ _ Es) as [(d & Ec)|[Ec ->]]; rewrite Ec in H.
    + bo H r Er. injection H as <-.
      destruct (empty_referral _ (repeat false 20) (q_nonce m) _ _ Er) as (e & He). unfold send_answer in Hb; cbn [s_msg] in Hb. rewrite He in Hb. discriminate.
    + unfold ddt_nodes_of in H. rewrite Ec in H. discriminate.
  - injection H as <-. unfold send_answer in Hb. cbn [s_msg] in Hb. apply mref_size in Hb; [lia|reflexivity].
Qed.

(** the announced locators are no more than the configured ones and the RTRs *)
Lemma set_add_len {A} same (x : A) l : (length (set_add same x l) <= S (length l))%nat.
Proof. unfold set_add. destruct (existsb _ _); [lia|]. rewrite app_length. cbn. lia. Qed.
Lemma fold_add_len {A B} same (f : B -> A) l : forall acc, (length (fold_left (fun s r => set_add same (f r) s) l acc) <= length acc + length l)%nat.
Proof. induction l as [|x l IH]; intros acc; cbn [fold_left length]; [lia|]. specialize (IH (set_add same (f x) acc)). pose proof (set_add_len same (f x) acc). lia. Qed.
Lemma set_add_all {A} same (P : A -> Prop) x l : P x -> Forall P l -> Forall P (set_add same x l).
Proof. intros. unfold set_add. destruct (existsb _ _); [assumption|]. apply Forall_app. auto. Qed.
Lemma fold_add_all {A B} same (f : B -> A) (P : A -> Prop) l : Forall (fun x => P (f x)) l -> forall acc, Forall P acc ->
  Forall P (fold_left (fun s r => set_add same (f r) s) l acc).
Proof. induction 1 as [|x l Hx Hl IH]; intros acc Ha; cbn [fold_left]; [exact Ha|]. apply IH, set_add_all; assumption. Qed.
Definition shaped (l : loc) : Prop := obj_loc l /\ exists v z, l_addr l = AIP v z.
Lemma announce_len socks rtrs : Forall (fun a => exists v z, a = AIP v z) rtrs -> forall locs included acc ls, Forall shaped acc -> announce socks rtrs locs included acc = Ok ls ->
  Forall shaped ls /\ (length ls <= length acc + length locs + (if included then 0 else length rtrs))%nat.
Proof.
  intros R. induction locs as [|l locs IH]; intros included acc ls Ha H; cbn [announce length] in *.
  - okinj H. split; [exact Ha|lia].
  - destruct (l_addr l) as [|v z| | | | | | |]; try discriminate. destruct (z =? 0); [apply IH in H; [split; [apply H|lia]|exact Ha]|].
    destruct (_ && _).
    + destruct included; [apply IH in H; [split; [apply H|lia]|exact Ha]|]. apply IH in H.
      * split; [apply H|]. pose proof (fold_add_len loc_same (new_loc l false) rtrs acc). lia.
      * apply fold_add_all; [|exact Ha]. eapply Forall_impl; [|exact R]. intros a Hx. split; [reflexivity|exact Hx].
    + apply IH in H.
      * split; [apply H|]. pose proof (set_add_len loc_same (new_loc l (is_local_loc socks z) (AIP v z)) acc). lia.
      * apply set_add_all; [|exact Ha]. split; [reflexivity|]. exists v, z. reflexivity.
Qed.
Lemma as_ips_shape l : forall l', as_ips l = Ok l' -> length l' = length l /\ Forall (fun a => exists v z, a = AIP v z) l'.
Proof.
  induction l as [|a l IH]; intros l' H; cbn [as_ips] in H; [okinj H; auto|]. bo H [v z] Ea.
  bo H r Er. okinj H. destruct (IH _ Er) as [E F]. split; [cbn [length]; congruence|]. constructor; eauto.
Qed.
Lemma locators_len locs stored socks ls : get_etr_locators locs stored socks [] = Ok ls ->
  Forall shaped ls /\ (length ls <= length locs + length (concat stored))%nat.
Proof.
  unfold get_etr_locators, get_rtrs. intros H. bo H rt E. cbn [fold_left] in H. bo E l El. okinj E. apply as_ips_shape in El. destruct El as [El F].
  apply announce_len in H; [|apply (fold_add_all addr_same (fun x => x)); [exact F|constructor]|constructor].
  split; [apply H|]. pose proof (fold_add_len addr_same (fun x : addr => x) l []). cbn [length] in *. lia.
Qed.
Lemma shaped_size l : shaped l -> 0 <= loc_size l <= 24.
Proof. intros (_ & v & z & E). unfold loc_size. rewrite E. destruct v; cbn [wire_size]; lia. Qed.
Lemma shaped_total l : Forall shaped l -> total (map loc_size l) <= 24 * zlen l.
Proof.
  induction 1 as [|x l Hx Hl IH]; [cbn; lia|]. apply shaped_size in Hx. change (total (map loc_size (x :: l))) with (loc_size x + total (map loc_size l)). cbn [length]. lia.
Qed.
Lemma mrep_size a b c nonce r out : length (mr_rsv r) = 16%nat -> Forall obj_loc (mr_locs r) -> mrep_to_bytes (MRep a b c (repeat false 17) nonce [r]) = Ok out ->
  zlen out = 12 + rec_size r.
Proof.
  intros O1 O2 H. unfold mrep_to_bytes, to_bytes in H. bo H s E. apply bytes_l in H. unfold w_mrep, sanitize_mrep in E.
  cbn [p_probe p_enlra p_security p_rsv p_nonce p_records mapM] in E. bo E m' E0. bo E0 [] E1. bo E0 [] E2. bo E0 rs E3. okinj E0.
  bo E3 r' E4. cbn [bind] in E3. okinj E3. cbn [p_probe p_enlra p_security p_rsv p_nonce p_records] in E.
  bo E ty E5. bo E cnt E6. bo E rb E7. bo E [] E8. okinj E. apply concatM_ok in E7. destruct E7 as (bs & E7 & ->).
  inversion E7 as [|? w ? ? E9 E7']; subst. inversion E7'; subst. clear E7 E7'.
  pose proof (sanitize_mrec_inv _ _ E4) as (_ & _ & _ & _ & Hl & Hs & Heq).
  destruct (sort_locs_wf obj_loc _ _ Hl Hs O2) as [O2' _]. assert (length (mr_rsv r') = 16%nat) as O1' by (rewrite Heq; exact O1).
  apply w_mrec_size' in E9; [|assumption|assumption]. rewrite (sanitize_size _ _ E4) in E9.
  cbn [concat] in H. rewrite ?app_nil_r in H. unfold pad_nonce, blen in *. winv. len. rewrite ?repeat_length, ?zeros_length in H. lia.
Qed.
Lemma reply_size cfg w socks m dest port s b : handle_map_request cfg w socks m dest port = Ok (Some s) -> mrep_to_bytes (s_msg s) = Ok b ->
  exists iid afi n x, tree_for cfg iid afi n /\ in_tree x n /\ n_cls x = NETR /\
    (length b <= 40 + 24 * (length (e_locs (w (n_id x))) + length (concat (map snd (e_rtrs (w (n_id x)))))))%nat.
Proof.
  intros H Hb. destruct (C58_reply _ _ _ _ _ _ _ H) as (eid & iid & afi & a & q & n & x & l & r & ls & Eq & Ed & Ea & Et & El & Ec & _ & _ & _ & _ & Er & _).
  exists iid, afi, n, x. split; [exact Et|]. split; [apply (resolve_in_tree n q); unfold resolve; rewrite El; reflexivity|]. split; [exact Ec|].
  unfold handle_map_request in H. rewrite Eq in H. apply eid_named_spec in Ed. rewrite Ed, Et, Ea, El in H. cbn [bind] in H. rewrite Ec in H.
  bo H s' Es. apply Ok_inj in H. injection H as <-. unfold etr_map_request in Es. bo Es ls' Els. okinj Es. cbn [s_msg] in Hb.
  apply locators_len in Els. destruct Els as [F L].
  destruct ls' as [|y ls'].
  - apply mrep_size in Hb; [|reflexivity|constructor]. unfold rec_size in Hb. cbn [mr_eid mr_locs new_mrec wire_size map] in Hb. change (total []) with 0 in Hb. destruct (x_fam (n_pfx x)); lia.
  - revert Hb F L. generalize (y :: ls') as k. intros k Hb F L. apply mrep_size in Hb; [|reflexivity|].
    2: { cbn [mr_locs new_mrec]. apply Forall_map. eapply Forall_impl; [|exact F]. intros z Hz. apply Hz. }
    unfold rec_size in Hb. cbn [mr_eid mr_locs new_mrec wire_size] in Hb. rewrite map_map in Hb.
    change (map (fun z => loc_size (set_flags (q_probe m) dest z)) k) with (map loc_size k) in Hb.
    apply shaped_total in F. destruct (x_fam (n_pfx x)); lia.
Qed.

(** what is sent in answer to a datagram comes from handling the control message the datagram brings *)
Lemma answer_comes hm cfg socks st e ar d clock m v to port : e = AtControl ar d clock \/ e = AtData ar d clock ->
  In (OMsg m v to port) (snd (step hm cfg socks st e)) ->
  exists p inner st', brings e p ar clock /\ snd (received (dm_ctr st) p) = Ok inner /\ dm_etr st' = dm_etr st /\
    In (OMsg m v to port) (snd (handle_message hm cfg socks clock ar p inner st')).
Proof.
  intros He Hin.
  assert (exists p st', brings e p ar clock /\ handle_control_message hm cfg socks clock ar p st = (st', snd (step hm cfg socks st e))) as (p & st' & B & H).
  { destruct He as [->| ->]; cbn [step] in *.
    - unfold control_datagram in *. destruct (pkt_from_bytes KCtl d) as [p|] eqn:Ep; [|destruct Hin].
      destruct (handle_control_message hm cfg socks clock ar p st) as [st' outs] eqn:E. exists p, st'. split; [constructor; exact Ep|]. rewrite E. auto.
    - destruct (data_datagram hm cfg socks clock ar d st) as [st' outs] eqn:E.
      destruct (C73_data_datagram _ _ _ _ _ _ _ _ _ E) as [[_ [->|(a1 & a2 & a3 & ->)]]|(q & B & H & _)]; [destruct Hin|destruct Hin as [Hin|[]]; discriminate|].
      exists q, st'. auto. }
  unfold handle_control_message in H. destruct (received (dm_ctr st) p) as [ctr r] eqn:Er. destruct r as [inner|e']; [|injection H as _ H; rewrite <- H in Hin; destruct Hin].
  pose proof (f_equal snd H) as H'. cbn [snd] in H'. rewrite <- H' in Hin.
  exists p, inner, (Dm (dm_ms st) (dm_etr st) (dm_out st) ctr). rewrite Er. auto.
Qed.

(** No answer to a Map-Register or DDT Map-Request is longer than the datagram that brought it. *)
Theorem C122_no_amplification : forall hm cfg socks P st e ar d clock m v to port b,
  digests hm -> good_cfg cfg P -> e = AtControl ar d clock \/ e = AtData ar d clock ->
  In (OMsg m v to port) (snd (step hm cfg socks st e)) -> (forall r, m <> PCtl (CRep r)) -> pkt_to_bytes m = Ok b ->
  (length b <= length d)%nat.
Proof.
  intros hm cfg socks P st e ar d clock m v to port b HD G He Hin Hm Hb.
  destruct (answer_comes _ _ _ _ _ _ _ _ _ _ _ _ He Hin) as (p & inner & st' & B & Er & _ & Hin'). clear Hin. rename Hin' into Hin.
  destruct (brings_least _ _ _ _ B) as (d' & He' & L). assert (d' = d) as -> by (destruct He as [->| ->], He' as [E|E]; congruence). clear He'.
  assert (zlen b <= least p); [|lia].
  destruct (proj1 (received_spec (dm_ctr st) p inner) Er) as [_ RI]. unfold handle_message in Hin.
  destruct p as [| | | | | | | | | |sec ddt rtr rel rsv p|c]; try destruct Hin.
  - destruct inner as [i|]; [|destruct Hin]. destruct i as [| | | | | | | | | | |c]; try destruct Hin. destruct c; try destruct Hin.
    destruct ddt; [|destruct Hin]. cbn [snd] in Hin.
    match type of Hin with context[handle_ddt ?a ?b ?c ?d ?e] => destruct (handle_ddt a b c d e) as [[s|]|] eqn:E end; [|destruct Hin|destruct Hin].
    destruct Hin as [Hin|[]]. injection Hin as <- _ _ _.
    destruct RI as (? & ? & ? & ? & ? & ? & [= <- <- <- <- <- <-] & _ & _ & sp & ck & _ & U). apply upper_least in U. cbn [least] in U |- *.
    cbn [pkt_to_bytes] in Hb. change (to_bytes w_ctl (CRef (s_msg s))) with (mref_to_bytes (s_msg s)) in Hb.
    apply (referral_size _ _ _ _ _ _ _ E) in Hb. lia.
  - destruct c as [q|r|g|n|f|i]; cbn [snd] in Hin; try destruct Hin.
    + match type of Hin with context[handle_map_request ?a ?b ?c ?d ?e ?f] => destruct (handle_map_request a b c d e f) as [[s|]|] eqn:E end; [|destruct Hin|destruct Hin].
      destruct Hin as [Hin|[]]. injection Hin as <- _ _ _. edestruct Hm; reflexivity.
    + match type of Hin with context[handle_map_register ?a ?b ?c ?d ?e ?f] => destruct (handle_map_register a b c d e f) as [[w' m'] [[s|]|]] eqn:E end; cbn [snd] in Hin; [|destruct Hin|destruct Hin].
      destruct Hin as [Hin|[]]. injection Hin as <- _ _ _. cbn [least].
      cbn [pkt_to_bytes] in Hb. change (to_bytes w_ctl (CNot (s_msg s))) with (mnot_to_bytes (s_msg s)) in Hb.
      apply (notify_size _ _ _ _ _ _ _ _ _ _ _ HD G (brings_obj _ _ _ _ B) E Hb).
Qed.

(** A Map-Reply has at most 40 octets and 24 for every locator configured at, and every RTR known to, an ETR node. *)
Theorem C122_reply_bounded : forall hm cfg socks st e ar d clock r v to port b,
  e = AtControl ar d clock \/ e = AtData ar d clock ->
  In (OMsg (PCtl (CRep r)) v to port) (snd (step hm cfg socks st e)) -> pkt_to_bytes (PCtl (CRep r)) = Ok b ->
  exists iid afi n x, tree_for cfg iid afi n /\ in_tree x n /\ n_cls x = NETR /\
    let etr := dm_etr st (n_id x) in
    (length b <= 40 + 24 * (length (e_locs etr) + length (concat (map snd (e_rtrs etr)))))%nat.
Proof.
  intros hm cfg socks st e ar d clock r v to port b He Hin Hb.
  destruct (answer_comes _ _ _ _ _ _ _ _ _ _ _ _ He Hin) as (p & inner & st' & B & Er & Ee & Hin'). clear Hin. rename Hin' into Hin.
  unfold handle_message in Hin. destruct p as [| | | | | | | | | |sec ddt rtr rel rsv p|c]; try destruct Hin.
  - destruct inner as [i|]; [|destruct Hin]. destruct i as [| | | | | | | | | | |c]; try destruct Hin. destruct c; try destruct Hin.
    destruct ddt; [|destruct Hin]. cbn [snd] in Hin.
    match type of Hin with context[handle_ddt ?a ?b ?c ?d ?e] => destruct (handle_ddt a b c d e) as [[s|]|] eqn:E end; [|destruct Hin|destruct Hin].
    destruct Hin as [Hin|[]]. discriminate.
  - destruct c as [q|r'|g|n|f|i]; cbn [snd] in Hin; try destruct Hin.
    + match type of Hin with context[handle_map_request ?a ?b ?c ?d ?e ?f] => destruct (handle_map_request a b c d e f) as [[s|]|] eqn:E end; [|destruct Hin|destruct Hin].
      destruct Hin as [Hin|[]]. injection Hin as <- _ _ _. cbn zeta. rewrite <- Ee. apply (reply_size _ _ _ _ _ _ _ _ E Hb).
    + match type of Hin with context[handle_map_register ?a ?b ?c ?d ?e ?f] => destruct (handle_map_register a b c d e f) as [[w' m'] [[s|]|]] eqn:E end; cbn [snd] in Hin; [|destruct Hin|destruct Hin].
      destruct Hin as [Hin|[]]. discriminate.
Qed.
Print Assumptions C122_no_amplification.
Print Assumptions C122_reply_bounded.

(** ** Examples: the Map-Notify for a Map-Register is exactly as long; a DDT request is answered with less; a Map-Reply
    can be longer than the Map-Request, which is why its bound is in terms of the configuration *)
Definition wire (p : pkt) : bytes := match pkt_to_bytes p with Ok b => b | Err _ => [] end.
Definition out_lengths (l : list output) : list nat := map (fun o => match o with OMsg m _ _ _ => length (wire m) | ORaw _ _ d => length d end) l.
Definition small_request : mreq := MReq false false false false false (repeat false 9) (repeat zero_byte 8) ANone [AIP V4 7] [ANet V4 167772160 8] None.
Definition ddt_request : pkt := PECM false true false false (repeat false 26)
  (PIPv4 (V4H 0 0 false false 0 64 17 (AIP V4 1) (AIP V4 2) []) (PUDP 4342 4342 0 (PCtl (CReq small_request)))).
Definition an_etr_cfg : instances := [(0, [(1, Node 3 (Pfx V4 167772160 8) NETR [])])].
Definition with_locators : dm := Dm (fun _ => new_ms (B [1;2]) true)
  (fun _ => Etr [Loc 1 1 1 1 (repeat false 13) true false true (AIP V6 (2 ^ 125 + 1)); Loc 1 1 1 1 (repeat false 13) true false true (AIP V6 (2 ^ 125 + 2))] [] [])
  (fun _ => NOut [] []) 0.
Example C122_example :
  (let d := wire (PCtl (CReg open_register)) in
   length d = 32%nat /\ out_lengths (snd (step toy_hm ms_cfg [] start (AtControl there d (fun _ => 5)))) = [32%nat]) /\
  (let d := wire ddt_request in
   length d = 60%nat /\ out_lengths (snd (step toy_hm [(0, [(1, Node 0 (Pfx V4 0 0) NContainer [])])] [] start (AtControl there d (fun _ => 5)))) = [40%nat]) /\
  (let d := wire (PCtl (CReq small_request)) in
   length d = 28%nat /\ out_lengths (snd (step toy_hm an_etr_cfg [] with_locators (AtControl there d (fun _ => 5)))) = [76%nat]).
Proof. vm_compute. repeat split; reflexivity. Qed.
