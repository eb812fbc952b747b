(** * C117: what a Map-Server has registered was announced by someone who has its key *)
From Verif Require Import Base BaseLemmas Afi AfiProofs Spec SpecEid PropEid Records Control SpecRec RecordsProofs ControlProofs PropControl
  Auth SpecAuth PropAuth Tree SpecTree TreeProofs PropTree PropTree2 Dict MapServer SpecMs PropMs PropMs2 Net Ddt Etr SpecEtr PropEtr Packet SpecPkt Daemon SpecDaemon PropDaemon2 SpecHonest.

(** an authentic message with a key id has the MAC on the wire *)
Lemma verified_mac hm key m : digests hm -> obj_a m -> a_key m <> 0 -> snd (verify hm m key) = Ok true ->
  exists n out, digest_size (a_key m) n /\ a_to_bytes m = Ok out /\ auth_field n out = hm (a_key m) key (zeroed n out) /\
    a_to_bytes (set_auth m (repeat zero_byte n)) = Ok (zeroed n out).
Proof.
  intros HD O K Ha. pose proof Ha as Ha0.
  unfold verify, calculate in Ha. rewrite (proj2 (Z.eqb_neq _ _) K) in Ha.
  unfold digest_len in Ha.
  assert (exists n, digest_size (a_key m) n /\ exists b, a_to_bytes (set_auth m (repeat zero_byte n)) = Ok b) as (n & Dn & b & Eb).
  { destruct (a_key m =? 1) eqn:E1; [|destruct (a_key m =? 2) eqn:E2; [|discriminate]].
    - exists 20%nat. split; [left; apply Z.eqb_eq in E1; auto|]. destruct (a_to_bytes _) as [b|e]; [eauto|discriminate].
    - exists 32%nat. split; [right; apply Z.eqb_eq in E2; auto|]. destruct (a_to_bytes _) as [b|e]; [eauto|discriminate]. }
  assert (obj_a (set_auth m (repeat zero_byte n))) as Oz by (apply obj_set; exact O).
  destruct (a_bytes_split _ _ Oz Eb) as (pre & post & LP & HS).
  assert (length (a_auth m) = n) as LA.
  { unfold verify, calculate, digest_len in Ha0. rewrite (proj2 (Z.eqb_neq _ _) K) in Ha0.
    assert ((if a_key m =? 1 then Some 20%nat else if a_key m =? 2 then Some 32%nat else None) = Some n) as En.
    { destruct Dn as [[-> ->]|[-> ->]]; reflexivity. }
    rewrite En, Eb in Ha0. cbn [snd bind] in Ha0.
    assert (a_auth (set_auth (after (set_auth m (repeat zero_byte n))) (a_auth m)) = a_auth m) as EA.
    { destruct (after _); reflexivity. }
    rewrite EA in Ha0. injection Ha0 as V. apply bytes_eqb_spec in V. rewrite V. apply HD. exact Dn. }
  assert (blen (a_auth m) < 65536) as LB by (unfold blen; destruct Dn as [[_ ->]|[_ ->]]; lia).
  pose proof (HS (a_auth m) LB) as HM. rewrite set_auth_set in HM. pose proof (set_auth_id m) as SI. rewrite SI in HM.
  exists n. eexists. split; [exact Dn|]. split; [exact HM|]. split.
  - destruct (C42_verify_iff_mac hm m key _ HD O HM) as (v & V & _ & I).
    rewrite V in Ha0. injection Ha0 as ->. apply (proj1 (I n Dn)). reflexivity.
  - assert (blen (repeat zero_byte n) < 65536) as LZ by (unfold blen; rewrite repeat_length; destruct Dn as [[_ ->]|[_ ->]]; lia).
    pose proof (HS (repeat zero_byte n) LZ) as HZ. rewrite set_auth_set in HZ. rewrite HZ. f_equal. unfold zeroed.
    assert (blen (repeat zero_byte n) = blen (a_auth m)) as -> by (unfold blen; rewrite repeat_length, LA; reflexivity).
    destruct (zeroed_split pre post (a_auth m) (w16 (blen (a_auth m))) n LP (w16_len _) LA) as [EZ _]. unfold zeroed in EZ. rewrite EZ. reflexivity.
Qed.
Lemma authentic_mac hm key m : digests hm -> obj_mreg m -> g_key m <> 0 -> authentic hm key m ->
  exists n out, digest_size (g_key m) n /\ mreg_to_bytes m = Ok out /\ auth_field n out = hm (g_key m) key (zeroed n out) /\
    a_to_bytes (set_auth (AReg m) (repeat zero_byte n)) = Ok (zeroed n out).
Proof. intros HD O K H. exact (verified_mac hm key (AReg m) HD O K H). Qed.

(** a Map-Register does not have the bytes of another message *)
Lemma type_differs g m0 z : (forall g0, m0 <> AReg g0) -> mreg_to_bytes g = Ok z -> a_to_bytes m0 = Ok z -> False.
Proof.
  intros N H H0. apply to_bytes_ok in H. unfold w_mreg in H. bo H g' E. bo H t Et. bo H cnt Ec. bo H au Ea. bo H rs Er. bo H xs Ex. okinj H. cbv in Et. okinj Et.
  destruct m0 as [g0|n|i]; [exact (N g0 eq_refl)| |]; cbn [a_to_bytes] in H0; apply to_bytes_ok in H0.
  - unfold w_mnot in H0. bo H0 n' E'. bo H0 t' Et'. bo H0 cnt' Ec'. bo H0 au' Ea'. bo H0 rs' Er'. bo H0 xs' Ex'. cbv in Et'. okinj Et'. okinj H0.
    rewrite <- H in H0. discriminate H0.
  - unfold w_info in H0. bo H0 n' E'. bo H0 t' Et'. bo H0 au' Ea'. bo H0 ttl' Er'. bo H0 x' Ex'. bo H0 y' Ey'. bo H0 z' Ez'. bo H0 d' Ed'. cbv in Et'. okinj Et'. okinj H0.
    rewrite <- H in H0. discriminate H0.
Qed.
Lemma prefix_addr_wf p : wf_pfx p -> wf_addr (ANet (x_fam p) (x_net p) (x_len p)) = true.
Proof.
  intros (L & R & A). cbn [wf_addr wf_ip]. unfold fits, mask_to, aligned in *. rewrite !andb_true_iff, !Z.leb_le, Z.ltb_lt, Z.eqb_eq.
  assert (0 < 2 ^ (wz (x_fam p) - x_len p)) by (apply Z.pow_pos_nonneg; lia). split; [|rewrite (Z.div_mod (x_net p) (2 ^ (wz (x_fam p) - x_len p))) at 2 by lia; lia].
  unfold wz in *. lia.
Qed.

(** a Map-Register with a key id whose MAC was computed by someone who has the key is an announcement *)
Lemma genuine_register hm key m made used : digests hm -> by_the_book made used -> obj_mreg m -> g_key m <> 0 -> authentic hm key m ->
  (forall out n, digest_size (g_key m) n -> mreg_to_bytes m = Ok out -> auth_field n out = hm (g_key m) key (zeroed n out) ->
    exists m0, used m0 /\ a_to_bytes (set_auth m0 (repeat zero_byte n)) = Ok (zeroed n out)) ->
  exists a, made a /\ g_nonce m = an_nonce a /\ g_key m = tr_keyid (an_reg a) /\
    forall key' more p i src now q so rg, acceptable hm key' more p m i src now q so rg -> i = 0%nat /\ comes_from a q so rg.
Proof.
  intros HD BB O K Ha UF.
  destruct (authentic_mac hm key m HD O K Ha) as (n & out & D & Hout & MAC & Hz).
  destruct (UF _ _ D Hout MAC) as (m0 & U & H0).
  destruct (BB m0 U) as [(a & Ma & (W & FL & LN) & ->)|N].
  2:{ exfalso. refine (type_differs _ (set_auth m0 (repeat zero_byte n)) _ _ Hz H0). intros g0 E. destruct m0; try discriminate E. exact (N _ eq_refl). }
  exists a. split; [exact Ma|].
  cbn [set_auth a_to_bytes] in Hz, H0. apply to_bytes_ok in Hz. apply to_bytes_ok in H0.
  pose proof (fun W => mreg_rt _ _ W Hz) as RT. destruct (RT O) as (rs & S & _ & R). clear RT.
  assert (obj_mreg (MReg (g_proxy (register_of a)) (g_rtr (register_of a)) (g_notify (register_of a)) (g_rsv1 (register_of a)) (g_rsv2 (register_of a))
     (g_nonce (register_of a)) (g_key (register_of a)) (repeat zero_byte n) (g_records (register_of a)) (g_xtr (register_of a)) (g_site (register_of a)))) as Oa.
  { repeat split; try reflexivity; [exact LN|]. cbn. constructor; [|constructor]. split; [reflexivity|]. split; [|exact FL]. apply prefix_addr_wf. exact W. }
  destruct (mreg_rt _ _ Oa H0) as (rs0 & S0 & _ & R0).
  pose proof (R []) as R1. pose proof (R0 []) as R2. rewrite R1 in R2. injection R2 as EP ER EN E1 E2 ENo EK ERs EX ES. cbn [g_records g_proxy g_xtr g_site] in *.
  split; [exact ENo|]. split; [exact EK|]. intros key' more p i src now q so rg (r & r' & _ & Hr & He & _ & _ & Hs & Hn & ->).
  subst rs0. unfold register_of, new_register in S0. cbn [g_records] in S0. cbn [mapM] in S0. bo S0 rx Ex. okinj S0.
  destruct (g_records m) as [|r1 l1] eqn:Erec; [discriminate S|]. cbn [mapM] in S. bo S rx' Ex'. bo S lx El. okinj S.
  destruct l1 as [|r2 l1]; [|cbn [mapM] in El; bo El y Ey; bo El ly Ely; okinj El; discriminate].
  destruct i as [|i]; [|destruct i; discriminate Hr]. split; [reflexivity|]. cbn [nth_error] in Hr. injection Hr as <-.
  destruct Hn as [[K0 _]|[_ Sn]]; [contradiction|]. rewrite Ex' in Sn. injection Sn as <-.
  injection S as -> _. clear R R0 R1 Oa Hz H0.
  pose proof (sanitize_mrec_arrives _ _ Ex) as AR. pose proof (mrec_san_eid _ _ Ex) as EE. pose proof (mrec_san_eid _ _ Ex') as EE'.
  assert (mr_eid r1 = mr_eid (new_mrec 0 (an_pfx a) (an_locs a))) as EI by congruence.
  constructor.
  - apply (eid_prefix_fun r1); [exact He|]. unfold eid_prefix. rewrite EI. exists 0, (match x_fam (an_pfx a) with V4 => 1 | V6 => 2 end).
    apply eid_named_spec. destruct (an_pfx a) as [[] z l]; reflexivity.
  - exact AR.
  - exact EP.
  - intros X. destruct Hs as [[_ ->]|[X0 _]]; [|exfalso; apply X; congruence]. rewrite EX, ES. reflexivity.
Qed.

Theorem C117_from_key_holders_partial : forall hm cfg socks P keys mores st h id made used q so rg,
  digests hm -> good_cfg cfg P -> fresh_ms keys mores st ->
  by_the_book made used -> unforged hm (keys id) used h -> all_keyed h ->
  registered (dm_ms (fst (run hm cfg socks st h)) id) q so = Some rg ->
  exists a, made a /\ comes_from a q so rg.
Proof.
  intros hm cfg socks P keys mores st h id made used q so rg HD G F BB UF AK H.
  apply (C74_registered_iff_in_force hm cfg socks P keys mores) in H; [|exact G|exact F].
  destruct H as (h1 & e & h2 & -> & (m & ar & clock & i & B & (nd & _ & _ & _ & A) & _) & _ & _).
  assert (In e (h1 ++ e :: h2)) as Hin by (apply in_or_app; right; left; reflexivity).
  pose proof A as (_ & _ & Ha & _).
  destruct (genuine_register hm (keys id) m made used HD BB (brings_obj _ _ _ _ B) (AK _ _ _ _ Hin B) Ha) as (a & Ma & _ & _ & C).
  { intros out n D Ho MAC. exact (UF _ _ _ _ _ _ Hin B D Ho MAC). }
  exists a. split; [exact Ma|]. apply (C _ _ _ _ _ _ _ _ _ A).
Qed.

Lemma sock_dec (a b : fam * Z) : {a = b} + {a <> b}.
Proof. decide equality; [apply Z.eq_dec|decide equality]. Qed.
(** ** With the ETR: if only one ETR has the key, a Map-Server node has registrations for its prefix only, and every locator in
    them is a configured one (or an RTR in the place of a local one), with the configured priorities and weights *)
Theorem C117_own_locators_partial : forall hm cfg socks P keys mores st h id made used p locs esocks q so rg,
  digests hm -> good_cfg cfg P -> fresh_ms keys mores st ->
  by_the_book made used -> unforged hm (keys id) used h -> all_keyed h ->
  (forall a, made a -> own p locs esocks a) -> Forall ip_locator locs -> no_mixup esocks locs ->
  registered (dm_ms (fst (run hm cfg socks st h)) id) q so = Some rg ->
  q = p /\ mr_eid (rg_record rg) = ANet (x_fam p) (x_net p) (x_len p) /\
  forall x, In x (mr_locs (rg_record rg)) ->
    (exists l local, In l locs /\ bound l /\ announces l local (l_addr l) x) \/
    (exists l r, In l locs /\ bound l /\ ours esocks l /\ ip_addr r /\ announces l false r x).
Proof.
  intros hm cfg socks P keys mores st h id made used p locs esocks q so rg HD G F BB UF AK OW IL NM H.
  destruct (C117_from_key_holders_partial hm cfg socks P keys mores st h id made used q so rg HD G F BB UF AK H) as (a & Ma & [C1 C2 C3 C4]).
  destruct (OW a Ma) as (EP & stored & tent & FA & GE). subst p. split; [exact C1|]. split; [exact (am_eid _ _ C2)|].
  intros x Hx. destruct (am_locs _ _ C2) as (PM & _). cbn [new_mrec mr_locs] in PM. apply (Permutation.Permutation_in _ (Permutation.Permutation_sym PM)) in Hx.
  destruct (C57_announced_partial locs stored esocks tent IL FA NM) as (ls & GE' & _ & N1 & N2). rewrite GE in GE'. injection GE' as <-.
  assert ((concat stored ++ tent = [] \/ forall l, In l locs -> bound l -> ~ ours esocks l) \/
          (concat stored ++ tent <> [] /\ exists l, In l locs /\ bound l /\ ours esocks l)) as [Q|[Q1 Q2]].
  { destruct (concat stored ++ tent) as [|y ys]; [left; left; reflexivity|].
    destruct (Exists_dec (fun l => bound l /\ ours esocks l) locs) as [E|E].
    - intros l. assert ({bound l} + {~ bound l}) as [Bd|Bd].
      { unfold bound. destruct (l_addr l) as [|v z|v z n'| |l'|i' a' m'|n' a'|g' a'|p1 p2 a1 a2 a3 l'] eqn:El; try (right; intros (v' & z' & E' & _); discriminate).
        destruct (Z.eq_dec z 0) as [->|N]; [right; intros (v' & z' & E' & N'); injection E' as _ <-; congruence|left; eauto]. }
      2:{ right. intros [X _]. contradiction. }
      assert ({ours esocks l} + {~ ours esocks l}) as [Ou|Ou].
      { unfold ours. destruct (l_addr l) as [|v z|v z n'| |l'|i' a' m'|n' a'|g' a'|p1 p2 a1 a2 a3 l'] eqn:El; try (right; intros (v' & z' & E' & _); discriminate).
        destruct (in_dec sock_dec (v, z) esocks) as [I|I]; [left; eauto|].
        right. intros (v' & z' & E' & I'). injection E' as <- <-. contradiction. }
      + left. auto.
      + right. intros [_ X]. contradiction.
    - right. split; [discriminate|]. apply Exists_exists in E. destruct E as (l & I & Bd & Ou). eauto.
    - left. right. intros l I Bd Ou. apply E. apply Exists_exists. exists l. auto. }
  - left. apply (N1 Q) in Hx. destruct Hx as (l & local & I & Bd & _ & An). eauto.
  - destruct (N2 Q1 Q2) as (l0 & I0 & B0 & O0 & N3). apply N3 in Hx. destruct Hx as [(l & I & Bd & _ & An)|(r & Ir & An)].
    + left. eauto.
    + right. exists l0, r. rewrite Forall_forall in FA. specialize (FA r Ir). auto 10.
Qed.

(** ** Messages without authentication data are the exception (C53): the claim without [all_keyed] is false *)
Definition integrity : Prop := forall hm cfg socks P keys mores st h id made used q so rg,
  digests hm -> good_cfg cfg P -> fresh_ms keys mores st -> by_the_book made used -> unforged hm (keys id) used h ->
  registered (dm_ms (fst (run hm cfg socks st h)) id) q so = Some rg -> exists a, made a /\ comes_from a q so rg.

Definition open_bytes : bytes := match mreg_to_bytes open_register with Ok d => d | Err _ => [] end.
Theorem C117_refuted : ~ integrity.
Proof.
  intros H.
  destruct (H toy_hm ms_cfg [] _ (fun _ => B [1;2]) (fun _ => true) PropDaemon2.start [AtControl there open_bytes (fun _ => 5)] 7%nat
    (fun _ => False) (fun _ => False) p16 (SAddr V4 77) (Reg open_record false (5 + 180 * sec)) toy_digests ms_cfg_good eq_refl) as (a & [] & _).
  - intros m [].
  - intros e m ar clock out n [<-|[]] B D. exfalso.
    assert (brings (AtControl there open_bytes (fun _ => 5)) (PCtl (CReg open_register)) there (fun _ => 5)) as B' by (constructor; vm_compute; reflexivity).
    destruct (brings_fun _ _ _ _ _ _ _ B B') as (E & _ & _). injection E as ->. destruct D as [[D _]|[D _]]; discriminate D.
  - vm_compute. reflexivity.
Qed.

(** ** Non-vacuity: an ETR announces 10.5.0.0/16, the datagram arrives, is registered, and the hypotheses hold *)
Definition ex_loc : loc := Loc 1 100 255 0 (repeat false 13) true false true (AIP V4 (198 * 2 ^ 24 + 5)).
Definition ex_ann : announcement := Ann p16 (Etrr (V4, 9) 2 (B [1;2]) true None) [ex_loc] [] true (repeat zero_byte 7 ++ B [3]) 7 1.
Definition ex_sent : mreg := match insert toy_hm (AReg (register_of ex_ann)) (B [1;2]) with (AReg m, _) => m | _ => register_of ex_ann end.
Definition ex_bytes : bytes := match mreg_to_bytes ex_sent with Ok d => d | Err _ => [] end.
Definition ex_event : event := AtControl there ex_bytes (fun _ => 5).
Example C117_example :
  by_the_book (eq ex_ann) (eq (AReg (register_of ex_ann))) /\ unforged toy_hm (B [1;2]) (eq (AReg (register_of ex_ann))) [ex_event] /\
  all_keyed [ex_event] /\
  match registered (dm_ms (fst (run toy_hm ms_cfg [] PropDaemon2.start [ex_event])) 7%nat) p16 (SXtr 1 7) with
  | Some rg => comes_from ex_ann p16 (SXtr 1 7) rg /\ length (mr_locs (rg_record rg)) = 1%nat
  | None => False
  end.
Proof.
  assert (exists m, pkt_from_bytes KCtl ex_bytes = Ok (PCtl (CReg m)) /\ g_key m = 2 /\
     a_to_bytes (set_auth (AReg (register_of ex_ann)) (repeat zero_byte 32)) = Ok (match mreg_to_bytes m with Ok out => zeroed 32 out | Err _ => [] end)) as (m & Pm & Km & Zm).
  { eexists. split; [vm_compute; reflexivity|]. split; [reflexivity|]. vm_compute. reflexivity. }
  assert (forall m' ar clock, brings ex_event (PCtl (CReg m')) ar clock -> m' = m) as BF.
  { intros m' ar clock Bm. assert (brings ex_event (PCtl (CReg m)) there (fun _ => 5)) as B' by (constructor; exact Pm).
    destruct (brings_fun _ _ _ _ _ _ _ Bm B') as (E & _ & _). injection E as ->. reflexivity. }
  assert (by_the_book (eq ex_ann) (eq (AReg (register_of ex_ann)))) as BB.
  { intros x <-. left. exists ex_ann. split; [reflexivity|]. split; [|reflexivity]. split; [exact p16_wf|]. split; [repeat constructor|reflexivity]. }
  assert (unforged toy_hm (B [1;2]) (eq (AReg (register_of ex_ann))) [ex_event]) as UF.
  { intros e m' ar clock out n [<-|[]] Bm D Hout _. apply BF in Bm. subst m'. eexists. split; [reflexivity|].
    destruct D as [[D _]|[_ ->]]; [rewrite Km in D; discriminate D|]. rewrite Hout in Zm. exact Zm. }
  assert (all_keyed [ex_event]) as AK by (intros e m' ar clock [<-|[]] Bm; apply BF in Bm; subst m'; rewrite Km; discriminate).
  split; [exact BB|]. split; [exact UF|]. split; [exact AK|].
  destruct (registered _ p16 (SXtr 1 7)) as [rg|] eqn:R.
  - destruct (C117_from_key_holders_partial toy_hm ms_cfg [] _ (fun _ => B [1;2]) (fun _ => true) PropDaemon2.start [ex_event] 7%nat _ _ _ _ _ toy_digests ms_cfg_good eq_refl BB UF AK R) as (a & <- & C).
    split; [exact C|]. vm_compute in R. injection R as <-. reflexivity.
  - vm_compute in R. discriminate R.
Qed.

Print Assumptions C117_from_key_holders_partial.
Print Assumptions C117_own_locators_partial.
Print Assumptions C117_refuted.
