(** * Properties C75, C76, C87: the data plane *)
From Verif Require Import Base BaseLemmas Afi AfiProofs Spec SpecLemmas Records Control SpecRec RecordsProofs ControlProofs Checksum ChecksumProofs
  PropControl Packet PacketProofs PacketStack SpecPkt PropPacket PropUdp PropPacket2 PropPacket3 Auth SpecAuth PropAuth Tree SpecTree TreeProofs
  Dict MapServer SpecMs PropMs PropMs2 Net Ddt SpecDdt PropDdt2 Etr SpecEtr PropEtr Daemon SpecDaemon PropDaemon PropDaemon2.

(** ** Lemmas *)
Definition reip (ip : pkt) (n : Z) (q : pkt) : pkt :=
  match ip with PIPv4 h _ => PIPv4 (set_protocol h n) q | PIPv6 h _ => PIPv6 (with_nh h n) q | p => p end.
Lemma ip_payload_fun dec b p q : ip_payload_is dec b p -> ip_payload_is dec b q -> p = q.
Proof.
  intros H1 H2. pose proof (ip_payload_spec (zero_byte :: b) dec b) as S. cbn [length] in S.
  apply S in H1; [|lia]. apply S in H2; [|lia]. congruence.
Qed.
Lemma plain_parse ip u n out : plain_ip ip u -> proto_number u n -> pkt_to_bytes ip = Ok out ->
  exists ub, pkt_to_bytes u = Ok ub /\ (length ub < length out)%nat /\
    forall x, ip_payload_is true out x <-> exists q, payload_is n ub q /\ x = reip ip n q.
Proof.
  intros [h u0 Hno|h u0] Hn H.
  - destruct (v4_emitted _ _ _ H) as (pb & hb & ck & Hpb & Eo & Hb & Hck & Hi & Ht & Hf & Hr & Lh).
    exists pb. split; [exact Hpb|]. rewrite (fix_nh_proto _ _ _ Hn) in *. rewrite Hno in *.
    change (5 + (blen [] + 3) / 4) with 5 in *. change (Z.to_nat (4 * 5)) with 20%nat in Lh.
    assert (Lb : (length pb < length out)%nat) by (rewrite Eo, app_length; lia). split; [exact Lb|].
    assert (rfc791 out 5 (20 + blen pb) ck (pad_opts (with_proto h n))) as R.
    { eapply v4_rfc791; [rewrite Eo, bits_of_bytes_app, Hb; reflexivity|lia|pose proof (blen_nonneg pb); lia| |exact Hf|exact Hr].
      destruct Hck as (hb0 & _ & <-). destruct (ones_complement_spec hb0) as (X & _). lia. }
    assert (forall q, payload_is n pb q -> ip_payload_is true out (PIPv4 (set_protocol h n) q)) as B.
    { intros q Hq. apply ip_v4; [lia|apply (layout_at _ _ _ _ _ (proj1 R)); left; reflexivity|].
      exact (proj1 (C12_ipv4_object_payload h u0 q n out pb Hno H Hn Hpb Hq)). }
    intros x. split; [|intros (q & Hq & ->); exact (B q Hq)]. intros X.
    assert (exists q, payload_is n pb q) as (q & Hq).
    { pose proof (layout_at _ _ _ _ _ (proj1 R) (or_introl eq_refl)) as F0. inversion X as [E|? L F P|? L F P|L F F']; try congruence.
      - rewrite E in Lb. cbn in Lb. lia.
      - destruct (C14_accepted_ipv4 _ _ _ P) as (h' & p & ihl & ck' & -> & I & L' & R' & _ & _ & _ & _ & Q). specialize (Q eq_refl).
        assert (ihl = 5) as ->.
        { rewrite <- (layout_at _ _ _ _ _ (proj1 R') (or_intror (or_introl eq_refl))). apply (layout_at _ _ _ _ _ (proj1 R)). right. left. reflexivity. }
        assert (h_proto h' = n) as Ep.
        { transitivity (field 72 8 out); [symmetry; apply (layout_at _ _ _ _ _ (proj1 R')); cbn; tauto|].
          apply (layout_at _ _ _ _ _ (proj1 R)). cbn; tauto. }
        rewrite Ep, Eo in Q. change (Z.to_nat (4 * 5)) with 20%nat in Q. rewrite skipn_app_len in Q by exact Lh. eauto. }
    exists q. split; [exact Hq|]. exact (ip_payload_fun _ _ _ _ X (B q Hq)).
  - destruct (v6_emitted _ _ _ H) as (pb & hb & Hpb & Eo & Hb & Ht & Hf & Hr & Lh).
    exists pb. split; [exact Hpb|]. rewrite (fix_nh_proto _ _ _ Hn) in *.
    assert (Lb : (length pb < length out)%nat) by (rewrite Eo, app_length; lia). split; [exact Lb|].
    assert (rfc2460 out (blen pb) (with_nh h n)) as R.
    { eapply v6_rfc2460; [rewrite Eo, bits_of_bytes_app, Hb; reflexivity|pose proof (blen_nonneg pb); lia|exact Hf|exact Hr]. }
    assert (forall q, payload_is n pb q -> ip_payload_is true out (PIPv6 (with_nh h n) q)) as B.
    { intros q Hq. apply ip_v6; [lia|apply (layout_at _ _ _ _ _ (proj1 R)); left; reflexivity|].
      apply (decode_payload_is out) in Hq; [|exact Lb]. rewrite from_bytes_layer. cbn [layer].
      replace (bits_of_bytes out) with (v6_wire (with_nh h n) (blen pb) ++ bits_of_bytes pb) by (rewrite Eo, bits_of_bytes_app, Hb; reflexivity).
      erewrite rd_v6_run; try eassumption. cbn [x_nh with_nh]. rewrite (decode_fix _ _ _ _ _ Hq). reflexivity. }
    intros x. split; [|intros (q & Hq & ->); exact (B q Hq)]. intros X.
    assert (exists q, payload_is n pb q) as (q & Hq).
    { pose proof (layout_at _ _ _ _ _ (proj1 R) (or_introl eq_refl)) as F0. inversion X as [E|? L F P|? L F P|L F F']; try congruence.
      - rewrite E in Lb. cbn in Lb. lia.
      - destruct (C15_accepted_ipv6 _ _ _ P) as (h' & p & -> & L' & R' & _ & Q). specialize (Q eq_refl).
        assert (x_nh h' = n) as Ep.
        { transitivity (field 48 8 out); [symmetry; apply (layout_at _ _ _ _ _ (proj1 R')); cbn; tauto|].
          apply (layout_at _ _ _ _ _ (proj1 R)). cbn; tauto. }
        rewrite Ep, Eo in Q. rewrite skipn_app_len in Q by exact Lh. eauto. }
    exists q. split; [exact Hq|]. exact (ip_payload_fun _ _ _ _ X (B q Hq)).
Qed.
Lemma payload_udp ub q : payload_is 17 ub q <-> pkt_from_bytes KUDP ub = Ok q.
Proof.
  split; [|intros H; left; exists KUDP; split; [constructor|exact H]].
  intros [(k & Hk & Hp)|[Hn _]]; [inversion Hk; subst; exact Hp|]. exfalso. exact (Hn _ nc_udp).
Qed.
Lemma data_parse d p out : pkt_to_bytes (PData d p) = Ok out ->
  exists b, pkt_to_bytes p = Ok b /\
    forall x, pkt_from_bytes (KData true) out = Ok x <-> exists q, ip_payload_is true b q /\ x = PData (without_stray_echo d) q.
Proof.
  intros H. destruct (C22_data_round_trip _ _ _ true H) as (b & Hb & Sk & R). exists b. split; [exact Hb|].
  intros x. split; [|intros (q & Hq & ->); exact (R q Hq)].
  intros X. pose proof X as X0. rewrite from_bytes_layer in X. cbn [layer] in X.
  destruct (data_emitted _ _ _ H) as (hb & pb & Hpb & Eo & Hw & Hf & Hs & Lh).
  assert (pb = b) as -> by congruence.
  assert (exists q, ip_payload_is true b q) as (q & Hq); [|exists q; split; [exact Hq|]; pose proof (R q Hq); congruence].
  apply rd_data_inv in X. destruct X as (hdr & s' & d' & q & Es & Lhd & _ & Hq & _). exists q.
  rewrite Eo, bits_of_bytes_app in Es. apply app_inj_len in Es; [|rewrite bits_of_bytes_length; lia]. destruct Es as [_ <-].
  apply (ip_payload_spec out); [rewrite Eo, app_length; lia|exact Hq].
Qed.

(** ** C75 *)
Section D.
Variable hm : Z -> bytes -> bytes -> bytes.
Variable cfg : instances.
Variable socks : list (fam * Z).
Variable clock : nat -> Z.
Variable ar : arrival.

(** A control message that comes in a data packet with instance id 0xffffff, in UDP for port 4342, is treated exactly as
    if its bytes had come to the control port from the same sender: whatever the bytes are. *)
Theorem C75_control_in_data h ip s ck b d st : plain_ip ip (PUDP s 4342 ck (PRaw b)) -> s <> 4341 ->
  d_iid h = Some (2 ^ 24 - 1) -> pkt_to_bytes (PData h ip) = Ok d ->
  data_datagram hm cfg socks clock ar d st = control_datagram hm cfg socks clock ar b st.
Proof.
  intros Hip Hs Hi H. destruct (data_parse _ _ _ H) as (ib & Hib & P).
  destruct (plain_parse ip (PUDP s 4342 ck (PRaw b)) 17 ib Hip (pn_udp _ _ _ _) Hib) as (ub & Hub & _ & Q).
  destruct (C17_udp_round_trip _ _ _ _ _ Hub) as (_ & _ & b' & Eb & _ & U). cbn in Eb. okinj Eb.
  assert (forall m, pkt_from_bytes KCtl b = Ok m -> pkt_from_bytes (KData true) d = Ok (PData (without_stray_echo h) (reip ip 17 (PUDP s 4342 ck m)))) as F.
  { intros m Hm. apply P. eexists. split; [|reflexivity]. apply Q. eexists. split; [|reflexivity]. apply payload_udp. apply U.
    apply up_control; [exact Hs|discriminate|right; reflexivity|exact Hm]. }
  unfold data_datagram, control_datagram. destruct (pkt_from_bytes KCtl b) as [m|e] eqn:Em.
  - rewrite (F m eq_refl). cbn [d_iid without_stray_echo]. rewrite Hi. change (2 ^ 24 - 1 =? 16777215) with true. cbn iota.
    destruct Hip as [h4 u _|h6 u]; cbn [reip get_final_payload v6_final]; change (4342 =? 4342) with true; reflexivity.
  - destruct (pkt_from_bytes (KData true) d) as [x|] eqn:Ex; [|reflexivity]. exfalso.
    destruct (proj1 (P x) eq_refl) as (q & Hq & _). apply Q in Hq. destruct Hq as (u & Hu & _). apply payload_udp in Hu.
    destruct (C17_udp_accepted _ _ Hu) as (s' & d' & ck' & m & -> & R & _ & Hm).
    assert (pkt_from_bytes KUDP ub = Ok (PUDP s 4342 ck m)) as Hu'.
    { destruct (C17_udp_round_trip _ _ _ _ _ Hub) as (R' & _).
      assert (s' = s) as -> by (rewrite <- (layout_at _ _ _ _ _ R (or_introl eq_refl)); apply (layout_at _ _ _ _ _ R'); left; reflexivity).
      assert (d' = 4342) as ->.
      { rewrite <- (layout_at _ _ _ _ _ R (or_intror (or_introl eq_refl))). apply (layout_at _ _ _ _ _ R'). right; left; reflexivity. }
      assert (ck' = ck) as ->; [|exact Hu].
      rewrite <- (layout_at _ _ _ _ _ R (or_intror (or_intror (or_intror (or_introl eq_refl))))). apply (layout_at _ _ _ _ _ R'). right; right; right; left; reflexivity. }
    apply U in Hu'. inversion Hu'; subst; try congruence; try lia.
Qed.

(** Nothing else in a data packet has an effect on the daemon: it stays as it is unless the packet brings a UDP message for
    port 4342 in instance 0xffffff; and packets of that instance that do not are not answered or sent on either. *)
Theorem C75_only_control d st st' outs : data_datagram hm cfg socks clock ar d st = (st', outs) ->
  (forall m, ~ brings (AtData ar d clock) m ar clock) ->
  st' = st /\ (forall h p, pkt_from_bytes (KData true) d = Ok (PData h p) -> d_iid h = Some (2 ^ 24 - 1) -> outs = []).
Proof.
  intros H N. unfold data_datagram in H. destruct (pkt_from_bytes (KData true) d) as [x|] eqn:Ex; [|injection H as <- <-; auto].
  destruct x as [| | | | | | | | |h p| |]; try (injection H as <- <-; split; [reflexivity|intros; reflexivity]).
  destruct (match d_iid h with Some i => i =? 16777215 | None => false end) eqn:Ei.
  - assert ((st', outs) = (st, []) -> st' = st /\ (forall h' p', Ok (PData h p) = Ok (PData h' p') -> d_iid h' = Some (2 ^ 24 - 1) -> outs = [])) as F.
    { intros E. injection E as -> ->. auto. }
    apply F. rewrite <- H.
    destruct (get_final_payload p) as [[n [| | | | | | | |s dp ck q| | |]]|] eqn:Ef; try reflexivity.
    destruct (dp =? 4342) eqn:Ed; [|reflexivity]. exfalso. apply Z.eqb_eq in Ed. subst dp.
    destruct (d_iid h) as [i|] eqn:Eh; [|discriminate]. apply Z.eqb_eq in Ei.
    apply (N q). econstructor; [exact Ex|rewrite Eh, Ei; reflexivity|apply upper_final; exact Ef].
  - injection H as <- <-. split; [reflexivity|]. intros h' p' E Hi. injection E as <- <-. rewrite Hi in Ei. discriminate.
Qed.
End D.
Print Assumptions C75_control_in_data.
Print Assumptions C75_only_control.
Example C75_example : match mreg_to_bytes open_register, in_data (PCtl (CReg open_register)) with
  | Ok a, Ok b => in_data (PRaw a) = Ok b /\ data_datagram toy_hm ms_cfg [] (fun _ => 5) there b start = control_datagram toy_hm ms_cfg [] (fun _ => 5) there a start
  | _, _ => False
  end.
Proof.
  destruct (mreg_to_bytes open_register) as [a|] eqn:Ea; [|vm_compute in Ea; discriminate].
  destruct (in_data (PCtl (CReg open_register))) as [b|] eqn:Eb; [|vm_compute in Eb; discriminate].
  assert (in_data (PRaw a) = Ok b) as E by (vm_compute in Ea; injection Ea as <-; vm_compute in Eb; injection Eb as <-; vm_compute; reflexivity).
  split; [exact E|]. unfold in_data in E. eapply C75_control_in_data; [| | |exact E]; [constructor; reflexivity|discriminate|reflexivity].
Qed.

(** a packet of the control instance for port 53 *)
Example C75_only_example : exists d,
  pkt_to_bytes (PData all_ones_iid (PIPv4 (V4H 0 0 false false 0 64 17 (AIP V4 1) (AIP V4 2) []) (PUDP 4000 53 0 (PRaw (B [1;2;3]))))) = Ok d /\
  (forall m, ~ brings (AtData there d (fun _ => 5)) m there (fun _ => 5)) /\
  data_datagram toy_hm ms_cfg [] (fun _ => 5) there d start = (start, []).
Proof.
  eexists. split; [vm_compute; reflexivity|]. split; [|vm_compute; reflexivity].
  intros m H. inversion H as [|? ? ? h p n s ck q P Hi U]; subst. vm_compute in P. injection P as <- <-. inversion U.
Qed.

(** ** Lemmas: parsing and emitting again *)
Lemma parse_raw f k d b : parse f k d <> Ok (PRaw b).
Proof.
  destruct f; [discriminate|]. cbn [parse]. unfold layer. intros H. destruct k.
  - apply rd_v4_inv in H. destruct H as (? & ? & ? & ? & ? & ? & _ & _ & _ & _ & _ & _ & _ & _ & _ & ?). discriminate.
  - apply rd_v6_inv in H. destruct H as (? & ? & ? & _ & _ & _ & _ & _ & ?). discriminate.
  - unfold rd_opts in H. mon H. discriminate.
  - unfold rd_opts in H. mon H. discriminate.
  - unfold rd_route in H. mon H. discriminate.
  - unfold rd_frag in H. mon H. discriminate.
  - discriminate.
  - apply rd_udp_inv in H. destruct H as (? & ? & ? & ? & ? & _ & _ & _ & _ & _ & _ & ?). discriminate.
  - apply rd_data_inv in H. destruct H as (? & ? & ? & ? & _ & _ & _ & _ & ?). discriminate.
  - unfold rd_control in H. bo H [t s'] E. destruct (t =? 8).
    + apply rd_ecm_inv in H. destruct H as (? & ? & ? & ? & _ & _ & _ & ?). discriminate.
    + bo H [c s''] E'. discriminate.
Qed.
Lemma reemit f : forall k d p, parse f k d = Ok p -> plain_stack p -> pkt_to_bytes p = Ok d.
Proof.
  induction f as [|f IH]; intros k d q H Hp; [discriminate|]. cbn [parse] in H. unfold layer in H.
  assert (forall dec nh pb p, decode (parse f) dec nh pb = Ok p -> plain_stack p -> pkt_to_bytes p = Ok pb) as ID.
  { intros dec nh pb p Hd Hpl. unfold decode in Hd. destruct dec; [|okinj Hd; reflexivity].
    destruct (registry nh) as [k'|]; [eapply IH; eassumption|okinj Hd; reflexivity]. }
  assert (forall hb pb w, bits_of_bytes hb = w -> bits_of_bytes d = w ++ bits_of_bytes pb -> hb ++ pb = d) as FIN.
  { intros hb pb w Hb Hd. apply bits_of_bytes_inj. rewrite bits_of_bytes_app, Hb, Hd. reflexivity. }
  assert (exists n, length (bits_of_bytes d) = (8 * n)%nat) as L8 by (eexists; apply bits_of_bytes_length).
  destruct k.
  - apply rd_v4_inv in H. destruct H as (ihl & tl & h & ck & pb & p & Hs & Hi & Hopt & Ht & Htl & Hf & Hrg & Hck & Hd & ->).
    rewrite (decode_fix _ _ _ _ _ Hd), with_proto_id in *. inversion Hp as [| |? ? Hno Hpp| | | | |]; subst.
    rewrite Hno in Hopt. cbn [length] in Hopt. assert (ihl = 5) as -> by lia.
    cbn [pkt_to_bytes]. assert (sanitize_v4 h p = Ok h) as ->.
    { apply sanitize_v4_ok. rewrite (decode_fix _ _ _ _ _ Hd), with_proto_id. auto. }
    cbn [bind]. rewrite (ID _ _ _ _ Hd Hpp).
    destruct (no_opts_wire h Hno) as [W1 W2].
    destruct (w_v4_run h pb Hf Hrg ltac:(rewrite W2; lia) ltac:(lia)) as (out & Eo). rewrite Eo. f_equal.
    apply w_v4_inv in Eo. destruct Eo as (hb & ck' & -> & Hb & Hck' & _). rewrite W1, W2 in *.
    replace (5 * 4 + blen pb) with (20 + blen pb) in * by lia.
    assert (ck' = ck) as ->.
    { destruct Hck as (x & X & <-), Hck' as (y & Y & <-). rewrite <- X in Y. apply bits_of_bytes_inj in Y. congruence. }
    exact (FIN _ _ _ Hb Hs).
  - apply rd_v6_inv in H. destruct H as (h & pb & p & Hs & Hl & Hf & Hrg & Hd & ->).
    assert (with_nh h (fix_nh (x_nh h) p) = h) as Hfix by (rewrite (decode_fix _ _ _ _ _ Hd); destruct h; reflexivity).
    rewrite Hfix in *. inversion Hp as [| | |? ? Hpp| | | |]; subst.
    cbn [pkt_to_bytes]. assert (sanitize_v6 h p = Ok h) as -> by (apply sanitize_v6_ok; auto).
    cbn [bind]. rewrite (ID _ _ _ _ Hd Hpp).
    destruct (w_v6_run h pb Hf Hrg Hl) as (out & Eo). rewrite Eo. f_equal.
    apply w_v6_inv in Eo. destruct Eo as (hb & -> & Hb & _). exact (FIN _ _ _ Hb Hs).
  - apply rd_opts_inv in H; [|exact L8]. destruct H as (nh & o & pb & p & Hs & Hn & Hm & Hl & Hd & ->). inversion Hp as [| | | |? ? ? Hpp| | |]; subst.
    cbn [pkt_to_bytes]. rewrite (ID _ _ _ _ Hd Hpp).
    destruct (w_opts_run nh o pb Hn) as (out & Eo).
    { destruct (pad8_len 2 o ltac:(lia)) as (_ & -> & _). rewrite pad8_id by (lia || exact Hm). exact Hl. }
    rewrite Eo. f_equal. apply w_opts_inv in Eo. destruct Eo as (hb & -> & Hb & _). rewrite pad8_id in Hb by (lia || exact Hm). exact (FIN _ _ _ Hb Hs).
  - apply rd_opts_inv in H; [|exact L8]. destruct H as (nh & o & pb & p & Hs & Hn & Hm & Hl & Hd & ->). inversion Hp as [| | | | |? ? ? Hpp| |]; subst.
    cbn [pkt_to_bytes]. rewrite (ID _ _ _ _ Hd Hpp).
    destruct (w_opts_run nh o pb Hn) as (out & Eo).
    { destruct (pad8_len 2 o ltac:(lia)) as (_ & -> & _). rewrite pad8_id by (lia || exact Hm). exact Hl. }
    rewrite Eo. f_equal. apply w_opts_inv in Eo. destruct Eo as (hb & -> & Hb & _). rewrite pad8_id in Hb by (lia || exact Hm). exact (FIN _ _ _ Hb Hs).
  - apply rd_route_inv in H. destruct H as (nh & rt & sl & o & pb & p & Hs & Hn & Hrt & Hsl & Hm & Hl & Hd & ->). inversion Hp as [| | | | | |? ? ? ? ? Hpp|]; subst.
    cbn [pkt_to_bytes]. rewrite (ID _ _ _ _ Hd Hpp).
    destruct (w_route_run nh rt sl o pb Hn Hrt Hsl) as (out & Eo).
    { destruct (pad8_len 4 o ltac:(lia)) as (_ & -> & _). rewrite pad8_id by (lia || exact Hm). exact Hl. }
    rewrite Eo. f_equal. apply w_route_inv in Eo. destruct Eo as (hb & -> & Hb & _). rewrite pad8_id in Hb by (lia || exact Hm). exact (FIN _ _ _ Hb Hs).
  - apply rd_frag_inv in H. destruct H as (? & ? & ? & ? & ? & ? & ? & _ & _ & _ & _ & ->). inversion Hp.
  - okinj H. reflexivity.
  - apply rd_udp_inv in H. destruct H as (sp & dp & ck & pb & p & Hs & R1 & R2 & R3 & R4 & Hq & ->). inversion Hp as [|? ? ? b| | | | | |]; subst.
    assert (b = pb) as ->.
    { unfold udp_payload in Hq. destruct (_ || _); [exfalso; eapply parse_raw; eassumption|].
      destruct (_ || _); [exfalso; eapply parse_raw; eassumption|]. congruence. }
    cbn [pkt_to_bytes]. destruct (w_udp_run sp dp ck pb R1 R2 R3 R4) as (hb & Hb & ->). f_equal. exact (FIN _ _ _ Hb Hs).
  - apply rd_data_inv in H. destruct H as (? & ? & ? & ? & _ & _ & _ & _ & ->). inversion Hp.
  - unfold rd_control in H. bo H [t s'] E. destruct (t =? 8).
    + apply rd_ecm_inv in H. destruct H as (? & ? & ? & ? & _ & _ & _ & ->). inversion Hp.
    + bo H [c s''] E'. okinj H. inversion Hp.
Qed.
(** any eight bytes are a data header *)
Lemma rd_uint_ub n l s : length l = n -> rd_uint n (l ++ s) = Ok (ub l, s).
Proof. intros L. rewrite <- (enc_ub_n n l L). rewrite rd_uint_enc by (rewrite <- L; apply ub_range). rewrite enc_ub_n by exact L. reflexivity. Qed.
Lemma data_any d p : (8 <= length d)%nat -> ip_payload_is true (skipn 8 d) p ->
  exists h, pkt_from_bytes (KData true) d = Ok (PData h p) /\ d_iid h = if field 4 1 d =? 1 then Some (field 32 24 d) else None.
Proof.
  intros L Hp.
  destruct d as [|[n l e v i r0 r1 r2] d]; [cbn in L; lia|]. do 7 (destruct d as [|? d]; [cbn in L; lia|]). rename b into x1, b0 into x2, b1 into x3, b2 into y1, b3 into y2, b4 into y3, b5 into z.
  cbn [skipn] in Hp. set (D := Byte n l e v i r0 r1 r2 :: x1 :: x2 :: x3 :: y1 :: y2 :: y3 :: z :: d).
  set (X := bits_of_bytes [x1; x2; x3]). set (Y := bits_of_bytes [y1; y2; y3]). set (W := bits_of_bytes [z]).
  assert (length X = 24 /\ length Y = 24 /\ length W = 8)%nat as (LX & LY & LW) by (unfold X, Y, W; rewrite !bits_of_bytes_length; auto).
  assert (bits_of_bytes D = [n; l; e; v; i] ++ [r0; r1; r2] ++ X ++ Y ++ W ++ bits_of_bytes d) as ED.
  { unfold X, Y, W. rewrite <- !bits_of_bytes_app. reflexivity. }
  assert (field 4 1 D = Z.b2z i) as F4.
  { rewrite (field_bits 4 1 D [n; l; e; v] [i] ([r0; r1; r2] ++ X ++ Y ++ W ++ bits_of_bytes d)); [destruct i; reflexivity|exact ED|reflexivity|reflexivity]. }
  assert (field 32 24 D = ub Y) as F32.
  { apply (field_bits 32 24 D ([n; l; e; v; i] ++ [r0; r1; r2] ++ X) Y (W ++ bits_of_bytes d)).
    - rewrite ED, <- !app_assoc. reflexivity.
    - rewrite !app_length, LX. reflexivity.
    - exact LY. }
  rewrite F4, F32. rewrite from_bytes_layer. cbn [layer]. rewrite ED.
  apply (ip_payload_spec D) in Hp; [|unfold D; cbn [length]; lia].
  unfold rd_data. cbn [app rd_bool bind].
  change (r0 :: r1 :: r2 :: X ++ Y ++ W ++ bits_of_bytes d) with ([r0; r1; r2] ++ X ++ Y ++ W ++ bits_of_bytes d).
  rewrite rd_bits_app by reflexivity. cbn [bind].
  assert (exists nonce sv dv, (if n then let* '(x, s) := rd_bytes 3 (X ++ Y ++ W ++ bits_of_bytes d) in Ok (Some x, None, None, s)
       else if v then
         let* '(a, s) := rd_uint 12 (X ++ Y ++ W ++ bits_of_bytes d) in let* '(b, s) := rd_uint 12 s in Ok (None, Some a, Some b, s)
       else let* '(_, s) := rd_bits 24 (X ++ Y ++ W ++ bits_of_bytes d) in Ok (None, None, None, s)) = Ok (nonce, sv, dv, Y ++ W ++ bits_of_bytes d) /\
       (match nonce with Some x => length x = 3%nat /\ sv = None /\ dv = None | None => True end) /\
       match sv, dv with None, None => True | Some a, Some b => 0 <= a < 4096 /\ 0 <= b < 4096 | _, _ => False end) as (nonce & sv & dv & -> & Hn & Hv).
  { destruct n; [|destruct v].
    - exists (Some [x1; x2; x3]), None, None. unfold X. rewrite rd_bytes_app by reflexivity. cbn [bind]. auto.
    - exists None, (Some (ub (firstn 12 X))), (Some (ub (skipn 12 X))).
      assert (length (firstn 12 X) = 12%nat) as L1 by (rewrite firstn_length; lia). assert (length (skipn 12 X) = 12%nat) as L2 by (rewrite skipn_length; lia).
      replace (X ++ Y ++ W ++ bits_of_bytes d) with (firstn 12 X ++ skipn 12 X ++ Y ++ W ++ bits_of_bytes d) by (rewrite app_assoc, firstn_skipn; reflexivity).
      rewrite rd_uint_ub by exact L1. cbn [bind]. rewrite rd_uint_ub by exact L2. cbn [bind].
      pose proof (ub_range (firstn 12 X)) as U1. pose proof (ub_range (skipn 12 X)) as U2. rewrite L1 in U1. rewrite L2 in U2. auto.
    - exists None, None, None. rewrite rd_bits_app by exact LX. cbn [bind]. auto. }
  cbn [bind].
  match goal with |- context [bind ?g _] => assert (g = Ok (if i then Some (ub Y) else None, if i then W ++ bits_of_bytes d else Y ++ W ++ bits_of_bytes d)) as ->
    by (destruct i; [rewrite rd_uint_ub by exact LY|]; reflexivity) end.
  cbn [bind].
  set (x := if i then W else Y ++ W).
  match goal with |- context [bind ?g _] => assert (g = Ok (x, bits_of_bytes d)) as -> end.
  { unfold x. destruct i; [apply rd_bits_app; exact LW|]. rewrite app_assoc. apply rd_bits_app. rewrite app_length. lia. }
  cbn [bind]. rewrite Hp. cbn [bind].
  assert (exists h, sanitize_dh (DH e nonce sv dv (if l then Some (rev x) else None) (if i then Some (ub Y) else None)) = Ok h /\ d_iid h = if i then Some (ub Y) else None) as (h & -> & Ei).
  { unfold sanitize_dh. cbn [d_nonce d_sver d_dver d_lsb d_iid d_echo].
    assert (match nonce with Some n0 => guard (blen n0 =? 3) EValue | None => Ok tt end = Ok tt) as -> by (destruct nonce; [destruct Hn as (Ln & _); unfold blen; rewrite Ln|]; reflexivity).
    cbn [bind]. assert (opt_none nonce || (opt_none sv && opt_none dv) = true) as -> by (destruct nonce; [destruct Hn as (_ & -> & ->)|]; reflexivity).
    cbn [guard bind].
    assert (match (if l then Some (rev x) else None) with Some l0 => guard (lenZ l0 =? (if opt_none (if i then Some (ub Y) else None) then 32 else 8)) EValue | None => Ok tt end = Ok tt) as ->.
    { destruct l; [|reflexivity]. unfold lenZ. rewrite rev_length. unfold x. destruct i; cbn [opt_none]; [rewrite LW|rewrite app_length, LY, LW]; reflexivity. }
    cbn [bind].
    assert (match sv, dv with None, None => Ok tt | Some s, Some t => let* _ := guard (fits 12 s) EValue in guard (fits 12 t) EValue | _, _ => Err EValue end = Ok tt) as ->.
    { destruct sv, dv; try contradiction; [|reflexivity]. destruct Hv as [H1 H2].
      assert (fits 12 z0 = true) as -> by (apply fits_spec; exact H1). assert (fits 12 z1 = true) as -> by (apply fits_spec; exact H2). reflexivity. }
    cbn [bind]. destruct i; cbn [bind].
    - assert (fits 24 (ub Y) = true) as -> by (apply fits_spec; rewrite <- LY; apply ub_range). cbn [guard bind]. eexists. split; reflexivity.
    - eexists. split; reflexivity. }
  cbn [bind]. exists h. split; [reflexivity|]. rewrite Ei. destruct i; reflexivity.
Qed.
Lemma data_any_inv d x : pkt_from_bytes (KData true) d = Ok x -> exists h p, x = PData h p /\ (8 <= length d)%nat /\ ip_payload_is true (skipn 8 d) p.
Proof.
  rewrite from_bytes_layer. cbn [layer]. intros X. apply rd_data_inv in X. destruct X as (hdr & s' & h & q & Es & Lh & _ & Hq & ->).
  exists h, q. split; [reflexivity|].
  assert (8 <= length d)%nat as L by (apply (f_equal (@length bool)) in Es; rewrite app_length, bits_of_bytes_length in Es; lia).
  split; [exact L|]. rewrite <- (firstn_skipn 8 d), bits_of_bytes_app in Es. apply app_inj_len in Es; [|rewrite bits_of_bytes_length, firstn_length; lia].
  destruct Es as [_ <-]. apply (ip_payload_spec d); [rewrite skipn_length; lia|exact Hq].
Qed.
Lemma dst_spec b p : ip_payload_is true b p ->
  match p with PIPv4 h _ => h_dst h = AIP V4 (field 128 32 b) | PIPv6 h _ => x_dst h = AIP V6 (field 192 128 b) | _ => True end.
Proof.
  intros [E|q L F H|q L F H|L F F']; [exact I| | |exact I].
  - destruct (C14_accepted_ipv4 _ _ _ H) as (h & p' & ihl & ck & -> & _ & _ & (_ & (s & a & _ & -> & HL) & _) & _).
    rewrite (layout_at _ _ _ _ _ HL (or_intror (or_introl eq_refl))). reflexivity.
  - destruct (C15_accepted_ipv6 _ _ _ H) as (h & p' & -> & _ & (_ & s & a & _ & -> & HL) & _).
    rewrite (layout_at _ _ _ _ _ HL (or_intror (or_introl eq_refl))). reflexivity.
Qed.
Lemma iid_spec d h p : pkt_from_bytes (KData true) d = Ok (PData h p) ->
  ((match d_iid h with Some i => i =? 16777215 | None => false end) = true <-> control_instance d).
Proof.
  intros H. destruct (data_any_inv _ _ H) as (h' & p' & E & L & Hp). injection E as <- <-.
  destruct (data_any _ _ L Hp) as (h' & H' & Ei). assert (h' = h) as -> by congruence. rewrite Ei. unfold control_instance.
  destruct (Z.eqb_spec (field 4 1 d) 1) as [E1|E1].
  - split; [intros E2; apply Z.eqb_eq in E2; auto|intros [_ E2]; rewrite E2; reflexivity].
  - split; [discriminate|]. intros [E2 _]. congruence.
Qed.

(** ** C76 *)
Section D.
Variable hm : Z -> bytes -> bytes -> bytes.
Variable cfg : instances.
Variable socks : list (fam * Z).
Variable clock : nat -> Z.
Variable ar : arrival.

(** Plain packets are forwarded to their own destination, byte for byte. *)
Theorem C76_forwarded_partial d p v a st : (8 <= length d)%nat -> ~ control_instance d ->
  ip_payload_is true (skipn 8 d) p -> plain_stack p -> dst_of (skipn 8 d) p v a ->
  data_datagram hm cfg socks clock ar d st = (st, [ORaw v a (skipn 8 d)]).
Proof.
  intros L Nc Hp Hs Hd. destruct (data_any _ _ L Hp) as (h & E & _). pose proof (iid_spec _ _ _ E) as Hi. unfold data_datagram. rewrite E.
  destruct (match d_iid h with Some i => i =? 16777215 | None => false end); [exfalso; apply Nc, Hi; reflexivity|].
  assert (pkt_to_bytes p = Ok (skipn 8 d)) as Eb.
  { destruct Hd as [h4 q|h6 q]; inversion Hp; subst; eapply reemit; eassumption. }
  pose proof (dst_spec _ _ Hp) as Ed. destruct Hd as [h4 q|h6 q]; rewrite Eb, Ed; reflexivity.
Qed.
(** Whatever is forwarded goes to the destination address of the inner packet; control packets are never forwarded. *)
Theorem C76_where_to d st st' outs v a data : data_datagram hm cfg socks clock ar d st = (st', outs) -> In (ORaw v a data) outs ->
  ~ control_instance d /\ exists p, ip_payload_is true (skipn 8 d) p /\ dst_of (skipn 8 d) p v a /\ pkt_to_bytes p = Ok data.
Proof.
  unfold data_datagram. destruct (pkt_from_bytes (KData true) d) as [x|] eqn:E; [|intros [= <- <-] []].
  destruct (data_any_inv _ _ E) as (h & p & -> & L & Hp). pose proof (iid_spec _ _ _ E) as Hi. pose proof (dst_spec _ _ Hp) as Ed.
  destruct (match d_iid h with Some i => i =? 16777215 | None => false end) eqn:Ec.
  - intros H Hin. exfalso. destruct (get_final_payload p) as [[n [| | | | | | | |s dp ck q| | |]]|]; try (injection H as _ <-; exact Hin).
    destruct (dp =? 4342); [|injection H as _ <-; exact Hin].
    destruct (handled hm cfg socks clock ar q st st' outs H) as ([->|(o & -> & A)] & _); [exact Hin|].
    destruct Hin as [->|[]]. inversion A.
  - intros H Hin. split; [intros X; apply Hi in X; congruence|]. injection H as <- <-. exists p. split; [exact Hp|].
    destruct p as [|h4 q|h6 q| | | | | | | | |]; try contradiction.
    + change (let* h := sanitize_v4 h4 q in w_v4 h (pkt_to_bytes q)) with (pkt_to_bytes (PIPv4 h4 q)) in Hin.
      destruct (pkt_to_bytes (PIPv4 h4 q)) as [b|] eqn:Eb; [|contradiction]. destruct Hin as [[= <- <- <-]|[]].
      split; [rewrite Ed; constructor|reflexivity].
    + change (let* h := sanitize_v6 h6 q in w_v6 h (pkt_to_bytes q)) with (pkt_to_bytes (PIPv6 h6 q)) in Hin.
      destruct (pkt_to_bytes (PIPv6 h6 q)) as [b|] eqn:Eb; [|contradiction]. destruct Hin as [[= <- <- <-]|[]].
      split; [rewrite Ed; constructor|reflexivity].
Qed.
(** Finding: every packet with IPv4 options that is forwarded leaves as something this package itself does not accept. *)
Theorem C76_options_corrupted d h p st st' outs v a data : ip_payload_is true (skipn 8 d) (PIPv4 h p) -> h_opts h <> [] ->
  data_datagram hm cfg socks clock ar d st = (st', outs) -> In (ORaw v a data) outs ->
  forall dec, is_ok (pkt_from_bytes (KIPv4 dec) data) = false.
Proof.
  intros Hp Ho H Hin dec. destruct (C76_where_to _ _ _ _ _ _ _ H Hin) as (_ & q & Hq & _ & Eb).
  rewrite (ip_payload_fun _ _ _ _ Hq Hp) in Eb. eapply C13_options_never_reparse; eassumption.
Qed.
(** Finding: a UDP message whose length field is not the rest of the packet, such as each IPv4 fragment of a larger one, is
    dropped. *)
Theorem C76_udp_fragments_dropped d st ihl : let b := skipn 8 d in
  (0 < length b)%nat -> field 0 4 b = 4 -> field 4 4 b = ihl -> field 72 8 b = 17 ->
  field 32 16 (skipn (Z.to_nat (4 * ihl)) b) <> blen (skipn (Z.to_nat (4 * ihl)) b) ->
  data_datagram hm cfg socks clock ar d st = (st, []).
Proof.
  intros b Lb F0 F4 F72 Hu. unfold data_datagram. destruct (pkt_from_bytes (KData true) d) as [x|] eqn:E; [|reflexivity]. exfalso.
  destruct (data_any_inv _ _ E) as (h & p & -> & L & Hp). fold b in Hp. inversion Hp as [Eb|q L' F H|q L' F H|L' F F']; subst; try congruence.
  - rewrite Eb in Lb. cbn in Lb. lia.
  - destruct (C14_accepted_ipv4 _ _ _ H) as (h4 & p' & i & ck & _ & _ & _ & (HL & _) & _ & _ & _ & _ & P). specialize (P eq_refl).
    assert (i = field 4 4 b) as Ei by (rewrite (layout_at _ _ _ _ _ HL (or_intror (or_introl eq_refl))); reflexivity).
    assert (h_proto h4 = 17) as Ep by (rewrite <- F72; symmetry; apply (layout_at _ _ _ _ _ HL); cbn; tauto).
    rewrite Ep, Ei in P. apply payload_udp in P. destruct (C17_udp_accepted _ _ P) as (s & d' & ck' & m & _ & R & _).
    apply Hu. apply (layout_at _ _ _ _ _ R). cbn; tauto.
Qed.
End D.
Print Assumptions C76_forwarded_partial.
Print Assumptions C76_where_to.
Print Assumptions C76_options_corrupted.
Print Assumptions C76_udp_fragments_dropped.

(** Examples: a forwarded packet, one with options, and the first fragment of a UDP message *)
Definition plain_data (b : bytes) : bytes := repeat zero_byte 8 ++ b.
Definition v4_bytes (opts : bytes) (mf : bool) (u : pkt) : bytes :=
  match pkt_to_bytes (PIPv4 (V4H 0 9 false mf 0 64 17 (AIP V4 1) (AIP V4 (10 * 2 ^ 24)) opts) u) with Ok b => b | Err _ => [] end.
Example C76_example : data_datagram toy_hm ms_cfg [] (fun _ => 5) there (plain_data (v4_bytes [] false (PUDP 5 7 0 (PRaw (B [1;2;3]))))) start =
  (start, [ORaw V4 (AIP V4 (10 * 2 ^ 24)) (v4_bytes [] false (PUDP 5 7 0 (PRaw (B [1;2;3]))))]).
Proof.
  rewrite (C76_forwarded_partial _ _ _ _ _ _ (PIPv4 (V4H 0 9 false false 0 64 17 (AIP V4 1) (AIP V4 (10 * 2 ^ 24)) []) (PUDP 5 7 0 (PRaw (B [1;2;3])))) V4 (AIP V4 (10 * 2 ^ 24))).
  - vm_compute. reflexivity.
  - vm_compute. lia.
  - vm_compute. intros [X _]. discriminate.
  - apply ip_v4; vm_compute; (reflexivity || lia).
  - constructor; [reflexivity|]. constructor.
  - replace (AIP V4 (10 * 2 ^ 24)) with (AIP V4 (field 128 32 (skipn 8 (plain_data (v4_bytes [] false (PUDP 5 7 0 (PRaw (B [1;2;3])))))))) at 2 by (vm_compute; reflexivity). constructor.
Qed.
(** a correct packet with a no-operation option (RFC 791) around 4 bytes *)
Definition with_option : bytes := B [70; 0; 0; 28; 0; 7; 64; 0; 64; 253; 54; 219; 0; 0; 0; 1; 0; 0; 0; 2; 1; 1; 1; 0; 170; 187; 204; 221].
Definition first_fragment : bytes := B [69; 0; 0; 36; 0; 7; 32; 0; 64; 17; 90; 192; 0; 0; 0; 1; 0; 0; 0; 2; 0; 5; 0; 7; 0; 100; 0; 0; 1; 2; 3; 4; 5; 6; 7; 8].
Theorem C76_refuted : ~ (forall hm cfg socks clock ar d p v a st, (8 <= length d)%nat -> ~ control_instance d ->
  ip_payload_is false (skipn 8 d) p -> dst_of (skipn 8 d) p v a ->
  data_datagram hm cfg socks clock ar d st = (st, [ORaw v a (skipn 8 d)])).
Proof.
  intros H. specialize (H toy_hm ms_cfg [] (fun _ => 5) there (plain_data first_fragment)).
  destruct (pkt_from_bytes (KIPv4 false) first_fragment) as [p|] eqn:E; [|vm_compute in E; discriminate].
  destruct (C14_accepted_ipv4 _ _ _ E) as (h & q & _ & _ & -> & _).
  specialize (H (PIPv4 h q) V4 (AIP V4 (field 128 32 first_fragment)) start).
  assert (8 <= length (plain_data first_fragment))%nat as A1 by (vm_compute; lia).
  assert (~ control_instance (plain_data first_fragment)) as A2 by (vm_compute; intros [X _]; discriminate).
  assert (data_datagram toy_hm ms_cfg [] (fun _ => 5) there (plain_data first_fragment) start = (start, [])) as A3 by (vm_compute; reflexivity).
  rewrite A3 in H. assert (skipn 8 (plain_data first_fragment) = first_fragment) as A4 by reflexivity. rewrite A4 in H. clear A3 A4.
  assert ((start, @nil output) = (start, [ORaw V4 (AIP V4 (field 128 32 first_fragment)) first_fragment])) as X; [|discriminate X].
  apply H; [exact A1|exact A2|apply ip_v4; [vm_compute; lia|vm_compute; reflexivity|exact E]|constructor].
Qed.
Print Assumptions C76_refuted.
Example C76_option_example : exists h p st' v a data, ip_payload_is true (skipn 8 (plain_data with_option)) (PIPv4 h p) /\ h_opts h <> [] /\
  data_datagram toy_hm ms_cfg [] (fun _ => 5) there (plain_data with_option) start = (st', [ORaw v a data]).
Proof.
  do 6 eexists. split; [apply ip_v4; [vm_compute; lia|vm_compute; reflexivity|vm_compute; reflexivity]|]. split; [cbn; discriminate|vm_compute; reflexivity].
Qed.
Example C76_fragment_example : data_datagram toy_hm ms_cfg [] (fun _ => 5) there (plain_data first_fragment) start = (start, []).
Proof. apply (C76_udp_fragments_dropped _ _ _ _ _ _ _ 5); vm_compute; (reflexivity || lia || discriminate). Qed.

(** ** C87: packets from the queue *)
Lemma nibble b r : byte_val b / 16 = field 0 4 (b :: r).
Proof.
  destruct b as [b7 b6 b5 b4 b3 b2 b1 b0].
  rewrite (field_bits 0 4 _ [] [b7; b6; b5; b4] ([b3; b2; b1; b0] ++ bits_of_bytes r)) by reflexivity.
  destruct b7, b6, b5, b4, b3, b2, b1, b0; reflexivity.
Qed.
(** the packet looks like IP: the header can be read and the lengths and header checksum are right *)
Definition ip_packet (d : bytes) : Prop :=
  (field 0 4 d = 4 /\ is_ok (pkt_from_bytes (KIPv4 false) d) = true) \/ (field 0 4 d = 6 /\ is_ok (pkt_from_bytes (KIPv6 false) d) = true).
Lemma empty_field : field 0 4 [] = 0. Proof. reflexivity. Qed.
Lemma encapsulated petr d : exists data : bytes,
  pkt_to_bytes (PData no_flags (PRaw d)) = Ok data /\ data = repeat zero_byte 8 ++ d /\
  (forall x, petr = Some x -> ip_packet d -> queued_packet petr d = [OMsg (PData no_flags (PRaw d)) VData [AIP (fst x) (snd x)] 4341]) /\
  (petr = None \/ ~ ip_packet d -> queued_packet petr d = []).
Proof.
  exists (repeat zero_byte 8 ++ d). split; [reflexivity|]. split; [reflexivity|]. split.
  - intros x -> H. unfold queued_packet. destruct d as [|b r]; [exfalso; destruct H as [[H _]|[H _]]; rewrite empty_field in H; discriminate|].
    rewrite (nibble b r). unfold ip_packet in H. set (D := b :: r) in *. clearbody D.
    destruct H as [[H1 H2]|[H1 H2]]; rewrite H1; cbn [Z.eqb Pos.eqb]; destruct (pkt_from_bytes _ D); [reflexivity|discriminate|reflexivity|discriminate].
  - intros [->|H]; [reflexivity|]. unfold queued_packet. destruct petr as [x|]; [|reflexivity]. destruct d as [|b r]; [reflexivity|].
    rewrite (nibble b r). unfold ip_packet in H. set (D := b :: r) in *. clearbody D.
    destruct (Z.eqb_spec (field 0 4 D) 4) as [E|E]; [destruct (pkt_from_bytes (KIPv4 false) D); [exfalso; apply H; left; split; [exact E|reflexivity]|reflexivity]|].
    destruct (Z.eqb_spec (field 0 4 D) 6) as [E'|E']; [destruct (pkt_from_bytes (KIPv6 false) D); [exfalso; apply H; right; split; [exact E'|reflexivity]|reflexivity]|reflexivity].
Qed.
Theorem C87_encapsulation hm cfg socks st petr d : exists data : bytes,
  pkt_to_bytes (PData no_flags (PRaw d)) = Ok data /\ data = repeat zero_byte 8 ++ d /\
  (forall x, petr = Some x -> ip_packet d ->
     step hm cfg socks st (Queued petr d) = (st, [OMsg (PData no_flags (PRaw d)) VData [AIP (fst x) (snd x)] 4341])) /\
  (petr = None \/ ~ ip_packet d -> step hm cfg socks st (Queued petr d) = (st, [])).
Proof.
  destruct (encapsulated petr d) as (data & A & B & C & D). exists data. split; [exact A|]. split; [exact B|]. cbn [step]. split.
  - intros x E I. rewrite (C x E I). reflexivity.
  - intros H. rewrite (D H). reflexivity.
Qed.
Print Assumptions C87_encapsulation.
Lemma header_only_v4 d p : pkt_from_bytes (KIPv4 true) d = Ok p -> is_ok (pkt_from_bytes (KIPv4 false) d) = true.
Proof.
  rewrite !from_bytes_layer. cbn [layer]. intros H. apply rd_v4_inv in H.
  destruct H as (ihl & tl & h & ck & pb & q & -> & Hi & Ho & Ht & Htl & Hf & Hr & Hck & _). erewrite rd_v4_run; try eassumption; reflexivity.
Qed.
Lemma header_only_v6 d p : pkt_from_bytes (KIPv6 true) d = Ok p -> is_ok (pkt_from_bytes (KIPv6 false) d) = true.
Proof.
  rewrite !from_bytes_layer. cbn [layer]. intros H. apply rd_v6_inv in H.
  destruct H as (h & pb & q & -> & Hl & Hf & Hr & _). erewrite rd_v6_run; try eassumption; reflexivity.
Qed.
(** Through the tunnel: a plain packet the queue hands over leaves the daemon at the other end unchanged, for its own
    destination. *)
Theorem C87_tunnel hm cfg socks clock ar x d p v a st hm' cfg' socks' st' : ip_payload_is true d p -> plain_stack p -> dst_of d p v a ->
  exists m data, step hm' cfg' socks' st' (Queued (Some x) d) = (st', [OMsg m VData [AIP (fst x) (snd x)] 4341]) /\ pkt_to_bytes m = Ok data /\
    step hm cfg socks st (AtData ar data clock) = (st, [ORaw v a d]).
Proof.
  intros Hp Hs Hd. cbn [step]. destruct (C87_encapsulation hm' cfg' socks' st' (Some x) d) as (data & E & Ed & Q & _). exists (PData no_flags (PRaw d)), data.
  split; [|split; [exact E|]].
  - apply Q; [reflexivity|]. destruct Hp as [E0|q L F H|q L F H|L F F'];
      [inversion Hd|left; split; [exact F|exact (header_only_v4 _ _ H)]|right; split; [exact F|exact (header_only_v6 _ _ H)]|inversion Hd].
  - assert (skipn 8 data = d) as E8 by (rewrite Ed; reflexivity). rewrite <- E8. eapply C76_forwarded_partial; rewrite ?E8; try eassumption.
    + rewrite Ed. rewrite app_length, repeat_length. lia.
    + rewrite Ed. unfold control_instance. intros [X _].
      rewrite (field_bits 4 1 _ (zeros 4) [false] (zeros 59 ++ bits_of_bytes d)) in X; [discriminate|reflexivity|reflexivity|reflexivity].
Qed.
Print Assumptions C87_tunnel.
Example C87_example : let d := v4_bytes [] false (PUDP 5 7 0 (PRaw (B [1;2;3]))) in
  exists p, ip_payload_is true d p /\ plain_stack p /\ dst_of d p V4 (AIP V4 (10 * 2 ^ 24)).
Proof.
  intros d. exists (PIPv4 (V4H 0 9 false false 0 64 17 (AIP V4 1) (AIP V4 (10 * 2 ^ 24)) []) (PUDP 5 7 0 (PRaw (B [1;2;3])))).
  split; [apply ip_v4; vm_compute; (reflexivity || lia)|]. split; [constructor; [reflexivity|constructor]|].
  replace (AIP V4 (10 * 2 ^ 24)) with (AIP V4 (field 128 32 d)) at 2 by (vm_compute; reflexivity). constructor.
Qed.
