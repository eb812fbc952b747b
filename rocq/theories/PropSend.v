(** * Property C92: exactly which packets can be sent *)
From Verif Require Import Base BaseLemmas Afi AfiProofs Spec SpecLemmas Records Control SpecRec Packet PacketProofs PacketStack SpecPkt PropPacket PropUdp PropPacket2 PropPacket3 SpecAccept PropAccept SpecSend.

Definition fixed_next (nh : Z) (p : pkt) : Prop := 0 <= fix_nh nh p < 256.
Lemma good_next_fix nh p : good_next nh p <-> fixed_next nh p.
Proof.
  unfold good_next, fixed_next, in_bits. change (2 ^ 8) with 256. assert (no_proto p \/ exists n, proto_number p n /\ 0 <= n < 256) as [N|(n & N & R)].
  { destruct p; try (right; eexists; split; [constructor|lia]); left; intros n X; inversion X. }
  - rewrite (fix_nh_none _ _ N). tauto.
  - rewrite (fix_nh_proto _ _ _ N). split; [intros _; exact R|]. intros _ X. destruct (X _ N).
Qed.
Lemma good_data_fits d : good_data d <-> dh_fits d.
Proof.
  split.
  - intros [G1 [G2 G2'] G3 G4]. constructor; [exact G1| | |].
    + destruct (d_sver d) as [s|] eqn:S, (d_dver d) as [t|] eqn:T.
      * right. exists s, t. split; [reflexivity|]. split; [reflexivity|]. split; [apply (G2' s); left; reflexivity|apply (G2' t); right; reflexivity].
      * exfalso. destruct G2 as [_ G2]. specialize (G2 eq_refl). discriminate.
      * exfalso. destruct G2 as [G2 _]. specialize (G2 eq_refl). discriminate.
      * left. auto.
    + intros l L. destruct (G3 l L) as [A B]. destruct (d_iid d); cbn [opt_none]; [apply B; discriminate|apply A; reflexivity].
    + exact G4.
  - intros [F1 F2 F3 F4]. constructor; [exact F1| | |exact F4].
    + destruct F2 as [[S T]|(s & t & S & T & R1 & R2)]; rewrite S, T; split; try tauto; try (split; discriminate).
      * intros v [X|X]; discriminate.
      * unfold in_bits. change (2 ^ 12) with 4096. intros v [X|X]; injection X as <-; assumption.
    + intros l L. specialize (F3 l L). destruct (d_iid d); cbn [opt_none] in F3; split; intros X; congruence.
Qed.
Lemma blen_hb a b w k : bits_of_bytes a = w -> length w = (8 * k)%nat -> blen (a ++ b) = Z.of_nat k + blen b.
Proof. intros H L. rewrite blen_app. pose proof (wire_len _ _ _ H L) as X. unfold blen at 1. rewrite X. reflexivity. Qed.
Lemma opts_fit k o : 0 <= k <= 8 -> byte_ok ((blen o + k + 7) / 8 - 1) <-> blen o <= 2048 - k /\ 0 < blen o + k.
Proof.
  intros Hk. unfold byte_ok. pose proof (blen_nonneg o). split.
  - intros [A B]. pose proof (Z.div_mod (blen o + k + 7) 8 ltac:(lia)). pose proof (Z.mod_pos_bound (blen o + k + 7) 8 ltac:(lia)). lia.
  - intros [A B]. pose proof (Z.div_mod (blen o + k + 7) 8 ltac:(lia)). pose proof (Z.mod_pos_bound (blen o + k + 7) 8 ltac:(lia)). lia.
Qed.
Lemma sendable_iff p : obj_pkt p -> forall n, sendable p n <-> exists b, pkt_to_bytes p = Ok b /\ blen b = n.
Proof.
  induction p as [b|h p IH|h p IH|nh o p IH|nh o p IH|nh t s o p IH|nh off mf id p IH|p IH|s d ck p IH|d p IH|sec ddt rtr rel rsv p IH|c]; intros O n; cbn [obj_pkt] in O.
  - split; [intros H; inversion H; subst; exists b; auto|]. intros (x & [= <-] & <-). constructor.
  - split.
    + intros H. inversion H as [|? ? n' Hp B1 B2 B3 B4 B5 B6 (s & Es & Rs) (d & Ed & Rd) B7 B8| | | | | | | | | |]; subst. apply (IH O) in Hp. destruct Hp as (pb & Ep & <-).
      apply good_next_fix in B6. unfold in_bits in *.
      assert (v4_fits h) as F by (constructor; try assumption; exists s, d; auto).
      assert (sanitize_v4 h p = Ok (with_proto h (fix_nh (h_proto h) p))) as S by (apply sanitize_v4_ok; auto).
      pose proof (blen_nonneg (h_opts h)) as Bo.
      destruct (w_v4_run (with_proto h (fix_nh (h_proto h) p)) pb) as [out E].
      * destruct F; constructor; assumption.
      * constructor; cbn [with_proto h_proto h_src h_dst]; [exact B6|rewrite Es; exact Rs|rewrite Ed; exact Rd].
      * cbn [with_proto h_opts]. assert ((blen (h_opts h) + 3) / 4 < 11); [apply Z.div_lt_upper_bound; lia|lia].
      * lia.
      * assert (pkt_to_bytes (PIPv4 h p) = Ok out) as Eo by (cbn [pkt_to_bytes]; rewrite S, Ep; exact E).
        exists out. split; [exact Eo|]. destruct (v4_emitted _ _ _ Eo) as (pb' & hb & ck & Ep' & -> & _ & _ & _ & _ & _ & _ & L).
        assert (pb' = pb) as -> by congruence. rewrite blen_app. unfold blen at 1. rewrite L, Z2Nat.id; [unfold round_up; replace (blen (h_opts h) + 4 - 1) with (blen (h_opts h) + 3) by lia; lia|].
        assert (0 <= (blen (h_opts h) + 3) / 4) by (apply Z.div_pos; lia). lia.
    + intros (out & Eo & <-). destruct (v4_emitted _ _ _ Eo) as (pb & hb & ck & Ep & -> & _ & _ & Ri & Rt & F & R & L).
      cbn [pkt_to_bytes] in Eo. bo Eo h' S. apply sanitize_v4_ok in S. destruct S as [F0 _]. clear Eo F.
      assert (sendable p (blen pb)) as Hp by (apply (IH O); eauto). pose proof (blen_nonneg (h_opts h)) as Bo.
      assert (blen (hb ++ pb) = 20 + round_up 4 (blen (h_opts h)) + blen pb) as ->.
      { rewrite blen_app. unfold blen at 1. rewrite L, Z2Nat.id; [unfold round_up; replace (blen (h_opts h) + 4 - 1) with (blen (h_opts h) + 3) by lia; lia|lia]. }
      destruct F0 as [F1 F2 F3 F4 F5 (s & d & Es & Ed)]. destruct R as [R1 R2 R3]. cbn [pad_opts with_opts with_proto h_proto h_src h_dst] in R1, R2, R3.
      rewrite Es in R2. rewrite Ed in R3.
      constructor; unfold in_bits; try assumption; try lia.
      * apply good_next_fix. exact R1.
      * exists s. split; [exact Es|exact R2].
      * exists d. split; [exact Ed|exact R3].
  - split.
    + intros H. inversion H as [| |? ? n' Hp B1 B2 B3 B4 (s & Es & Rs) (d & Ed & Rd) B5| | | | | | | | |]; subst. apply (IH O) in Hp. destruct Hp as (pb & Ep & <-).
      apply good_next_fix in B4. unfold in_bits in *.
      assert (v6_fits h) as F by (constructor; try assumption; exists s, d; auto).
      assert (sanitize_v6 h p = Ok (with_nh h (fix_nh (x_nh h) p))) as S by (apply sanitize_v6_ok; auto).
      destruct (w_v6_run (with_nh h (fix_nh (x_nh h) p)) pb) as [out E].
      * destruct F; constructor; assumption.
      * constructor; cbn [with_nh x_nh x_src x_dst]; [exact B4|rewrite Es; exact Rs|rewrite Ed; exact Rd].
      * lia.
      * assert (pkt_to_bytes (PIPv6 h p) = Ok out) as Eo by (cbn [pkt_to_bytes]; rewrite S, Ep; exact E).
        exists out. split; [exact Eo|]. destruct (v6_emitted _ _ _ Eo) as (pb' & hb & Ep' & -> & _ & _ & _ & _ & L).
        assert (pb' = pb) as -> by congruence. rewrite blen_app. unfold blen at 1. rewrite L. reflexivity.
    + intros (out & Eo & <-). destruct (v6_emitted _ _ _ Eo) as (pb & hb & Ep & -> & _ & Rt & F & R & L).
      cbn [pkt_to_bytes] in Eo. bo Eo h' S. apply sanitize_v6_ok in S. destruct S as [F0 _]. clear Eo F.
      assert (sendable p (blen pb)) as Hp by (apply (IH O); eauto).
      assert (blen (hb ++ pb) = 40 + blen pb) as -> by (rewrite blen_app; unfold blen at 1; rewrite L; reflexivity).
      destruct F0 as [F1 F2 F3 (s & d & Es & Ed)]. destruct R as [R1 R2 R3]. cbn [with_nh x_nh x_src x_dst] in R1, R2, R3. rewrite Es in R2. rewrite Ed in R3.
      constructor; unfold in_bits; try assumption; try lia.
      * apply good_next_fix. exact R1.
      * exists s. auto.
      * exists d. auto.
  - split.
    + intros H. inversion H as [| | |? ? ? n' Hp B1 B2| | | | | | | |]; subst. apply (IH O) in Hp. destruct Hp as (pb & Ep & <-). pose proof (blen_nonneg o).
      destruct (w_opts_run nh o pb B1) as [out E]; [apply opts_fit; lia|]. exists out. cbn [pkt_to_bytes]. rewrite Ep. split; [exact E|].
      destruct (w_opts_inv _ _ _ _ E) as (hb & -> & Hb & _). rewrite (blen_hb _ _ _ _ Hb (opts_wire_len _ _)). destruct (pad8_len 2 o ltac:(lia)) as (P & _). unfold blen in P at 1.
      unfold round_up. replace (2 + blen o + 8 - 1) with (blen o + 2 + 7) by lia. lia.
    + intros (out & Eo & <-). cbn [pkt_to_bytes] in Eo. paybytes Eo p pb Ep. pose proof (blen_nonneg o).
      destruct (w_opts_inv _ _ _ _ Eo) as (hb & -> & Hb & R1 & R2 & _). destruct (pad8_len 2 o ltac:(lia)) as (P & P2 & _). rewrite <- P2 in R2. apply opts_fit in R2; [|lia].
      rewrite (blen_hb _ _ _ _ Hb (opts_wire_len _ _)). unfold blen in P at 1.
      replace (Z.of_nat (2 + length (pad8 2 o)) + blen pb) with (round_up 8 (2 + blen o) + blen pb) by (unfold round_up; replace (2 + blen o + 8 - 1) with (blen o + 2 + 7) by lia; lia).
      constructor; [apply (IH O); eauto|exact R1|lia].
  - split.
    + intros H. inversion H as [| | | |? ? ? n' Hp B1 B2| | | | | | |]; subst. apply (IH O) in Hp. destruct Hp as (pb & Ep & <-). pose proof (blen_nonneg o).
      destruct (w_opts_run nh o pb B1) as [out E]; [apply opts_fit; lia|]. exists out. cbn [pkt_to_bytes]. rewrite Ep. split; [exact E|].
      destruct (w_opts_inv _ _ _ _ E) as (hb & -> & Hb & _). rewrite (blen_hb _ _ _ _ Hb (opts_wire_len _ _)). destruct (pad8_len 2 o ltac:(lia)) as (P & _). unfold blen in P at 1.
      unfold round_up. replace (2 + blen o + 8 - 1) with (blen o + 2 + 7) by lia. lia.
    + intros (out & Eo & <-). cbn [pkt_to_bytes] in Eo. paybytes Eo p pb Ep. pose proof (blen_nonneg o).
      destruct (w_opts_inv _ _ _ _ Eo) as (hb & -> & Hb & R1 & R2 & _). destruct (pad8_len 2 o ltac:(lia)) as (P & P2 & _). rewrite <- P2 in R2. apply opts_fit in R2; [|lia].
      rewrite (blen_hb _ _ _ _ Hb (opts_wire_len _ _)). unfold blen in P at 1.
      replace (Z.of_nat (2 + length (pad8 2 o)) + blen pb) with (round_up 8 (2 + blen o) + blen pb) by (unfold round_up; replace (2 + blen o + 8 - 1) with (blen o + 2 + 7) by lia; lia).
      constructor; [apply (IH O); eauto|exact R1|lia].
  - split.
    + intros H. inversion H as [| | | | |? ? ? ? ? n' Hp B1 B2 B3 B4| | | | | |]; subst. apply (IH O) in Hp. destruct Hp as (pb & Ep & <-). pose proof (blen_nonneg o).
      destruct (w_route_run nh t s o pb B1 B2 B3) as [out E]; [apply opts_fit; lia|]. exists out. cbn [pkt_to_bytes]. rewrite Ep. split; [exact E|].
      destruct (w_route_inv _ _ _ _ _ _ E) as (hb & -> & Hb & _). rewrite (blen_hb _ _ _ _ Hb (route_wire_len _ _ _ _)). destruct (pad8_len 4 o ltac:(lia)) as (P & _). unfold blen in P at 1.
      unfold round_up. replace (4 + blen o + 8 - 1) with (blen o + 4 + 7) by lia. lia.
    + intros (out & Eo & <-). cbn [pkt_to_bytes] in Eo. paybytes Eo p pb Ep. pose proof (blen_nonneg o).
      destruct (w_route_inv _ _ _ _ _ _ Eo) as (hb & -> & Hb & R1 & R2 & R3 & R4 & _). destruct (pad8_len 4 o ltac:(lia)) as (P & P2 & _). rewrite <- P2 in R4. apply opts_fit in R4; [|lia].
      rewrite (blen_hb _ _ _ _ Hb (route_wire_len _ _ _ _)). unfold blen in P at 1.
      replace (Z.of_nat (4 + length (pad8 4 o)) + blen pb) with (round_up 8 (4 + blen o) + blen pb) by (unfold round_up; replace (4 + blen o + 8 - 1) with (blen o + 4 + 7) by lia; lia).
      constructor; [apply (IH O); eauto|exact R1|exact R2|exact R3|lia].
  - split.
    + intros H. inversion H as [| | | | | |? ? ? ? ? n' Hp B1 B2 B3| | | | |]; subst. apply (IH O) in Hp. destruct Hp as (pb & Ep & <-).
      destruct (w_frag_run nh off mf id pb) as [out E]; [split; [exact B1|split; [exact B2|exact B3]]|]. exists out. cbn [pkt_to_bytes]. rewrite Ep. split; [exact E|].
      destruct (w_frag_inv _ _ _ _ _ _ E) as (hb & -> & Hb & _). apply (blen_hb _ _ _ 8 Hb). unfold frag_wire. rewrite !app_length. cbn [length]. rewrite !enc_length, !zeros_length. reflexivity.
    + intros (out & Eo & <-). cbn [pkt_to_bytes] in Eo. paybytes Eo p pb Ep.
      destruct (w_frag_inv _ _ _ _ _ _ Eo) as (hb & -> & Hb & R1 & R2 & R3). rewrite (blen_hb _ _ _ 8 Hb).
      * change (Z.of_nat 8) with 8. constructor; [apply (IH O); eauto|exact R1|exact R2|exact R3].
      * unfold frag_wire. rewrite !app_length. cbn [length]. rewrite !enc_length, !zeros_length. reflexivity.
  - cbn [pkt_to_bytes]. rewrite <- (IH O). split; [intros H; inversion H; subst; assumption|intros H; constructor; exact H].
  - split.
    + intros H. inversion H as [| | | | | | | |? ? ? ? n' Hp B1 B2 B3 B4| | |]; subst. apply (IH O) in Hp. destruct Hp as (pb & Ep & <-).
      destruct (w_udp_run s d ck pb B1 B2 B3) as (hb & Hb & E); [unfold u16; pose proof (blen_nonneg pb); lia|]. exists (hb ++ pb). cbn [pkt_to_bytes]. rewrite Ep. split; [exact E|].
      apply (blen_hb _ _ _ 8 Hb (udp_wire_len _ _ _ _)).
    + intros (out & Eo & <-). cbn [pkt_to_bytes] in Eo. paybytes Eo p pb Ep.
      destruct (w_udp_inv _ _ _ _ _ Eo) as (hb & -> & Hb & R1 & R2 & R3 & R4). rewrite (blen_hb _ _ _ 8 Hb (udp_wire_len _ _ _ _)). change (Z.of_nat 8) with 8. unfold u16 in R4.
      constructor; [apply (IH O); eauto|exact R1|exact R2|exact R3|lia].
  - split.
    + intros H. inversion H as [| | | | | | | | |? ? n' Hp B| |]; subst. apply (IH O) in Hp. destruct Hp as (pb & Ep & <-). apply good_data_fits in B.
      assert (sanitize_dh d = Ok (with_echo d (d_echo d && negb (opt_none (d_nonce d))))) as S by (apply sanitize_dh_ok; auto).
      assert (dh_fits (with_echo d (d_echo d && negb (opt_none (d_nonce d))))) as F by (destruct B; constructor; assumption).
      destruct (w_data_run _ pb F) as [out E]. exists out. cbn [pkt_to_bytes]. rewrite S, Ep. split; [exact E|].
      destruct (w_data_inv _ _ _ F E) as (hb & -> & Hb). exact (blen_hb _ _ _ 8 Hb (data_wire_len _ F)).
    + intros (out & Eo & <-). cbn [pkt_to_bytes] in Eo. bo Eo d' S. apply sanitize_dh_ok in S. destruct S as [F ->]. paybytes Eo p pb Ep.
      assert (dh_fits (with_echo d (d_echo d && negb (opt_none (d_nonce d))))) as F' by (destruct F; constructor; assumption).
      destruct (w_data_inv _ _ _ F' Eo) as (hb & -> & Hb). rewrite (blen_hb _ _ _ 8 Hb (data_wire_len _ F')). change (Z.of_nat 8) with 8.
      constructor; [apply (IH O); eauto|apply good_data_fits; exact F].
  - destruct O as [L O]. assert (length (ecm_wire ddt rsv) = (8 * 4)%nat) as Lw by (unfold ecm_wire; rewrite app_length, enc_length; cbn [length]; rewrite L; reflexivity). split.
    + intros H. inversion H as [| | | | | | | | | |? ? ? ? ? n' Hp|]; subst. apply (IH O) in Hp. destruct Hp as (pb & Ep & <-).
      destruct (w_ecm_run ddt rsv pb L) as [out E]. exists out. cbn [pkt_to_bytes]. rewrite Ep. split; [exact E|].
      destruct (w_ecm_inv _ _ _ _ _ E) as (_ & hb & -> & Hb). exact (blen_hb _ _ _ 4 Hb Lw).
    + intros (out & Eo & <-). cbn [pkt_to_bytes] in Eo. paybytes Eo p pb Ep.
      destruct (w_ecm_inv _ _ _ _ _ Eo) as (-> & hb & -> & Hb). rewrite (blen_hb _ _ _ 4 Hb Lw). change (Z.of_nat 4) with 4. constructor. apply (IH O); eauto.
  - split; [intros H; inversion H; subst; eauto|]. intros (b & E & <-). constructor. exact E.
Qed.

(** C92: a packet can be serialised exactly if its fields fit, and then has exactly the stated length *)
Theorem C92_sendable p : obj_pkt p -> forall n, sendable p n <-> exists out, pkt_to_bytes p = Ok out /\ Z.of_nat (length out) = n.
Proof. exact (sendable_iff p). Qed.
Example C92_example : sendable (PIPv4 (V4H 0 9 false false 0 64 6 (AIP V4 1) (AIP V4 2) (B [1;2;3])) (PHop 59 (B [1]) (PUDP 5 7 0 (PRaw (B [1;2;3]))))) 43.
Proof. apply C92_sendable; [cbn; auto|]. eexists. split; vm_compute; reflexivity. Qed.
Print Assumptions C92_sendable.
