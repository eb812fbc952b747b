(** * Properties C12, C13, C15, C16, C18-C23, C30, C31. *)
From Verif Require Import Base BaseLemmas Afi AfiProofs Spec SpecLemmas Records Control SpecRec
  RecordsProofs ControlProofs PropControl PropLayout Checksum ChecksumProofs Packet PacketProofs PacketStack SpecPkt PropPacket PropUdp.

(** ** C12, C13, C18 (IPv4) *)
Lemma raw_no_proto b : no_proto (PRaw b).
Proof. intros n H. inversion H. Qed.

Theorem C12_ipv4_round_trip : forall (h : v4h) (b out : bytes),
  h_opts h = [] -> pkt_to_bytes (PIPv4 h (PRaw b)) = Ok out ->
  pkt_from_bytes (KIPv4 false) out = Ok (PIPv4 h (PRaw b)).
Proof.
  intros h b out Hno H. destruct (v4_emitted _ _ _ H) as (pb & hb & ck & Hpb & -> & Hb & Hck & Hi & Ht & Hf & Hr & Lh).
  cbn in Hpb. okinj Hpb. rewrite (fix_nh_none _ _ (raw_no_proto _)), with_proto_id in *.
  destruct (no_opts_wire h Hno) as [W1 W2]. rewrite W1, W2 in *.
  rewrite from_bytes_layer. cbn [layer]. rewrite bits_of_bytes_app, Hb.
  erewrite rd_v4_run; try eassumption; try reflexivity; try lia.
  - rewrite (fix_nh_none _ _ (raw_no_proto _)), with_proto_id. reflexivity.
  - rewrite Hno. reflexivity.
Qed.
Print Assumptions C12_ipv4_round_trip.
(** the same with a payload object: the protocol field becomes the payload's number and the payload
    is parsed from its own bytes *)
Definition set_protocol (h : v4h) (n : Z) : v4h :=
  V4H (h_tos h) (h_id h) (h_df h) (h_mf h) (h_off h) (h_ttl h) n (h_src h) (h_dst h) (h_opts h).
Theorem C12_ipv4_object_payload : forall (h : v4h) (p q : pkt) (n : Z) (out b : bytes),
  h_opts h = [] -> pkt_to_bytes (PIPv4 h p) = Ok out -> proto_number p n -> pkt_to_bytes p = Ok b -> payload_is n b q ->
  pkt_from_bytes (KIPv4 true) out = Ok (PIPv4 (set_protocol h n) q) /\
  pkt_from_bytes (KIPv4 false) out = Ok (PIPv4 (set_protocol h n) (PRaw b)).
Proof.
  intros h p q n out b Hno H Hn Hpb Hq. destruct (v4_emitted _ _ _ H) as (pb & hb & ck & Hpb' & -> & Hb & Hck & Hi & Ht & Hf & Hr & Lh).
  rewrite Hpb in Hpb'. okinj Hpb'. rewrite (fix_nh_proto _ _ _ Hn) in *.
  assert (h_opts (with_proto h n) = []) as Hno' by exact Hno.
  destruct (no_opts_wire _ Hno') as [W1 W2]. rewrite W1 in *. cbn [h_opts with_proto] in W2. rewrite W2 in *.
  assert (forall dec p', decode (parse (length (hb ++ b))) dec n b = Ok p' ->
    pkt_from_bytes (KIPv4 dec) (hb ++ b) = Ok (PIPv4 (set_protocol h n) p')) as G.
  { intros dec p' Hd. rewrite from_bytes_layer. cbn [layer]. rewrite bits_of_bytes_app, Hb.
    erewrite rd_v4_run; try eassumption; try reflexivity; try lia.
    - cbn [h_proto with_proto]. rewrite (decode_fix _ _ _ _ _ Hd). reflexivity.
    - rewrite Hno'. reflexivity. }
  split; apply G; [|reflexivity]. apply decode_payload_is; [|exact Hq]. rewrite app_length. lia.
Qed.
Print Assumptions C12_ipv4_object_payload.
Example C12_example : h_opts ex_v4 = [] /\ is_ok (pkt_to_bytes (PIPv4 ex_v4 (PRaw (B [1; 2; 3])))) = true /\
  is_ok (pkt_to_bytes (PIPv4 ex_v4 (PUDP 53 54 0 (PRaw (B [1; 2; 3]))))) = true.
Proof. vm_compute. auto. Qed.

(** C13 is false of the code: no IPv4 packet with options that is serialised can be parsed again *)
Theorem C13_options_never_reparse : forall (h : v4h) (p : pkt) (out : bytes) (dec : bool),
  h_opts h <> [] -> pkt_to_bytes (PIPv4 h p) = Ok out -> is_ok (pkt_from_bytes (KIPv4 dec) out) = false.
Proof.
  intros h p out dec Ho H. destruct (pkt_from_bytes (KIPv4 dec) out) as [q|e] eqn:E; [|reflexivity]. exfalso.
  destruct (C14_accepted_ipv4 _ _ _ E) as (h' & p' & ihl' & ck' & _ & _ & _ & (HL' & _) & _).
  pose proof (layout_at _ _ _ _ _ HL' (or_intror (or_intror (or_intror (or_introl eq_refl))))) as T1.
  destruct (v4_emitted _ _ _ H) as (pb & hb & ck & Hpb & -> & Hb & Hck & Hi & Ht & Hf & Hr & Lh).
  assert (bits_of_bytes (hb ++ pb) = v4_wire (5 + (blen (h_opts h) + 3) / 4) (20 + blen pb) (pad_opts (with_proto h (fix_nh (h_proto h) p))) ck ++ bits_of_bytes pb) as Hw
    by (rewrite bits_of_bytes_app, Hb; reflexivity).
  destruct (v4_rfc791 _ _ _ _ _ _ Hw ltac:(lia) ltac:(pose proof (blen_nonneg pb); lia) (v4_ck_range _ _ _ _ Hck) Hf Hr) as (HL & _).
  pose proof (layout_at _ _ _ _ _ HL (or_intror (or_intror (or_intror (or_introl eq_refl))))) as T2.
  rewrite T1, blen_app in T2. unfold blen in T2 at 1. rewrite Lh in T2.
  assert (0 < (blen (h_opts h) + 3) / 4); [|lia].
  apply Z.div_str_pos. unfold blen. destruct (h_opts h); [congruence|]. cbn [length]. lia.
Qed.
Print Assumptions C13_options_never_reparse.
Theorem C13_refuted : exists (h : v4h) (p : pkt) (out : bytes),
  h_opts h = B [1; 1; 1; 0] /\ pkt_to_bytes (PIPv4 h p) = Ok out /\ pkt_from_bytes (KIPv4 false) out = Err EValue.
Proof.
  exists (V4H 0 7 true false 0 64 253 (AIP V4 1) (AIP V4 2) (B [1; 1; 1; 0])), (PRaw []).
  eexists. split; [reflexivity|]. split; vm_compute; reflexivity.
Qed.
Print Assumptions C13_refuted.

(** ** C15: IPv6 *)
Lemma v6_emitted h p out : pkt_to_bytes (PIPv6 h p) = Ok out ->
  exists pb hb, pkt_to_bytes p = Ok pb /\ out = hb ++ pb /\
    let h1 := with_nh h (fix_nh (x_nh h) p) in
    bits_of_bytes hb = v6_wire h1 (blen pb) /\ blen pb < 65536 /\ v6_fits h1 /\ v6_rng h1 /\ length hb = 40%nat.
Proof.
  cbn [pkt_to_bytes]. intros H. bo H h' E. apply sanitize_v6_ok in E. destruct E as [Hf ->].
  paybytes H p pb Ep. apply w_v6_inv in H. destruct H as (hb & -> & Hb & Ht & Hr).
  exists pb, hb. split; [reflexivity|]. split; [reflexivity|]. cbn zeta. split; [exact Hb|]. split; [exact Ht|].
  split; [destruct Hf; constructor; assumption|]. split; [exact Hr|]. exact (wire_len _ _ _ Hb (v6_wire_length _ _)).
Qed.
Lemma v6_rfc2460 b pl h s : bits_of_bytes b = v6_wire h pl ++ s -> 0 <= pl < 65536 -> v6_fits h -> v6_rng h -> rfc2460 b pl h.
Proof.
  intros H Hp [F1 F2 F3 (sa & da & F6 & F7)] [R1 R2 R3].
  assert (40 <= length b)%nat as Lb.
  { apply (f_equal (@length bool)) in H. rewrite app_length, v6_wire_length, bits_of_bytes_length in H. lia. }
  rewrite F6 in R2. rewrite F7 in R3. cbn [ip_int] in R2, R3. unfold v6_wire in H. rewrite F6, F7 in H. cbn [ip_int] in H. flat H.
  split.
  - unfold layout. repeat (apply Forall_cons; [split; [lia|]; fld H; try (apply ub_enc; cbn; lia)|]). apply Forall_nil.
  - exists sa, da. split; [exact F6|]. split; [exact F7|]. unfold layout.
    repeat (apply Forall_cons; [split; [lia|]; fld H|]). apply Forall_nil.
Qed.
Theorem C15_ipv6_round_trip : forall (h : v6h) (b out : bytes),
  pkt_to_bytes (PIPv6 h (PRaw b)) = Ok out ->
  pkt_from_bytes (KIPv6 false) out = Ok (PIPv6 h (PRaw b)) /\
  rfc2460 out (blen b) h /\ skipn 40 out = b /\ length out = (40 + length b)%nat.
Proof.
  intros h b out H. destruct (v6_emitted _ _ _ H) as (pb & hb & Hpb & -> & Hb & Ht & Hf & Hr & Lh).
  cbn in Hpb. okinj Hpb.
  assert (with_nh h (fix_nh (x_nh h) (PRaw b)) = h) as Hid by (destruct h; reflexivity). rewrite Hid in *.
  split.
  { rewrite from_bytes_layer. cbn [layer]. rewrite bits_of_bytes_app, Hb. erewrite rd_v6_run; try eassumption; try reflexivity.
    rewrite Hid. reflexivity. }
  split. { eapply v6_rfc2460; eauto; [rewrite bits_of_bytes_app, Hb; reflexivity|]. pose proof (blen_nonneg b). lia. }
  split; [apply skipn_app_len; exact Lh|]. rewrite app_length. lia.
Qed.
Print Assumptions C15_ipv6_round_trip.
Theorem C15_accepted_ipv6 : forall (dec : bool) (d : bytes) (q : pkt),
  pkt_from_bytes (KIPv6 dec) d = Ok q ->
  exists h p, q = PIPv6 h p /\ (40 <= length d)%nat /\ rfc2460 d (Z.of_nat (length d) - 40) h /\
    (dec = false -> p = PRaw (skipn 40 d)) /\ (dec = true -> payload_is (x_nh h) (skipn 40 d) p).
Proof.
  intros dec d q H. rewrite from_bytes_layer in H. cbn [layer] in H. apply rd_v6_inv in H.
  destruct H as (h & pb & p & Hs & Hl & Hf & Hr & Hd & ->).
  assert (with_nh h (fix_nh (x_nh h) p) = h) as -> by (rewrite (decode_fix _ _ _ _ _ Hd); destruct h; reflexivity).
  destruct (bits_tail d _ pb 40 Hs (v6_wire_length _ _)) as (hb & Ed & Hb & Lh).
  assert (length d = 40 + length pb)%nat as Ld by (rewrite Ed, app_length; lia).
  exists h, p. split; [reflexivity|]. split; [lia|]. split.
  { eapply v6_rfc2460; eauto; [|unfold blen in *; lia]. rewrite Hs. unfold blen. do 2 f_equal. lia. }
  assert (skipn 40 d = pb) as -> by (rewrite Ed; apply skipn_app_len; exact Lh). split.
  - intros ->. cbn in Hd. okinj Hd. reflexivity.
  - intros ->. eapply decode_payload_is; [|exact Hd]. lia.
Qed.
Print Assumptions C15_accepted_ipv6.
Definition ex_v6 : v6h := V6H 3 70000 253 64 (AIP V6 1) (AIP V6 (2 ^ 128 - 1)).
Example C15_example : is_ok (pkt_to_bytes (PIPv6 ex_v6 (PRaw (B [1; 2; 3])))) = true.
Proof. vm_compute. reflexivity. Qed.

(** ** C18 *)
Theorem C18_ipv4_protocol_field : forall (h : v4h) (p : pkt) (out : bytes) (n : Z),
  pkt_to_bytes (PIPv4 h p) = Ok out -> proto_number p n -> field 72 8 out = n.
Proof.
  intros h p out n H Hn. destruct (v4_emitted _ _ _ H) as (pb & hb & ck & Hpb & -> & Hb & Hck & Hi & Ht & Hf & Hr & Lh).
  assert (bits_of_bytes (hb ++ pb) = v4_wire (5 + (blen (h_opts h) + 3) / 4) (20 + blen pb) (pad_opts (with_proto h (fix_nh (h_proto h) p))) ck ++ bits_of_bytes pb) as Hw
    by (rewrite bits_of_bytes_app, Hb; reflexivity).
  destruct (v4_rfc791 _ _ _ _ _ _ Hw ltac:(lia) ltac:(pose proof (blen_nonneg pb); lia) (v4_ck_range _ _ _ _ Hck) Hf Hr) as (HL & _).
  rewrite <- (fix_nh_proto (h_proto h) _ _ Hn). apply (layout_at _ _ _ _ _ HL). cbn. auto 15.
Qed.
Print Assumptions C18_ipv4_protocol_field.
Theorem C18_ipv6_next_header_field : forall (h : v6h) (p : pkt) (out : bytes) (n : Z),
  pkt_to_bytes (PIPv6 h p) = Ok out -> proto_number p n -> field 48 8 out = n.
Proof.
  intros h p out n H Hn. destruct (v6_emitted _ _ _ H) as (pb & hb & Hpb & -> & Hb & Ht & Hf & Hr & Lh).
  assert (bits_of_bytes (hb ++ pb) = v6_wire (with_nh h (fix_nh (x_nh h) p)) (blen pb) ++ bits_of_bytes pb) as Hw
    by (rewrite bits_of_bytes_app, Hb; reflexivity).
  destruct (v6_rfc2460 _ _ _ _ Hw ltac:(pose proof (blen_nonneg pb); lia) Hf Hr) as (HL & _).
  rewrite <- (fix_nh_proto (x_nh h) _ _ Hn). apply (layout_at _ _ _ _ _ HL). cbn. auto 15.
Qed.
Print Assumptions C18_ipv6_next_header_field.
(** without a protocol object the caller's value is used *)
Theorem C18_other_payloads : forall (p : pkt) (out : bytes), no_proto p ->
  (forall h, pkt_to_bytes (PIPv4 h p) = Ok out -> field 72 8 out = h_proto h) /\
  (forall h, pkt_to_bytes (PIPv6 h p) = Ok out -> field 48 8 out = x_nh h).
Proof.
  intros p out Hn. split; intros h H.
  - destruct (v4_emitted _ _ _ H) as (pb & hb & ck & Hpb & -> & Hb & Hck & Hi & Ht & Hf & Hr & Lh).
    assert (bits_of_bytes (hb ++ pb) = v4_wire (5 + (blen (h_opts h) + 3) / 4) (20 + blen pb) (pad_opts (with_proto h (fix_nh (h_proto h) p))) ck ++ bits_of_bytes pb) as Hw
      by (rewrite bits_of_bytes_app, Hb; reflexivity).
    destruct (v4_rfc791 _ _ _ _ _ _ Hw ltac:(lia) ltac:(pose proof (blen_nonneg pb); lia) (v4_ck_range _ _ _ _ Hck) Hf Hr) as (HL & _).
    rewrite <- (fix_nh_none (h_proto h) _ Hn). apply (layout_at _ _ _ _ _ HL). cbn. auto 15.
  - destruct (v6_emitted _ _ _ H) as (pb & hb & Hpb & -> & Hb & Ht & Hf & Hr & Lh).
    assert (bits_of_bytes (hb ++ pb) = v6_wire (with_nh h (fix_nh (x_nh h) p)) (blen pb) ++ bits_of_bytes pb) as Hw
      by (rewrite bits_of_bytes_app, Hb; reflexivity).
    destruct (v6_rfc2460 _ _ _ _ Hw ltac:(pose proof (blen_nonneg pb); lia) Hf Hr) as (HL & _).
    rewrite <- (fix_nh_none (x_nh h) _ Hn). apply (layout_at _ _ _ _ _ HL). cbn. auto 15.
Qed.
Print Assumptions C18_other_payloads.
Example C18_example : proto_number (PFrag 17 0 true 9 (PRaw (B [1]))) 44 /\ x_nh ex_v6 = 253 /\
  is_ok (pkt_to_bytes (PIPv6 ex_v6 (PFrag 17 0 true 9 (PRaw (B [1]))))) = true.
Proof. split; [constructor|]. split; [reflexivity|]. vm_compute. reflexivity. Qed.
