(** * Properties C08-C23, C30, C31: packets. *)
From Verif Require Import Base BaseLemmas Afi AfiProofs Spec SpecLemmas Records Control SpecRec
  RecordsProofs ControlProofs PropControl PropLayout Checksum ChecksumProofs Packet PacketProofs PacketStack SpecPkt.

(** ** connecting lemmas *)
Lemma from_bytes_layer k (d : bytes) : pkt_from_bytes k d = layer (parse (length d)) k d.
Proof. reflexivity. Qed.
Lemma nested_fuel (d : bytes) k (b : bytes) : (length b < length d)%nat -> parse (length d) k b = pkt_from_bytes k b.
Proof. intros H. unfold pkt_from_bytes. apply parse_fuel; lia. Qed.
Lemma registry_spec nh k : registry nh = Some k <-> next_class nh k.
Proof.
  split.
  - unfold registry. intros H.
    repeat match type of H with (if ?x =? ?y then _ else _) = _ => destruct (x =? y) eqn:?;
      [assert (x = y) as -> by lia; injection H as <-; constructor|] end. discriminate.
  - destruct 1; reflexivity.
Qed.
Lemma header_type_spec p n : header_type p = Some n <-> proto_number p n.
Proof. split; [destruct p; cbn; intros H; try discriminate; injection H as <-; constructor|destruct 1; reflexivity]. Qed.
Lemma fix_nh_proto nh p n : proto_number p n -> fix_nh nh p = n.
Proof. intros H. apply header_type_spec in H. unfold fix_nh. rewrite H. reflexivity. Qed.
Lemma fix_nh_none nh p : no_proto p -> fix_nh nh p = nh.
Proof.
  intros H. unfold fix_nh. destruct (header_type p) as [n|] eqn:E; [|reflexivity].
  exfalso. apply header_type_spec in E. exact (H n E).
Qed.
Lemma decode_payload_is (d : bytes) nh (b : bytes) p : (length b < length d)%nat ->
  decode (parse (length d)) true nh b = Ok p <-> payload_is nh b p.
Proof.
  intros L. unfold decode, payload_is. destruct (registry nh) as [k|] eqn:E.
  - apply registry_spec in E. rewrite nested_fuel by exact L. split; [eauto|].
    intros [(k' & Hk & Hp)|[Hn _]]; [|exfalso; exact (Hn k E)].
    apply registry_spec in E, Hk. rewrite E in Hk. injection Hk as <-. exact Hp.
  - split.
    + intros H. okinj H. right. split; [|reflexivity]. intros k Hk. apply registry_spec in Hk. congruence.
    + intros [(k' & Hk & Hp)|[_ ->]]; [apply registry_spec in Hk; congruence|reflexivity].
Qed.

(** ** IPv4 header bytes *)
Lemma wire_parts ihl tl h ck hb : bits_of_bytes hb = v4_wire ihl tl h ck -> 0 <= ck < 65536 ->
  exists a c b, hb = a ++ c ++ b /\ length a = 10%nat /\ length c = 2%nat /\ be c = ck /\
    bits_of_bytes a = v4_pre ihl tl h /\ bits_of_bytes b = v4_post h.
Proof.
  intros H Hc. unfold v4_wire in H.
  destruct (head_bytes (v4_pre ihl tl h) 10 (v4_pre_length _ _ _)) as (a & Ha & La & _).
  destruct (head_bytes (enc 16 ck) 2 (enc_length _ _)) as (c & Hk & Lc & _).
  assert (length (v4_post h) = (8 * (8 + length (h_opts h)))%nat) as Lp
    by (unfold v4_post; rewrite !app_length, !enc_length, bits_of_bytes_length; lia).
  destruct (head_bytes (v4_post h) _ Lp) as (b & Hb & _ & _).
  exists a, c, b. split.
  - apply bits_of_bytes_inj. rewrite !bits_of_bytes_app, Ha, Hk, Hb. exact H.
  - repeat split; auto. rewrite be_ub, Hk. apply ub_enc. exact Hc.
Qed.
Lemma odd_even_app (a : list byte) k : length a = (2 * k)%nat -> Nat.odd (length a) = false.
Proof. intros ->. rewrite Nat.odd_mul. reflexivity. Qed.
Lemma wire_sum ihl tl h ck hb hb0 : bits_of_bytes hb = v4_wire ihl tl h ck -> 0 <= ck < 65536 ->
  bits_of_bytes hb0 = v4_wire ihl tl h 0 -> word_sum hb = word_sum hb0 + ck.
Proof.
  intros H Hc H0. destruct (wire_parts _ _ _ _ _ H Hc) as (a & c & b & -> & La & Lc & Bc & Ba & Bb).
  destruct (wire_parts _ _ _ _ _ H0 ltac:(lia)) as (a0 & c0 & b0 & -> & La0 & Lc0 & Bc0 & Ba0 & Bb0).
  rewrite <- Ba in Ba0. rewrite <- Bb in Bb0. apply bits_of_bytes_inj in Ba0, Bb0. subst a0 b0.
  rewrite !word_sum_app by first [apply (odd_even_app _ 5); assumption|apply (odd_even_app _ 1); assumption].
  rewrite (word_sum_pair c), (word_sum_pair c0) by assumption. lia.
Qed.
Lemma wire_sum_pos ihl tl h ck hb : bits_of_bytes hb = v4_wire ihl tl h ck -> word_sum hb <> 0.
Proof.
  intros H. unfold v4_wire, v4_pre in H. destruct hb as [|[b7 b6 b5 b4 b3 b2 b1 b0] hb]; [discriminate|].
  assert (b6 = true) as -> by (vm_compute in H; injection H; intros; congruence).
  assert (64 <= byte_val (Byte b7 true b5 b4 b3 b2 b1 b0)) by (destruct b7, b5, b4, b3, b2, b1, b0; vm_compute; congruence).
  pose proof (word_sum_nonneg hb). destruct hb as [|y hb]; cbn [word_sum]; [lia|].
  pose proof (byte_val_range y). pose proof (word_sum_nonneg hb). lia.
Qed.

Lemma layout_at b l o w v : layout b l -> In (o, w, v) l -> field o w b = v.
Proof. intros H Hi. unfold layout in H. rewrite Forall_forall in H. destruct (H _ Hi) as [_ E]. exact E. Qed.

(** position of every field of an IPv4 header (RFC 791 section 3.1) *)
Definition rfc791 (b : bytes) (ihl tl ck : Z) (h : v4h) : Prop :=
  layout b [(0, 4, 4%Z); (4, 4, ihl); (8, 8, h_tos h); (16, 16, tl); (32, 16, h_id h);
            (48, 1, 0%Z); (49, 1, Z.b2z (h_df h)); (50, 1, Z.b2z (h_mf h)); (51, 13, h_off h);
            (64, 8, h_ttl h); (72, 8, h_proto h); (80, 16, ck)]%nat /\
  (exists s d, h_src h = AIP V4 s /\ h_dst h = AIP V4 d /\ layout b [(96, 32, s); (128, 32, d)]%nat) /\
  slice 20 (length (h_opts h)) b = h_opts h.

Lemma v4_rfc791 b ihl tl h ck s : bits_of_bytes b = v4_wire ihl tl h ck ++ s ->
  0 <= ihl < 16 -> 0 <= tl < 65536 -> 0 <= ck < 65536 -> v4_fits h -> v4_rng h -> rfc791 b ihl tl ck h.
Proof.
  intros H Hi Ht Hc [F1 F2 F3 F4 F5 (sa & da & F6 & F7)] [R1 R2 R3].
  assert (20 + length (h_opts h) <= length b)%nat as Lb.
  { apply (f_equal (@length bool)) in H. rewrite app_length, v4_wire_length, bits_of_bytes_length in H. lia. }
  rewrite F6, F7 in *. cbn [ip_int] in *.
  unfold v4_wire, v4_pre, v4_post in H. rewrite F6, F7 in H. cbn [ip_int] in H. flat H.
  split; [|split].
  - unfold layout. repeat (apply Forall_cons; [split; [lia|]; fld H; apply ub_enc; cbn; lia|]). apply Forall_nil.
  - exists sa, da. split; [exact F6|]. split; [exact F7|]. unfold layout.
    repeat (apply Forall_cons; [split; [lia|]; fld H|]). apply Forall_nil.
  - eapply slice_bits; [| |reflexivity].
    + rewrite H. instantiate (1 := s).
      instantiate (1 := enc 4 4 ++ enc 4 ihl ++ enc 8 (h_tos h) ++ enc 16 tl ++ enc 16 (h_id h) ++ [false; h_df h; h_mf h] ++
        enc 13 (h_off h) ++ enc 8 (h_ttl h) ++ enc 8 (h_proto h) ++ enc 16 ck ++ enc 32 sa ++ enc 32 da).
      rewrite <- !app_assoc. reflexivity.
    + rewrite !app_length, !enc_length. reflexivity.
Qed.

Lemma v4_emitted h p out : pkt_to_bytes (PIPv4 h p) = Ok out ->
  exists pb hb ck, pkt_to_bytes p = Ok pb /\ out = hb ++ pb /\
    let h1 := pad_opts (with_proto h (fix_nh (h_proto h) p)) in
    let ihl := 5 + (blen (h_opts h) + 3) / 4 in
    bits_of_bytes hb = v4_wire ihl (20 + blen pb) h1 ck /\ v4_ck ihl (20 + blen pb) h1 ck /\
    5 <= ihl < 16 /\ 20 + blen pb < 65536 /\ v4_fits h1 /\ v4_rng h1 /\ length hb = Z.to_nat (4 * ihl).
Proof.
  cbn [pkt_to_bytes]. intros H. bo H h' E. apply sanitize_v4_ok in E. destruct E as [Hf ->].
  paybytes H p pb Ep. apply w_v4_inv in H. destruct H as (hb & ck & -> & Hb & Hck & Hi & Ht & Hr).
  cbn [h_opts with_proto] in *. exists pb, hb, ck. split; [reflexivity|]. split; [reflexivity|]. cbn zeta.
  split; [exact Hb|]. split; [exact Hck|].
  assert (0 <= (blen (h_opts h) + 3) / 4) as P by (apply Z.div_pos; [unfold blen|]; lia).
  split; [lia|]. split; [exact Ht|].
  split. { destruct Hf as [F1 F2 F3 F4 F5 F6]. constructor; assumption. }
  split. { destruct Hr as [F1 F2 F3]. constructor; assumption. }
  pose proof (wire_len _ _ _ Hb (v4_wire_length _ _ _ _)) as Lh. rewrite Lh. unfold pad_opts, with_opts. cbn [h_opts with_proto].
  rewrite app_length, repeat_length. unfold blen in *.
  set (u := Z.of_nat (length (h_opts h))) in *.
  pose proof (Z.div_mod u 4 ltac:(lia)) as D1. pose proof (Z.mod_pos_bound u 4 ltac:(lia)) as M1.
  pose proof (Z.div_mod (u + 3) 4 ltac:(lia)) as D2. pose proof (Z.mod_pos_bound (u + 3) 4 ltac:(lia)) as M2.
  pose proof (Z.div_mod (4 - u mod 4) 4 ltac:(lia)) as D3. pose proof (Z.mod_pos_bound (4 - u mod 4) 4 ltac:(lia)) as M3.
  assert ((4 - u mod 4) / 4 = 0 \/ (4 - u mod 4) / 4 = 1) as [Q|Q] by lia; rewrite Q in *; lia.
Qed.

Lemma firstn_app_len {A} (a b : list A) n : length a = n -> firstn n (a ++ b) = a.
Proof. intros <-. rewrite firstn_app, firstn_all, Nat.sub_diag. cbn. apply app_nil_r. Qed.
Lemma skipn_app_len {A} (a b : list A) n : length a = n -> skipn n (a ++ b) = b.
Proof. intros <-. rewrite skipn_app, skipn_all, Nat.sub_diag. reflexivity. Qed.
Lemma v4_ck_range ihl tl h ck : v4_ck ihl tl h ck -> 0 <= ck < 65536.
Proof. intros (hb & _ & <-). destruct (ones_complement_spec hb) as (H & _). lia. Qed.

Lemma v4_ck_verifies ihl tl h ck hb : v4_ck ihl tl h ck -> bits_of_bytes hb = v4_wire ihl tl h ck ->
  word_sum hb mod 65535 = 0 /\ rfc1071 hb 0.
Proof.
  intros Hck Hb. pose proof (v4_ck_range _ _ _ _ Hck) as R. destruct Hck as (hb0 & Hb0 & Ho).
  pose proof (wire_sum _ _ _ _ _ _ Hb R Hb0) as Hs. destruct (ones_complement_spec hb0) as (_ & Hm & _). rewrite Ho in Hm.
  assert (word_sum hb mod 65535 = 0) as Hz by (rewrite Hs, Z.add_comm; exact Hm).
  split; [exact Hz|]. apply C07_internet_checksum. apply zero_iff; [exact Hz|]. eapply wire_sum_pos; exact Hb.
Qed.

(** C08: every emitted IPv4 header verifies *)
Theorem C08_emitted_ipv4_checksum : forall (h : v4h) (p : pkt) (out : bytes),
  pkt_to_bytes (PIPv4 h p) = Ok out ->
  let header := Z.to_nat (4 * field 4 4 out) in
  (20 <= header <= length out)%nat /\ rfc1071 (firstn header out) 0.
Proof.
  intros h p out H. destruct (v4_emitted _ _ _ H) as (pb & hb & ck & _ & -> & Hb & Hck & Hi & Ht & Hf & Hr & Lh).
  pose proof (v4_ck_range _ _ _ _ Hck) as R. cbn zeta.
  assert (bits_of_bytes (hb ++ pb) = v4_wire (5 + (blen (h_opts h) + 3) / 4) (20 + blen pb) (pad_opts (with_proto h (fix_nh (h_proto h) p))) ck ++ bits_of_bytes pb) as Hw
    by (rewrite bits_of_bytes_app, Hb; reflexivity).
  assert (field 4 4 (hb ++ pb) = 5 + (blen (h_opts h) + 3) / 4) as ->.
  { destruct (v4_rfc791 _ _ _ _ _ _ Hw ltac:(lia) ltac:(unfold blen in *; lia) R Hf Hr) as (HL & _).
    exact (layout_at _ _ _ _ _ HL (or_intror (or_introl eq_refl))). }
  rewrite firstn_app_len by exact Lh. rewrite app_length. split; [lia|]. eapply v4_ck_verifies; eauto.
Qed.
Print Assumptions C08_emitted_ipv4_checksum.

(** ** accepted packets *)
Lemma v4_accepted dec d q : pkt_from_bytes (KIPv4 dec) d = Ok q ->
  exists ihl h ck hb pb p, d = hb ++ pb /\ q = PIPv4 h p /\
    bits_of_bytes hb = v4_wire ihl (blen d) h ck /\ v4_ck ihl (blen d) h ck /\ 5 <= ihl < 16 /\ blen d < 65536 /\
    v4_fits h /\ v4_rng h /\ length hb = Z.to_nat (4 * ihl) /\ length (h_opts h) = Z.to_nat (4 * ihl - 20) /\
    decode (parse (length d)) dec (h_proto h) pb = Ok p.
Proof.
  intros H. rewrite from_bytes_layer in H. cbn [layer] in H. apply rd_v4_inv in H.
  destruct H as (ihl & tl & h & ck & pb & p & Hs & Hi & Hopt & Ht & Htl & Hf & Hrg & Hck & Hd & ->).
  rewrite (decode_fix _ _ _ _ _ Hd), with_proto_id.
  destruct (bits_tail d _ pb (20 + length (h_opts h)) Hs) as (hb & -> & Hb & Lh); [rewrite v4_wire_length; reflexivity|].
  assert (tl = blen (hb ++ pb)) as -> by (rewrite blen_app; unfold blen in *; lia).
  exists ihl, h, ck, hb, pb, p. repeat (split; [first [reflexivity|assumption|lia]|]). exact Hd.
Qed.

(** C14: accepted IPv4 packets are internally consistent *)
Theorem C14_accepted_ipv4 : forall (dec : bool) (d : bytes) (q : pkt),
  pkt_from_bytes (KIPv4 dec) d = Ok q ->
  exists h p ihl ck, q = PIPv4 h p /\
    5 <= ihl <= 15 /\ (Z.to_nat (4 * ihl) <= length d)%nat /\
    rfc791 d ihl (blen d) ck h /\ length (h_opts h) = (Z.to_nat (4 * ihl) - 20)%nat /\
    rfc1071 (firstn (Z.to_nat (4 * ihl)) d) 0 /\
    (h_df h = true -> h_off h = 0) /\
    (dec = false -> p = PRaw (skipn (Z.to_nat (4 * ihl)) d)) /\
    (dec = true -> payload_is (h_proto h) (skipn (Z.to_nat (4 * ihl)) d) p).
Proof.
  intros dec d q H. destruct (v4_accepted _ _ _ H) as (ihl & h & ck & hb & pb & p & Ed & -> & Hb & Hck & Hi & Ht & Hf & Hr & Lh & Lo & Hd).
  pose proof (v4_ck_range _ _ _ _ Hck) as R. exists h, p, ihl, ck. split; [reflexivity|]. split; [lia|].
  assert (length hb <= length d)%nat as Ld by (rewrite Ed, app_length; lia).
  split; [lia|]. split.
  { eapply (v4_rfc791 d ihl (blen d) h ck (bits_of_bytes pb)); try assumption; try lia.
    - rewrite Ed at 1. rewrite bits_of_bytes_app, Hb. reflexivity.
    - unfold blen in *; lia. }
  split; [lia|].
  assert (firstn (Z.to_nat (4 * ihl)) d = hb /\ skipn (Z.to_nat (4 * ihl)) d = pb) as [-> ->].
  { rewrite Ed. split; [apply firstn_app_len|apply skipn_app_len]; exact Lh. }
  split; [eapply v4_ck_verifies; eauto|]. split; [apply vf_df; exact Hf|].
  split.
  - intros ->. cbn in Hd. okinj Hd. reflexivity.
  - intros ->. eapply decode_payload_is; [|exact Hd]. rewrite Ed, app_length. lia.
Qed.
Print Assumptions C14_accepted_ipv4.

(** C09: a changed header word is noticed *)
Lemma header_sum dec d q : pkt_from_bytes (KIPv4 dec) d = Ok q ->
  word_sum (firstn (Z.to_nat (4 * field 4 4 d)) d) mod 65535 = 0 /\ (Z.to_nat (4 * field 4 4 d) <= length d)%nat /\
  5 <= field 4 4 d < 16.
Proof.
  intros H. destruct (v4_accepted _ _ _ H) as (ihl & h & ck & hb & pb & p & Ed & -> & Hb & Hck & Hi & Ht & Hf & Hr & Lh & Lo & Hd).
  assert (field 4 4 d = ihl) as ->.
  { assert (bits_of_bytes d = v4_wire ihl (blen d) h ck ++ bits_of_bytes pb) as Hw by (rewrite Ed at 1; rewrite bits_of_bytes_app, Hb; reflexivity).
    destruct (v4_rfc791 _ _ _ _ _ _ Hw ltac:(lia) ltac:(unfold blen in *; lia) (v4_ck_range _ _ _ _ Hck) Hf Hr) as (HL & _).
    exact (layout_at _ _ _ _ _ HL (or_intror (or_introl eq_refl))). }
  split; [|split; [rewrite Ed, app_length; lia|lia]]. rewrite Ed, firstn_app_len by exact Lh. eapply v4_ck_verifies; eauto.
Qed.
Theorem C09_corrupted_word_rejected : forall (dec : bool) (a x x' b : bytes) (q : pkt),
  pkt_from_bytes (KIPv4 dec) (a ++ x ++ b) = Ok q ->
  length x = 2%nat -> length x' = 2%nat -> Nat.even (length a) = true ->
  Z.of_nat (length a) < 4 * field 4 4 (a ++ x ++ b) ->                 (* the word lies in the header *)
  field 4 4 (a ++ x' ++ b) = field 4 4 (a ++ x ++ b) ->                (* header length not touched *)
  be x' mod 65535 <> be x mod 65535 ->
  is_ok (pkt_from_bytes (KIPv4 dec) (a ++ x' ++ b)) = false.
Proof.
  intros dec a x x' b q H Lx Lx' Ea Hin Hf Hne. destruct (pkt_from_bytes (KIPv4 dec) (a ++ x' ++ b)) as [q'|e] eqn:E; [|reflexivity].
  exfalso. apply Hne. destruct (header_sum _ _ _ H) as (S1 & L1 & I1). destruct (header_sum _ _ _ E) as (S2 & _ & _). rewrite Hf in S2.
  set (n := Z.to_nat (4 * field 4 4 (a ++ x ++ b))) in *.
  assert (exists m, length a = 2 * m)%nat as [m Hm] by (apply Nat.even_spec in Ea; destruct Ea as [m Hm]; exists m; lia).
  assert (exists k, n = 2 * k)%nat as [k Hk] by (exists (Z.to_nat (2 * field 4 4 (a ++ x ++ b))); lia).
  assert (length a + 2 <= n)%nat as Ln by lia.
  assert (forall y, length y = 2%nat -> firstn n (a ++ y ++ b) = a ++ y ++ firstn (n - length a - 2) b) as Hfn.
  { intros y Ly. rewrite firstn_app, firstn_all2 by lia. f_equal. rewrite firstn_app, firstn_all2 by lia. f_equal. rewrite Ly. reflexivity. }
  rewrite Hfn in S1, S2 by assumption.
  rewrite (word_sum_app a), (word_sum_app x), (word_sum_pair x) in S1 by first [assumption|apply (odd_even_app _ m); exact Hm|apply (odd_even_app _ 1); exact Lx].
  rewrite (word_sum_app a), (word_sum_app x'), (word_sum_pair x') in S2 by first [assumption|apply (odd_even_app _ m); exact Hm|apply (odd_even_app _ 1); exact Lx'].
  set (A := word_sum a) in *. set (Bb := word_sum (firstn (n - length a - 2) b)) in *. clearbody A Bb.
  replace (be x') with ((be x' - be x) + be x) by lia.
  assert ((be x' - be x) mod 65535 = 0) as D.
  { replace (be x' - be x) with ((A + (be x' + Bb)) - (A + (be x + Bb))) by lia. rewrite Zminus_mod, S1, S2. reflexivity. }
  rewrite Z.add_mod, D, Z.add_0_l, Z.mod_mod by lia. reflexivity.
Qed.
Print Assumptions C09_corrupted_word_rejected.
