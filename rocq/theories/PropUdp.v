(** * Properties C09 (single bits), C10, C11, C17: UDP and checksums. *)
From Verif Require Import Base BaseLemmas Afi AfiProofs Spec SpecLemmas Records Control SpecRec
  RecordsProofs ControlProofs PropControl PropLayout Checksum ChecksumProofs Packet PacketProofs PacketStack SpecPkt PropPacket.

(** ** flipping one bit of an IPv4 header *)
Lemma field1_nth i b : (i < 8 * length b)%nat -> field i 1 b = Z.b2z (nth i (bits_of_bytes b) false).
Proof.
  intros H. rewrite <- bits_of_bytes_length in H.
  destruct (nth_split (bits_of_bytes b) false H) as (p & s & E & L). eapply field_bool; eassumption.
Qed.
Lemma flip_split (L L' : list bool) i : length L' = length L -> (i < length L)%nat ->
  nth i L' false <> nth i L false -> (forall j, (j < length L)%nat -> j <> i -> nth j L' false = nth j L false) ->
  exists u v w, L = u ++ v :: w /\ L' = u ++ negb v :: w /\ length u = i.
Proof.
  intros Hl Hi Hn Ho. destruct (nth_split L false Hi) as (u & w & E & Lu). exists u, (nth i L false), w. split; [exact E|]. split; [|exact Lu].
  assert (length L = S (length u + length w)) as LL by (rewrite E at 1; rewrite app_length; cbn; lia).
  apply (nth_ext _ _ false false); [rewrite app_length; cbn; lia|]. intros j Hj. rewrite Hl in Hj.
  destruct (Nat.eq_dec j i) as [->|Hne].
  - rewrite app_nth2, Lu, Nat.sub_diag by lia. cbn [nth]. destruct (nth i L' false), (nth i L false); cbn; congruence.
  - rewrite Ho by assumption. rewrite E. destruct (Nat.lt_ge_cases j (length u)).
    + rewrite !app_nth1 by assumption. reflexivity.
    + rewrite !app_nth2 by assumption. destruct (j - length u)%nat eqn:Ej; [lia|]. reflexivity.
Qed.
Lemma bits_of_bytes_flip d d' i : bit_flipped i d d' ->
  exists u v w, bits_of_bytes d = u ++ v :: w /\ bits_of_bytes d' = u ++ negb v :: w /\ length u = i.
Proof.
  intros (Hl & Hi & Hn & Ho). apply flip_split.
  - rewrite !bits_of_bytes_length. lia.
  - rewrite bits_of_bytes_length. exact Hi.
  - intros E. apply Hn. rewrite !field1_nth by lia. rewrite E. reflexivity.
  - intros j Hj Hne. rewrite bits_of_bytes_length in Hj. specialize (Ho j Hj Hne). rewrite !field1_nth in Ho by lia.
    destruct (nth j (bits_of_bytes d') false), (nth j (bits_of_bytes d) false); cbn in Ho; congruence.
Qed.
Lemma flip_mod a b (v : bool) n : (n < 16)%nat ->
  (a * 2 ^ Z.of_nat (S n) + (Z.b2z (negb v) * 2 ^ Z.of_nat n + b)) mod 65535 <>
  (a * 2 ^ Z.of_nat (S n) + (Z.b2z v * 2 ^ Z.of_nat n + b)) mod 65535.
Proof.
  intros Hn E. set (X := a * 2 ^ Z.of_nat (S n) + b) in *.
  assert (2 ^ Z.of_nat n mod 65535 = 0) as Q.
  { destruct v; cbn [negb Z.b2z] in E; rewrite ?Z.mul_0_l, ?Z.mul_1_l, ?Z.add_0_l in E.
    - replace (2 ^ Z.of_nat n) with ((a * 2 ^ Z.of_nat (S n) + (2 ^ Z.of_nat n + b)) - (a * 2 ^ Z.of_nat (S n) + b)) by lia.
      rewrite Zminus_mod, <- E, Z.sub_diag. reflexivity.
    - replace (2 ^ Z.of_nat n) with ((a * 2 ^ Z.of_nat (S n) + (2 ^ Z.of_nat n + b)) - (a * 2 ^ Z.of_nat (S n) + b)) by lia.
      rewrite Zminus_mod, E, Z.sub_diag. reflexivity. }
  do 16 (destruct n as [|n]; [vm_compute in Q; discriminate|]). lia.
Qed.
Lemma split_at {A} (l : list A) n : (n <= length l)%nat -> exists a b, l = a ++ b /\ length a = n.
Proof. intros H. exists (firstn n l), (skipn n l). split; [symmetry; apply firstn_skipn|apply firstn_length_le; exact H]. Qed.
Lemma app_eq_split {A} (a b c d : list A) : a ++ b = c ++ d -> (length a <= length c)%nat -> exists e, c = a ++ e /\ b = e ++ d.
Proof.
  revert c. induction a as [|x a IH]; intros c H L; [exists c; auto|]. destruct c as [|y c]; [cbn in L; lia|].
  cbn in H, L. injection H as -> H. destruct (IH c H ltac:(lia)) as (e & -> & ->). exists e. auto.
Qed.

(** C09, single bits: the statement's "in particular" *)
Theorem C09_flipped_bit_rejected : forall (dec : bool) (d d' : bytes) (q : pkt) (i : nat),
  pkt_from_bytes (KIPv4 dec) d = Ok q ->
  bit_flipped i d d' -> Z.of_nat i < 32 * field 4 4 d -> ~ (4 <= i < 8)%nat ->
  is_ok (pkt_from_bytes (KIPv4 dec) d') = false.
Proof.
  intros dec d d' q i H Hfl Hi Hni. destruct (header_sum _ _ _ H) as (_ & Hlen & Hf).
  assert (field 4 4 d' = field 4 4 d) as Hff.
  { destruct Hfl as (Hl & Hil & _ & Ho).
    assert (4 + 4 <= 8 * length d)%nat by lia.
    rewrite !field_fbits by lia. f_equal. unfold fbits.
    apply (nth_ext _ _ false false); [rewrite !firstn_length, !skipn_length, !bits_of_bytes_length; lia|].
    intros j Hj. rewrite firstn_length, skipn_length, bits_of_bytes_length in Hj.
    assert (forall b, (8 <= 8 * length b)%nat -> nth j (firstn 4 (skipn 4 (bits_of_bytes b))) false = nth (4 + j) (bits_of_bytes b) false) as Hnth.
    { intros b Hb. rewrite <- (firstn_skipn 4 (bits_of_bytes b)) at 2. rewrite app_nth2; rewrite firstn_length_le by (rewrite bits_of_bytes_length; lia); [|lia].
      replace (4 + j - 4)%nat with j by lia. rewrite <- (firstn_skipn 4 (skipn 4 (bits_of_bytes b))) at 2.
      rewrite app_nth1; [reflexivity|]. rewrite firstn_length_le by (rewrite skipn_length, bits_of_bytes_length; lia). lia. }
    rewrite !Hnth by lia. specialize (Ho (4 + j)%nat ltac:(lia) ltac:(lia)). rewrite !field1_nth in Ho by lia.
    destruct (nth (4 + j) (bits_of_bytes d') false), (nth (4 + j) (bits_of_bytes d) false); cbn in Ho; congruence. }
  destruct (bits_of_bytes_flip _ _ _ Hfl) as (u & v & w & Eu & Eu' & Lu).
  pose (k := (i / 16)%nat). pose proof (Nat.div_mod i 16 ltac:(lia)) as Dk. pose proof (Nat.mod_upper_bound i 16 ltac:(lia)) as Mk. fold k in Dk.
  destruct (split_at d (2 * k)) as (a & r & -> & La); [lia|].
  rewrite app_length in Hlen.
  destruct (split_at r 2) as (x & b & -> & Lx); [lia|].
  rewrite !bits_of_bytes_app in Eu. symmetry in Eu.
  destruct (app_eq_split (bits_of_bytes a) (bits_of_bytes x ++ bits_of_bytes b) u (v :: w)) as (u' & -> & E2);
    [symmetry; exact Eu|rewrite bits_of_bytes_length; lia|].
  rewrite app_length, bits_of_bytes_length in Lu.
  destruct (app_eq_split (u' ++ [v]) w (bits_of_bytes x) (bits_of_bytes b)) as (w' & E3 & ->).
  { rewrite <- app_assoc. symmetry. exact E2. }
  { rewrite app_length, bits_of_bytes_length. cbn. lia. }
  assert (length u' + S (length w') = 16)%nat as Lw.
  { apply (f_equal (@length bool)) in E3. rewrite bits_of_bytes_length, !app_length in E3. cbn in E3. lia. }
  destruct (head_bytes (u' ++ negb v :: w') 2) as (x' & Bx' & Lx' & _); [rewrite app_length; cbn; lia|].
  assert (d' = a ++ x' ++ b) as ->.
  { apply bits_of_bytes_inj. rewrite Eu', !bits_of_bytes_app, Bx', <- !app_assoc. reflexivity. }
  eapply C09_corrupted_word_rejected; eauto.
  - rewrite La, Nat.even_mul. reflexivity.
  - lia.
  - rewrite !be_ub, Bx', E3, <- app_assoc. cbn [app]. rewrite !ub_app. cbn [ub length]. apply flip_mod. lia.
Qed.
Print Assumptions C09_flipped_bit_rejected.

(** ** UDP checksums *)
Lemma bits_layout_len b w k : bits_of_bytes b = w -> length w = (8 * k)%nat -> length b = k.
Proof. apply wire_len. Qed.
Lemma pseudo_ok u s d ph : pseudo_header u s d = Ok ph ->
  exists pb, pkt_to_bytes (u_payload u) = Ok pb /\ pseudo s d (8 + blen pb) ph.
Proof.
  unfold pseudo_header. intros H. bo H pb E. exists pb. split; [exact E|]. cbn zeta in H.
  destruct s as [|[] a| | | | | | |]; try discriminate; destruct d as [|[] b| | | | | | |]; try discriminate.
  - bo H x E1. bo H y E2. bo H z E3. bo H l E4. winv. apply bytes_of_bits_ok in H. symmetry in H.
    assert (length ph = 12%nat) as L by (apply (wire_len _ _ _ H); rewrite !app_length, !enc_length; reflexivity).
    change (enc 16 17) with (enc 8 0 ++ enc 8 17) in H. flat H.
    constructor; [exact L|]. unfold layout. rewrite L.
    repeat (apply Forall_cons; [split; [lia|]; fld H; try (apply ub_enc; cbn; lia)|]); apply Forall_nil.
  - bo H x E1. bo H y E2. bo H l E4. bo H z E3. winv. apply bytes_of_bits_ok in H. symmetry in H.
    assert (length ph = 40%nat) as L by (apply (wire_len _ _ _ H); rewrite !app_length, !enc_length; reflexivity).
    change (enc 32 17) with (enc 24 0 ++ enc 8 17) in H. flat H.
    constructor; [exact L|]. unfold layout. rewrite L.
    repeat (apply Forall_cons; [split; [lia|]; fld H; try (apply ub_enc; cbn; lia)|]); apply Forall_nil.
Qed.
Lemma pseudo_len s d n ph : pseudo s d n ph -> Nat.odd (length ph) = false /\ 0 < word_sum ph.
Proof.
  assert (forall b l k, layout b l -> In (k, 8%nat, 17%Z) l -> 0 < word_sum b) as Hpos.
  { intros b l k Hl Hi. pose proof (layout_at _ _ _ _ _ Hl Hi) as F.
    destruct (Z.eq_dec (word_sum b) 0) as [Z0|NZ]; [|pose proof (word_sum_nonneg b); lia]. exfalso.
    assert (forall m : list byte, word_sum m = 0 -> be m = 0) as Hz.
    { clear. induction m as [|x|x y r IH] using bytes_ind2; [reflexivity| |]; cbn [word_sum]; intros H.
      - pose proof (byte_val_range x). cbn [be length]. lia.
      - pose proof (byte_val_range x). pose proof (byte_val_range y). pose proof (word_sum_nonneg r).
        cbn [be]. rewrite IH by lia. assert (byte_val x = 0) as -> by lia. assert (byte_val y = 0) as -> by lia. lia. }
    unfold field in F. rewrite Hz in F by exact Z0. rewrite Zdiv_0_l, Zmod_0_l in F. discriminate. }
  destruct 1 as [s d n ph L Hl|s d n ph L Hl]; rewrite L; split; try reflexivity; eapply Hpos; try exact Hl; cbn; auto 10.
Qed.
Lemma skipn_skipn' {A} (l : list A) : forall x y, skipn x (skipn y l) = skipn (y + x) l.
Proof. induction l as [|a l IH]; intros x [|y]; cbn; auto using skipn_nil. Qed.
Lemma pseudo_det s d n ph ph' : pseudo s d n ph -> pseudo s d n ph' -> ph = ph'.
Proof.
  assert (forall b b' l, length b = length b' -> layout b l -> layout b' l ->
            (exists ws, map fst l = ws /\ (fix ok (o : nat) (ws : list (nat * nat)) : Prop :=
               match ws with [] => o = (8 * length b)%nat | (o', w) :: r => o' = o /\ ok (o + w)%nat r end) 0%nat ws) -> b = b') as Hx.
  { intros b b' l Ll H1 H2 (ws & Hw & Hok). apply bits_of_bytes_inj.

    assert (forall o ws l, map fst l = ws ->
        (fix ok (o : nat) (ws : list (nat * nat)) : Prop :=
               match ws with [] => o = (8 * length b)%nat | (o', w) :: r => o' = o /\ ok (o + w)%nat r end) o ws ->
        layout b l -> layout b' l -> skipn o (bits_of_bytes b) = skipn o (bits_of_bytes b')) as G.
      { clear - Ll. intros o ws. revert o. induction ws as [|[o' w] ws IH]; intros o l Hm Hok H1 H2.
        - rewrite !skipn_all2 by (rewrite bits_of_bytes_length; lia). reflexivity.
        - destruct l as [|[[o'' w'] v] l]; [discriminate|]. cbn in Hm. injection Hm as -> -> Hm. destruct Hok as [-> Hok].
          apply Forall_cons_iff in H1, H2. destruct H1 as [[A1 A2] H1'], H2 as [[B1 B2] H2']. rewrite <- A2 in B2. clear A2.
          rewrite <- (firstn_skipn w (skipn o (bits_of_bytes b))), <- (firstn_skipn w (skipn o (bits_of_bytes b'))).
          f_equal.
          + rewrite !field_fbits in B2 by assumption. unfold fbits in B2. apply ub_inj; [|symmetry; exact B2].
            rewrite !firstn_length_le by (rewrite skipn_length, bits_of_bytes_length; lia). reflexivity.
          + rewrite !skipn_skipn'. eapply IH; eauto. }
      apply (G 0%nat ws l); assumption. }
  destruct 1 as [s d n ph L Hl|s d n ph L Hl]; inversion 1 as [? ? ? ? L' Hl'|? ? ? ? L' Hl']; subst;
    eapply Hx; try exact Hl; try exact Hl'; try congruence; eexists; (split; [reflexivity|]); cbn [map fst]; rewrite L; lia.
Qed.

Lemma udp_bytes u m : pkt_to_bytes (udp_pkt u) = Ok m ->
  exists hb pb, pkt_to_bytes (u_payload u) = Ok pb /\ m = hb ++ pb /\
    bits_of_bytes hb = udp_wire (u_sport u) (u_dport u) (u_ck u) pb /\
    u16 (u_sport u) /\ u16 (u_dport u) /\ u16 (u_ck u) /\ u16 (blen pb + 8).
Proof.
  unfold udp_pkt. cbn [pkt_to_bytes]. intros H. paybytes H (u_payload u) pb Ep.
  apply w_udp_inv in H. destruct H as (hb & -> & Hb & R1 & R2 & R3 & R4). exists hb, pb. auto 10.
Qed.
Lemma udp_wire_sum sp dp ck hb hb0 pb : bits_of_bytes hb = udp_wire sp dp ck pb -> bits_of_bytes hb0 = udp_wire sp dp 0 pb ->
  u16 ck -> word_sum (hb ++ pb) = word_sum (hb0 ++ pb) + ck.
Proof.
  intros H H0 R. unfold udp_wire in *.
  destruct (head_bytes (enc 16 sp ++ enc 16 dp ++ enc 16 (blen pb + 8)) 6) as (a & Ba & La & _); [rewrite !app_length, !enc_length; reflexivity|].
  destruct (head_bytes (enc 16 ck) 2 (enc_length _ _)) as (c & Bc & Lc & _).
  destruct (head_bytes (enc 16 0) 2 (enc_length _ _)) as (z & Bz & Lz & _).
  assert (hb = a ++ c) as -> by (apply bits_of_bytes_inj; rewrite H, bits_of_bytes_app, Ba, Bc, <- !app_assoc; reflexivity).
  assert (hb0 = a ++ z) as -> by (apply bits_of_bytes_inj; rewrite H0, bits_of_bytes_app, Ba, Bz, <- !app_assoc; reflexivity).
  rewrite <- !app_assoc.
  rewrite !(word_sum_app a), (word_sum_app c), (word_sum_app z), (word_sum_pair c), (word_sum_pair z)
    by first [assumption|apply (odd_even_app _ 3); assumption|apply (odd_even_app _ 1); assumption].
  rewrite !be_ub, Bc, Bz, !ub_enc by (unfold u16 in R; cbn; lia). lia.
Qed.

(** what a computation that succeeds has done *)
Lemma calc_ok u s d u' c : calculate_checksum u s d = (u', Ok c) ->
  u' = u /\ exists ph m0, pseudo_header u s d = Ok ph /\ pkt_to_bytes (udp_pkt (set_uck u 0)) = Ok m0 /\
    c = (if ones_complement (ph ++ m0) =? 0 then 65535 else ones_complement (ph ++ m0)).
Proof.
  unfold calculate_checksum. destruct (pseudo_header u s d) as [ph|]; [|discriminate].
  destruct (pkt_to_bytes (udp_pkt (set_uck u 0))) as [m|] eqn:E; [|discriminate]. intros H.
  injection H as <- <-. split; [destruct u; reflexivity|]. eauto.
Qed.
Lemma calc_range ph m : 1 <= (if ones_complement (ph ++ m) =? 0 then 65535 else ones_complement (ph ++ m)) <= 65535.
Proof. destruct (ones_complement_spec (ph ++ m)) as (R & _). destruct (_ =? 0) eqn:E; lia. Qed.
Lemma calc_value ph m : 0 < word_sum (ph ++ m) ->
  forall ck, 1 <= ck <= 65535 ->
  (ck = (if ones_complement (ph ++ m) =? 0 then 65535 else ones_complement (ph ++ m)) <-> (word_sum (ph ++ m) + ck) mod 65535 = 0).
Proof.
  intros Hp ck Hck. destruct (ones_complement_spec (ph ++ m)) as (R & Hm & _).
  set (w := word_sum (ph ++ m)) in *. set (o := ones_complement (ph ++ m)) in *. clearbody w o.
  assert (forall a b, (w + a) mod 65535 = 0 -> (b + w) mod 65535 = 0 -> (a - b) mod 65535 = 0) as Hd.
  { intros a b Ha Hb. replace (a - b) with ((w + a) - (b + w)) by lia. rewrite Zminus_mod, Ha, Hb. reflexivity. }
  destruct (o =? 0) eqn:E.
  - assert (o = 0) as -> by lia. split.
    + intros ->. rewrite Z.add_mod, Z_mod_same_full, Z.add_0_r, Z.mod_mod by lia. exact Hm.
    + intros H. pose proof (Hd _ _ H Hm) as D. rewrite Z.sub_0_r in D. pose proof (Z.div_mod ck 65535 ltac:(lia)). lia.
  - split.
    + intros ->. rewrite Z.add_comm. exact Hm.
    + intros H. pose proof (Hd _ _ H Hm) as D. pose proof (Z.div_mod (ck - o) 65535 ltac:(lia)). lia.
Qed.
Lemma pseudo_header_ck u s d c : pseudo_header (set_uck u c) s d = pseudo_header u s d.
Proof. reflexivity. Qed.

(** C10: a computed checksum verifies, is never zero, and computing leaves the message as it was *)
Theorem C10_computed_checksum_verifies : forall (u u' : udp) (s d : addr) (c : Z),
  calculate_checksum u s d = (u', Ok c) ->
  u' = u /\ 1 <= c <= 65535 /\ verify_checksum (set_uck u c) s d = (set_uck u c, Ok true).
Proof.
  intros u u' s d c H. apply calc_ok in H. destruct H as (-> & ph & m0 & Hp & Hm & Hc).
  split; [reflexivity|]. pose proof (calc_range ph m0) as R. rewrite <- Hc in R. split; [exact R|].
  unfold verify_checksum. cbn [u_ck set_uck]. assert (c =? 0 = false) as -> by lia.
  unfold calculate_checksum. rewrite pseudo_header_ck, Hp.
  change (set_uck (set_uck u c) 0) with (set_uck u 0). rewrite Hm. cbn zeta. cbn [bind]. rewrite <- Hc.
  rewrite Z.eqb_refl. reflexivity.
Qed.
Print Assumptions C10_computed_checksum_verifies.
Theorem C10_zero_checksum_verifies : forall (u : udp) (s d : addr),
  u_ck u = 0 -> verify_checksum u s d = (u, Ok true).
Proof. intros u s d H. unfold verify_checksum. rewrite H. reflexivity. Qed.
Print Assumptions C10_zero_checksum_verifies.
(** when the computation succeeds, and what the value is *)
Theorem C10_computed_value : forall (u : udp) (s d : addr) (m : bytes),
  pkt_to_bytes (udp_pkt u) = Ok m ->
  (forall ph, pseudo s d (blen m) ph ->
    exists c, calculate_checksum u s d = (u, Ok c) /\
      ((word_sum ph + word_sum m) - u_ck u + c) mod 65535 = 0).
Proof.
  intros u s d m H ph Hph. destruct (udp_bytes _ _ H) as (hb & pb & Hpb & -> & Hb & R1 & R2 & R3 & R4).
  pose proof (wire_len _ _ _ Hb (udp_wire_len _ _ _ _)) as Lh.
  assert (exists ph', pseudo_header u s d = Ok ph') as [ph' Hp'].
  { unfold pseudo_header. rewrite Hpb. cbn [bind]. cbn zeta.
    assert (0 <= 8 + blen pb < 2 ^ Z.of_nat 16 /\ 0 <= 8 + blen pb < 2 ^ Z.of_nat 32) as [R5 R6]
      by (unfold u16 in R4; change (2 ^ Z.of_nat 16) with 65536; change (2 ^ Z.of_nat 32) with 4294967296; lia).
    inversion Hph as [sa da n p L Hl|sa da n p L Hl]; subst.
    - pose proof (layout_at _ _ _ _ _ Hl (or_introl eq_refl)) as F1.
      pose proof (layout_at _ _ _ _ _ Hl (or_intror (or_introl eq_refl))) as F2.
      assert (forall o, 0 <= field o 32 ph < 2 ^ 32) as Hr by (intros; unfold field; apply Z.mod_pos_bound; reflexivity).
      rewrite <- F1, <- F2. rewrite !(w_uint_in 32) by apply Hr. cbn [bind]. rewrite w_uint_in by (cbn; lia). cbn [bind].
      rewrite w_uint_in by exact R5. cbn [bind].
      edestruct (bytes_of_bits_total) as [x [Hx _]]; [|eexists; exact Hx]. instantiate (1 := 12%nat). rewrite !app_length, !enc_length. reflexivity.
    - pose proof (layout_at _ _ _ _ _ Hl (or_introl eq_refl)) as F1.
      pose proof (layout_at _ _ _ _ _ Hl (or_intror (or_introl eq_refl))) as F2.
      assert (forall o, 0 <= field o 128 ph < 2 ^ 128) as Hr by (intros; unfold field; apply Z.mod_pos_bound; reflexivity).
      rewrite <- F1, <- F2. rewrite !(w_uint_in 128) by apply Hr. cbn [bind].
      rewrite w_uint_in by exact R6. cbn [bind]. rewrite w_uint_in by (cbn; lia). cbn [bind].
      edestruct (bytes_of_bits_total) as [x [Hx _]]; [|eexists; exact Hx]. instantiate (1 := 40%nat). rewrite !app_length, !enc_length. reflexivity. }
  destruct (pseudo_ok _ _ _ _ Hp') as (pb' & Hpb' & Hps). rewrite Hpb in Hpb'. okinj Hpb'.
  assert (blen (hb ++ pb) = 8 + blen pb) as Hbl by (rewrite blen_app; unfold blen; rewrite Lh; reflexivity).
  rewrite Hbl in Hph. pose proof (pseudo_det _ _ _ _ _ Hph Hps) as <-.
  destruct (w_udp_run (u_sport u) (u_dport u) 0 pb R1 R2 ltac:(unfold u16; lia) R4) as (hb0 & Hb0 & Hw0).
  assert (pkt_to_bytes (udp_pkt (set_uck u 0)) = Ok (hb0 ++ pb)) as Hm0 by (cbn [pkt_to_bytes udp_pkt set_uck u_sport u_dport u_ck u_payload]; rewrite Hpb; exact Hw0).
  unfold calculate_checksum. rewrite Hp', Hm0. eexists. split; [destruct u; reflexivity|].
  destruct (pseudo_len _ _ _ _ Hph) as [Ho Hpos]. pose proof (word_sum_nonneg (hb0 ++ pb)) as Hnn.
  rewrite (udp_wire_sum _ _ _ _ _ _ Hb Hb0 R3).
  assert (0 < word_sum (ph ++ hb0 ++ pb)) as Hp2 by (rewrite word_sum_app by exact Ho; lia).
  pose proof (proj1 (calc_value ph (hb0 ++ pb) Hp2 _ (calc_range ph (hb0 ++ pb))) eq_refl) as V.
  rewrite (word_sum_app ph) in V by exact Ho.
  match goal with |- (?a + ?b - ?k + ?c) mod _ = 0 => replace (a + b - k + c) with (word_sum ph + word_sum (hb0 ++ pb) + c) by lia end.
  exact V.
Qed.
Print Assumptions C10_computed_value.

(** C11: verification is the one's-complement sum over pseudo-header and message *)
Theorem C11_verifies_iff_sum : forall (u : udp) (s d : addr) (m ph : bytes),
  u_ck u <> 0 -> pkt_to_bytes (udp_pkt u) = Ok m -> pseudo s d (blen m) ph ->
  exists ok, verify_checksum u s d = (u, Ok ok) /\ (ok = true <-> (word_sum ph + word_sum m) mod 65535 = 0).
Proof.
  intros u s d m ph Hc Hm Hph. destruct (C10_computed_value _ _ _ _ Hm _ Hph) as (c & Hcalc & Hs).
  destruct (C10_computed_checksum_verifies _ _ _ _ _ Hcalc) as (_ & Rc & _).
  destruct (udp_bytes _ _ Hm) as (hb & pb & _ & _ & _ & _ & _ & R3 & _). unfold u16 in R3.
  unfold verify_checksum. assert (u_ck u =? 0 = false) as -> by lia. rewrite Hcalc. cbn [bind].
  eexists. split; [reflexivity|]. rewrite Z.eqb_eq. set (w := word_sum ph + word_sum m) in *. clearbody w. split.
  - intros E. rewrite E in Hs. replace (w - c + c) with w in Hs by lia. exact Hs.
  - intros Hw. assert ((c - u_ck u) mod 65535 = 0) as D.
    { replace (c - u_ck u) with ((w - u_ck u + c) - w) by lia. rewrite Zminus_mod, Hs, Hw. reflexivity. }
    pose proof (Z.div_mod (c - u_ck u) 65535 ltac:(lia)). lia.
Qed.
Print Assumptions C11_verifies_iff_sum.

Theorem C11_changed_word_detected : forall (u u' : udp) (s d : addr) (a x x' b : bytes),
  verify_checksum u s d = (u, Ok true) -> u_ck u <> 0 -> u_ck u' <> 0 ->
  pkt_to_bytes (udp_pkt u) = Ok (a ++ x ++ b) -> pkt_to_bytes (udp_pkt u') = Ok (a ++ x' ++ b) ->
  Nat.even (length a) = true ->
  (length x = 2%nat /\ length x' = 2%nat) \/ (length x = 1%nat /\ length x' = 1%nat /\ b = []) ->
  word_sum x' mod 65535 <> word_sum x mod 65535 ->
  verify_checksum u' s d = (u', Ok false).
Proof.
  intros u u' s d a x x' b Hv Hc Hc' Hm Hm' Ea Hlen Hne.
  assert (exists ph, pseudo s d (blen (a ++ x ++ b)) ph) as [ph Hph].
  { unfold verify_checksum in Hv. assert (u_ck u =? 0 = false) as E by lia. rewrite E in Hv.
    destruct (calculate_checksum u s d) as [u1 [c|]] eqn:Ec; [|discriminate].
    apply calc_ok in Ec. destruct Ec as (-> & ph & m0 & Hp & _ & _). exists ph. apply pseudo_ok in Hp. destruct Hp as (pb & Hpb & Hps).
    destruct (udp_bytes _ _ Hm) as (hb & pb' & Hpb' & -> & Hb & _). rewrite Hpb in Hpb'. okinj Hpb'.
    pose proof (wire_len _ _ _ Hb (udp_wire_len _ _ _ _)) as Lh.
    assert (blen (hb ++ pb) = 8 + blen pb) as -> by (rewrite blen_app; unfold blen; rewrite Lh; reflexivity). exact Hps. }
  assert (blen (a ++ x' ++ b) = blen (a ++ x ++ b)) as Hl.
  { unfold blen. rewrite !app_length. destruct Hlen as [[-> ->]|(-> & -> & _)]; reflexivity. }
  destruct (C11_verifies_iff_sum _ _ _ _ _ Hc Hm Hph) as (ok & Hv1 & Hi1). rewrite Hv in Hv1. injection Hv1 as <-.
  pose proof (proj1 Hi1 eq_refl) as S1. rewrite <- Hl in Hph.
  destruct (C11_verifies_iff_sum _ _ _ _ _ Hc' Hm' Hph) as (ok' & -> & Hi2).
  destruct ok'; [|reflexivity]. exfalso. pose proof (proj1 Hi2 eq_refl) as S2. apply Hne.
  assert (exists k, length a = 2 * k)%nat as [k Hk] by (apply Nat.even_spec in Ea; destruct Ea as [k Hk]; exists k; lia).
  assert (word_sum (x ++ b) - word_sum (x' ++ b) = word_sum x - word_sum x') as Hxx.
  { destruct Hlen as [[L1 L2]|(L1 & L2 & ->)].
    - rewrite (word_sum_app x), (word_sum_app x') by (rewrite ?L1, ?L2; reflexivity). lia.
    - rewrite !app_nil_r. reflexivity. }
  rewrite (word_sum_app a) in S1, S2 by (apply (odd_even_app _ k); exact Hk).
  replace (word_sum x') with (word_sum x + (word_sum x' - word_sum x)) by lia.
  assert ((word_sum x' - word_sum x) mod 65535 = 0) as D.
  { replace (word_sum x' - word_sum x) with ((word_sum ph + (word_sum a + word_sum (x' ++ b))) - (word_sum ph + (word_sum a + word_sum (x ++ b)))) by lia.
    rewrite Zminus_mod, S1, S2. reflexivity. }
  rewrite Z.add_mod, D, Z.add_0_r, Z.mod_mod by lia. reflexivity.
Qed.
Print Assumptions C11_changed_word_detected.

(** ** C17 *)
Lemma udp_payload_spec (D : bytes) s d (b : bytes) q : (length b < length D)%nat ->
  udp_payload (parse (length D)) s d b = Ok q <-> udp_payload_is s d b q.
Proof.
  intros L. unfold udp_payload. split.
  - destruct ((s =? 4341) || (d =? 4341)) eqn:E1.
    { rewrite nested_fuel by exact L. intros H. apply up_data; [lia|exact H]. }
    destruct ((s =? 4342) || (d =? 4342)) eqn:E2.
    { rewrite nested_fuel by exact L. intros H. apply up_control; [lia..|exact H]. }
    intros H. okinj H. apply up_bytes; lia.
  - destruct 1 as [q H1 H2|q H1 H2 H3 H4|H1 H2 H3 H4].
    + assert ((s =? 4341) || (d =? 4341) = true) as -> by lia. rewrite nested_fuel by exact L. exact H2.
    + assert ((s =? 4341) || (d =? 4341) = false) as -> by lia. assert ((s =? 4342) || (d =? 4342) = true) as -> by lia.
      rewrite nested_fuel by exact L. exact H4.
    + assert ((s =? 4341) || (d =? 4341) = false) as -> by lia. assert ((s =? 4342) || (d =? 4342) = false) as -> by lia. reflexivity.
Qed.
Lemma udp_layout D s d ck pb r : bits_of_bytes D = udp_wire s d ck pb ++ r -> u16 s -> u16 d -> u16 ck -> u16 (blen pb + 8) ->
  rfc768 D s d (blen pb + 8) ck.
Proof.
  intros H R1 R2 R3 R4. unfold u16 in *.
  assert (8 <= length D)%nat as L.
  { apply (f_equal (@length bool)) in H. rewrite app_length, udp_wire_len, bits_of_bytes_length in H. lia. }
  unfold udp_wire in H. flat H. unfold rfc768, layout. set (l := blen pb + 8) in *. clearbody l.
  repeat (apply Forall_cons; [split; [lia|]; fld H; try (apply ub_enc; cbn; lia)|]). apply Forall_nil.
Qed.
Theorem C17_udp_round_trip : forall (s d ck : Z) (p : pkt) (out : bytes),
  pkt_to_bytes (PUDP s d ck p) = Ok out ->
  rfc768 out s d (blen out) ck /\ 8 <= blen out /\
  exists b, pkt_to_bytes p = Ok b /\ skipn 8 out = b /\
    forall q, udp_payload_is s d b q <-> pkt_from_bytes KUDP out = Ok (PUDP s d ck q).
Proof.
  intros s d ck p out H. destruct (udp_bytes (UDP s d ck p) out H) as (hb & pb & Hpb & -> & Hb & R1 & R2 & R3 & R4).
  cbn [u_sport u_dport u_ck u_payload] in *. pose proof (wire_len _ _ _ Hb (udp_wire_len _ _ _ _)) as Lh.
  assert (blen (hb ++ pb) = blen pb + 8) as Hl by (rewrite blen_app; unfold blen; rewrite Lh; lia).
  assert (bits_of_bytes (hb ++ pb) = udp_wire s d ck pb ++ bits_of_bytes pb) as Hw by (rewrite bits_of_bytes_app, Hb; reflexivity).
  rewrite Hl. split; [eapply udp_layout; eauto|]. split; [pose proof (blen_nonneg pb); lia|].
  exists pb. split; [exact Hpb|]. split; [apply skipn_app_len; exact Lh|]. intros q.
  rewrite <- (udp_payload_spec (hb ++ pb)) by (rewrite app_length; lia).
  rewrite from_bytes_layer. cbn [layer]. rewrite Hw. split.
  - intros Hq. apply rd_udp_run; assumption.
  - intros Hq. apply rd_udp_inv in Hq. destruct Hq as (s' & d' & c' & pb' & p' & Hs & Q1 & Q2 & Q3 & Q4 & Hp & Hq).
    injection Hq as <- <- <- <-. assert (pb' = pb) as ->; [|exact Hp].
    apply app_inj_len in Hs; [|rewrite !udp_wire_len; reflexivity]. destruct Hs as [_ Hs]. apply bits_of_bytes_inj in Hs. auto.
Qed.
Print Assumptions C17_udp_round_trip.
Corollary C17_bytes_round_trip : forall (s d ck : Z) (b out : bytes),
  pkt_to_bytes (PUDP s d ck (PRaw b)) = Ok out -> s <> 4341 -> d <> 4341 -> s <> 4342 -> d <> 4342 ->
  pkt_from_bytes KUDP out = Ok (PUDP s d ck (PRaw b)).
Proof.
  intros s d ck b out H H1 H2 H3 H4. destruct (C17_udp_round_trip _ _ _ _ _ H) as (_ & _ & b' & Hb & _ & Hi).
  cbn in Hb. okinj Hb. apply Hi. apply up_bytes; assumption.
Qed.
Theorem C17_udp_accepted : forall (D : bytes) (q : pkt),
  pkt_from_bytes KUDP D = Ok q ->
  exists s d ck p, q = PUDP s d ck p /\ rfc768 D s d (blen D) ck /\ 8 <= blen D /\ udp_payload_is s d (skipn 8 D) p.
Proof.
  intros D q H. rewrite from_bytes_layer in H. cbn [layer] in H. apply rd_udp_inv in H.
  destruct H as (s & d & c & pb & p & Hs & R1 & R2 & R3 & R4 & Hp & ->). exists s, d, c, p. split; [reflexivity|].
  destruct (bits_tail D _ pb 8 Hs (udp_wire_len _ _ _ _)) as (hb & -> & Hb & Lh).
  assert (blen (hb ++ pb) = blen pb + 8) as Hl by (rewrite blen_app; unfold blen; rewrite Lh; lia).
  rewrite Hl. split; [eapply udp_layout; eauto|]. split; [pose proof (blen_nonneg pb); lia|].
  rewrite (skipn_app_len _ _ _ Lh). eapply udp_payload_spec; [|exact Hp]. rewrite app_length. lia.
Qed.
Print Assumptions C17_udp_accepted.

(** ** non-vacuity, and what is not true *)
Definition ex_v4 : v4h := V4H 0 7 false true 3 64 253 (AIP V4 3232235777) (AIP V4 167772161) [].
Definition ex_v4_wire : bytes := match pkt_to_bytes (PIPv4 ex_v4 (PRaw (B [1; 2; 3]))) with Ok b => b | Err _ => [] end.
Example C08_example : is_ok (pkt_to_bytes (PIPv4 (V4H 0 7 true false 0 64 253 (AIP V4 1) (AIP V4 2) (B [1; 1; 7])) (PRaw (B [1; 2; 3])))) = true.
Proof. vm_compute. reflexivity. Qed.
Example C09_example : pkt_from_bytes (KIPv4 true) ex_v4_wire = Ok (PIPv4 ex_v4 (PRaw (B [1; 2; 3]))) /\
  field 4 4 ex_v4_wire = 5 /\ bit_flipped 77 ex_v4_wire (firstn 9 ex_v4_wire ++ B [249] ++ skipn 10 ex_v4_wire).
Proof.
  split; [vm_compute; reflexivity|]. split; [vm_compute; reflexivity|].
  assert (length ex_v4_wire = 23%nat) as L by (vm_compute; reflexivity).
  split; [vm_compute; reflexivity|]. split; [rewrite L; lia|]. split; [vm_compute; discriminate|].
  intros j Hj Hn. rewrite L in Hj. apply Z.eqb_eq.
  assert (forallb (fun j => (j =? 77)%nat || (field j 1 (firstn 9 ex_v4_wire ++ B [249] ++ skipn 10 ex_v4_wire) =? field j 1 ex_v4_wire)) (seq 0 184) = true) as A
    by (vm_compute; reflexivity).
  rewrite forallb_forall in A. specialize (A j ltac:(apply in_seq; lia)). destruct (j =? 77)%nat eqn:E; [apply Nat.eqb_eq in E; lia|exact A].
Qed.
Definition ex_udp : udp := UDP 5353 53 0 (PRaw (B [1; 2; 3])).
Example C10_example : snd (calculate_checksum ex_udp (AIP V4 3232235777) (AIP V4 167772161)) = Ok 6926 /\
  is_ok (snd (calculate_checksum ex_udp (AIP V6 1) (AIP V6 2))) = true.
Proof. vm_compute. split; reflexivity. Qed.
Example C11_example :
  snd (verify_checksum (set_uck ex_udp 6926) (AIP V4 3232235777) (AIP V4 167772161)) = Ok true /\
  snd (verify_checksum (UDP 5353 53 6926 (PRaw (B [1; 2; 4]))) (AIP V4 3232235777) (AIP V4 167772161)) = Ok false.
Proof. vm_compute. split; reflexivity. Qed.
Example C17_example : is_ok (pkt_to_bytes (PUDP 4342 1 9 (PRaw (B [1; 2; 3])))) = true.
Proof. vm_compute. reflexivity. Qed.

(** C67: "a failed checksum computation leaves the message unchanged" is false: once the
    pseudo-header could be made, a failure leaves the checksum 0, which then always verifies *)
Theorem C67_failed_computation_clears_checksum : forall (u u' : udp) (s d : addr) (e : exn),
  calculate_checksum u s d = (u', Err e) ->
  u' = u \/ (u' = set_uck u 0 /\ verify_checksum u' s d = (u', Ok true)).
Proof.
  intros u u' s d e H. unfold calculate_checksum in H. destruct (pseudo_header u s d) as [ph|e0].
  - destruct (pkt_to_bytes (udp_pkt (set_uck u 0))); [discriminate|]. injection H as <- <-. right. split; [reflexivity|].
    apply C10_zero_checksum_verifies. reflexivity.
  - injection H as <- <-. left. reflexivity.
Qed.
Print Assumptions C67_failed_computation_clears_checksum.
Theorem C67_refuted : exists (u u' : udp) (s d : addr) (e : exn),
  calculate_checksum u s d = (u', Err e) /\ u_ck u = 17 /\ u_ck u' = 0.
Proof. exists (UDP 70000 1 17 (PRaw [])), (UDP 70000 1 0 (PRaw [])), (AIP V4 2), (AIP V4 1), EValue. vm_compute. auto. Qed.
Print Assumptions C67_refuted.
