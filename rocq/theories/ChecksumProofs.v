(** * The Internet checksum: property C07. *)
From Verif Require Import Base BaseLemmas Afi Spec SpecLemmas Checksum.

Lemma byte_val_range b : 0 <= byte_val b < 256.
Proof. unfold byte_val. pose proof (ub_range (bits_of_byte b)) as H. destruct b. exact H. Qed.

Lemma bytes_ind2 (P : list byte -> Prop) :
  P [] -> (forall a, P [a]) -> (forall a b r, P r -> P (a :: b :: r)) -> forall m : list byte, P m.
Proof.
  intros H0 H1 H2 m. assert (P m /\ forall a, P (a :: m)) as [H _]; [|exact H].
  induction m as [|x m [IH1 IH2]]; split; auto.
Qed.

Lemma word_sum_nonneg (m : list byte) : 0 <= word_sum m.
Proof.
  induction m as [|a|a b r IH] using bytes_ind2; cbn [word_sum]; [lia| |].
  - pose proof (byte_val_range a). lia.
  - pose proof (byte_val_range a). pose proof (byte_val_range b). lia.
Qed.

Lemma word_sum_pad (m : list byte) : Nat.odd (length m) = true -> word_sum (m ++ [zero_byte]) = word_sum m.
Proof.
  induction m as [|a|a b r IH] using bytes_ind2; intros H; try discriminate.
  - cbn [app word_sum]. change (byte_val zero_byte) with 0. lia.
  - cbn [app word_sum]. rewrite IH; [reflexivity|]. exact H.
Qed.

Lemma step_sum t : 0 <= t <= 131070 ->
  let r := Z.land t 65535 + Z.shiftr t 16 in
  0 <= r <= 65535 /\ r mod 65535 = t mod 65535 /\ (r = 0 <-> t = 0).
Proof.
  intros Ht r. unfold r. replace (Z.land t 65535) with (t mod 2 ^ 16)
    by (change 65535 with (Z.ones 16); rewrite Z.land_ones by lia; reflexivity).
  rewrite Z.shiftr_div_pow2 by lia. change (2 ^ 16) with 65536.
  pose proof (Z.div_mod t 65536 ltac:(lia)) as D. pose proof (Z.mod_pos_bound t 65536 ltac:(lia)) as M.
  assert (0 <= t / 65536 <= 1) as Q by lia.
  split; [lia|]. split; [|lia].
  replace t with (t mod 65536 + t / 65536 + (t / 65536) * 65535) at 3 by lia.
  rewrite Z.mod_add by lia. reflexivity.
Qed.

Lemma oc_loop_spec (m : list byte) : forall c, Nat.odd (length m) = false -> 0 <= c <= 65535 ->
  0 <= oc_loop c m <= 65535 /\ oc_loop c m mod 65535 = (c + word_sum m) mod 65535 /\
  (oc_loop c m = 0 <-> c + word_sum m = 0).
Proof.
  induction m as [|a|a b r IH] using bytes_ind2; intros c Ho Hc; try discriminate.
  - cbn [oc_loop word_sum]. rewrite Z.add_0_r. tauto.
  - cbn [oc_loop word_sum]. pose proof (byte_val_range a) as Ra. pose proof (byte_val_range b) as Rb.
    rewrite Z.shiftl_mul_pow2 by lia. change (2 ^ 8) with 256.
    set (t := c + (byte_val a * 256 + byte_val b)). pose proof (step_sum t) as S. cbn zeta in S.
    destruct S as (S1 & S2 & S3); [unfold t; lia|].
    destruct (IH _ Ho S1) as (I1 & I2 & I3). split; [exact I1|]. split.
    + rewrite I2, Z.add_mod, S2, <- Z.add_mod by lia. f_equal. unfold t. lia.
    + pose proof (word_sum_nonneg r). unfold t in *. lia.
Qed.

Definition padded (m : bytes) : bytes := if Nat.odd (length m) then m ++ [zero_byte] else m.

Lemma padded_even m : Nat.odd (length (padded m)) = false /\ word_sum (padded m) = word_sum m.
Proof.
  unfold padded. destruct (Nat.odd (length m)) eqn:E; [|auto]. split; [|apply word_sum_pad; exact E].
  rewrite app_length. cbn [length]. rewrite Nat.add_1_r, Nat.odd_succ, <- Nat.negb_odd, E. reflexivity.
Qed.

(** arithmetic characterisation *)
Lemma ones_complement_spec m :
  let c := ones_complement m in
  0 <= c <= 65535 /\ (c + word_sum m) mod 65535 = 0 /\ (c = 65535 <-> word_sum m = 0).
Proof.
  cbn zeta. destruct (padded_even m) as [Ho Hw].
  destruct (oc_loop_spec (padded m) 0 Ho) as (L1 & L2 & L3); [lia|]. rewrite Hw in *.
  set (s := oc_loop 0 (padded m)) in *.
  assert (ones_complement m = 65535 - s) as ->.
  { change (Z.land (Z.lnot s) 65535 = 65535 - s). change 65535 with (Z.ones 16) at 1. rewrite Z.land_ones by lia. change (2 ^ 16) with 65536.
    unfold Z.lnot. symmetry. apply (Z.mod_unique _ _ (-1)); lia. }
  split; [lia|]. split; [|lia].
  rewrite Z.add_0_l in L2. replace (65535 - s + word_sum m) with (word_sum m - s + 1 * 65535) by lia.
  rewrite Z.mod_add by lia. rewrite Zminus_mod, <- L2, Z.sub_diag. reflexivity.
Qed.

Lemma ones_complement_unique m c :
  0 <= c <= 65535 -> (c + word_sum m) mod 65535 = 0 -> (c = 65535 <-> word_sum m = 0) -> ones_complement m = c.
Proof.
  intros H1 H2 H3. destruct (ones_complement_spec m) as (G1 & G2 & G3).
  set (k := ones_complement m) in *.
  assert ((c - k) mod 65535 = 0) as D.
  { replace (c - k) with ((c + word_sum m) - (k + word_sum m)) by lia. rewrite Zminus_mod, H2, G2. reflexivity. }
  apply Z.mod_divide in D; [|lia]. destruct D as [q D]. assert (q = 0 \/ q = 1 \/ q = -1) by lia. lia.
Qed.

Lemma folds_spec s t : folds s t -> 0 <= s -> 0 <= t <= 65535 /\ t mod 65535 = s mod 65535 /\ (t = 0 <-> s = 0).
Proof.
  induction 1 as [s Hs|s t Hs H IH]; intros H0; [split; [lia|tauto]|].
  pose proof (Z.div_mod s 65536 ltac:(lia)) as D. pose proof (Z.mod_pos_bound s 65536 ltac:(lia)) as M.
  assert (0 < s / 65536) as Q by (apply Z.div_str_pos; lia).
  destruct IH as (I1 & I2 & I3); [lia|]. split; [exact I1|]. split; [|lia].
  rewrite I2. replace s with (s / 65536 + s mod 65536 + (s / 65536) * 65535) at 3 by lia.
  rewrite Z.mod_add by lia. reflexivity.
Qed.
Lemma folds_total s : 0 <= s -> exists t, folds s t.
Proof.
  intros H. remember (Z.to_nat s) as n eqn:E. revert s H E.
  induction n as [n IH] using lt_wf_ind. intros s H E.
  destruct (Z_lt_le_dec s 65536) as [L|L]; [exists s; constructor; lia|].
  pose proof (Z.div_mod s 65536 ltac:(lia)) as D. pose proof (Z.mod_pos_bound s 65536 ltac:(lia)) as M.
  assert (0 < s / 65536) as Q by (apply Z.div_str_pos; lia).
  destruct (IH (Z.to_nat (s / 65536 + s mod 65536))) with (s := s / 65536 + s mod 65536) as [t Ht]; [lia|lia|reflexivity|].
  exists t. apply folds_carry; assumption.
Qed.

(** C07 *)
Theorem C07_internet_checksum : forall (m : bytes) (c : Z),
  ones_complement m = c <-> rfc1071 m c.
Proof.
  assert (forall m c, rfc1071 m c -> ones_complement m = c) as HU.
  { intros m c (s & Hf & ->). destruct (folds_spec _ _ Hf (word_sum_nonneg m)) as (F1 & F2 & F3).
    apply ones_complement_unique; [lia| |lia].
    replace (65535 - s + word_sum m) with (word_sum m - s + 1 * 65535) by lia.
    rewrite Z.mod_add by lia. rewrite Zminus_mod, <- F2, Z.sub_diag. reflexivity. }
  intros m c. split; [|apply HU]. intros <-. destruct (folds_total (word_sum m) (word_sum_nonneg m)) as [s Hs].
  assert (rfc1071 m (65535 - s)) as HR by (exists s; auto). rewrite (HU _ _ HR). exact HR.
Qed.
Print Assumptions C07_internet_checksum.

(** range, and verification: a message verifies iff its word sum is a positive multiple of 65535 *)
Theorem C07_range_and_congruence : forall m : bytes,
  0 <= ones_complement m <= 65535 /\ (ones_complement m + word_sum m) mod 65535 = 0.
Proof. intros m. destruct (ones_complement_spec m) as (H1 & H2 & _). auto. Qed.
Print Assumptions C07_range_and_congruence.

Example C07_example : ones_complement (B [0x45;0;0;0x73;0;0;0x40;0;0x40;0x11;0;0;0xc0;0xa8;0;1;0xc0;0xa8;0;0xc7]) = 0xb861
  /\ ones_complement (B [255; 255; 0; 1; 7]) = 63742.
Proof. vm_compute. split; reflexivity. Qed.

(** ** facts used for packets *)
Lemma word_sum_app (a b : list byte) : Nat.odd (length a) = false -> word_sum (a ++ b) = word_sum a + word_sum b.
Proof.
  induction a as [|x|x y r IH] using bytes_ind2; intros H; try discriminate; [reflexivity|].
  cbn [app word_sum]. rewrite IH by exact H. lia.
Qed.
Lemma word_sum_pair x : length x = 2%nat -> word_sum x = be x.
Proof.
  destruct x as [|a [|b [|]]]; try discriminate. intros _. cbn [word_sum be length].
  change (256 ^ Z.of_nat 1) with 256. change (256 ^ Z.of_nat 0) with 1. lia.
Qed.
Lemma zero_iff m : word_sum m mod 65535 = 0 -> word_sum m <> 0 -> ones_complement m = 0.
Proof. intros H1 H2. apply ones_complement_unique; [lia|rewrite Z.add_0_l; exact H1|lia]. Qed.
