(** * Property C99: decimal degrees of geo addresses *)
From Coq Require Import QArith Qround Qpower Lqa.
From Verif Require Import Base BaseLemmas Afi Geo SpecGeo.
Local Open Scope Q_scope.

(** ** Powers of two *)
Lemma two_neq0 : ~ 2 == 0. Proof. intros H. discriminate H. Qed.
Lemma pow_pos e : 0 < 2 ^ e.
Proof. apply Qpower_0_lt. reflexivity. Qed.
Lemma pow_add a b : 2 ^ (a + b) == 2 ^ a * 2 ^ b.
Proof. apply Qpower_plus, two_neq0. Qed.
Lemma pow_Z n : (0 <= n)%Z -> 2 ^ n == inject_Z (2 ^ n)%Z.
Proof. intros H. rewrite Zpower_Qpower by exact H. reflexivity. Qed.
Lemma pow_le a b : (a <= b)%Z -> 2 ^ a <= 2 ^ b.
Proof.
  intros H. replace b with (a + (b - a))%Z by lia. rewrite pow_add. pose proof (pow_pos a) as P.
  assert (1 <= 2 ^ (b - a)) as G.
  { rewrite pow_Z by lia. change 1 with (inject_Z 1). rewrite <- Zle_Qle. pose proof (Z.pow_pos_nonneg 2 (b - a)). lia. }
  nra.
Qed.
Lemma pow_opp a : 2 ^ (- a) * 2 ^ a == 1.
Proof. rewrite <- pow_add. replace (- a + a)%Z with 0%Z by lia. reflexivity. Qed.

(** ** Rounding *)
Lemma expo_spec q : 0 < q -> 2 ^ (expo q) <= q /\ q < 2 ^ (expo q + 1).
Proof.
  intros P. unfold expo. set (n := Qnum q). set (d := Zpos (Qden q)). set (l := (Z.log2 n - Z.log2 d)%Z).
  assert (0 < n)%Z as Hn by (unfold Qlt in P; cbn in P; lia). assert (0 < d)%Z as Hd by (unfold d; lia).
  pose proof (Z.log2_spec n Hn) as [N1 N2]. pose proof (Z.log2_spec d Hd) as [D1 D2].
  assert (q == inject_Z n / inject_Z d) as Eq by (unfold n, d; rewrite <- Qmake_Qdiv; destruct q; reflexivity).
  assert (q * inject_Z d == inject_Z n) as Eq'.
  { rewrite Eq. field. intros H. unfold inject_Z, Qeq in H. cbn in H. lia. }
  pose proof (Z.log2_nonneg n). pose proof (Z.log2_nonneg d).
  assert (2 ^ (Z.log2 n) <= inject_Z n < 2 ^ (Z.log2 n + 1)) as [A1 A2].
  { rewrite !pow_Z by lia. rewrite <- Zle_Qle, <- Zlt_Qlt. rewrite Z.add_1_r. lia. }
  assert (2 ^ (Z.log2 d) <= inject_Z d < 2 ^ (Z.log2 d + 1)) as [B1 B2].
  { rewrite !pow_Z by lia. rewrite <- Zle_Qle, <- Zlt_Qlt. rewrite Z.add_1_r. lia. }
  assert (2 ^ (Z.log2 n) == 2 ^ l * 2 ^ (Z.log2 d)) as C by (rewrite <- pow_add; replace (l + Z.log2 d)%Z with (Z.log2 n) by (unfold l; lia); reflexivity).
  assert (2 ^ (Z.log2 n + 1) == 2 * 2 ^ (Z.log2 n)) as C1 by (rewrite pow_add; change (2 ^ 1) with 2; ring).
  assert (2 ^ (Z.log2 d + 1) == 2 * 2 ^ (Z.log2 d)) as C2 by (rewrite pow_add; change (2 ^ 1) with 2; ring).
  pose proof (pow_pos l) as Pl. pose proof (pow_pos (Z.log2 d)) as Pd.
  assert (q < 2 * 2 ^ l) as U.
  { apply Qnot_le_lt. intros H1. assert (2 * 2 ^ l * 2 ^ Z.log2 d <= q * inject_Z d) by nra. nra. }
  assert (2 ^ l < 2 * q) as L.
  { apply Qnot_le_lt. intros H1. assert (2 * q * inject_Z d < 2 ^ l * 2 ^ (Z.log2 d + 1)) by nra. nra. }
  destruct (Qle_bool (2 ^ l) q) eqn:E.
  - apply Qle_bool_iff in E. split; [exact E|]. rewrite pow_add. change (2 ^ 1) with 2. lra.
  - assert (q < 2 ^ l) as E' by (apply Qnot_le_lt; intros X; apply Qle_bool_iff in X; congruence).
    replace (l - 1 + 1)%Z with l by lia. split; [|exact E']. unfold Z.sub. rewrite pow_add. change (2 ^ (-(1))) with (1 # 2). lra.
Qed.
Lemma nearest_err m : within (1 # 2) (inject_Z (nearest_even m)) m.
Proof.
  unfold nearest_even, within. pose proof (Qfloor_le m) as A. pose proof (Qlt_floor m) as B. rewrite inject_Z_plus in B. change (inject_Z 1) with 1 in B.
  destruct (Qcompare_spec (m - inject_Z (Qfloor m)) (1 # 2)) as [E|E|E].
  - destruct (Z.even (Qfloor m)); rewrite ?inject_Z_plus; change (inject_Z 1) with 1; split; lra.
  - split; lra.
  - rewrite inject_Z_plus. change (inject_Z 1) with 1. split; lra.
Qed.
Lemma rnd_pos_err q k : 0 < q -> q < 2 ^ k -> (-1020 <= k)%Z -> within (2 ^ (k - 54)) (rnd_pos q) q.
Proof.
  intros P H Hk. unfold rnd_pos. set (e := Z.max (expo q - 52) (-1074)). destruct (expo_spec q P) as [L U].
  assert (expo q < k)%Z as Ek.
  { destruct (Z_lt_le_dec (expo q) k) as [G|G]; [exact G|]. apply pow_le in G. lra. }
  assert (e <= k - 53)%Z as He by (unfold e; lia).
  pose proof (nearest_err (q / 2 ^ e)) as [A B]. pose proof (pow_pos e) as Pe.
  assert (q == q / 2 ^ e * 2 ^ e) as Q1 by (field; intros X; rewrite X in Pe; discriminate Pe).
  assert ((1 # 2) * 2 ^ e <= 2 ^ (k - 54)) as G.
  { apply pow_le in He. replace (k - 53)%Z with ((k - 54) + 1)%Z in He by lia. rewrite pow_add in He. change (2 ^ 1) with 2 in He. lra. }
  set (z := inject_Z (nearest_even (q / 2 ^ e))) in *. set (y := q / 2 ^ e) in *. split.
  - assert (z * 2 ^ e - y * 2 ^ e <= (1 # 2) * 2 ^ e) by nra. lra.
  - assert (y * 2 ^ e - z * 2 ^ e <= (1 # 2) * 2 ^ e) by nra. lra.
Qed.
Lemma rnd_err q k : 0 <= q -> q < 2 ^ k -> (-1020 <= k)%Z -> within (2 ^ (k - 54)) (rnd q) q.
Proof.
  intros P H Hk. unfold rnd. destruct (Qcompare_spec q 0) as [E|E|E].
  - pose proof (pow_pos (k - 54)). split; lra.
  - lra.
  - apply rnd_pos_err; auto.
Qed.
Lemma nearest_nonneg m : 0 <= m -> (0 <= nearest_even m)%Z.
Proof.
  intros H. unfold nearest_even. assert (0 <= Qfloor m)%Z as G by (change 0%Z with (Qfloor 0); apply Qfloor_resp_le, H).
  destruct (Qcompare _ _); [destruct (Z.even _)|..]; lia.
Qed.
Lemma rnd_nonneg q : 0 <= q -> 0 <= rnd q.
Proof.
  intros P. unfold rnd. destruct (Qcompare_spec q 0) as [E|E|E]; [lra|lra|]. unfold rnd_pos. set (e := Z.max _ _). pose proof (pow_pos e) as Pe.
  assert (0 <= q / 2 ^ e) as G by (apply Qle_shift_div_l; [exact Pe|lra]). apply nearest_nonneg in G.
  apply Qmult_le_0_compat; [|lra]. change 0 with (inject_Z 0). rewrite <- Zle_Qle. exact G.
Qed.
(** rounding leaves small whole numbers alone *)
Lemma rnd_int q d : (0 <= d < 2 ^ 52)%Z -> q == inject_Z d -> rnd q == inject_Z d.
Proof.
  intros Hd E. unfold rnd. destruct (Qcompare_spec q 0) as [C|C|C].
  - rewrite <- E, C. reflexivity.
  - exfalso. rewrite E in C. change 0 with (inject_Z 0) in C. rewrite <- Zlt_Qlt in C. lia.
  - unfold rnd_pos. destruct (expo_spec q C) as [L U]. set (e := Z.max (expo q - 52) (-1074)).
    assert (expo q < 52)%Z as X.
    { destruct (Z_lt_le_dec (expo q) 52) as [G|G]; [exact G|]. apply pow_le in G. rewrite pow_Z in G by lia.
      assert (inject_Z (2 ^ 52) <= inject_Z d) as W by lra. rewrite <- Zle_Qle in W. lia. }
    assert (0 <= - e)%Z as He by lia. pose proof (pow_pos e) as Pe. pose proof (pow_opp e) as Po.
    assert (q / 2 ^ e == inject_Z (d * 2 ^ (- e))) as Q1.
    { rewrite inject_Z_mult, <- pow_Z, <- E by exact He. apply (Qmult_inj_r _ _ (2 ^ e)); [lra|].
      rewrite <- Qmult_assoc, Po, Qmult_1_r. field. lra. }
    assert (nearest_even (q / 2 ^ e) = d * 2 ^ (- e))%Z as Q2.
    { unfold nearest_even. assert (Qfloor (q / 2 ^ e) = d * 2 ^ (- e))%Z as Q0 by (rewrite (Qfloor_comp _ _ Q1); apply Qfloor_Z). rewrite Q0. destruct (Qcompare_spec (q / 2 ^ e - inject_Z (d * 2 ^ (- e))) (1 # 2)) as [W|W|W]; [lra|reflexivity|lra]. }
    rewrite Q2, inject_Z_mult, <- pow_Z by exact He. rewrite <- Qmult_assoc, Po. ring.
Qed.
(** the double nearest to a number below 2^15 is one *)
Lemma rnd_double q : 0 <= q -> q < 2 ^ 15 -> double (rnd q).
Proof.
  intros P H. unfold rnd. destruct (Qcompare_spec q 0) as [C|C|C].
  - exists 0%Z, 0%Z. split; [lia|]. split; [lia|]. reflexivity.
  - lra.
  - unfold rnd_pos. destruct (expo_spec q C) as [L U]. set (e := Z.max (expo q - 52) (-1074)). set (n := nearest_even _).
    assert (expo q < 15)%Z as X. { destruct (Z_lt_le_dec (expo q) 15) as [G|G]; [exact G|]. apply pow_le in G. lra. }
    pose proof (pow_pos e) as Pe.
    assert (0 <= q / 2 ^ e) as G0 by (apply Qle_shift_div_l; [exact Pe|lra]).
    assert (0 <= n)%Z as N0 by (apply nearest_nonneg, G0).
    assert (q / 2 ^ e < 2 ^ 53) as G1.
    { apply Qlt_shift_div_r; [exact Pe|]. rewrite <- pow_add. assert (expo q + 1 <= 53 + e)%Z as W by lia. apply pow_le in W. lra. }
    assert (n <= 2 ^ 53)%Z as N1.
    { destruct (nearest_err (q / 2 ^ e)) as [A _]. fold n in A. rewrite (pow_Z 53) in G1 by lia. apply Z.lt_succ_r. rewrite Zlt_Qlt. unfold Z.succ.
      rewrite inject_Z_plus. change (inject_Z 1) with 1. lra. }
    destruct (Z.eq_dec n (2 ^ 53)) as [En|En].
    + exists (2 ^ 52)%Z, (e + 1)%Z. split; [lia|]. split; [lia|]. rewrite En, pow_add. change (2 ^ 1) with 2.
      change (2 ^ 53)%Z with (2 ^ 52 * 2)%Z. rewrite inject_Z_mult. change (inject_Z 2) with 2. ring.
    + exists n, e. split; [rewrite Z.abs_eq by exact N0; lia|]. split; [lia|]. reflexivity.
Qed.
(** the fraction of a double is at most 1 - 2^-53 *)
Lemma double_frac x : double x -> 0 <= x -> x - inject_Z (Qfloor x) <= 1 - 2 ^ (-53).
Proof.
  intros (m & e & Hm & He & E) P. pose proof (pow_pos e) as Pe.
  assert (0 <= m)%Z as M0.
  { destruct (Z_lt_le_dec m 0) as [G|G]; [|exact G]. rewrite Zlt_Qlt in G. change (inject_Z 0) with 0 in G. nra. }
  rewrite Z.abs_eq in Hm by exact M0.
  assert (2 ^ (-53) <= 1 # 2) as S1 by (vm_compute; discriminate).
  destruct (Z_lt_le_dec e 0) as [Ne|Ne].
  - destruct (Z_lt_le_dec e (-53)) as [Se|Se].
    + assert (x < 1 # 2) as X.
      { rewrite E. rewrite Zlt_Qlt in Hm. rewrite <- pow_Z in Hm by lia. assert (e <= -54)%Z as W by lia. apply pow_le in W.
        change (1 # 2) with (2 ^ (-1)). replace (-1)%Z with (53 + (-54))%Z by lia. rewrite pow_add.
        assert (inject_Z m * 2 ^ e < 2 ^ 53 * 2 ^ e) by nra. pose proof (pow_pos 53). nra. }
      assert (Qfloor x = 0)%Z as F.
      { pose proof (Qfloor_le x) as A. pose proof (Qlt_floor x) as B. rewrite inject_Z_plus in B. change (inject_Z 1) with 1 in B.
        assert (inject_Z (Qfloor x) < 1) as A1 by lra. change 1 with (inject_Z 1) in A1. rewrite <- Zlt_Qlt in A1.
        assert (-1 < inject_Z (Qfloor x)) as B1 by lra. change (-1) with (inject_Z (-1)) in B1. rewrite <- Zlt_Qlt in B1. lia. }
      rewrite F. change (inject_Z 0) with 0. lra.
    + pose proof (Qfloor_le x) as A. pose proof (Qlt_floor x) as B. rewrite inject_Z_plus in B. change (inject_Z 1) with 1 in B.
      pose proof (pow_opp e) as Po. set (k := (Qfloor x)%Z) in *. set (r := (m - k * 2 ^ (- e))%Z).
      assert (x - inject_Z k == inject_Z r * 2 ^ e) as R.
      { unfold r, Z.sub. rewrite inject_Z_plus, inject_Z_opp, inject_Z_mult, <- pow_Z by lia. rewrite E. rewrite Qmult_plus_distr_l.
        assert (- (inject_Z k * 2 ^ (- e)) * 2 ^ e == - inject_Z k) as W by (transitivity (- inject_Z k * (2 ^ (- e) * 2 ^ e)); [ring|rewrite Po; ring]). rewrite W. ring. }
      assert (inject_Z r < inject_Z (2 ^ (- e))) as R1.
      { rewrite <- pow_Z by lia. apply Qnot_le_lt. intros W. assert (2 ^ (- e) * 2 ^ e <= inject_Z r * 2 ^ e) by nra. lra. }
      rewrite <- Zlt_Qlt in R1. assert (r <= 2 ^ (- e) + - (1))%Z as R2 by lia. rewrite Zle_Qle, inject_Z_plus, <- pow_Z in R2 by lia.
      change (inject_Z (- (1))) with (-(1)) in R2. apply pow_le in Se. rewrite R.
      assert (inject_Z r * 2 ^ e <= (2 ^ (- e) + - (1)) * 2 ^ e) by nra. lra.
  - assert (x == inject_Z (m * 2 ^ e)) as X by (rewrite inject_Z_mult, <- pow_Z by exact Ne; exact E).
    rewrite (Qfloor_comp _ _ X), Qfloor_Z. lra.
Qed.
Lemma int_nonneg x : 0 <= x -> py_int x = Qfloor x.
Proof. intros H. unfold py_int. apply Qle_bool_iff in H. rewrite H. reflexivity. Qed.
Lemma mod1_nonneg x : 0 <= x -> py_mod1 x = x - inject_Z (Qfloor x) /\ 0 <= py_mod1 x /\ py_mod1 x < 1.
Proof.
  intros H. unfold py_mod1. rewrite int_nonneg by exact H. pose proof (Qfloor_le x) as A. pose proof (Qlt_floor x) as B.
  rewrite inject_Z_plus in B. change (inject_Z 1) with 1 in B.
  assert (Qle_bool 0 (x - inject_Z (Qfloor x)) = true) as W by (apply Qle_bool_iff; lra). rewrite W. repeat split; lra.
Qed.
Lemma round_err x : 0 <= x -> within (1 # 2) (inject_Z (py_round x)) x.
Proof.
  intros H. unfold py_round. assert (Qle_bool 0 x = true) as W by (apply Qle_bool_iff, H). rewrite W.
  pose proof (Qfloor_le (x + (1 # 2))) as A. pose proof (Qlt_floor (x + (1 # 2))) as B. rewrite inject_Z_plus in B. change (inject_Z 1) with 1 in B. split; lra.
Qed.

(** ** Setting *)
Lemma Zlt_of_Q a b : inject_Z a < inject_Z b -> (a < b)%Z.
Proof. rewrite <- Zlt_Qlt. auto. Qed.
Lemma set_err x : 0 <= x -> within ((1 # 2) + 2 ^ (-42)) (inject_Z (in_seconds (set_decimal x))) (3600 * x).
Proof.
  intros P. destruct (mod1_nonneg x P) as (Ef & F0 & F1). unfold set_decimal, in_seconds. cbn [deg minutes seconds].
  rewrite int_nonneg by exact P. set (f := py_mod1 x) in *.
  assert (within (2 ^ (6 - 54)) (rnd (f * 60)) (f * 60)) as [M1 M2].
  { apply rnd_err; [lra| |lia]. change (2 ^ 6) with 64. lra. }
  assert (0 <= rnd (f * 60)) as M0 by (apply rnd_nonneg; lra). set (m := rnd (f * 60)) in *.
  destruct (mod1_nonneg m M0) as (Eg & G0 & G1). rewrite (int_nonneg m) by exact M0. set (g := py_mod1 m) in *.
  assert (within (2 ^ (6 - 54)) (rnd (g * 60)) (g * 60)) as [S1 S2].
  { apply rnd_err; [lra| |lia]. change (2 ^ 6) with 64. lra. }
  assert (0 <= rnd (g * 60)) as S0 by (apply rnd_nonneg; lra). set (s := rnd (g * 60)) in *.
  destruct (round_err s S0) as [R1 R2]. rewrite !inject_Z_plus, !inject_Z_mult. change (inject_Z 3600) with 3600. change (inject_Z 60) with 60.
  set (X := inject_Z (Qfloor x)) in *. set (Mi := inject_Z (Qfloor m)) in *. set (S := inject_Z (py_round s)) in *.
  assert (61 * 2 ^ (6 - 54) <= 2 ^ (-42)) as K by (vm_compute; discriminate).
  assert (f == x - X) as Ef' by (rewrite Ef; reflexivity). assert (g == m - Mi) as Eg' by (rewrite Eg; reflexivity).
  clearbody f g m s X Mi S. clear Ef Eg. set (d := 2 ^ (6 - 54)) in *. set (d' := 2 ^ (-42)) in *. clearbody d d'. split; lra.
Qed.
Lemma set_fields x : double x -> 0 <= x ->
  let a := set_decimal x in deg a = Qfloor x /\ (0 <= minutes a <= 59)%Z /\ (0 <= seconds a <= 60)%Z.
Proof.
  intros D P. destruct (mod1_nonneg x P) as (Ef & F0 & F1). pose proof (double_frac x D P) as F2. unfold set_decimal. cbn [deg minutes seconds].
  rewrite int_nonneg by exact P. split; [reflexivity|]. rewrite <- Ef in F2. set (f := py_mod1 x) in *.
  assert (within (2 ^ (6 - 54)) (rnd (f * 60)) (f * 60)) as [M1 M2].
  { apply rnd_err; [lra| |lia]. change (2 ^ 6) with 64. lra. }
  assert (0 <= rnd (f * 60)) as M0 by (apply rnd_nonneg; lra). set (m := rnd (f * 60)) in *.
  assert (2 ^ (6 - 54) < 60 * 2 ^ (-53)) as K by reflexivity.
  assert (m < 60) as M3 by lra.
  destruct (mod1_nonneg m M0) as (Eg & G0 & G1). rewrite (int_nonneg m) by exact M0. set (g := py_mod1 m) in *.
  assert (within (2 ^ (6 - 54)) (rnd (g * 60)) (g * 60)) as [S1 S2].
  { apply rnd_err; [lra| |lia]. change (2 ^ 6) with 64. lra. }
  assert (0 <= rnd (g * 60)) as S0 by (apply rnd_nonneg; lra). set (s := rnd (g * 60)) in *.
  destruct (round_err s S0) as [R1 R2]. pose proof (Qfloor_le m) as A. pose proof (Qlt_floor m) as B. rewrite inject_Z_plus in B. change (inject_Z 1) with 1 in B.
  assert (2 ^ (6 - 54) < 1 # 2) as K2 by reflexivity.
  split.
  - split; [apply Z.lt_succ_r|apply Z.lt_succ_r]; apply Zlt_of_Q; unfold Z.succ.
    + rewrite inject_Z_plus. change (inject_Z 0) with 0. change (inject_Z 1) with 1. lra.
    + change (inject_Z (59 + 1)) with 60. lra.
  - split; [apply Z.lt_succ_r|apply Z.lt_succ_r]; apply Zlt_of_Q; unfold Z.succ.
    + rewrite inject_Z_plus. change (inject_Z 0) with 0. change (inject_Z 1) with 1.
      destruct (Z_lt_le_dec (py_round s) 0) as [W|W]; [|rewrite Zle_Qle in W; change (inject_Z 0) with 0 in W; lra].
      assert (py_round s <= -1)%Z as W' by lia. rewrite Zle_Qle in W'. change (inject_Z (-1)) with (-1) in W'. exfalso.
      unfold py_round in W. assert (Qle_bool 0 s = true) as T by (apply Qle_bool_iff, S0). rewrite T in W.
      assert (0 <= Qfloor (s + (1 # 2)))%Z as V by (change 0%Z with (Qfloor 0); apply Qfloor_resp_le; lra). lia.
    + change (inject_Z (60 + 1)) with 61. lra.
Qed.

(** ** Reading *)
Lemma get_err a : normal a -> (deg a < 2 ^ 15)%Z ->
  within (2 ^ (-37)) (get_decimal a) (inject_Z (in_seconds a) / 3600) /\ 0 <= get_decimal a /\ double (get_decimal a).
Proof.
  destruct a as [d mi s]. unfold normal, get_decimal, in_seconds. cbn [deg minutes seconds]. intros (Hd & Hm & Hs) Hd2.
  assert (0 <= inject_Z d) as D0 by (change 0 with (inject_Z 0); rewrite <- Zle_Qle; lia).
  assert (inject_Z d <= 32767) as D1 by (change 32767 with (inject_Z 32767); rewrite <- Zle_Qle; lia).
  assert (0 <= inject_Z mi) as M0 by (change 0 with (inject_Z 0); rewrite <- Zle_Qle; lia).
  assert (inject_Z mi <= 59) as M1 by (change 59 with (inject_Z 59); rewrite <- Zle_Qle; lia).
  assert (0 <= inject_Z s) as S0 by (change 0 with (inject_Z 0); rewrite <- Zle_Qle; lia).
  assert (inject_Z s <= 59) as S1 by (change 59 with (inject_Z 59); rewrite <- Zle_Qle; lia).
  rewrite !inject_Z_plus, !inject_Z_mult. change (inject_Z 3600) with 3600. change (inject_Z 60) with 60.
  set (D := inject_Z d) in *. set (M := inject_Z mi) in *. set (S := inject_Z s) in *.
  assert (M / 60 == M * (1 # 60)) as Em by reflexivity. assert (S / 3600 == S * (1 # 3600)) as Es by reflexivity.
  assert (within (2 ^ (0 - 54)) (rnd (M / 60)) (M / 60)) as [A1 A2].
  { apply rnd_err; [lra| |lia]. change (2 ^ 0) with 1. lra. }
  assert (0 <= rnd (M / 60)) as A0 by (apply rnd_nonneg; lra). set (u := rnd (M / 60)) in *.
  assert (within (2 ^ (0 - 54)) (rnd (S / 3600)) (S / 3600)) as [B1 B2].
  { apply rnd_err; [lra| |lia]. change (2 ^ 0) with 1. lra. }
  assert (0 <= rnd (S / 3600)) as B0 by (apply rnd_nonneg; lra). set (v := rnd (S / 3600)) in *.
  assert (2 ^ (0 - 54) <= 1 # 100000) as K0 by (vm_compute; discriminate). assert (2 ^ (15 - 54) <= 1 # 100000) as K1 by (vm_compute; discriminate).
  assert (within (2 ^ (15 - 54)) (rnd (D + u)) (D + u)) as [C1 C2].
  { apply rnd_err; [lra| |lia]. change (2 ^ 15) with 32768. lra. }
  assert (0 <= rnd (D + u)) as C0 by (apply rnd_nonneg; lra). set (w := rnd (D + u)) in *.
  assert (w + v < 2 ^ 15) as Wv by (change (2 ^ 15) with 32768; lra).
  assert (within (2 ^ (15 - 54)) (rnd (w + v)) (w + v)) as [E1 E2].
  { apply rnd_err; [lra|exact Wv|lia]. }
  assert (0 <= rnd (w + v)) as E0 by (apply rnd_nonneg; lra).
  assert (2 * 2 ^ (15 - 54) + 2 * 2 ^ (0 - 54) <= 2 ^ (-37)) as K by (vm_compute; discriminate).
  assert ((3600 * D + 60 * M + S) / 3600 == D + M / 60 + S / 3600) as Et by field.
  split; [|split; [exact E0|apply rnd_double; [lra|exact Wv]]].
  unfold within. rewrite Et. set (y := rnd (w + v)) in *. clearbody u v w y. set (k0 := 2 ^ (0 - 54)) in *. set (k1 := 2 ^ (15 - 54)) in *. set (k := 2 ^ (-37)) in *.
  clearbody k0 k1 k. split; lra.
Qed.
Lemma get_whole d : (0 <= d < 2 ^ 15)%Z -> get_decimal (DMS d 0 0) == inject_Z d.
Proof.
  intros H. unfold get_decimal. cbn [deg minutes seconds].
  assert (rnd (inject_Z 0 / 60) = 0) as E1 by reflexivity. assert (rnd (inject_Z 0 / 3600) = 0) as E2 by reflexivity. rewrite E1, E2.
  apply rnd_int; [lia|]. rewrite Qplus_0_r. apply rnd_int; [lia|]. apply Qplus_0_r.
Qed.

(** ** C99 *)
(** Any number x >= 0 written to the property: whole degrees, minutes 0..59, seconds 0..60, and the position is x up to the rounding to
    whole seconds *)
Theorem C99_set_partial : forall x, double x -> 0 <= x ->
  deg (set_decimal x) = Qfloor x /\ (0 <= minutes (set_decimal x) <= 59)%Z /\ (0 <= seconds (set_decimal x) <= 60)%Z /\
  within ((1 # 2) + 2 ^ (-42)) (inject_Z (in_seconds (set_decimal x))) (3600 * x).
Proof.
  intros x D P. destruct (set_fields x D P) as (A & B & C). split; [exact A|]. split; [exact B|]. split; [exact C|]. apply set_err, P.
Qed.
(** reading gives the position in degrees, up to 2^-37 degrees (less than a micrometre on the ground) *)
Theorem C99_get : forall a, normal a -> (deg a < 2 ^ 15)%Z ->
  within (2 ^ (-37)) (get_decimal a) (inject_Z (in_seconds a) / 3600).
Proof. intros a H1 H2. apply (get_err a H1 H2). Qed.
(** what was read and is written back is the same position.  The three fields are the same too, except that a position at full minutes can
    come back as sixty seconds of the minute before *)
Theorem C99_roundtrip_partial : forall a, normal a -> (deg a < 2 ^ 15)%Z ->
  let b := set_decimal (get_decimal a) in
  in_seconds b = in_seconds a /\
  (b = a \/ seconds a = 0%Z /\ (0 < minutes a)%Z /\ b = DMS (deg a) (minutes a - 1) 60).
Proof.
  intros a N H. destruct (get_err a N H) as ([G1 G2] & G0 & Gd). destruct (set_err _ G0) as [S1 S2]. destruct (set_fields _ Gd G0) as (F1 & F2 & F3).
  cbn zeta. set (x := get_decimal a) in *. set (b := set_decimal x) in *.
  assert (3600 * 2 ^ (-37) + (1 # 2) + 2 ^ (-42) < 1) as K by reflexivity.
  assert (inject_Z (in_seconds a) == 3600 * (inject_Z (in_seconds a) / 3600)) as Ea by field.
  set (y := inject_Z (in_seconds a) / 3600) in *. set (k := 2 ^ (-37)) in *. set (k2 := 2 ^ (-42)) in *. clearbody k k2.
  assert (in_seconds b = in_seconds a) as E.
  { assert (inject_Z (in_seconds b) < inject_Z (in_seconds a + 1)) as W1 by (rewrite inject_Z_plus; change (inject_Z 1) with 1; lra).
    assert (inject_Z (in_seconds a) < inject_Z (in_seconds b + 1)) as W2 by (rewrite inject_Z_plus; change (inject_Z 1) with 1; lra).
    apply Zlt_of_Q in W1, W2. lia. }
  split; [exact E|]. clearbody y. destruct a as [d mi s]. unfold normal, in_seconds in *. cbn [deg minutes seconds] in *.
  destruct (Z.eq_dec (seconds b) 60) as [E60|E60].
  - right. destruct (Z.eq_dec (minutes b) 59) as [E59|E59].
    + exfalso. assert (mi = 0 /\ s = 0 /\ d = deg b + 1)%Z as (-> & -> & Ed) by lia. assert (x == inject_Z d) as X by (apply get_whole; lia).
      rewrite (Qfloor_comp _ _ X), Qfloor_Z in F1. lia.
    + destruct b as [d' mi' s']. cbn [deg minutes seconds] in *. assert (s = 0 /\ d = d' /\ mi = mi' + 1)%Z as (-> & -> & ->) by lia. subst s'.
      split; [reflexivity|]. split; [lia|]. f_equal; lia.
  - left. destruct b as [d' mi' s']. cbn [deg minutes seconds] in *. f_equal; lia.
Qed.
(** the same for the properties of an address; the other attribute and the rest of the address are not touched *)
Corollary C99_latitude_partial : forall g, normal (latitude g) -> (g_latd g < 2 ^ 15)%Z ->
  let g' := set_latitude g (get_latitude g) in
  in_seconds (latitude g') = in_seconds (latitude g) /\ longitude g' = longitude g /\
  g_north g' = g_north g /\ g_east g' = g_east g /\ g_alt g' = g_alt g.
Proof. intros g N H. destruct (C99_roundtrip_partial (latitude g) N H) as (E & _). repeat split. exact E. Qed.
Corollary C99_longitude_partial : forall g, normal (longitude g) -> (g_lond g < 2 ^ 15)%Z ->
  let g' := set_longitude g (get_longitude g) in
  in_seconds (longitude g') = in_seconds (longitude g) /\ latitude g' = latitude g /\
  g_north g' = g_north g /\ g_east g' = g_east g /\ g_alt g' = g_alt g.
Proof. intros g N H. destruct (C99_roundtrip_partial (longitude g) N H) as (E & _). repeat split. exact E. Qed.

Local Ltac side := first [assumption | change (2 ^ Z.of_nat 8)%Z with 256%Z; lia].
(** An address whose latitude is set can be serialised exactly if int(x) fits 15 bits: for all 0 <= x < 32768, and for no x <= -1 *)
Theorem C99_encode : forall g x b, w_geo g = Ok b -> double x -> 0 <= x ->
  ((exists b', w_geo (set_latitude g x) = Ok b') <-> x < 2 ^ 15) /\ ((exists b', w_geo (set_longitude g x) = Ok b') <-> x < 2 ^ 15).
Proof.
  intros g x b W D P. destruct (set_fields x D P) as (F1 & F2 & F3). unfold w_geo in W. mon W.
  assert ((0 <= Qfloor x < 2 ^ 15)%Z <-> x < 2 ^ 15) as R.
  { pose proof (Qfloor_le x) as A. pose proof (Qlt_floor x) as B. assert (0 <= Qfloor x)%Z as F0 by (change 0%Z with (Qfloor 0); apply Qfloor_resp_le, P).
    change (2 ^ 15) with (inject_Z (2 ^ 15)). split; intros H.
    - assert (Qfloor x + 1 <= 2 ^ 15)%Z as G by lia. rewrite Zle_Qle in G. lra.
    - split; [exact F0|]. apply Zlt_of_Q. lra. }
  winv. split; rewrite <- R.
  - unfold w_geo, set_latitude. cbn [g_north g_latd g_latm g_lats g_east g_lond g_lonm g_lons g_alt]. rewrite F1. split.
    + intros (b' & H). mon H. winv. change (2 ^ Z.of_nat 15)%Z with (2 ^ 15)%Z in *. assumption.
    + intros H. rewrite !w_uint_in by side. cbn [bind]. assert (w_int 32 (g_alt g) = Ok (enc 32 (g_alt g))) as E5 by (apply w_int_ok; split; [reflexivity|exact Hr5]). rewrite E5. eexists. reflexivity.
  - unfold w_geo, set_longitude. cbn [g_north g_latd g_latm g_lats g_east g_lond g_lonm g_lons g_alt]. rewrite F1. split.
    + intros (b' & H). mon H. winv. change (2 ^ Z.of_nat 15)%Z with (2 ^ 15)%Z in *. assumption.
    + intros H. rewrite !w_uint_in by side. cbn [bind]. assert (w_int 32 (g_alt g) = Ok (enc 32 (g_alt g))) as E5 by (apply w_int_ok; split; [reflexivity|exact Hr5]). rewrite E5. eexists. reflexivity.
Qed.

Theorem C99_negative_encode_refuted : forall g x, x <= -1 -> forall b, w_geo (set_latitude g x) <> Ok b /\ w_geo (set_longitude g x) <> Ok b.
Proof.
  intros g x H b. assert (py_int x < 0)%Z as N.
  { unfold py_int. destruct (Qle_bool 0 x) eqn:E; [apply Qle_bool_iff in E; lra|]. assert (1 <= Qfloor (- x))%Z by (change 1%Z with (Qfloor 1); apply Qfloor_resp_le; lra). lia. }
  split; intros W; unfold w_geo, set_latitude, set_longitude, set_decimal in W;
    cbn [g_north g_latd g_latm g_lats g_east g_lond g_lonm g_lons g_alt deg] in W; mon W; winv; lia.
Qed.

(** ** What fails *)
(** 1°01'00" is read as 1.016666666666666607..., and written back it becomes 1°00'60", a position with sixty seconds *)
Theorem C99_sixty_refuted : ~ (forall a, normal a -> (deg a < 180)%Z -> set_decimal (get_decimal a) = a).
Proof. intros H. specialize (H (DMS 1 1 0)). vm_compute in H. discriminate H; repeat split; discriminate. Qed.
(** a position south of the equator or west of Greenwich, as a negative number, is a different position: -0.25 becomes 0°45'00", and -12.5
    becomes -12°30'00", which reads back as -11.5 *)
Theorem C99_negative_refuted :
  set_decimal (-1 # 4) = DMS 0 45 0 /\ get_decimal (set_decimal (-1 # 4)) == 3 # 4 /\
  set_decimal (-25 # 2) = DMS (-12) 30 0 /\ get_decimal (set_decimal (-25 # 2)) == -23 # 2.
Proof. vm_compute. repeat split; reflexivity. Qed.
(** the hemisphere flags are not read: 33 degrees south and 33 degrees north read the same *)
Theorem C99_hemisphere_refuted : exists g g', g_north g <> g_north g' /\ latitude g = latitude g' /\ get_latitude g = get_latitude g'.
Proof. exists (Geo true 33 0 0 true 18 0 0 0), (Geo false 33 0 0 true 18 0 0 0). repeat split. discriminate. Qed.
(** a non-trivial case: 52°05'12" N, 5°06'59" E, and a double that is not a whole number of seconds *)
Example C99_ex : normal (DMS 52 5 12) /\ normal (DMS 5 6 59) /\ set_decimal (get_decimal (DMS 52 5 12)) = DMS 52 5 12 /\
  set_decimal (get_decimal (DMS 5 6 59)) = DMS 5 6 59 /\
  double (rnd (314159265 # 100000000)) /\ set_decimal (rnd (314159265 # 100000000)) = DMS 3 8 30.
Proof.
  split; [repeat split; discriminate|]. split; [repeat split; discriminate|]. split; [vm_compute; reflexivity|]. split; [vm_compute; reflexivity|].
  split; [apply rnd_double; [discriminate|reflexivity]|vm_compute; reflexivity].
Qed.

Print Assumptions C99_set_partial.
Print Assumptions C99_get.
Print Assumptions C99_roundtrip_partial.
Print Assumptions C99_latitude_partial.
Print Assumptions C99_longitude_partial.
Print Assumptions C99_encode.
Print Assumptions C99_negative_encode_refuted.
