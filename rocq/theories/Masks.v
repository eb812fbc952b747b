(** * Network masks in dotted notation: the argument [dotted] of IpText.v, for the two forms the library has had *)
From Verif Require Import Base Afi Spec Tree SpecTree RootFile SpecRoot SpecText SpecCanon IpText PropRoot PropText PropCanon.

(** ** The code: not in /repo, used by ddt_root_loader.py:79 and address_tree/base.py:21 through [ip_network] *)
(** _BaseV4._prefix_from_ip_int: the loop that drops the zeros at the end, and the test of what is left *)
Fixpoint drop_zeros (n : nat) (z : Z) : nat * Z :=
  match n with
  | O => (O, z)
  | S k => if Z.odd z then (n, z) else drop_zeros k (z / 2)
  end.
Definition prefix_from_int (z : Z) : option Z :=
  let '(n, ones) := drop_zeros 32 z in if ones =? 2 ^ Z.of_nat n - 1 then Some (Z.of_nat n) else None.

(** releases 1.0.x, _prefix_from_ip_string: a network mask, or else an inverted one *)
Definition dotted10 (octal : text -> bool) (t : text) : option Z :=
  match parse4 octal t with
  | None => None
  | Some z => match prefix_from_int z with Some n => Some n | None => prefix_from_int (2 ^ 32 - 1 - z) end
  end.

(** Python 3.3, _is_valid_netmask: octets of ones followed by zeros, none greater than the one before; the comparison is one of texts *)
Definition mask_octet (n : Z) : bool := existsb (Z.eqb n) [255; 254; 252; 248; 240; 224; 192; 128; 0].
Fixpoint text_gt (a b : text) : bool :=
  match a, b with
  | [], _ => false
  | _ :: _, [] => true
  | x :: a, y :: b => (y <? x) || ((x =? y) && text_gt a b)
  end.
Fixpoint falling (l : list text) : bool :=
  match l with a :: (b :: _) as r => negb (text_gt b a) && falling r | _ => true end.
(** _is_hostmask: octets of this kind, the last greater than the first *)
Definition dotted33 (octal : text -> bool) (t : text) : option Z :=
  match parse4 octal t with
  | None => None
  | Some z =>
      let parts := split 46 t in
      let nums := map (int_of 0) parts in
      if forallb mask_octet nums && falling parts then prefix_from_int z
      else if forallb mask_octet nums && (hd 0 nums <? last nums 0) then prefix_from_int (2 ^ 32 - 1 - z)
      else None
  end.

(** ** Specification *)
(** the address with ones in the first n places and zeros in the others, and the other way round *)
Definition net_mask (n z : Z) : Prop := 0 <= n <= 32 /\ z = 2 ^ 32 - 2 ^ (32 - n).
Definition host_mask (n z : Z) : Prop := 1 <= n <= 31 /\ z = 2 ^ (32 - n) - 1.

(** ** Lemmas *)
Lemma drop_spec : forall n z m y, 0 <= z -> drop_zeros n z = (m, y) -> (m <= n)%nat /\ z / 2 ^ Z.of_nat (n - m) = y /\ (z mod 2 ^ Z.of_nat (n - m) = 0) /\ (m = O \/ Z.odd y = true).
Proof.
  induction n as [|n IH]; intros z m y P H; cbn [drop_zeros] in H.
  - injection H as <- <-. split; [lia|]. cbn. rewrite Z.div_1_r, Z.mod_1_r. auto.
  - destruct (Z.odd z) eqn:O.
    + injection H as <- <-. split; [lia|]. rewrite Nat.sub_diag. cbn. rewrite Z.div_1_r, Z.mod_1_r. auto.
    + apply IH in H; [|apply Z.div_pos; lia]. destruct H as (L & D & M & E). split; [lia|].
      replace (S n - m)%nat with (S (n - m)) by lia. rewrite Nat2Z.inj_succ, Z.pow_succ_r by lia.
      assert (z mod 2 = 0) as Z2 by (rewrite Zmod_odd, O; reflexivity).
      rewrite <- Z.div_div by lia. split; [exact D|]. split; [|exact E].
      rewrite Z.rem_mul_r by lia. rewrite Z2, M. reflexivity.
Qed.
Lemma prefix_spec z n : 0 <= z < 2 ^ 32 -> prefix_from_int z = Some n <-> net_mask n z.
Proof.
  intros R. unfold prefix_from_int, net_mask. destruct (drop_zeros 32 z) as [m y] eqn:D. apply drop_spec in D; [|lia]. destruct D as (L & D & M & E).
  assert (z = 2 ^ Z.of_nat (32 - m) * y) as Ez by (rewrite <- D; pose proof (Z.div_mod z (2 ^ Z.of_nat (32 - m)) ltac:(lia)); lia).
  assert (2 ^ Z.of_nat (32 - m) * 2 ^ Z.of_nat m = 2 ^ 32) as P by (rewrite <- Z.pow_add_r by lia; f_equal; lia).
  split.
  - destruct (Z.eqb_spec y (2 ^ Z.of_nat m - 1)) as [Y|]; [|discriminate]. intros [= <-]. split; [lia|]. rewrite Ez, Y, Z.mul_sub_distr_l, P. replace (32 - Z.of_nat m) with (Z.of_nat (32 - m)) by lia. lia.
  - intros [B Zn].
    assert (Z.of_nat m = n) as Em.
    { destruct E as [-> | O].
      - destruct (Z.eq_dec n 0) as [->|]; [reflexivity|]. exfalso.
        change (Z.of_nat (32 - 0)) with 32 in Ez. assert (0 < z) by (rewrite Zn; assert (2 ^ (32 - n) < 2 ^ 32) by (apply Z.pow_lt_mono_r; lia); lia). nia.
      - destruct (Z.eq_dec n 0) as [->|N].
        + exfalso. change (32 - 0) with 32 in Zn. assert (z = 0) by lia. assert (y = 0) as Y0 by nia. rewrite Y0 in O. cbn in O. congruence.
        + (* z = 2^(32-m) y = 2^(32-n) (2^n - 1), both odd *)
          assert (z = 2 ^ (32 - n) * (2 ^ n - 1)) as Zn' by (rewrite Zn, Z.mul_sub_distr_l, <- Z.pow_add_r by lia; replace (32 - n + n) with 32 by lia; lia).
          assert (Z.odd (2 ^ n - 1) = true) as On.
          { replace n with (Z.succ (n - 1)) by lia. rewrite Z.pow_succ_r by lia. rewrite Z.odd_sub, Z.odd_mul. reflexivity. }
          assert (forall a b u v, 0 <= a -> 0 <= b -> Z.odd u = true -> Z.odd v = true -> 2 ^ a * u = 2 ^ b * v -> a <= b) as K.
          { intros a b u v A B' U V X. destruct (Z.le_gt_cases a b); [assumption|]. exfalso.
            replace a with (b + Z.succ (a - b - 1)) in X by lia. rewrite Z.pow_add_r, Z.pow_succ_r in X by lia.
            assert (v = 2 * (2 ^ (a - b - 1) * u)) as Y.
            { apply (Z.mul_cancel_l _ _ (2 ^ b)); [apply Z.pow_nonzero; lia|]. rewrite <- X. ring. }
            rewrite Y, Z.odd_mul in V. discriminate. }
          assert (2 ^ Z.of_nat (32 - m) * y = 2 ^ (32 - n) * (2 ^ n - 1)) as X by congruence.
          assert (0 <= Z.of_nat (32 - m)) as A1 by lia. assert (0 <= 32 - n) as A2 by lia. pose proof (K _ _ _ _ A1 A2 O On X). pose proof (K _ _ _ _ A2 A1 On O (eq_sym X)). lia. }
    subst n. replace (32 - Z.of_nat m) with (Z.of_nat (32 - m)) in Zn by lia.
    assert (2 ^ Z.of_nat (32 - m) <> 0) as N0 by (apply Z.pow_nonzero; lia).
    assert (y = 2 ^ Z.of_nat m - 1) as ->.
    { apply (Z.mul_cancel_l _ _ (2 ^ Z.of_nat (32 - m))); [exact N0|]. rewrite <- Ez, Z.mul_sub_distr_l, P, Z.mul_1_r. exact Zn. }
    rewrite Z.eqb_refl. reflexivity.
Qed.
Lemma inverted z n : net_mask n (2 ^ 32 - 1 - z) <-> 0 <= n <= 32 /\ z = 2 ^ (32 - n) - 1.
Proof. unfold net_mask. generalize (2 ^ (32 - n)). intros p. change (2 ^ 32) with 4294967296. split; intros []; split; lia. Qed.
Lemma net_range n z : net_mask n z -> 0 <= z < 2 ^ 32.
Proof. intros [B ->]. pose proof (Z.pow_pos_nonneg 2 (32 - n) ltac:(lia) ltac:(lia)). assert (2 ^ (32 - n) <= 2 ^ 32) by (apply Z.pow_le_mono_r; lia). lia. Qed.

(** ** C113: the masks *)
Section O.
Variable octal : text -> bool.
Theorem C113_masks : forall t n, dotted10 octal t = Some n <-> exists z, denotes4 octal t z /\ (net_mask n z \/ host_mask n z).
Proof.
  intros t n. unfold dotted10. split.
  - destruct (parse4 octal t) as [z|] eqn:E; [|discriminate]. apply C113_ipv4 in E. pose proof (denotes4_range _ _ _ E) as R.
    intros H. exists z. split; [exact E|]. destruct (prefix_from_int z) as [k|] eqn:P.
    + injection H as <-. left. apply prefix_spec; assumption.
    + apply prefix_spec in H; [|lia]. apply inverted in H. destruct H as [B ->]. right. split; [|reflexivity].
      destruct (Z.eq_dec n 0) as [->|]; [exfalso; vm_compute in P; discriminate|]. destruct (Z.eq_dec n 32) as [->|]; [exfalso; vm_compute in P; discriminate|]. lia.
  - intros (z & D & M). pose proof (denotes4_range _ _ _ D) as R. apply C113_ipv4 in D. rewrite D. destruct M as [M|M].
    + apply prefix_spec in M; [|exact R]. rewrite M. reflexivity.
    + assert (prefix_from_int z = None) as ->.
      { destruct (prefix_from_int z) as [k|] eqn:P; [|reflexivity]. exfalso. apply prefix_spec in P; [|exact R]. destruct M as [B ->]. destruct P as [B' X].
        assert (2 ^ (32 - n) = 2 * 2 ^ (31 - n)) as E1 by (rewrite <- Z.pow_succ_r by lia; f_equal; lia).
        destruct (Z.eq_dec k 32) as [->|].
        - change (2 ^ (32 - 32)) with 1 in X. assert (2 ^ (32 - n) < 2 ^ 32) by (apply Z.pow_lt_mono_r; lia). lia.
        - assert (2 ^ (32 - k) = 2 * 2 ^ (31 - k)) as E2 by (rewrite <- Z.pow_succ_r by lia; f_equal; lia). lia. }
      apply prefix_spec; [lia|]. apply inverted. destruct M as [B ->]. split; [lia|reflexivity].
Qed.
(** what the theorems of PropText.v assume of masks *)
Theorem C113_masks_ok : forall m n, dotted10 octal m = Some n -> 0 <= n <= 32 /\ Forall (fun c => digit c \/ c = 46) m.
Proof.
  intros m n H. apply C113_masks in H. destruct H as (z & D & M). split; [destruct M as [[B _]|[B _]]; lia|]. apply denotes4_chars in D. apply D.
Qed.
Theorem C113_masks33_sound : forall t n, dotted33 octal t = Some n -> dotted10 octal t = Some n.
Proof.
  intros t n H. apply C113_masks. unfold dotted33 in H. destruct (parse4 octal t) as [z|] eqn:E; [|discriminate].
  assert (denotes4 octal t z) as D by (apply C113_ipv4; exact E). pose proof (denotes4_range _ _ _ D) as R. exists z. split; [exact D|].
  destruct (_ && _); [left; apply prefix_spec; assumption|]. destruct (forallb mask_octet _ && _) eqn:C; [|discriminate].
  apply prefix_spec in H; [|lia]. apply inverted in H. destruct H as [B ->]. right. split; [|reflexivity].
  apply andb_true_iff in C. destruct C as [_ C].
  unfold parse4 in E. destruct (split 46 t) as [|a [|b [|c [|d [|e l]]]]]; try discriminate.
  destruct (parse_octet octal a) as [x|] eqn:A; [|discriminate]. destruct (parse_octet octal b) as [y|] eqn:B'; [|discriminate].
  destruct (parse_octet octal c) as [v|] eqn:C'; [|discriminate]. destruct (parse_octet octal d) as [w|] eqn:D'; [|discriminate]. apply (f_equal (fun o => match o with Some q => q | None => 0 end)) in E. cbv beta iota in E.
  apply parse_octet_spec in A, B', C', D'. pose proof (octet_range _ _ _ A). pose proof (octet_range _ _ _ B'). pose proof (octet_range _ _ _ C'). pose proof (octet_range _ _ _ D').
  cbn [map hd last] in C. destruct A as (_ & _ & -> & _). destruct D' as (_ & _ & -> & _).
  rewrite !int_of_decimal in C.
  destruct (Z.eq_dec n 0) as [->|]; [exfalso; change (2 ^ (32 - 0) - 1) with 4294967295 in E; lia|].
  destruct (Z.eq_dec n 32) as [->|]; [exfalso; change (2 ^ (32 - 32) - 1) with 0 in E; lia|]. lia.
Qed.
Theorem C113_masks33_ok : forall m n, dotted33 octal m = Some n -> 0 <= n <= 32 /\ Forall (fun c => digit c \/ c = 46) m.
Proof. intros m n H. apply C113_masks33_sound in H. apply C113_masks_ok. exact H. Qed.
End O.

(** The masks of Python 3.3, where octets have no leading zeros: all network masks, and the inverted ones that end with an octet. *)
Lemma every_length (P : Z -> Prop) : Forall P (map Z.of_nat (seq 0 33)) -> forall n, 0 <= n <= 32 -> P n.
Proof.
  intros F n B. rewrite Forall_forall in F. apply F. apply in_map_iff. exists (Z.to_nat n). split; [lia|]. apply in_seq. lia.
Qed.
Ltac each_length n B := revert n B; match goal with |- forall n, _ -> @?P n => apply (every_length P) end; cbn [map seq Z.of_nat Pos.of_succ_nat Pos.succ]; repeat apply Forall_cons; try apply Forall_nil.
Theorem C113_masks33 : forall t n, dotted33 (fun _ => false) t = Some n <->
  exists z, denotes4 (fun _ => false) t z /\ (net_mask n z \/ (host_mask n z /\ n mod 8 = 0)).
Proof.
  intros t n. split.
  - intros H. pose proof H as H0. apply C113_masks33_sound in H. apply C113_masks in H. destruct H as (z & D & M). exists z. split; [exact D|].
    destruct M as [M|M]; [left; exact M|]. right. split; [exact M|].
    apply canonical4_fun in D. destruct M as [B E]. subst t z. assert (0 <= n <= 32) as B' by lia. revert H0. clear B. each_length n B'; vm_compute; congruence.
  - intros (z & D & M). apply canonical4_fun in D. subst t. destruct M as [[B E]|[[B E] M]]; subst z.
    + each_length n B; vm_compute; reflexivity.
    + assert (0 <= n <= 32) as B' by lia. revert B M. each_length n B'; intros B M; try (exfalso; lia); try (exfalso; vm_compute in M; discriminate); vm_compute; reflexivity.
Qed.

(** Hence what is taken for a network, whichever of the two the library is *)
Theorem C113_network_masks octal : forall t p,
  (network_of octal (dotted10 octal) t = Some p <-> denotes_net octal (dotted10 octal) t p) /\
  (network_of octal (dotted33 octal) t = Some p <-> denotes_net octal (dotted33 octal) t p).
Proof. intros t p. split; apply C113_network; [apply C113_masks_ok|apply C113_masks33_ok]. Qed.

(** "255.255.254.0", "0.0.1.255", "0.0.255.255", "255.0.255.0"; "10.0.0.0/255.0.0.0" *)
Definition m23 : text := [50; 53; 53; 46; 50; 53; 53; 46; 50; 53; 52; 46; 48].
Definition w23 : text := [48; 46; 48; 46; 49; 46; 50; 53; 53].
Definition w16 : text := [48; 46; 48; 46; 50; 53; 53; 46; 50; 53; 53].
Definition holes : text := [50; 53; 53; 46; 48; 46; 50; 53; 53; 46; 48].
Example C113_masks_example :
  dotted10 strict m23 = Some 23 /\ dotted33 strict m23 = Some 23 /\ dotted10 strict w23 = Some 23 /\ dotted33 strict w23 = None /\
  dotted10 strict w16 = Some 16 /\ dotted33 strict w16 = Some 16 /\ dotted10 strict holes = None /\ dotted33 strict holes = None /\
  network_of strict (dotted33 strict) ([49; 48; 46; 48; 46; 48; 46; 48; 47] ++ [50; 53; 53; 46; 48; 46; 48; 46; 48]) = Some (Pfx V4 167772160 8).
Proof. repeat split; vm_compute; reflexivity. Qed.

Print Assumptions C113_masks.
Print Assumptions C113_masks_ok.
Print Assumptions C113_masks33_sound.
Print Assumptions C113_masks33_ok.
Print Assumptions C113_masks33.
Print Assumptions C113_network_masks.
Print Assumptions C113_masks_example.
