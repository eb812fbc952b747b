(** * Relating the specification vocabulary to bit strings. *)
From Verif Require Import Base BaseLemmas Afi AfiProofs Spec.

Lemma as_address_shown : forall a p, as_address a = Ok p <-> shown a = Some p.
Proof.
  fix IH 1. intros a p. destruct a as [|v z|v z n| |l|i a m|n a|g a|p1 p2 a1 a2 a3 l]; cbn [as_address shown fmt_raises]; try (split; discriminate).
  - split; intros [= <-]; reflexivity.
  - destruct l; split; discriminate.
  - destruct (i =? 0); [apply IH|]. destruct (fmt_raises a); split; discriminate.
  - destruct (fmt_raises a); split; discriminate.
  - destruct (fmt_raises a); split; discriminate.
  - destruct (_ || _); split; discriminate.
Qed.
Lemma as_address_not a : shown a = None <-> as_address a = Err EType \/ as_address a = Err EValue.
Proof.
  assert (forall a e, as_address a = Err e -> e = EType \/ e = EValue) as K.
  { fix IH 1. intros b e. destruct b as [|v z|v z n| |l|i b m|n b|g b|p1 p2 a1 a2 a3 l]; cbn [as_address fmt_raises]; try (intros [= <-]; auto; fail).
    - destruct l; intros [= <-]; auto.
    - destruct (i =? 0); [apply IH|]. destruct (fmt_raises b); intros [= <-]; auto.
    - destruct (fmt_raises b); intros [= <-]; auto.
    - destruct (fmt_raises b); intros [= <-]; auto.
    - destruct (_ || _); intros [= <-]; auto. }
  split.
  - intros H. destruct (as_address a) as [p|e] eqn:E; [apply as_address_shown in E; congruence|]. destruct (K _ _ E) as [-> | ->]; auto.
  - intros H. destruct (shown a) as [p|] eqn:E; [|reflexivity]. apply as_address_shown in E. destruct H; congruence.
Qed.

Lemma be_ub b : be b = ub (bits_of_bytes b).
Proof.
  induction b as [|x b IH]; [reflexivity|]. cbn [be]. rewrite IH.
  change (bits_of_bytes (x :: b)) with (bits_of_byte x ++ bits_of_bytes b).
  rewrite ub_app, bits_of_bytes_length. unfold byte_val. f_equal. f_equal.
  rewrite Nat2Z.inj_mul. change (Z.of_nat 8) with 8. rewrite Z.pow_mul_r by lia. reflexivity.
Qed.

Lemma be_app a b : be (a ++ b) = be a * 256 ^ Z.of_nat (length b) + be b.
Proof.
  rewrite !be_ub, bits_of_bytes_app, ub_app, bits_of_bytes_length. f_equal. f_equal.
  rewrite Nat2Z.inj_mul. change (Z.of_nat 8) with 8. rewrite Z.pow_mul_r by lia. reflexivity.
Qed.

Lemma field_bits off w b p m s :
  bits_of_bytes b = p ++ m ++ s -> length p = off -> length m = w -> field off w b = ub m.
Proof.
  intros H Hp Hm. unfold field. rewrite be_ub.
  assert (8 * Z.of_nat (length b) - Z.of_nat off - Z.of_nat w = Z.of_nat (length s)) as ->.
  { apply (f_equal (@length bool)) in H. rewrite bits_of_bytes_length, !app_length in H. lia. }
  rewrite H, ub_app, ub_app. pose proof (ub_range s) as Hs. pose proof (ub_range m) as Hmr.
  pose proof (pow2_pos (length s)) as Hps.
  rewrite app_length, pow2_add.
  replace (ub p * (2 ^ Z.of_nat (length m) * 2 ^ Z.of_nat (length s)) + (ub m * 2 ^ Z.of_nat (length s) + ub s))
    with (ub s + (ub p * 2 ^ Z.of_nat (length m) + ub m) * 2 ^ Z.of_nat (length s)) by ring.
  rewrite Z.div_add by lia. rewrite (Z.div_small (ub s)) by lia. rewrite Z.add_0_l.
  rewrite Z.add_comm, <- Hm, Z.mod_add by (pose proof (pow2_pos (length m)); lia).
  apply Z.mod_small. exact Hmr.
Qed.

Lemma field_enc off w b p z s :
  bits_of_bytes b = p ++ enc w z ++ s -> length p = off -> 0 <= z < 2 ^ Z.of_nat w ->
  field off w b = z.
Proof.
  intros H Hp Hz. rewrite (field_bits off w b p (enc w z) s H Hp (enc_length _ _)).
  apply ub_enc. exact Hz.
Qed.

Lemma field_bool off b p (x : bool) s :
  bits_of_bytes b = p ++ x :: s -> length p = off -> field off 1 b = Z.b2z x.
Proof.
  intros H Hp. rewrite (field_bits off 1 b p [x] s H Hp eq_refl). destruct x; reflexivity.
Qed.

Lemma slice_bits from n b p m s :
  bits_of_bytes b = p ++ bits_of_bytes m ++ s -> length p = (8 * from)%nat -> length m = n ->
  slice from n b = m.
Proof.
  intros H Hp Hm. unfold slice.
  assert (exists x, p = bits_of_bytes x /\ length x = from) as [x [-> Hx]].
  { destruct (bytes_of_bits_total p from Hp) as [x [Hx Hl]]. apply bytes_of_bits_ok in Hx. eauto. }
  assert (exists y, s = bits_of_bytes y) as [y ->].
  { pose proof (f_equal (@length bool) H) as HL.
    rewrite !app_length, !bits_of_bytes_length in HL.
    destruct (bytes_of_bits_total s (length b - length x - length m)) as [y [Hy _]]; [lia|].
    apply bytes_of_bits_ok in Hy. eauto. }
  rewrite <- !bits_of_bytes_app in H. apply bits_of_bytes_inj in H. subst b.
  rewrite skipn_app, <- Hx, skipn_all, Nat.sub_diag. cbn [app skipn].
  rewrite firstn_app, <- Hm, firstn_all, Nat.sub_diag. cbn. apply app_nil_r.
Qed.

Lemma leaves_get_addresses a : leaves a (get_addresses a).
Proof.
  induction a using addr_ind'; cbn [get_addresses].
  - constructor; reflexivity.
  - constructor; reflexivity.
  - constructor; reflexivity.
  - change (@nil addr) with (concat (@nil (list addr))). apply leaves_nested; [reflexivity|discriminate|constructor].
  - rewrite flat_map_concat_map. apply leaves_nested; [reflexivity|discriminate|]. cbn [lcaf_children].
    induction H as [|x l Hx Hl IH]; cbn in *; constructor; auto.
  - rewrite <- (app_nil_r (get_addresses a)). change (get_addresses a ++ []) with (concat [get_addresses a]).
    apply leaves_nested; [reflexivity|discriminate|]. repeat constructor; auto.
  - rewrite <- (app_nil_r (get_addresses a)). change (get_addresses a ++ []) with (concat [get_addresses a]).
    apply leaves_nested; [reflexivity|discriminate|]. repeat constructor; auto.
  - rewrite <- (app_nil_r (get_addresses a)). change (get_addresses a ++ []) with (concat [get_addresses a]).
    apply leaves_nested; [reflexivity|discriminate|]. repeat constructor; auto.
  - constructor.
Qed.

Lemma leaves_unique a l : leaves a l -> l = get_addresses a.
Proof.
  revert l. induction a using addr_ind'; intros l0 Hl; inversion Hl; subst; try discriminate;
    cbn [lcaf_children is_lcaf get_addresses] in *; try reflexivity.
  - match goal with H : Forall2 _ [] _ |- _ => inversion H; subst end. reflexivity.
  - rewrite flat_map_concat_map. f_equal. clear Hl.
    match goal with H : Forall2 _ _ _ |- _ => rename H into HF end.
    match goal with N : forall _ _ _ _ _ _, _ <> _ |- _ => clear N end.
    revert ls HF. induction H as [|x l Hx Hf IH]; intros ls HF; inversion HF; subst; [reflexivity|].
    cbn [map] in *. f_equal; auto.
  - match goal with H : Forall2 _ [_] _ |- _ => inversion H as [|? ? ? ? HF1 HF2]; subst; inversion HF2; subst end.
    cbn [concat]. rewrite app_nil_r. auto.
  - match goal with H : Forall2 _ [_] _ |- _ => inversion H as [|? ? ? ? HF1 HF2]; subst; inversion HF2; subst end.
    cbn [concat]. rewrite app_nil_r. auto.
  - match goal with H : Forall2 _ [_] _ |- _ => inversion H as [|? ? ? ? HF1 HF2]; subst; inversion HF2; subst end.
    cbn [concat]. rewrite app_nil_r. auto.
  - match goal with N : forall _ _ _ _ _ _, _ <> _ |- _ => exfalso; eapply N; reflexivity end.
Qed.

(** ** Evaluating [field] on a concatenation of known pieces *)
Definition fbits (off w : nat) (l : bits) : bits := firstn w (skipn off l).

Lemma field_fbits off w b : (off + w <= 8 * length b)%nat -> field off w b = ub (fbits off w (bits_of_bytes b)).
Proof.
  intros H. apply (field_bits off w b (firstn off (bits_of_bytes b)) _ (skipn w (skipn off (bits_of_bytes b)))).
  - unfold fbits. rewrite firstn_skipn, firstn_skipn. reflexivity.
  - apply firstn_length_le. rewrite bits_of_bytes_length. lia.
  - apply firstn_length_le. rewrite skipn_length, bits_of_bytes_length. lia.
Qed.

Lemma fbits_skip off w p s n : length p = n -> (n <= off)%nat -> fbits off w (p ++ s) = fbits (off - n) w s.
Proof.
  intros <- H. unfold fbits. rewrite skipn_app. rewrite (skipn_all2 p) by lia. reflexivity.
Qed.
Lemma fbits_cons off w x s : fbits (S off) w (x :: s) = fbits off w s.
Proof. reflexivity. Qed.
Lemma fbits_hit w m s : length m = w -> fbits 0 w (m ++ s) = m.
Proof. intros <-. unfold fbits. cbn [skipn]. rewrite firstn_app, firstn_all, Nat.sub_diag. cbn. apply app_nil_r. Qed.
Lemma fbits_hit1 x s : fbits 0 1 (x :: s) = [x].
Proof. reflexivity. Qed.
Lemma fbits_all w m : length m = w -> fbits 0 w m = m.
Proof. intros <-. unfold fbits. cbn [skipn]. apply firstn_all. Qed.
Lemma ub_bit x : ub [x] = Z.b2z x.
Proof. destruct x; reflexivity. Qed.

(** how many bits a piece has *)
Ltac piece_len :=
  first [ apply enc_length | apply zeros_length | eassumption
        | (rewrite bits_of_bytes_length; eassumption) | (rewrite bits_of_bytes_length; lia) ].
(** right-nest all the concatenations in [H] *)
Ltac flat H := repeat (rewrite <- app_assoc in H); cbn [app] in H; repeat (rewrite <- app_assoc in H; cbn [app] in H).
(** goal: [field off w out = v]; [H : bits_of_bytes out = pieces], flattened *)
Ltac fld H :=
  rewrite field_fbits;
  [ rewrite H;
    repeat first
      [ rewrite fbits_cons
      | rewrite fbits_hit1
      | (rewrite fbits_hit by piece_len)
      | (rewrite fbits_all by piece_len)
      | (erewrite fbits_skip; [ | piece_len | apply Nat.leb_le; reflexivity ]; cbn [Nat.sub]) ];
    rewrite ?ub_bit; first [ reflexivity | (apply ub_enc; first [assumption | lia]) | idtac ]
  | try lia ].
