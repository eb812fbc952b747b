(** * Characterising lemmas of [Base]. *)
From Verif Require Import Base.
Require Export ZifyBool ZifyNat.

(** ** Result monad *)
Lemma bind_ok {A B} (x : res A) (f : A -> res B) b :
  bind x f = Ok b -> exists a, x = Ok a /\ f a = Ok b.
Proof. destruct x; cbn; intros H; [eauto | discriminate]. Qed.

Lemma guard_ok c e u : guard c e = Ok u -> c = true.
Proof. unfold guard; destruct c; congruence. Qed.

Lemma mapM_app {A B} (f : A -> res B) l1 l2 :
  mapM f (l1 ++ l2) = let* a := mapM f l1 in let* b := mapM f l2 in Ok (a ++ b).
Proof.
  induction l1 as [|x l1 IH]; cbn.
  - destruct (mapM f l2); reflexivity.
  - destruct (f x); cbn; [|reflexivity]. rewrite IH.
    destruct (mapM f l1); cbn; [|reflexivity]. destruct (mapM f l2); reflexivity.
Qed.

Lemma mapM_length {A B} (f : A -> res B) l r : mapM f l = Ok r -> length r = length l.
Proof.
  revert r; induction l as [|x l IH]; cbn; intros r H.
  - injection H as <-; reflexivity.
  - destruct (f x); cbn in H; [|discriminate]. destruct (mapM f l); cbn in H; [|discriminate].
    injection H as <-; cbn. f_equal; auto.
Qed.

Lemma mapM_Forall2 {A B} (f : A -> res B) l r :
  mapM f l = Ok r <-> Forall2 (fun x y => f x = Ok y) l r.
Proof.
  split.
  - revert r; induction l as [|x l IH]; cbn; intros r H.
    + injection H as <-; constructor.
    + destruct (f x) eqn:E; cbn in H; [|discriminate].
      destruct (mapM f l) eqn:E2; cbn in H; [|discriminate].
      injection H as <-. constructor; auto.
  - induction 1 as [|x y l r Hx Hl IH]; cbn; [reflexivity|].
    rewrite Hx; cbn. rewrite IH; reflexivity.
Qed.

Lemma mapM_ext_in {A B} (f g : A -> res B) l :
  (forall x, In x l -> f x = g x) -> mapM f l = mapM g l.
Proof.
  induction l as [|x l IH]; cbn; intros H; [reflexivity|].
  rewrite (H x) by auto. destruct (g x); cbn; [|reflexivity].
  rewrite IH by auto. reflexivity.
Qed.

(** ** Bits and integers *)
Lemma enc_length n z : length (enc n z) = n.
Proof. induction n; cbn; congruence. Qed.

Lemma pow2_pos n : 0 < 2 ^ Z.of_nat n.
Proof. apply Z.pow_pos_nonneg; lia. Qed.

Lemma pow2_S n : 2 ^ Z.of_nat (S n) = 2 * 2 ^ Z.of_nat n.
Proof. rewrite Nat2Z.inj_succ, Z.pow_succ_r; lia. Qed.

Lemma pow2_add n m : 2 ^ Z.of_nat (n + m) = 2 ^ Z.of_nat n * 2 ^ Z.of_nat m.
Proof. rewrite Nat2Z.inj_add, Z.pow_add_r; lia. Qed.

Lemma ub_range l : 0 <= ub l < 2 ^ Z.of_nat (length l).
Proof.
  induction l as [|b l IH]; cbn [ub length]; [cbn; lia|].
  rewrite pow2_S. destruct b; cbn [Z.b2z]; lia.
Qed.

Lemma ub_app a b : ub (a ++ b) = ub a * 2 ^ Z.of_nat (length b) + ub b.
Proof.
  induction a as [|x a IH]; cbn [ub app]; [lia|].
  rewrite IH, app_length, pow2_add. ring.
Qed.

Lemma ub_enc_mod n z : ub (enc n z) = z mod 2 ^ Z.of_nat n.
Proof.
  induction n as [|n IH]; cbn [ub enc].
  - cbn. rewrite Z.mod_1_r; reflexivity.
  - rewrite IH, enc_length.
    pose proof (Z.testbit_spec' z (Z.of_nat n) (Nat2Z.is_nonneg n)) as Hb.
    rewrite Hb, pow2_S.
    set (p := 2 ^ Z.of_nat n). assert (Hp : 0 < p) by apply pow2_pos.
    rewrite (Z.mul_comm 2 p).
    rewrite Z.rem_mul_r by lia. ring.
Qed.

Lemma ub_enc n z : 0 <= z < 2 ^ Z.of_nat n -> ub (enc n z) = z.
Proof. intros H. rewrite ub_enc_mod. apply Z.mod_small; exact H. Qed.

Lemma ub_inj a b : length a = length b -> ub a = ub b -> a = b.
Proof.
  revert b; induction a as [|x a IH]; intros [|y b] Hl Hu; cbn in Hl; try lia; [reflexivity|].
  injection Hl as Hl. cbn [ub] in Hu. rewrite Hl in Hu.
  pose proof (ub_range a) as Ha. pose proof (ub_range b) as Hb. rewrite Hl in Ha.
  assert (Hxy : x = y) by (destruct x, y; cbn [Z.b2z] in Hu; auto; lia).
  subst y. f_equal. apply IH; auto. lia.
Qed.

Lemma enc_ub l : enc (length l) (ub l) = l.
Proof.
  apply ub_inj; [apply enc_length|]. apply ub_enc, ub_range.
Qed.

Lemma enc_ub_n n l : length l = n -> enc n (ub l) = l.
Proof. intros <-; apply enc_ub. Qed.

Lemma enc_app n m a b :
  0 <= b < 2 ^ Z.of_nat m -> enc (n + m) (a * 2 ^ Z.of_nat m + b) = enc n a ++ enc m b.
Proof.
  intros Hb. apply ub_inj.
  - rewrite app_length, !enc_length; reflexivity.
  - rewrite ub_app, !ub_enc_mod, enc_length, pow2_add.
    rewrite (Z.mul_comm (2 ^ Z.of_nat n)).
    rewrite Z.rem_mul_r by (pose proof (pow2_pos n); pose proof (pow2_pos m); lia).
    rewrite Z.add_comm, (Z.add_comm (a * _)), Z.mod_add by (pose proof (pow2_pos m); lia).
    rewrite (Z.mod_small b) by lia.
    rewrite Z.div_add by (pose proof (pow2_pos m); lia).
    rewrite (Z.div_small b) by lia. rewrite Z.add_0_l. ring.
Qed.

Lemma enc_mod n z : enc n (z mod 2 ^ Z.of_nat n) = enc n z.
Proof.
  apply ub_inj; [rewrite !enc_length; reflexivity|].
  rewrite !ub_enc_mod, Z.mod_mod; [reflexivity|]. pose proof (pow2_pos n); lia.
Qed.

Lemma zeros_length n : length (zeros n) = n.
Proof. apply repeat_length. Qed.

Lemma enc_0 n : enc n 0 = zeros n.
Proof. induction n as [|n IH]; cbn; [reflexivity|]. rewrite Z.testbit_0_l. unfold zeros in *; cbn. congruence. Qed.

Lemma ub_zeros n : ub (zeros n) = 0.
Proof. rewrite <- enc_0. apply ub_enc. pose proof (pow2_pos n); lia. Qed.

Lemma fits_spec n z : fits n z = true <-> 0 <= z < 2 ^ Z.of_nat n.
Proof. unfold fits. rewrite andb_true_iff, Z.leb_le, Z.ltb_lt. tauto. Qed.

Lemma w_uint_ok n z b : w_uint n z = Ok b <-> (b = enc n z /\ 0 <= z < 2 ^ Z.of_nat n).
Proof.
  unfold w_uint. destruct (fits n z) eqn:E.
  - apply fits_spec in E. split; [intros H; injection H as <-; auto | intros [-> _]; reflexivity].
  - split; [discriminate|]. intros [_ H]. apply fits_spec in H. congruence.
Qed.

Lemma w_uint_in n z : 0 <= z < 2 ^ Z.of_nat n -> w_uint n z = Ok (enc n z).
Proof. intros H. apply w_uint_ok; auto. Qed.

Lemma w_int_ok n z b :
  w_int n z = Ok b <-> (b = enc n z /\ - 2 ^ (Z.of_nat n - 1) <= z < 2 ^ (Z.of_nat n - 1)).
Proof.
  unfold w_int.
  destruct ((- 2 ^ (Z.of_nat n - 1) <=? z) && (z <? 2 ^ (Z.of_nat n - 1))) eqn:E.
  - split; [intros H; injection H as <-; split; [reflexivity|lia] | intros [-> _]; reflexivity].
  - split; [discriminate|]. intros [_ H]. lia.
Qed.

Lemma signed_enc n z :
  (0 < n)%nat -> - 2 ^ (Z.of_nat n - 1) <= z < 2 ^ (Z.of_nat n - 1) ->
  signed n (ub (enc n z)) = z.
Proof.
  intros Hn Hz. rewrite ub_enc_mod. unfold signed.
  assert (Hp : 2 ^ Z.of_nat n = 2 * 2 ^ (Z.of_nat n - 1)).
  { rewrite <- Z.pow_succ_r by lia. f_equal; lia. }
  rewrite Hp. set (p := 2 ^ (Z.of_nat n - 1)) in *.
  destruct (Z.lt_ge_cases z 0) as [Hneg|Hpos].
  - assert (Hm : z mod (2 * p) = z + 2 * p)
      by (symmetry; apply Z.mod_unique with (q := -1); lia).
    rewrite Hm. destruct (z + 2 * p <? p) eqn:E; lia.
  - rewrite Z.mod_small by lia. destruct (z <? p) eqn:E; lia.
Qed.

Lemma enc_signed n l :
  (0 < n)%nat -> length l = n -> enc n (signed n (ub l)) = l /\
  - 2 ^ (Z.of_nat n - 1) <= signed n (ub l) < 2 ^ (Z.of_nat n - 1).
Proof.
  intros Hn Hl. pose proof (ub_range l) as Hr. rewrite Hl in Hr. unfold signed.
  assert (Hp : 2 ^ Z.of_nat n = 2 * 2 ^ (Z.of_nat n - 1)).
  { rewrite <- Z.pow_succ_r by lia. f_equal; lia. }
  destruct (ub l <? 2 ^ (Z.of_nat n - 1)) eqn:E.
  - split; [apply enc_ub_n; exact Hl | lia].
  - split; [| lia]. rewrite <- (enc_mod n (ub l - 2 ^ Z.of_nat n)).
    replace (ub l - 2 ^ Z.of_nat n) with (ub l + (-1) * 2 ^ Z.of_nat n) by ring.
    rewrite Z.mod_add by lia. rewrite enc_mod. apply enc_ub_n; exact Hl.
Qed.

(** ** Reading *)
Lemma take_app a s : take (length a) (a ++ s) = Some (a, s).
Proof. induction a as [|x a IH]; cbn; [reflexivity|]. rewrite IH; reflexivity. Qed.

Lemma take_some n s a r : take n s = Some (a, r) <-> (s = a ++ r /\ length a = n).
Proof.
  split.
  - revert s a r; induction n as [|n IH]; cbn; intros s a r H.
    + injection H as <- <-; auto.
    + destruct s as [|b s]; [discriminate|]. destruct (take n s) as [[a' t]|] eqn:E; [|discriminate].
      injection H as <- <-. apply IH in E. destruct E as [-> <-]. auto.
  - intros [-> <-]. apply take_app.
Qed.

Lemma take_none n s : take n s = None <-> (length s < n)%nat.
Proof.
  revert s; induction n as [|n IH]; cbn; intros s.
  - split; [discriminate|lia].
  - destruct s as [|b s]; cbn; [split; [lia|reflexivity]|].
    specialize (IH s). destruct (take n s) as [[a t]|].
    + split; [discriminate|]. intros H. assert (Hx : (length s < n)%nat) by lia. apply IH in Hx. discriminate.
    + split; [|reflexivity]. intros _. assert (Hx : (length s < n)%nat) by (apply IH; reflexivity). lia.
Qed.

Lemma rd_bits_ok n s a r : rd_bits n s = Ok (a, r) <-> (s = a ++ r /\ length a = n).
Proof.
  unfold rd_bits. rewrite <- take_some. destruct (take n s) as [p|]; split; congruence.
Qed.

Lemma rd_bits_app n a s : length a = n -> rd_bits n (a ++ s) = Ok (a, s).
Proof. intros H. apply rd_bits_ok; auto. Qed.

Lemma rd_bits_err n s e : rd_bits n s = Err e -> e = ERead /\ (length s < n)%nat.
Proof.
  unfold rd_bits. destruct (take n s) eqn:E; [discriminate|]. intros H; injection H as <-.
  apply take_none in E. auto.
Qed.

Lemma rd_uint_ok n s z r :
  rd_uint n s = Ok (z, r) <-> (s = enc n z ++ r /\ 0 <= z < 2 ^ Z.of_nat n).
Proof.
  unfold rd_uint. split.
  - intros H. apply bind_ok in H. destruct H as [[a t] [H1 H2]].
    injection H2 as <- <-. apply rd_bits_ok in H1. destruct H1 as [-> <-].
    rewrite enc_ub. split; [reflexivity | apply ub_range].
  - intros [-> Hz]. rewrite rd_bits_app by apply enc_length. cbn. rewrite ub_enc by exact Hz. reflexivity.
Qed.

Lemma rd_uint_enc n z s : 0 <= z < 2 ^ Z.of_nat n -> rd_uint n (enc n z ++ s) = Ok (z, s).
Proof. intros H. apply rd_uint_ok; auto. Qed.

Lemma rd_uint_err n s e : rd_uint n s = Err e -> e = ERead /\ (length s < n)%nat.
Proof.
  unfold rd_uint. destruct (rd_bits n s) as [[a r]|e'] eqn:E; cbn; [discriminate|].
  intros H; injection H as <-. apply rd_bits_err in E; exact E.
Qed.

Lemma rd_int_ok n s z r :
  (0 < n)%nat ->
  rd_int n s = Ok (z, r) <->
  (s = enc n z ++ r /\ - 2 ^ (Z.of_nat n - 1) <= z < 2 ^ (Z.of_nat n - 1)).
Proof.
  intros Hn. unfold rd_int. split.
  - intros H. apply bind_ok in H. destruct H as [[a t] [H1 H2]].
    injection H2 as <- <-. apply rd_bits_ok in H1. destruct H1 as [-> H1].
    destruct (enc_signed n a Hn H1) as [E1 E2]. rewrite E1. auto.
  - intros [-> Hz]. rewrite rd_bits_app by apply enc_length. cbn.
    rewrite signed_enc by assumption. reflexivity.
Qed.

Lemma rd_bool_ok s b r : rd_bool s = Ok (b, r) <-> s = b :: r.
Proof.
  destruct s as [|x s]; cbn; split; intros H; try discriminate;
    injection H as <- <-; reflexivity.
Qed.

(** ** Bytes *)
Lemma bits_of_bytes_length l : length (bits_of_bytes l) = (8 * length l)%nat.
Proof.
  induction l as [|b l IH]; [reflexivity|]. unfold bits_of_bytes in *; cbn [flat_map].
  rewrite app_length, IH. destruct b; cbn; lia.
Qed.

Lemma bits_of_bytes_app a b : bits_of_bytes (a ++ b) = bits_of_bytes a ++ bits_of_bytes b.
Proof. unfold bits_of_bytes. rewrite flat_map_app. reflexivity. Qed.

Lemma bytes_of_bits_of_bytes l : bytes_of_bits (bits_of_bytes l) = Ok l.
Proof.
  induction l as [|[b7 b6 b5 b4 b3 b2 b1 b0] l IH]; [reflexivity|].
  cbn. fold (bits_of_bytes l). rewrite IH. reflexivity.
Qed.

Lemma bits_ind8 (P : list bool -> Prop) :
  P [] ->
  (forall l, (0 < length l < 8)%nat -> P l) ->
  (forall a b c d e f g h r, P r -> P (a :: b :: c :: d :: e :: f :: g :: h :: r)) ->
  forall l : list bool, P l.
Proof.
  intros H0 H1 H2 l.
  assert (forall n l, (length l < n)%nat -> P l) as Hx.
  { induction n as [|n IH]; intros l0 Hl; [lia|].
    destruct l0 as [|a [|b [|c [|d [|e [|f [|g [|h r]]]]]]]]; auto;
      try (apply H1; cbn; lia).
    apply H2, IH. cbn in Hl; lia. }
  eapply Hx; eauto.
Qed.

Lemma bytes_of_bits_ok l b : bytes_of_bits l = Ok b <-> l = bits_of_bytes b.
Proof.
  split; [|intros ->; apply bytes_of_bits_of_bytes].
  revert b. induction l as [| l Hl | a b0 c d e f g h r IH] using bits_ind8; intros b H.
  - injection H as <-; reflexivity.
  - destruct l as [|? [|? [|? [|? [|? [|? [|? [|? ?]]]]]]]]; cbn in *; try discriminate; lia.
  - cbn in H. apply bind_ok in H. destruct H as [t [H1 H2]]. injection H2 as <-.
    cbn. fold (bits_of_bytes t). rewrite (IH _ H1). reflexivity.
Qed.

Lemma bytes_of_bits_total l n :
  length l = (8 * n)%nat -> exists b, bytes_of_bits l = Ok b /\ length b = n.
Proof.
  revert n. induction l as [| l Hl | a b0 c d e f g h r IH] using bits_ind8; intros n H.
  - exists []. cbn in *. split; [reflexivity|lia].
  - lia.
  - cbn in H. destruct n as [|n]; [lia|].
    destruct (IH n) as [t [H1 H2]]; [lia|].
    exists (Byte a b0 c d e f g h :: t). cbn. rewrite H1. cbn. auto.
Qed.

Lemma bits_of_bytes_inj a b : bits_of_bytes a = bits_of_bytes b -> a = b.
Proof.
  intros H. assert (Ok a = Ok b) as E by (rewrite <- !bytes_of_bits_of_bytes, H; reflexivity).
  congruence.
Qed.

Lemma bytes_of_bits_app a b :
  (exists n, length a = (8 * n)%nat) ->
  bytes_of_bits (a ++ b) = let* x := bytes_of_bits a in let* y := bytes_of_bits b in Ok (x ++ y).
Proof.
  intros [n Hn]. destruct (bytes_of_bits_total a n Hn) as [x [Hx _]]. rewrite Hx. cbn.
  apply bytes_of_bits_ok in Hx. subst a. clear Hn.
  induction x as [|[b7 b6 b5 b4 b3 b2 b1 b0] x IH]; cbn.
  - destruct (bytes_of_bits b); reflexivity.
  - fold (bits_of_bytes x). rewrite IH. destruct (bytes_of_bits b); reflexivity.
Qed.

Lemma rd_bytes_ok n s b r :
  rd_bytes n s = Ok (b, r) <-> (s = bits_of_bytes b ++ r /\ length b = n).
Proof.
  unfold rd_bytes. split.
  - intros H. apply bind_ok in H. destruct H as [[a t] [H1 H2]].
    apply bind_ok in H2. destruct H2 as [x [H2 H3]]. injection H3 as <- <-.
    apply rd_bits_ok in H1. destruct H1 as [-> H1]. apply bytes_of_bits_ok in H2. subst a.
    split; [reflexivity|]. rewrite bits_of_bytes_length in H1. lia.
  - intros [-> Hn]. rewrite rd_bits_app by (rewrite bits_of_bytes_length; lia).
    cbn. rewrite bytes_of_bits_of_bytes. reflexivity.
Qed.

Lemma rd_bytes_app n b s : length b = n -> rd_bytes n (bits_of_bytes b ++ s) = Ok (b, s).
Proof. intros H; apply rd_bytes_ok; auto. Qed.

Lemma rd_bytes_err n s e : rd_bytes n s = Err e -> e = ERead /\ (length s < 8 * n)%nat.
Proof.
  unfold rd_bytes. destruct (rd_bits (8 * n) s) as [[a r]|e'] eqn:E; cbn [bind].
  - apply rd_bits_ok in E. destruct E as [_ E]. destruct (bytes_of_bits_total a n E) as [b [H _]].
    rewrite H. discriminate.
  - intros H; injection H as <-. apply rd_bits_err in E. exact E.
Qed.

Lemma byte_eqb_spec x y : byte_eqb x y = true <-> x = y.
Proof.
  destruct x, y; cbn. rewrite !andb_true_iff, !Bool.eqb_true_iff.
  split; [intuition congruence|]. intros H; injection H; intuition.
Qed.

Lemma list_eqb_spec {A} (eqb : A -> A -> bool) :
  (forall x y, eqb x y = true <-> x = y) -> forall x y, list_eqb eqb x y = true <-> x = y.
Proof.
  intros H x; induction x as [|a x IH]; intros [|b y]; cbn; split; try congruence.
  - rewrite andb_true_iff, H, IH. intros [-> ->]; reflexivity.
  - intros E; injection E as -> ->. rewrite andb_true_iff, H, IH. auto.
Qed.

Lemma bytes_eqb_spec x y : bytes_eqb x y = true <-> x = y.
Proof. apply list_eqb_spec, byte_eqb_spec. Qed.
Lemma bits_eqb_spec x y : bits_eqb x y = true <-> x = y.
Proof. apply list_eqb_spec, Bool.eqb_true_iff. Qed.
Lemma bytes_eqb_refl x : bytes_eqb x x = true.
Proof. apply bytes_eqb_spec; reflexivity. Qed.

(** ** Tactics: inverting monadic code, running readers over encoded bits. *)
Ltac mon1 H :=
  match type of H with
  | bind ?e _ = Ok _ =>
      let E := fresh "E" in apply bind_ok in H;
      first [ destruct H as [[? ?] [E H]] | destruct H as [? [E H]] ]; cbn beta iota in H
  | (if ?c then Err _ else _) = Ok _ =>
      let E := fresh "E" in destruct c eqn:E; [discriminate H|]
  | (if ?c then _ else Err _) = Ok _ =>
      let E := fresh "E" in destruct c eqn:E; [|discriminate H]
  | (match ?p with (_, _) => _ end) = Ok _ => destruct p; cbn beta iota in H
  | (let (_, _) := ?p in _) = Ok _ => destruct p
  end.
Ltac mon H := repeat mon1 H.

(** turn [w_uint .. = Ok b] etc. into equations *)
Ltac winv :=
  repeat match goal with
  | H : w_uint _ _ = Ok _ |- _ =>
      let H2 := fresh "Hr" in apply w_uint_ok in H; destruct H as [-> H2]
  | H : w_int _ _ = Ok _ |- _ =>
      let H2 := fresh "Hr" in apply w_int_ok in H; destruct H as [-> H2]
  | H : guard _ _ = Ok _ |- _ => apply guard_ok in H
  end.

(** turn [rd_xxx s = Ok (v, r)] into [s = ...] *)
Ltac rinv :=
  repeat match goal with
  | H : rd_uint _ _ = Ok (_, _) |- _ =>
      let H1 := fresh "Hs" in let H2 := fresh "Hr" in
      apply rd_uint_ok in H; destruct H as [H1 H2]; subst
  | H : rd_int _ _ = Ok (_, _) |- _ =>
      let H1 := fresh "Hs" in let H2 := fresh "Hr" in
      apply rd_int_ok in H; [destruct H as [H1 H2]; subst | lia]
  | H : rd_bits _ _ = Ok (_, _) |- _ =>
      let H1 := fresh "Hs" in let H2 := fresh "Hl" in
      apply rd_bits_ok in H; destruct H as [H1 H2]; subst
  | H : rd_bytes _ _ = Ok (_, _) |- _ =>
      let H1 := fresh "Hs" in let H2 := fresh "Hl" in
      apply rd_bytes_ok in H; destruct H as [H1 H2]; subst
  | H : rd_bool _ = Ok (_, _) |- _ => apply rd_bool_ok in H; subst
  | H : guard _ _ = Ok _ |- _ => apply guard_ok in H
  end.

(** run writers / readers whose range side conditions are hypotheses *)
Ltac wrun := repeat (cbn [bind]; rewrite w_uint_in by (assumption || lia)); cbn [bind].

Global Arguments enc : simpl never.
Global Arguments zeros : simpl never.
Global Arguments ub : simpl never.
Global Arguments bits_of_bytes : simpl never.
Global Arguments Z.pow : simpl never.

Lemma Ok_inj {A} (a b : A) : Ok a = Ok b -> a = b.
Proof. intros H; injection H; auto. Qed.

Ltac pairinj H :=
  lazymatch type of H with
  | (_, _) = (_, _) =>
      let H1 := fresh H in let H2 := fresh H in
      apply pair_equal_spec in H; destruct H as [H1 H2]; pairinj H1; pairinj H2
  | ?x = ?y => first [ is_var y; subst y | is_var x; subst x | idtac ]
  end.
(** [Ok x = Ok y]: substitute without the reduction [injection] performs *)
Ltac okinj H := apply Ok_inj in H; pairinj H.
(** invert one bind, naming the result and the equation *)
Tactic Notation "bo" hyp(H) simple_intropattern(p) ident(E) :=
  apply bind_ok in H; destruct H as [p [E H]]; cbn beta iota in H.
