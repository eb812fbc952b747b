(** * Property C112: authentication data is HMAC-SHA-1 or HMAC-SHA-256, and what that means for keys *)
From Verif Require Import Base BaseLemmas Afi Spec Records Control SpecRec Auth SpecAuth PropAuth Tree SpecTree TreeProofs PropTree PropTree2 MapServer SpecMs PropMs PropMs2 Sha.

Lemma sha1_length m : length (sha1 m) = 20%nat.
Proof. unfold sha1. destruct (fold_left _ _ _) as [[[[a b] c] d] e]. reflexivity. Qed.
Lemma sha256_length m : length (sha256 m) = 32%nat.
Proof. unfold sha256. destruct (fold_left _ _ _) as [[[[a b] c] d] [[[e f] g] h]]. reflexivity. Qed.
(** everything that was proved for functions with digests of these sizes holds for the real ones *)
Theorem C112_digests : digests real_hm.
Proof.
  intros k n [[-> ->]|[-> ->]] key msg; unfold real_hm, hmac; cbn [Z.eqb Pos.eqb]; [apply sha1_length|apply sha256_length].
Qed.

(** ** What verification checks *)
(** the digest of a key id *)
Inductive digest_of : Z -> (bytes -> bytes) -> nat -> Prop := do_sha1 : digest_of 1 sha1 20 | do_sha256 : digest_of 2 sha256 32.
Lemma digest_real k h n key msg : digest_of k h n -> real_hm k key msg = hmac h key msg /\ digest_size k n.
Proof. intros []; unfold real_hm, digest_size; cbn; auto. Qed.
(** C112: the authentication data of a message that is sent is accepted exactly if it is the HMAC (RFC 2104) over the message with its
    authentication data zeroed *)
Theorem C112_mac : forall (m : amsg) key out h n, obj_a m -> a_to_bytes m = Ok out -> digest_of (a_key m) h n ->
  exists v, snd (verify real_hm m key) = Ok v /\ (v = true <-> length (a_auth m) = n /\ auth_field n out = a_auth m /\ auth_field n out = hmac h key (zeroed n out)).
Proof.
  intros m key out h n O E D. destruct (C42_verify_iff_mac real_hm m key out C112_digests O E) as (v & V & _ & I). exists v. split; [exact V|].
  destruct (digest_real _ _ _ key (zeroed n out) D) as [R S]. rewrite <- R. apply I, S.
Qed.

(** C112: this HMAC is that of RFC 2104.  K is the key, or the digest of a key of more than 64 octets, continued with zeros; ipad is 0x36 and opad 0x5c, 64 times *)
Definition octet_value (l : bytes) (i : nat) : Z := match nth_error l i with Some b => byte_val b | None => 0 end.
Definition both (f : bool -> bool) : bool := f true && f false.
Lemma both_all f : both f = true -> forall b, f b = true.
Proof. intros H. apply andb_prop in H. intros []; apply H. Qed.
Lemma xor_value a b : byte_val (xor_byte a b) = Z.lxor (byte_val a) (byte_val b).
Proof.
  destruct a as [a7 a6 a5 a4 a3 a2 a1 a0], b as [b7 b6 b5 b4 b3 b2 b1 b0]. apply Z.eqb_eq.
  assert (both (fun a7 => both (fun a6 => both (fun a5 => both (fun a4 => both (fun a3 => both (fun a2 => both (fun a1 => both (fun a0 => both (fun b7 => both (fun b6 => both (fun b5 => both (fun b4 => both (fun b3 => both (fun b2 => both (fun b1 => both (fun b0 => byte_val (xor_byte (Byte a7 a6 a5 a4 a3 a2 a1 a0) (Byte b7 b6 b5 b4 b3 b2 b1 b0)) =? Z.lxor (byte_val (Byte a7 a6 a5 a4 a3 a2 a1 a0)) (byte_val (Byte b7 b6 b5 b4 b3 b2 b1 b0)))))))))))))))))) = true) as H by (vm_compute; reflexivity).
  pose proof (both_all _ H a7) as H1. pose proof (both_all _ H1 a6) as H2. pose proof (both_all _ H2 a5) as H3. pose proof (both_all _ H3 a4) as H4. pose proof (both_all _ H4 a3) as H5. pose proof (both_all _ H5 a2) as H6. pose proof (both_all _ H6 a1) as H7. pose proof (both_all _ H7 a0) as H8. pose proof (both_all _ H8 b7) as H9. pose proof (both_all _ H9 b6) as H10. pose proof (both_all _ H10 b5) as H11. pose proof (both_all _ H11 b4) as H12. pose proof (both_all _ H12 b3) as H13. pose proof (both_all _ H13 b2) as H14. pose proof (both_all _ H14 b1) as H15. pose proof (both_all _ H15 b0) as H16. exact H16.
Qed.
Theorem C112_rfc2104 : forall k h n key msg, digest_of k h n ->
  let K := if (64 <? length key)%nat then h key else key in
  exists inner outer, length inner = 64%nat /\ length outer = 64%nat /\
    (forall i, (i < 64)%nat -> octet_value inner i = Z.lxor 0x36 (octet_value K i) /\ octet_value outer i = Z.lxor 0x5c (octet_value K i)) /\
    real_hm k key msg = h (outer ++ h (inner ++ msg)).
Proof.
  intros k h n key msg D K. destruct (digest_real k h n key msg D) as [-> _]. unfold hmac. cbv zeta.
  assert (block_key h key = K ++ repeat zero_byte (64 - length K) /\ (length K <= 64)%nat) as [-> L].
  { unfold block_key, K, blen. destruct (Z.gtb_spec (Z.of_nat (length key)) 64) as [G|G], (Nat.ltb_spec 64 (length key)) as [G'|G']; try lia; split; try reflexivity; try lia.
    destruct D; rewrite ?sha1_length, ?sha256_length; lia. }
  eexists _, _. split; [|split; [|split; [|reflexivity]]]; try (rewrite map_length, app_length, repeat_length; lia).
  assert (forall c i, (i < 64)%nat -> octet_value (map (xor_byte c) (K ++ repeat zero_byte (64 - length K))) i = Z.lxor (byte_val c) (octet_value K i)) as H.
  { intros c i I. unfold octet_value. rewrite nth_error_map. destruct (Nat.ltb_spec i (length K)) as [X|X].
    - rewrite nth_error_app1 by exact X. destruct (nth_error K i) as [b|] eqn:E; [|apply nth_error_None in E; lia]. cbn [option_map]. apply xor_value.
    - rewrite nth_error_app2 by exact X. rewrite (proj2 (nth_error_None K i) X). rewrite (nth_error_repeat zero_byte) by lia. cbn [option_map]. rewrite xor_value. reflexivity. }
  intros i I. rewrite !H by exact I. split; reflexivity.
Qed.
Example C112_rfc2104_example : octet_value (B [1; 0x20]) 1 = 32 /\ octet_value (B [1]) 5 = 0.
Proof. split; reflexivity. Qed.

(** ** Which keys are the same *)
(** keys with the same block in RFC 2104 *)
Definition interchangeable (h : bytes -> bytes) (a b : bytes) : Prop := block_key h a = block_key h b.
Lemma same_hmac h a b msg : interchangeable h a b -> hmac h a msg = hmac h b msg.
Proof. unfold hmac. intros ->. reflexivity. Qed.
(** C112: such keys verify and compute the same, for every message *)
Theorem C112_interchangeable : forall (m : amsg) a b h n, digest_of (a_key m) h n -> interchangeable h a b ->
  calculate real_hm m a = calculate real_hm m b /\ verify real_hm m a = verify real_hm m b /\ insert real_hm m a = insert real_hm m b.
Proof.
  intros m a b h n D I. assert (calculate real_hm m a = calculate real_hm m b) as E.
  { unfold calculate. destruct (a_key m =? 0); [reflexivity|]. destruct (digest_len (a_key m)) as [k|]; [|reflexivity]. cbv zeta. destruct (a_to_bytes _) as [msg|]; [|reflexivity].
    rewrite !(proj1 (digest_real _ _ _ _ _ D)), (same_hmac h a b msg I). reflexivity. }
  unfold verify, insert. rewrite E. auto.
Qed.
Lemma no_key_any hm (m : amsg) a b : (forall h n, ~ digest_of (a_key m) h n) -> verify hm m a = verify hm m b.
Proof.
  intros N. unfold verify, calculate. destruct (Z.eqb_spec (a_key m) 0); [reflexivity|]. unfold digest_len.
  destruct (Z.eqb_spec (a_key m) 1) as [E|]; [exfalso; rewrite E in N; eapply N; constructor|]. destruct (Z.eqb_spec (a_key m) 2) as [E|]; [exfalso; rewrite E in N; eapply N; constructor|reflexivity].
Qed.
(** zero bytes at the end of a key do not count, as long as it fits in a block; a longer key is as good as its digest *)
Theorem C112_trailing_zeros : forall h key n, (length key + n <= 64)%nat -> interchangeable h key (key ++ repeat zero_byte n).
Proof.
  intros h key n L. unfold interchangeable, block_key, blen. rewrite app_length, repeat_length.
  assert ((Z.of_nat (length key) >? 64) = false /\ (Z.of_nat (length key + n) >? 64) = false) as [-> ->] by (rewrite !Z.gtb_ltb; split; apply Z.ltb_ge; lia).
  rewrite <- app_assoc, <- repeat_app, app_length, repeat_length. do 2 f_equal. lia.
Qed.
Theorem C112_long_keys : forall key, (64 < length key)%nat -> interchangeable sha1 key (sha1 key) /\ interchangeable sha256 key (sha256 key).
Proof.
  intros key L. unfold interchangeable, block_key, blen. rewrite sha1_length, sha256_length.
  assert ((Z.of_nat (length key) >? 64) = true) as -> by (rewrite Z.gtb_ltb; apply Z.ltb_lt; lia). auto.
Qed.
(** so a Map-Server has the same registrations with either of two such keys, whatever is registered with it *)
Theorem C112_same_registrations : forall a b more p h q so rg, interchangeable sha1 a b -> interchangeable sha256 a b -> wf_pfx p -> objects h ->
  registered (ms_run real_hm p (new_ms a more) h) q so = Some rg <-> registered (ms_run real_hm p (new_ms b more) h) q so = Some rg.
Proof.
  intros a b more p h q so rg I1 I2 W O. rewrite !C51_store_refines by assumption.
  assert (forall m i src now q so rg, acceptable real_hm a more p m i src now q so rg <-> acceptable real_hm b more p m i src now q so rg) as K.
  { intros m i src now q0 so0 rg0. unfold acceptable, authentic.
    assert (verify real_hm (AReg m) a = verify real_hm (AReg m) b) as ->; [|reflexivity].
    destruct (Z.eq_dec (g_key m) 1) as [E1|N1]; [eapply (C112_interchangeable (AReg m) a b sha1 20); [cbn [a_key]; rewrite E1; constructor|exact I1]|].
    destruct (Z.eq_dec (g_key m) 2) as [E2|N2]; [eapply (C112_interchangeable (AReg m) a b sha256 32); [cbn [a_key]; rewrite E2; constructor|exact I2]|].
    apply no_key_any. intros ha n D. cbn [a_key] in D. inversion D; congruence. }
  unfold in_force. split; intros (h1 & m & i & src & now & h2 & -> & A & NA & NC); exists h1, m, i, src, now, h2; (split; [reflexivity|]); (split; [apply K, A|]); (split; [|exact NC]);
    intros m' i' src' now' I' rg' A'; apply K in A'; exact (NA _ _ _ _ I' _ A').
Qed.

(** ** Which MACs are the same *)
Definition collision (h : bytes -> bytes) : Prop := exists x y, x <> y /\ h x = h y.
Lemma byte_dec (a b : byte) : {a = b} + {a <> b}.
Proof. repeat decide equality. Qed.
Lemma same_or_collision (h : bytes -> bytes) x y : h x = h y -> x = y \/ collision h.
Proof. intros E. destruct (list_eq_dec byte_dec x y) as [->|N]; [auto|right; exists x, y; auto]. Qed.
Lemma xor_inj c l1 : forall l2, map (xor_byte c) l1 = map (xor_byte c) l2 -> l1 = l2.
Proof.
  induction l1 as [|a l1 IH]; intros [|b l2] E; try discriminate; [reflexivity|]. cbn [map] in E. injection E as E1 E2. f_equal; [|apply IH, E2].
  destruct a as [a7 a6 a5 a4 a3 a2 a1 a0], b as [b7 b6 b5 b4 b3 b2 b1 b0], c as [c7 c6 c5 c4 c3 c2 c1 c0]. cbn [xor_byte] in E1. injection E1 as X7 X6 X5 X4 X3 X2 X1 X0.
  assert (forall c x y, xorb c x = xorb c y -> x = y) as J by (intros [] [] [] X; (reflexivity || discriminate X)).
  f_equal; eapply J; eassumption.
Qed.
Lemma block_key_length h n key : (forall x, length (h x) = n) -> (n <= 64)%nat -> length (block_key h key) = 64%nat.
Proof.
  intros L N. unfold block_key, blen. destruct (Z.gtb_spec (Z.of_nat (length key)) 64) as [G|G]; rewrite app_length, repeat_length; rewrite ?L; lia.
Qed.
Lemma app_same {A} (a b c d : list A) : length a = length c -> a ++ b = c ++ d -> a = c /\ b = d.
Proof. revert c. induction a as [|x a IH]; intros [|y c] L E; try discriminate L; [auto|]. cbn in *. injection E as -> E. destruct (IH c ltac:(lia) E) as [-> ->]. auto. Qed.
(** C112: the same MAC of two messages with two keys means the same message and interchangeable keys, or two inputs are at hand that
    have the same SHA-1 (or SHA-256) digest *)
Theorem C112_no_accident : forall k h n a b x y, digest_of k h n -> real_hm k a x = real_hm k b y -> (interchangeable h a b /\ x = y) \/ collision h.
Proof.
  intros k h n a b x y D E. rewrite !(proj1 (digest_real _ _ _ _ _ D)) in E.
  assert ((forall z, length (h z) = n) /\ (n <= 64)%nat) as [L N] by (destruct D; split; try lia; [apply sha1_length|apply sha256_length]).
  unfold hmac in E. cbv zeta in E. apply same_or_collision in E. destruct E as [E|E]; [|auto].
  apply app_same in E; [|rewrite !map_length, !(block_key_length h n) by assumption; reflexivity]. destruct E as [K I].
  apply xor_inj in K. apply same_or_collision in I. destruct I as [I|I]; [|auto].
  apply app_same in I; [|rewrite !map_length, !(block_key_length h n) by assumption; reflexivity]. left. split; [exact K|apply I].
Qed.
(** C112: authentication data that two messages of the same key id carry and that verifies for both, with whatever keys: the keys are
    interchangeable and the messages are the same outside of it, or there is a collision *)
Theorem C112_not_reusable : forall (m1 m2 : amsg) k1 k2 out1 out2 h n, obj_a m1 -> obj_a m2 -> a_to_bytes m1 = Ok out1 -> a_to_bytes m2 = Ok out2 ->
  digest_of (a_key m1) h n -> a_key m2 = a_key m1 -> a_auth m1 = a_auth m2 ->
  snd (verify real_hm m1 k1) = Ok true -> snd (verify real_hm m2 k2) = Ok true ->
  (interchangeable h k1 k2 /\ zeroed n out1 = zeroed n out2) \/ collision h.
Proof.
  intros m1 m2 k1 k2 out1 out2 h n O1 O2 E1 E2 D K A V1 V2.
  destruct (C112_mac m1 k1 out1 h n O1 E1 D) as (v1 & W1 & I1). destruct (C112_mac m2 k2 out2 h n O2 E2 (eq_ind_r (fun k => digest_of k h n) D K)) as (v2 & W2 & I2).
  assert (v1 = true) as T1 by congruence. assert (v2 = true) as T2 by congruence. apply I1 in T1. apply I2 in T2. destruct T1 as (_ & A1 & M1), T2 as (_ & A2 & M2).
  apply (C112_no_accident (a_key m1) h n k1 k2 _ _ D). rewrite !(proj1 (digest_real _ _ _ _ _ D)). congruence.
Qed.
(** examples: "secret" and "secret" with a zero byte after it are different keys that are interchangeable (captured Map-Registers are
    verified in Conform.v) *)
Definition ex_key : bytes := B [115; 101; 99; 114; 101; 116].
Example C112_example : ex_key <> (ex_key ++ [zero_byte])%list /\ interchangeable sha1 ex_key (ex_key ++ repeat zero_byte 1) /\ interchangeable sha256 ex_key (ex_key ++ repeat zero_byte 1).
Proof. split; [intros E; discriminate E|]. split; apply C112_trailing_zeros; cbn; lia. Qed.
Definition keyed_register : mreg :=
  MReg false false true [false] (repeat false 15) (repeat zero_byte 8) 2 [] [open_record] 0 0.
Example C112_keyed_example : let '(m, r) := insert real_hm (AReg keyed_register) ex_key in r = Ok tt /\ digest_of (a_key m) sha256 32 /\ length (a_auth m) = 32%nat /\
  snd (verify real_hm m ex_key) = Ok true /\ snd (verify real_hm m (ex_key ++ [zero_byte])) = Ok true /\ snd (verify real_hm m (B [115])) = Ok false.
Proof.
  destruct (insert real_hm (AReg keyed_register) ex_key) as [m r] eqn:E. vm_compute in E. injection E as <- <-. split; [reflexivity|]. split; [constructor|]. vm_compute. auto.
Qed.
Print Assumptions C112_digests.
Print Assumptions C112_mac.
Print Assumptions C112_interchangeable.
Print Assumptions C112_trailing_zeros.
Print Assumptions C112_long_keys.
Print Assumptions C112_same_registrations.
Print Assumptions C112_no_accident.
Print Assumptions C112_not_reusable.
Print Assumptions C112_rfc2104.
