(** * Property C136: how much stack a datagram can demand *)
From Verif Require Import Base BaseLemmas Afi AfiProofs Records Control Packet PacketProofs PacketStack SpecDepth.

(** ** Addresses *)
Lemma afi_body_ext64 rd1 rd2 pl s :
  (forall s', (length s' + 64 <= length s)%nat -> rd1 s' = rd2 s') ->
  (forall s' a r, rd2 s' = Ok (a, r) -> (length r < length s')%nat) ->
  afi_body rd1 pl s = afi_body rd2 pl s.
Proof.
  intros Hext Hlen. unfold afi_body.
  destruct (rd_uint 16 s) as [[afi s0]|] eqn:E; cbn [bind]; [|reflexivity]. rinv.
  destruct (afi =? 0); [reflexivity|]. destruct (afi =? 1); [reflexivity|].
  destruct (afi =? 2); [reflexivity|]. destruct (afi =? AFI_LCAF); [|reflexivity].
  repeat match goal with
  | |- bind (rd_uint ?n ?s) _ = _ =>
      let E := fresh "E" in destruct (rd_uint n s) as [[? ?]|] eqn:E; cbn [bind]; [|reflexivity]
  | |- bind (rd_bits ?n ?s) _ = _ =>
      let E := fresh "E" in destruct (rd_bits n s) as [[? ?]|] eqn:E; cbn [bind]; [|reflexivity]
  end.
  rinv. rewrite (lcaf_ext rd1 rd2); [reflexivity| |exact Hlen].
  intros s' Hs'. apply Hext. rewrite !app_length, !enc_length. lia.
Qed.
Lemma lcaf_empty rd1 rd2 t pl r2 : lcaf_from_data rd1 t pl r2 [] = lcaf_from_data rd2 t pl r2 [].
Proof. unfold lcaf_from_data. repeat match goal with |- context [if ?c then _ else _] => destruct c; [reflexivity|] end. reflexivity. Qed.
Lemma afi_body_short rd1 rd2 pl s : (length s <= 64)%nat -> afi_body rd1 pl s = afi_body rd2 pl s.
Proof.
  intros L. unfold afi_body.
  destruct (rd_uint 16 s) as [[afi s0]|] eqn:E; cbn [bind]; [|reflexivity]. rinv.
  destruct (afi =? 0); [reflexivity|]. destruct (afi =? 1); [reflexivity|].
  destruct (afi =? 2); [reflexivity|]. destruct (afi =? AFI_LCAF); [|reflexivity].
  repeat match goal with
  | |- bind (rd_uint ?n ?s) _ = _ =>
      let E := fresh "E" in destruct (rd_uint n s) as [[? ?]|] eqn:E; cbn [bind]; [|reflexivity]
  | |- bind (rd_bits ?n ?s) _ = _ =>
      let E := fresh "E" in destruct (rd_bits n s) as [[? ?]|] eqn:E; cbn [bind]; [|reflexivity]
  end.
  rinv. rewrite !app_length, !enc_length in L.
  match goal with |- bind (lcaf_from_data _ _ _ _ ?d) _ = _ => destruct d; [|cbn [length] in L; lia] end.
  rewrite (lcaf_empty rd1 rd2). reflexivity.
Qed.
Lemma rd_afi_same f1 : forall f2 pl s, (1 <= f1)%nat -> (1 <= f2)%nat -> (length s <= 64 * f1)%nat -> (length s <= 64 * f2)%nat -> rd_afi f1 pl s = rd_afi f2 pl s.
Proof.
  induction f1 as [|f1 IH]; intros [|f2] pl s A B H1 H2; try lia. cbn [rd_afi].
  destruct (Nat.le_gt_cases (length s) 64) as [L|L]; [apply afi_body_short, L|].
  apply afi_body_ext64; [|intros s' a r; apply rd_afi_len]. intros s' Hs'. apply IH; lia.
Qed.
(** An address in [n] times eight bytes nests at most [n] deep ... *)
Theorem C136_addresses : forall n pl s, (1 <= n)%nat -> (length s <= 64 * n)%nat -> address_within n pl s /\ rd_afi n pl s = read_afi pl s.
Proof.
  intros n pl s N L. assert (rd_afi n pl s = read_afi pl s) as E by (apply rd_afi_same; lia). split; [|exact E].
  unfold address_within. rewrite E. apply read_afi_nofuel.
Qed.
(** ... and with one byte more it can be deeper: *)
Fixpoint nested (n : nat) : bits :=
  match n with
  | O => zeros 8
  | S n => enc 16 AFI_LCAF ++ zeros 8 ++ zeros 8 ++ enc 8 1 ++ enc 8 0 ++ enc 16 (Z.of_nat (8 * n + 1)) ++ nested n
  end.
Lemma nested_length n : length (nested n) = (64 * n + 8)%nat.
Proof. induction n as [|n IH]; [reflexivity|]. cbn [nested]. rewrite !app_length, !enc_length, !zeros_length, IH. lia. Qed.
Theorem C136_addresses_exact : forall n, Z.of_nat n <= 8192 -> exists s, length s = (64 * n + 8)%nat /\ ~ address_within n None s.
Proof.
  intros n L. exists (nested n). split; [apply nested_length|]. intros W. apply W. clear W. induction n as [|n IH]; [reflexivity|].
  cbn [nested rd_afi]. unfold afi_body. rewrite rd_uint_enc by (unfold AFI_LCAF; cbn; lia).
  cbn [bind]. change (AFI_LCAF =? 0) with false. change (AFI_LCAF =? 1) with false. change (AFI_LCAF =? 2) with false. rewrite Z.eqb_refl.
  rewrite rd_bits_app by apply zeros_length. cbn [bind]. rewrite rd_bits_app by apply zeros_length. cbn [bind].
  rewrite rd_uint_enc by (cbn; lia). cbn [bind]. rewrite rd_uint_enc by (cbn; lia). cbn [bind].
  rewrite rd_uint_enc by (change (2 ^ Z.of_nat 16) with 65536; lia). cbn [bind].
  assert (rd_bits (Z.to_nat (Z.of_nat (8 * n + 1)) * 8) (nested n) = Ok (nested n, [])) as ->.
  { rewrite <- (app_nil_r (nested n)) at 1. apply rd_bits_app. rewrite nested_length, Nat2Z.id. lia. }
  cbn [bind]. unfold lcaf_from_data. change (1 =? 0) with false. change (1 =? 1) with true. cbn iota.
  assert (forall m, (1 <= m)%nat -> rd_all (fun s => let* '(a, r) := rd_afi n None s in let* a' := with_prefix a None in Ok (a', r)) m (nested n) = Err EFuel) as ->; [|reflexivity|rewrite nested_length; lia].
  intros [|m] Hm; [lia|]. specialize (IH ltac:(lia)). pose proof (nested_length n) as NL. destruct (nested n) as [|b t]; [cbn [length] in NL; lia|]. cbn [rd_all]. rewrite IH. reflexivity.
Qed.

(** ** Packets *)
Definition wt (k : kind) : nat := match k with KIPv4 _ | KIPv6 _ => 0 | _ => 4 end.
Definition agree8 (r1 r2 : kind -> bytes -> res pkt) (m : nat) : Prop := forall k b, (wt k + length b + 8 <= m)%nat -> r1 k b = r2 k b.
Lemma wt4 k : (wt k <= 4)%nat. Proof. destruct k; cbn; lia. Qed.
Lemma decode_ext8 r1 r2 n dec nh b : agree8 r1 r2 n -> (length b + 12 <= n)%nat -> decode r1 dec nh b = decode r2 dec nh b.
Proof. intros H L. unfold decode. destruct dec; [|reflexivity]. destruct (registry nh) as [k|]; [apply H; pose proof (wt4 k); lia|reflexivity]. Qed.
Lemma decode_ip_ext8 r1 r2 n dec s : agree8 r1 r2 n -> (length s + 64 <= 8 * n)%nat -> decode_ip r1 dec s = decode_ip r2 dec s.
Proof.
  intros H L. unfold decode_ip. destruct s as [|x s]; [reflexivity|]. set (l := x :: s) in *.
  apply bind_ext. intros [v t] _. apply bind_ext. intros b Hb. apply bytes_of_bits_ok in Hb.
  assert (length b + 8 <= n)%nat by (rewrite Hb, bits_of_bytes_length in L; lia).
  destruct (v =? 4); [apply H; cbn; lia|]. destruct (v =? 6); [apply H; cbn; lia|reflexivity].
Qed.
Lemma layer_ext8 r1 r2 k d : agree8 r1 r2 (wt k + length d) -> layer r1 k d = layer r2 k d.
Proof.
  intros H. unfold layer. pose proof (bits_of_bytes_length d) as Ld. set (s := bits_of_bytes d) in *. clearbody s.
  destruct k; cbn [wt] in H.
  - unfold rd_v4. repeat (match goal with |- bind (decode _ _ _ _) _ = _ => fail 1 | _ => ext1 end).
    f_equal. eapply decode_ext8; [exact H|]. clear H. lens. lia.
  - unfold rd_v6. repeat (match goal with |- bind (decode _ _ _ _) _ = _ => fail 1 | _ => ext1 end).
    f_equal. eapply decode_ext8; [exact H|]. clear H. lens. lia.
  - unfold rd_opts. repeat (match goal with |- bind (decode _ _ _ _) _ = _ => fail 1 | _ => ext1 end).
    f_equal. eapply decode_ext8; [exact H|]. clear H. pose proof (proj1 (proj2 (proj1 (rd_uint_ok _ _ _ _) E0))) as R. lens. lia.
  - unfold rd_opts. repeat (match goal with |- bind (decode _ _ _ _) _ = _ => fail 1 | _ => ext1 end).
    f_equal. eapply decode_ext8; [exact H|]. clear H. pose proof (proj1 (proj2 (proj1 (rd_uint_ok _ _ _ _) E0))) as R. lens. lia.
  - unfold rd_route. repeat (match goal with |- bind (decode _ _ _ _) _ = _ => fail 1 | _ => ext1 end).
    f_equal. eapply decode_ext8; [exact H|]. clear H. pose proof (proj1 (proj2 (proj1 (rd_uint_ok _ _ _ _) E0))) as R. lens. lia.
  - reflexivity.
  - reflexivity.
  - unfold rd_udp. do 6 ext1. f_equal.
    match goal with E : rd_bytes _ _ = Ok (?x, _) |- _ => assert (length x + 8 <= length d)%nat by (clear H; lens; lia) end.
    destruct (_ || _); [apply H; cbn; lia|]. destruct (_ || _); [apply H; cbn; lia|reflexivity].
  - unfold rd_data. do 6 ext1. apply bind_ext. intros [[[nonce sv] dv] s7] E7. apply bind_ext. intros [iid s8] E8.
    cbn zeta. apply bind_ext. intros [x s9] E9. f_equal. eapply decode_ip_ext8; [exact H|].
    clear H. match type of E7 with (if ?a then _ else if ?c then _ else _) = _ => destruct a; [|destruct c]; mon E7; okinj E7 end;
    match type of E8 with (if ?a then _ else _) = _ => destruct a; mon E8; okinj E8 end; lens; lia.
  - unfold rd_control. ext1. destruct (z =? 8); [|reflexivity]. unfold rd_ecm. do 6 ext1. f_equal.
    eapply decode_ip_ext8; [exact H|]. clear H. lens. lia.
Qed.
Lemma parse_same f1 : forall f2 k d, (wt k + length d < 8 * f1)%nat -> (wt k + length d < 8 * f2)%nat -> parse f1 k d = parse f2 k d.
Proof.
  induction f1 as [|f1 IH]; intros [|f2] k d H1 H2; try lia. cbn [parse]. apply layer_ext8. intros k' b L. apply IH; lia.
Qed.
(** A packet of less than [8 n - 4] bytes nests at most [n] deep ... *)
Theorem C136_packets : forall n k d, (length d + 4 < 8 * n)%nat -> packet_within n k d /\ parse n k d = pkt_from_bytes k d.
Proof.
  intros n k d L. assert (parse n k d = pkt_from_bytes k d) as E by (apply parse_same; pose proof (wt4 k); lia). split; [|exact E].
  unfold packet_within. rewrite E. apply parse_nf. lia.
Qed.
(** ... so what comes in one Ethernet frame is far from Python's limit ... *)
Theorem C136_frame : forall k d, Z.of_nat (length d) <= frame -> packet_within 189 k d.
Proof. unfold frame. intros k d L. apply C136_packets. lia. Qed.
Theorem C136_frame_address : forall pl b, Z.of_nat (length b) <= frame -> address_within 188 pl (bits_of_bytes b).
Proof. unfold frame. intros pl b L. apply C136_addresses; [lia|]. rewrite bits_of_bytes_length. lia. Qed.

(** ... but a larger datagram can go beyond it: [n] hop-by-hop headers of eight bytes *)
Lemma rd_zeros n m : rd_uint n (zeros (n + m)) = Ok (0, zeros m).
Proof.
  assert (zeros (n + m) = enc n 0 ++ zeros m) as ->; [|apply rd_uint_enc; split; [lia|apply Z.pow_pos_nonneg; lia]].
  rewrite enc_0. unfold zeros. apply repeat_app.
Qed.
Lemma zeros_split n : bits_of_bytes (repeat zero_byte (8 * S n)) = enc 8 0 ++ enc 8 0 ++ bits_of_bytes (repeat zero_byte 6) ++ bits_of_bytes (repeat zero_byte (8 * n)).
Proof.
  rewrite !enc_0, <- !zeros_bytes. unfold zeros. rewrite <- !repeat_app. f_equal. lia.
Qed.
Lemma hops n : parse n KHop (repeat zero_byte (8 * n)) = Err EFuel.
Proof.
  induction n as [|n IH]; [reflexivity|]. cbn [parse layer]. unfold rd_opts. rewrite zeros_split.
  rewrite rd_uint_enc by (cbn; lia). cbn [bind]. rewrite rd_uint_enc by (cbn; lia). cbn [bind].
  change (Z.to_nat ((0 + 1) * 8 - 2)) with 6%nat. rewrite rd_bytes_app by reflexivity. cbn [bind].
  rewrite bytes_of_bits_of_bytes. cbn [bind]. unfold decode. change (registry 0) with (Some KHop). cbn iota. rewrite IH. reflexivity.
Qed.
(** a control datagram: an encapsulated IPv6 packet, header [h], made of [n] hop-by-hop headers *)
Definition ecm_of (h : bytes) (n : nat) : bytes := B [0x80; 0; 0; 0] ++ h ++ repeat zero_byte (8 * n).
Lemma parse_S f k d : parse (S f) k d = layer (parse f) k d.
Proof. reflexivity. Qed.
Lemma v6_deep n h : bits_of_bytes h = enc 4 6 ++ enc 8 0 ++ enc 20 0 ++ enc 16 (Z.of_nat (8 * n)) ++ enc 8 0 ++ enc 8 0 ++ enc 128 0 ++ enc 128 0 ->
  Z.of_nat (8 * n) < 65536 -> parse (S n) (KIPv6 true) (h ++ repeat zero_byte (8 * n)) = Err EFuel.
Proof.
  intros Hh L. rewrite parse_S. cbn [layer]. rewrite bits_of_bytes_app, Hh, <- !app_assoc. unfold rd_v6.
  rewrite rd_uint_enc by (cbn; lia). cbn [bind]. change (6 =? 6) with true. cbn [guard bind].
  rewrite rd_uint_enc by (cbn; lia). cbn [bind]. rewrite rd_uint_enc by (cbn; lia). cbn [bind].
  rewrite rd_uint_enc by (change (2 ^ Z.of_nat 16) with 65536; lia). cbn [bind].
  rewrite rd_uint_enc by (cbn; lia). cbn [bind]. rewrite rd_uint_enc by (cbn; lia). cbn [bind].
  rewrite rd_uint_enc by (split; [lia|apply Z.pow_pos_nonneg; lia]). cbn [bind]. rewrite rd_uint_enc by (split; [lia|apply Z.pow_pos_nonneg; lia]). cbn [bind].
  rewrite <- (app_nil_r (bits_of_bytes (repeat zero_byte (8 * n)))). rewrite rd_bytes_app by (rewrite repeat_length; lia). cbn [bind].
  unfold decode. change (registry 0) with (Some KHop). cbn iota. rewrite hops. reflexivity.
Qed.
Lemma ecm_v6 f ip t : bits_of_bytes ip = enc 4 6 ++ t -> parse f (KIPv6 true) ip = Err EFuel -> parse (S f) KCtl (B [0x80; 0; 0; 0] ++ ip) = Err EFuel.
Proof.
  intros Hb Hp. rewrite parse_S. cbn [layer]. rewrite bits_of_bytes_app.
  change (bits_of_bytes (B [0x80; 0; 0; 0])) with (enc 4 8 ++ [false] ++ [false] ++ repeat false 26). rewrite <- !app_assoc.
  unfold rd_control. rewrite rd_uint_enc by (cbn; lia). cbn [bind]. change (8 =? 8) with true. cbn iota.
  unfold rd_ecm. rewrite rd_uint_enc by (cbn; lia). cbn [bind]. change (8 =? 8) with true. cbn [guard bind].
  match goal with |- context [rd_bool ([false] ++ ?s)] => change (rd_bool ([false] ++ s)) with (Ok (false, s)) end. cbn [bind].
  match goal with |- context [rd_bool ([false] ++ ?s)] => change (rd_bool ([false] ++ s)) with (Ok (false, s)) end. cbn [bind].
  rewrite rd_bits_app by apply repeat_length. cbn [bind negb guard].
  pose proof (bytes_of_bits_of_bytes ip) as BB. rewrite Hb in *. unfold decode_ip.
  destruct (enc 4 6 ++ t) as [|x y] eqn:E; [discriminate|]. rewrite <- E. rewrite rd_uint_enc by (cbn; lia). cbn [bind]. rewrite E, BB. cbn [bind].
  change (6 =? 4) with false. change (6 =? 6) with true. cbn iota. rewrite Hp. reflexivity.
Qed.
Definition long_v6 : bytes := B [0x60; 0; 0; 0; 0x1F; 0x30; 0; 0] ++ repeat zero_byte 32.
Definition over : bytes := ecm_of long_v6 998.
Lemma long_v6_bits : bits_of_bytes long_v6 = enc 4 6 ++ enc 8 0 ++ enc 20 0 ++ enc 16 (Z.of_nat (8 * 998)) ++ enc 8 0 ++ enc 8 0 ++ enc 128 0 ++ enc 128 0.
Proof. replace (Z.of_nat (8 * 998)) with 7984 by lia. vm_compute. reflexivity. Qed.
Lemma over_deep : parse (S (S 998)) KCtl over = Err EFuel.
Proof.
  unfold over, ecm_of. eapply ecm_v6.
  - rewrite bits_of_bytes_app, long_v6_bits, <- app_assoc. reflexivity.
  - apply v6_deep; [exact long_v6_bits|lia].
Qed.
(** ... as a control datagram and as an address that fits into one *)
Theorem C136_refuted :
  (exists d, Z.of_nat (length d) <= max_datagram /\ ~ packet_within python_limit KCtl d) /\
  (exists s, Z.of_nat (length s) <= 8 * max_datagram /\ ~ address_within python_limit None s).
Proof.
  unfold max_datagram. split.
  - exists over. split; [|intros W; apply W, over_deep].
    unfold over, ecm_of. rewrite !app_length, repeat_length. change (length (B [0x80; 0; 0; 0])) with 4%nat. change (length long_v6) with 40%nat. lia.
  - destruct (C136_addresses_exact python_limit) as (s & Ls & W); [unfold python_limit; lia|]. exists s. split; [|exact W]. rewrite Ls. unfold python_limit. lia.
Qed.
(** packets: [8 n] bytes that do not fit in [n] *)
Theorem C136_packets_exact : forall n, exists d, length d = (8 * n)%nat /\ ~ packet_within n KHop d.
Proof. intros n. exists (repeat zero_byte (8 * n)). split; [apply repeat_length|]. intros W. apply W, hops. Qed.

(** ** Examples: a frame full of hop-by-hop headers; the same with room for one call less *)
Example C136_example : packet_within 189 KHop (repeat zero_byte (8 * 187)) /\ ~ packet_within 187 KHop (repeat zero_byte (8 * 187)).
Proof. split; [apply C136_frame; rewrite repeat_length; unfold frame; lia|]. intros W. apply W, hops. Qed.
Print Assumptions C136_addresses.
Print Assumptions C136_addresses_exact.
Print Assumptions C136_packets.
Print Assumptions C136_packets_exact.
Print Assumptions C136_frame.
Print Assumptions C136_frame_address.
Print Assumptions C136_refuted.
