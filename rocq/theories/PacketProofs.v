(** * Packet codecs: wire forms, inversion and execution lemmas. *)
From Verif Require Import Base BaseLemmas Afi AfiProofs Spec SpecLemmas Records Control SpecRec
  RecordsProofs ControlProofs Checksum ChecksumProofs Packet.

(** ** small tools *)
Lemma zeros_bytes n : zeros (8 * n) = bits_of_bytes (repeat zero_byte n).
Proof.
  induction n as [|n IH]; [reflexivity|]. replace (8 * S n)%nat with (8 + 8 * n)%nat by lia.
  unfold zeros in *. rewrite repeat_app, IH. reflexivity.
Qed.
Lemma set_ck_app a b c x : length a = 80%nat -> length b = 16%nat -> set_ck (a ++ b ++ c) x = a ++ x ++ c.
Proof.
  intros Ha Hb. unfold set_ck. rewrite firstn_app, <- Ha, firstn_all, Nat.sub_diag. cbn [firstn]. rewrite app_nil_r.
  f_equal. f_equal. rewrite app_assoc, skipn_app, (skipn_all2 (a ++ b)) by (rewrite app_length; lia).
  rewrite app_length, Ha, Hb. reflexivity.
Qed.
Lemma rd_uint_piece n z s : 0 <= z < 2 ^ Z.of_nat n -> rd_uint n (enc n z ++ s) = Ok (z, s).
Proof. apply rd_uint_enc. Qed.
Lemma blen_app a b : blen (a ++ b) = blen a + blen b.
Proof. unfold blen. rewrite app_length. lia. Qed.
Lemma blen_nonneg a : 0 <= blen a.
Proof. unfold blen. lia. Qed.
Lemma app_inj_len {A} (a b c d : list A) : a ++ b = c ++ d -> length a = length c -> a = c /\ b = d.
Proof.
  revert c. induction a as [|x a IH]; intros [|y c] H L; try discriminate; [auto|].
  cbn in *. injection H as -> H. injection L as L. destruct (IH _ H L) as [-> ->]. auto.
Qed.
(** bits followed by bytes are bytes *)
Lemma bits_tail d p pb k : bits_of_bytes d = p ++ bits_of_bytes pb -> length p = (8 * k)%nat ->
  exists h, d = h ++ pb /\ bits_of_bytes h = p /\ length h = k.
Proof.
  intros H Hp. destruct (bytes_of_bits_total p k Hp) as [h [Hh Hl]]. apply bytes_of_bits_ok in Hh. subst p.
  exists h. rewrite <- bits_of_bytes_app in H. apply bits_of_bytes_inj in H. auto.
Qed.
Lemma head_bytes p k : length p = (8 * k)%nat -> exists h, bits_of_bytes h = p /\ length h = k /\ bytes_of_bits p = Ok h.
Proof.
  intros Hp. destruct (bytes_of_bits_total p k Hp) as [h [Hh Hl]]. pose proof Hh as H2. apply bytes_of_bits_ok in Hh. eauto.
Qed.

(** ** IPv4 *)
Definition v4_pre (ihl tl : Z) (h : v4h) : bits :=
  enc 4 4 ++ enc 4 ihl ++ enc 8 (h_tos h) ++ enc 16 tl ++ enc 16 (h_id h) ++ [false; h_df h; h_mf h] ++
  enc 13 (h_off h) ++ enc 8 (h_ttl h) ++ enc 8 (h_proto h).
Definition v4_post (h : v4h) : bits :=
  enc 32 (ip_int (h_src h)) ++ enc 32 (ip_int (h_dst h)) ++ bits_of_bytes (h_opts h).
Definition v4_wire (ihl tl : Z) (h : v4h) (ck : Z) : bits := v4_pre ihl tl h ++ enc 16 ck ++ v4_post h.

Lemma v4_pre_length ihl tl h : length (v4_pre ihl tl h) = 80%nat.
Proof. unfold v4_pre. rewrite !app_length, !enc_length. reflexivity. Qed.
Lemma v4_wire_length ihl tl h ck : length (v4_wire ihl tl h ck) = (8 * (20 + length (h_opts h)))%nat.
Proof. unfold v4_wire, v4_post. rewrite !app_length, v4_pre_length, !enc_length, bits_of_bytes_length. lia. Qed.

Lemma v4_wire_ck ihl tl h c c' : set_ck (v4_wire ihl tl h c) (enc 16 c') = v4_wire ihl tl h c'.
Proof. unfold v4_wire. apply set_ck_app; [apply v4_pre_length|apply enc_length]. Qed.

(** the values IPv4Packet.sanitize lets through *)
Record v4_fits (h : v4h) : Prop := {
  vf_tos : 0 <= h_tos h < 256; vf_id : 0 <= h_id h < 65536; vf_off : 0 <= h_off h < 8192;
  vf_df : h_df h = true -> h_off h = 0;
  vf_ttl : 0 <= h_ttl h < 256;
  vf_addr : exists s d, h_src h = AIP V4 s /\ h_dst h = AIP V4 d }.
(** the values that can be written *)
Record v4_rng (h : v4h) : Prop := {
  vr_proto : 0 <= h_proto h < 256;
  vr_src : 0 <= ip_int (h_src h) < 2 ^ 32; vr_dst : 0 <= ip_int (h_dst h) < 2 ^ 32 }.

Definition with_proto (h : v4h) (n : Z) : v4h :=
  V4H (h_tos h) (h_id h) (h_df h) (h_mf h) (h_off h) (h_ttl h) n (h_src h) (h_dst h) (h_opts h).
Definition with_opts (h : v4h) (o : bytes) : v4h :=
  V4H (h_tos h) (h_id h) (h_df h) (h_mf h) (h_off h) (h_ttl h) (h_proto h) (h_src h) (h_dst h) o.

Lemma guards_true c e u : (if c : bool then Ok tt else Err e) = Ok u -> c = true.
Proof. destruct c; [reflexivity|discriminate]. Qed.

Lemma sanitize_v4_ok h p h' : sanitize_v4 h p = Ok h' <-> v4_fits h /\ h' = with_proto h (fix_nh (h_proto h) p).
Proof.
  unfold sanitize_v4. split.
  - intros H. bo H [] E1. bo H [] E2. bo H [] E3. bo H [] E4. bo H [] E5. bo H [] E6. bo H [] E7.
    destruct (h_src h) as [|[] s| | | | | | |] eqn:Es; try discriminate.
    destruct (h_dst h) as [|[] d| | | | | | |] eqn:Ed; try discriminate. okinj H. winv.
    apply fits_spec in E1, E2, E3, E5.
    change (2 ^ Z.of_nat 8) with 256 in *. change (2 ^ Z.of_nat 16) with 65536 in *. change (2 ^ Z.of_nat 13) with 8192 in *.
    split; [|unfold with_proto; rewrite ?Es, ?Ed; reflexivity]. constructor; try assumption; [|eauto].
    intros Hd. rewrite Hd in *. lia.
  - intros [[H1 H2 H3 H4 H5 (s & d & Es & Ed)] ->]. unfold with_proto. rewrite Es, Ed. unfold guard.
    assert (fits 8 (h_tos h) = true) as -> by (apply fits_spec; exact H1).
    assert (fits 16 (h_id h) = true) as -> by (apply fits_spec; exact H2).
    assert (fits 13 (h_off h) = true) as -> by (apply fits_spec; exact H3).
    assert (fits 8 (h_ttl h) = true) as -> by (apply fits_spec; exact H5).
    replace (negb (h_df h && (0 <? h_off h))) with true by (destruct (h_df h); [rewrite H4|]; reflexivity). reflexivity.
Qed.

Lemma with_proto_id h : with_proto h (h_proto h) = h.
Proof. destruct h; reflexivity. Qed.

(** the checksum of a header: computed over the header with a zero checksum field *)
Definition v4_ck (ihl tl : Z) (h : v4h) (ck : Z) : Prop :=
  exists hb, bits_of_bytes hb = v4_wire ihl tl h 0 /\ ones_complement hb = ck.

Lemma rd_v4_inv rec dec s q : rd_v4 rec dec s = Ok q ->
  exists ihl tl h ck pb p,
    s = v4_wire ihl tl h ck ++ bits_of_bytes pb /\
    5 <= ihl < 16 /\ length (h_opts h) = Z.to_nat ((ihl - 5) * 4) /\ tl = ihl * 4 + blen pb /\ tl < 65536 /\
    v4_fits h /\ v4_rng h /\ v4_ck ihl tl h ck /\ decode rec dec (h_proto h) pb = Ok p /\
    q = PIPv4 (with_proto h (fix_nh (h_proto h) p)) p.
Proof.
  unfold rd_v4. intros H. bo H [v s1] E1. bo H [] E2. bo H [ihl s2] E3. bo H [] E4. bo H [peek s2'] E5.
  bo H [tos s3] E6. bo H [tl s4] E7. bo H [] E8. bo H [id s5] E9. bo H [r s6] E10. bo H [df s7] E11. bo H [mf s8] E12.
  bo H [] E13. bo H [off s9] E14. bo H [ttl s10] E15. bo H [pr s11] E16. bo H [ck s12] E17. bo H hb E18. bo H [] E19.
  bo H [src s13] E20. bo H [dst s14] E21. bo H [opts s15] E22. bo H [pb s16] E23. bo H p E24. bo H [] E25. bo H h E26.
  destruct s16; [|discriminate]. okinj H. apply sanitize_v4_ok in E26. destruct E26 as [Hf ->].
  pose (h := V4H tos id df mf off ttl pr (AIP V4 src) (AIP V4 dst) opts). fold h in Hf |- *.
  apply rd_bits_ok in E5. destruct E5 as [E5 Lp]. rewrite <- (app_nil_r s2) in E5. rinv. destruct r; [discriminate|].
  assert (v = 4) as -> by lia. apply bytes_of_bits_ok in E18.
  assert (length opts = Z.to_nat ((ihl - 5) * 4)) as Ho by assumption.
  change (2 ^ Z.of_nat 8) with 256 in *. change (2 ^ Z.of_nat 16) with 65536 in *. change (2 ^ Z.of_nat 13) with 8192 in *.
  change (2 ^ Z.of_nat 4) with 16 in *. change (2 ^ Z.of_nat 32) with (2 ^ 32) in *.
  exists ihl, tl, h, (ones_complement hb), pb, p.
  assert (ck = ones_complement hb) as -> by lia.
  assert (v4_wire ihl tl h (ones_complement hb) = enc 4 4 ++ enc 4 ihl ++ peek) as Hw.
  { assert (v4_wire ihl tl h (ones_complement hb) ++ bits_of_bytes pb = (enc 4 4 ++ enc 4 ihl ++ peek) ++ s2') as Hx.
    { rewrite <- !app_assoc, <- E5. unfold v4_wire, v4_pre, v4_post, h.
      cbn [h_tos h_id h_df h_mf h_off h_ttl h_proto h_src h_dst h_opts ip_int]. rewrite <- !app_assoc, !app_nil_r, <- ?app_assoc. reflexivity. }
    apply app_inj_len in Hx; [exact (proj1 Hx)|]. rewrite v4_wire_length, !app_length, !enc_length, Lp.
    unfold h; cbn [h_opts]. rewrite Ho. lia. }
  rewrite <- Hw, <- enc_0, v4_wire_ck in E18.
  split. { unfold v4_wire, v4_pre, v4_post, h.
      cbn [h_tos h_id h_df h_mf h_off h_ttl h_proto h_src h_dst h_opts ip_int]. rewrite <- !app_assoc, app_nil_r. reflexivity. }
  split; [lia|]. split; [exact Ho|]. split; [unfold blen; lia|]. split; [lia|]. split; [exact Hf|].
  split; [constructor; cbn; assumption|]. split; [exists hb; auto|]. split; [exact E24|reflexivity].
Qed.

Lemma rd_v4_run rec dec ihl tl h ck pb p :
  5 <= ihl < 16 -> length (h_opts h) = Z.to_nat ((ihl - 5) * 4) -> tl = ihl * 4 + blen pb -> tl < 65536 ->
  v4_fits h -> v4_rng h -> v4_ck ihl tl h ck -> decode rec dec (h_proto h) pb = Ok p ->
  rd_v4 rec dec (v4_wire ihl tl h ck ++ bits_of_bytes pb) = Ok (PIPv4 (with_proto h (fix_nh (h_proto h) p)) p).
Proof.
  intros Hi Ho Ht Htl Hf Hr (hb & Hb & Hck) Hd.
  destruct (ones_complement_spec hb) as (Rc & _). rewrite Hck in Rc.
  assert (v4_wire ihl tl h ck = enc 4 4 ++ enc 4 ihl ++ skipn 8 (v4_wire ihl tl h ck)) as Hw by reflexivity.
  pose proof (v4_wire_length ihl tl h ck) as Lw.
  pose proof (blen_nonneg pb) as Bp.
  unfold rd_v4. rewrite Hw at 1. rewrite <- !app_assoc. rewrite rd_uint_enc by (cbn; lia). cbn [bind].
  rewrite Z.eqb_refl. cbn [guard bind]. rewrite rd_uint_enc by (cbn; lia). cbn [bind].
  replace (5 <=? ihl) with true by lia. cbn [guard bind].
  rewrite rd_bits_app by (rewrite skipn_length, Lw; lia). cbn [bind]. rewrite <- Hw.
  rewrite <- enc_0, v4_wire_ck.
  destruct Hr as [Hr1 Hr2 Hr3]. pose proof Hf as [F1 F2 F3 F4 F5 (s0 & d0 & F6 & F7)].
  assert (skipn 8 (v4_wire ihl tl h ck) = enc 8 (h_tos h) ++ enc 16 tl ++ enc 16 (h_id h) ++ [false] ++ [h_df h] ++ [h_mf h] ++
    enc 13 (h_off h) ++ enc 8 (h_ttl h) ++ enc 8 (h_proto h) ++ enc 16 ck ++ enc 32 (ip_int (h_src h)) ++
    enc 32 (ip_int (h_dst h)) ++ bits_of_bytes (h_opts h)) as Hs.
  { unfold v4_wire, v4_pre, v4_post. rewrite <- !app_assoc. reflexivity. }
  rewrite Hs, <- !app_assoc.
  rewrite rd_uint_enc by (cbn; lia). cbn [bind].
  rewrite rd_uint_enc by (change (2 ^ Z.of_nat 16) with 65536; lia). cbn [bind].
  replace (ihl * 4 <=? tl) with true by lia. cbn [guard bind].
  rewrite rd_uint_enc by (change (2 ^ Z.of_nat 16) with 65536; lia). cbn [bind app rd_bool negb guard].
  rewrite rd_uint_enc by (change (2 ^ Z.of_nat 13) with 8192; lia). cbn [bind].
  rewrite rd_uint_enc by (cbn; lia). cbn [bind].
  rewrite rd_uint_enc by (cbn; lia). cbn [bind].
  rewrite rd_uint_enc by (change (2 ^ Z.of_nat 16) with 65536; lia). cbn [bind].
  rewrite <- Hb, bytes_of_bits_of_bytes. cbn [bind]. rewrite Hck, Z.eqb_refl. cbn [guard bind].
  rewrite rd_uint_enc by exact Hr2. cbn [bind].
  rewrite rd_uint_enc by exact Hr3. cbn [bind].
  rewrite rd_bytes_app by exact Ho. cbn [bind].
  rewrite <- (app_nil_r (bits_of_bytes pb)).
  rewrite rd_bytes_app by (unfold blen in *; lia). cbn [bind]. rewrite Hd. cbn [bind].
  assert (V4H (h_tos h) (h_id h) (h_df h) (h_mf h) (h_off h) (h_ttl h) (h_proto h) (AIP V4 (ip_int (h_src h)))
     (AIP V4 (ip_int (h_dst h))) (h_opts h) = h) as ->.
  { rewrite F6, F7. destruct h; cbn in *. congruence. }
  destruct (sanitize_v4 h p) as [h'|e] eqn:E.
  - apply sanitize_v4_ok in E. destruct E as [_ ->]. reflexivity.
  - assert (sanitize_v4 h p = Ok (with_proto h (fix_nh (h_proto h) p))) by (apply sanitize_v4_ok; auto). congruence.
Qed.

(** zero padding of [o] to a multiple of [k] when it starts at offset [a] *)
Definition pad_opts (h : v4h) : v4h :=
  with_opts h (h_opts h ++ repeat zero_byte (Z.to_nat ((4 - blen (h_opts h) mod 4) mod 4))).

Lemma w_v4_inv h pb out : w_v4 h (Ok pb) = Ok out ->
  exists hb ck,
    out = hb ++ pb /\ bits_of_bytes hb = v4_wire (5 + (blen (h_opts h) + 3) / 4) (20 + blen pb) (pad_opts h) ck /\
    v4_ck (5 + (blen (h_opts h) + 3) / 4) (20 + blen pb) (pad_opts h) ck /\
    5 + (blen (h_opts h) + 3) / 4 < 16 /\ 20 + blen pb < 65536 /\ v4_rng h.
Proof.
  unfold w_v4. intros H. bo H v E1. bo H ihl E2. bo H tos E3. bo H pb' E4. okinj E4. bo H tl E5. bo H id E6.
  bo H off E7. bo H ttl E8. bo H pr E9. bo H s E10. bo H d E11. cbn zeta in H.
  bo H hb E12. bo H ck E13. bo H hb' E14. okinj H. winv.
  rewrite zeros_bytes in E12, E14.
  set (ihl := 5 + (blen (h_opts h) + 3) / 4) in *. set (tl := 20 + blen pb) in *.
  assert (forall c, enc 4 4 ++ enc 4 ihl ++ enc 8 (h_tos h) ++ enc 16 tl ++ enc 16 (h_id h) ++ (false :: h_df h :: h_mf h :: enc 13 (h_off h)) ++
     enc 8 (h_ttl h) ++ enc 8 (h_proto h) ++ enc 16 c ++ enc 32 (ip_int (h_src h)) ++ enc 32 (ip_int (h_dst h)) ++
     bits_of_bytes (h_opts h) ++ bits_of_bytes (repeat zero_byte (Z.to_nat ((4 - blen (h_opts h) mod 4) mod 4))) =
     v4_wire ihl tl (pad_opts h) c) as Hw.
  { intros c. unfold v4_wire, v4_pre, v4_post, pad_opts, with_opts.
    cbn [h_tos h_id h_df h_mf h_off h_ttl h_proto h_src h_dst h_opts]. rewrite bits_of_bytes_app, <- !app_assoc. reflexivity. }
  rewrite <- enc_0 in E12, E14. rewrite Hw in E12, E14. rewrite v4_wire_ck in E14.
  apply bytes_of_bits_ok in E12, E14.
  exists hb', (ones_complement hb). split; [reflexivity|]. split; [auto|]. split; [exists hb; auto|].
  change (2 ^ Z.of_nat 4) with 16 in *. change (2 ^ Z.of_nat 16) with 65536 in *.
  split; [lia|]. split; [lia|]. constructor; assumption.
Qed.

(** running the writer *)
Lemma w_v4_run h pb :
  v4_fits h -> v4_rng h -> 5 + (blen (h_opts h) + 3) / 4 < 16 -> 20 + blen pb < 65536 ->
  exists out, w_v4 h (Ok pb) = Ok out.
Proof.
  intros [F1 F2 F3 F4 F5 _] [R1 R2 R3] Hi Ht. unfold w_v4. pose proof (blen_nonneg (h_opts h)) as B1. pose proof (blen_nonneg pb) as B2.
  assert (0 <= (blen (h_opts h) + 3) / 4) as B3 by (apply Z.div_pos; lia).
  repeat match goal with
  | |- context [w_uint ?n ?z] =>
     rewrite (w_uint_in n z) by (assumption || (change (2 ^ Z.of_nat 16) with 65536; change (2 ^ Z.of_nat 4) with 16; lia));
     cbn [bind] end.
  rewrite zeros_bytes.
  set (ihl := 5 + (blen (h_opts h) + 3) / 4) in *. set (tl := 20 + blen pb) in *.
  match goal with |- context [bytes_of_bits ?l] => set (hdr := l) end.
  assert (hdr = v4_wire ihl tl (pad_opts h) 0) as ->.
  { unfold hdr, v4_wire, v4_pre, v4_post, pad_opts, with_opts.
    cbn [h_tos h_id h_df h_mf h_off h_ttl h_proto h_src h_dst h_opts]. rewrite bits_of_bytes_app, <- !app_assoc, enc_0. reflexivity. }
  destruct (head_bytes _ _ (v4_wire_length ihl tl (pad_opts h) 0)) as (hb & _ & _ & ->). cbn [bind].
  destruct (ones_complement_spec hb) as (Rc & _).
  rewrite w_uint_in by (change (2 ^ Z.of_nat 16) with 65536; lia). cbn [bind]. rewrite v4_wire_ck.
  destruct (head_bytes _ _ (v4_wire_length ihl tl (pad_opts h) (ones_complement hb))) as (hb' & _ & _ & ->). cbn [bind]. eauto.
Qed.

(** ** IPv6 *)
Definition v6_wire (h : v6h) (pl : Z) : bits :=
  enc 4 6 ++ enc 8 (x_tc h) ++ enc 20 (x_flow h) ++ enc 16 pl ++ enc 8 (x_nh h) ++ enc 8 (x_hop h) ++
  enc 128 (ip_int (x_src h)) ++ enc 128 (ip_int (x_dst h)).
Lemma v6_wire_length h pl : length (v6_wire h pl) = (8 * 40)%nat.
Proof. unfold v6_wire. rewrite !app_length, !enc_length. reflexivity. Qed.

Record v6_fits (h : v6h) : Prop := {
  xf_tc : 0 <= x_tc h < 256; xf_flow : 0 <= x_flow h < 2 ^ 20; xf_hop : 0 <= x_hop h < 256;
  xf_addr : exists s d, x_src h = AIP V6 s /\ x_dst h = AIP V6 d }.
Record v6_rng (h : v6h) : Prop := {
  xr_nh : 0 <= x_nh h < 256;
  xr_src : 0 <= ip_int (x_src h) < 2 ^ 128; xr_dst : 0 <= ip_int (x_dst h) < 2 ^ 128 }.
Definition with_nh (h : v6h) (n : Z) : v6h := V6H (x_tc h) (x_flow h) n (x_hop h) (x_src h) (x_dst h).

Lemma sanitize_v6_ok h p h' : sanitize_v6 h p = Ok h' <-> v6_fits h /\ h' = with_nh h (fix_nh (x_nh h) p).
Proof.
  unfold sanitize_v6. split.
  - intros H. bo H [] E1. bo H [] E2. bo H [] E3. bo H [] E4. bo H [] E5.
    destruct (x_src h) as [|[] s| | | | | | |] eqn:Es; try discriminate.
    destruct (x_dst h) as [|[] d| | | | | | |] eqn:Ed; try discriminate. okinj H. winv.
    apply fits_spec in E1, E2, E3.
    split; [|unfold with_nh; rewrite ?Es, ?Ed; reflexivity]. constructor; try assumption. eauto.
  - intros [[H1 H2 H3 (s & d & Es & Ed)] ->]. unfold with_nh. rewrite Es, Ed. unfold guard.
    assert (fits 8 (x_tc h) = true) as -> by (apply fits_spec; exact H1).
    assert (fits 20 (x_flow h) = true) as -> by (apply fits_spec; exact H2).
    assert (fits 8 (x_hop h) = true) as -> by (apply fits_spec; exact H3). reflexivity.
Qed.

Lemma rd_v6_inv rec dec s q : rd_v6 rec dec s = Ok q ->
  exists h pb p,
    s = v6_wire h (blen pb) ++ bits_of_bytes pb /\ blen pb < 65536 /\ v6_fits h /\ v6_rng h /\
    decode rec dec (x_nh h) pb = Ok p /\ q = PIPv6 (with_nh h (fix_nh (x_nh h) p)) p.
Proof.
  unfold rd_v6. intros H. bo H [v s1] E1. bo H [] E2. bo H [tc s2] E3. bo H [fl s3] E4. bo H [pl s4] E5.
  bo H [nh s5] E6. bo H [hop s6] E7. bo H [src s7] E8. bo H [dst s8] E9. bo H [pb s9] E10. bo H p E11.
  bo H [] E12. bo H h E13. destruct s9; [|discriminate]. okinj H. apply sanitize_v6_ok in E13. destruct E13 as [Hf ->].
  rinv. assert (v = 6) as -> by lia. assert (length pb = Z.to_nat pl) as Lp by assumption.
  change (2 ^ Z.of_nat 8) with 256 in *. change (2 ^ Z.of_nat 16) with 65536 in *. change (2 ^ Z.of_nat 128) with (2 ^ 128) in *.
  exists (V6H tc fl nh hop (AIP V6 src) (AIP V6 dst)), pb, p. assert (blen pb = pl) as -> by (unfold blen; lia).
  split; [unfold v6_wire; cbn [x_tc x_flow x_nh x_hop x_src x_dst ip_int]; rewrite <- !app_assoc, app_nil_r; reflexivity|].
  split; [lia|]. split; [exact Hf|]. split; [constructor; cbn; assumption|]. auto.
Qed.

Lemma rd_v6_run rec dec h pb p :
  blen pb < 65536 -> v6_fits h -> v6_rng h -> decode rec dec (x_nh h) pb = Ok p ->
  rd_v6 rec dec (v6_wire h (blen pb) ++ bits_of_bytes pb) = Ok (PIPv6 (with_nh h (fix_nh (x_nh h) p)) p).
Proof.
  intros Hl Hf [R1 R2 R3] Hd. pose proof Hf as [F1 F2 F3 (s0 & d0 & F6 & F7)]. pose proof (blen_nonneg pb) as B.
  unfold rd_v6, v6_wire. rewrite <- !app_assoc.
  rewrite rd_uint_enc by (cbn; lia). cbn [bind]. rewrite Z.eqb_refl. cbn [guard bind].
  rewrite rd_uint_enc by (cbn; lia). cbn [bind].
  rewrite rd_uint_enc by exact F2. cbn [bind].
  rewrite rd_uint_enc by (change (2 ^ Z.of_nat 16) with 65536; lia). cbn [bind].
  rewrite rd_uint_enc by (cbn; lia). cbn [bind].
  rewrite rd_uint_enc by (cbn; lia). cbn [bind].
  rewrite rd_uint_enc by exact R2. cbn [bind].
  rewrite rd_uint_enc by exact R3. cbn [bind].
  rewrite <- (app_nil_r (bits_of_bytes pb)).
  rewrite rd_bytes_app by (unfold blen in *; lia). cbn [bind]. rewrite Hd. cbn [bind].
  assert (V6H (x_tc h) (x_flow h) (x_nh h) (x_hop h) (AIP V6 (ip_int (x_src h))) (AIP V6 (ip_int (x_dst h))) = h) as ->.
  { rewrite F6, F7. destruct h; cbn in *. congruence. }
  destruct (sanitize_v6 h p) as [h'|e] eqn:E.
  - apply sanitize_v6_ok in E. destruct E as [_ ->]. reflexivity.
  - assert (sanitize_v6 h p = Ok (with_nh h (fix_nh (x_nh h) p))) by (apply sanitize_v6_ok; auto). congruence.
Qed.

Lemma w_v6_inv h pb out : w_v6 h (Ok pb) = Ok out ->
  exists hb, out = hb ++ pb /\ bits_of_bytes hb = v6_wire h (blen pb) /\ blen pb < 65536 /\ v6_rng h.
Proof.
  unfold w_v6. intros H. bo H v E1. bo H tc E2. bo H fl E3. bo H pb' E4. okinj E4. bo H pl E5. bo H nh E6.
  bo H hop E7. bo H s E10. bo H d E11. bo H hb E12. okinj H. winv. apply bytes_of_bits_ok in E12.
  exists hb. split; [reflexivity|]. split; [symmetry; exact E12|]. change (2 ^ Z.of_nat 16) with 65536 in *.
  split; [lia|]. constructor; assumption.
Qed.
Lemma w_v6_run h pb : v6_fits h -> v6_rng h -> blen pb < 65536 -> exists out, w_v6 h (Ok pb) = Ok out.
Proof.
  intros [F1 F2 F3 _] [R1 R2 R3] Ht. unfold w_v6. pose proof (blen_nonneg pb) as B2.
  repeat match goal with
  | |- context [w_uint ?n ?z] =>
     rewrite (w_uint_in n z) by (assumption || (change (2 ^ Z.of_nat 16) with 65536; change (2 ^ Z.of_nat 4) with 16; lia));
     cbn [bind] end.
  fold (v6_wire h (blen pb)).
  destruct (head_bytes _ _ (v6_wire_length h (blen pb))) as (hb & _ & _ & ->). cbn [bind]. eauto.
Qed.

(** ** Extension headers *)
(** number of padding bytes: the header starts with [k] fixed bytes and is a multiple of 8 long *)
Definition pad8 (k : Z) (o : bytes) : bytes :=
  o ++ repeat zero_byte (Z.to_nat ((8 - (blen o + k) mod 8) mod 8)).
Lemma pad8_len k o : 0 <= k ->
  blen (pad8 k o) = ((blen o + k + 7) / 8) * 8 - k /\ (blen o + k + 7) / 8 = (blen (pad8 k o) + k) / 8 /\
  (blen (pad8 k o) + k) mod 8 = 0.
Proof.
  intros Hk. pose proof (blen_nonneg o) as Bo.
  assert (blen (pad8 k o) = ((blen o + k + 7) / 8) * 8 - k) as ->.
  { unfold pad8. rewrite blen_app. unfold blen at 2. rewrite repeat_length.
    set (u := blen o + k). replace (blen o) with (u - k) by (unfold u; lia).
    pose proof (Z.div_mod u 8 ltac:(lia)) as D1. pose proof (Z.mod_pos_bound u 8 ltac:(lia)) as M1.
    pose proof (Z.div_mod (u + 7) 8 ltac:(lia)) as D2. pose proof (Z.mod_pos_bound (u + 7) 8 ltac:(lia)) as M2.
    pose proof (Z.div_mod (8 - u mod 8) 8 ltac:(lia)) as D3. pose proof (Z.mod_pos_bound (8 - u mod 8) 8 ltac:(lia)) as M3.
    rewrite Z2Nat.id by lia.
    assert ((8 - u mod 8) / 8 = 0 \/ (8 - u mod 8) / 8 = 1) as [Q|Q] by lia; rewrite Q in *; lia. }
  replace ((blen o + k + 7) / 8 * 8 - k + k) with ((blen o + k + 7) / 8 * 8) by lia.
  split; [reflexivity|]. rewrite Z.div_mul, Z.mod_mul by lia. auto.
Qed.
Lemma pad8_id k o : 0 <= k -> (blen o + k) mod 8 = 0 -> pad8 k o = o.
Proof. intros Hk H. unfold pad8. rewrite H. apply app_nil_r. Qed.

Definition opts_wire (nh : Z) (o : bytes) : bits := enc 8 nh ++ enc 8 ((blen o + 2) / 8 - 1) ++ bits_of_bytes o.
Definition byte_ok (z : Z) : Prop := 0 <= z < 256.

Lemma rd_opts_inv rec con s q : (exists n, length s = (8 * n)%nat) -> rd_opts rec con s = Ok q ->
  exists nh o pb p, s = opts_wire nh o ++ bits_of_bytes pb /\ byte_ok nh /\ (blen o + 2) mod 8 = 0 /\
    byte_ok ((blen o + 2) / 8 - 1) /\ decode rec true nh pb = Ok p /\ q = con nh o p.
Proof.
  intros Hs H. unfold rd_opts in H. bo H [nh s1] E1. bo H [l s2] E2. bo H [o s3] E3. bo H b E4. bo H p E5. okinj H.
  apply bytes_of_bits_ok in E4. rinv. change (2 ^ Z.of_nat 8) with 256 in *.
  assert (blen o + 2 = (l + 1) * 8) as Lo by (unfold blen; lia).
  exists nh, o, b, p. unfold opts_wire. rewrite Lo, Z.div_mul, Z.mod_mul by lia. replace (l + 1 - 1) with l by lia.
  rewrite <- !app_assoc. split; [reflexivity|]. unfold byte_ok. auto.
Qed.
Lemma rd_opts_run rec con nh o pb p :
  byte_ok nh -> (blen o + 2) mod 8 = 0 -> byte_ok ((blen o + 2) / 8 - 1) -> decode rec true nh pb = Ok p ->
  rd_opts rec con (opts_wire nh o ++ bits_of_bytes pb) = Ok (con nh o p).
Proof.
  intros Hn Hm Hl Hd. unfold rd_opts, opts_wire. rewrite <- !app_assoc.
  rewrite rd_uint_enc by exact Hn. cbn [bind]. rewrite rd_uint_enc by exact Hl. cbn [bind].
  pose proof (Z.div_mod (blen o + 2) 8 ltac:(lia)) as D. unfold byte_ok in *.
  rewrite rd_bytes_app by (unfold blen in *; lia). cbn [bind]. rewrite bytes_of_bits_of_bytes. cbn [bind].
  rewrite Hd. reflexivity.
Qed.
Lemma w_opts_inv nh o pb out : w_opts nh o (Ok pb) = Ok out ->
  exists hb, out = hb ++ pb /\ bits_of_bytes hb = opts_wire nh (pad8 2 o) /\ byte_ok nh /\
    byte_ok ((blen (pad8 2 o) + 2) / 8 - 1) /\ (blen (pad8 2 o) + 2) mod 8 = 0.
Proof.
  unfold w_opts. intros H. bo H n E1. cbn zeta in H. bo H l E2. bo H hb E3. cbn [bind] in H. okinj H. winv.
  apply bytes_of_bits_ok in E3. destruct (pad8_len 2 o ltac:(lia)) as (P1 & P2 & P3). change (2 ^ Z.of_nat 8) with 256 in *.
  exists hb. split; [reflexivity|]. split.
  - rewrite <- E3. unfold opts_wire. rewrite <- P2. unfold pad8. rewrite bits_of_bytes_app, zeros_bytes. reflexivity.
  - unfold byte_ok. rewrite <- P2. auto.
Qed.
Lemma opts_wire_len nh o : length (opts_wire nh o) = (8 * (2 + length o))%nat.
Proof. unfold opts_wire. rewrite !app_length, !enc_length, bits_of_bytes_length. lia. Qed.
Lemma w_opts_run nh o pb : byte_ok nh -> byte_ok ((blen o + 2 + 7) / 8 - 1) -> exists out, w_opts nh o (Ok pb) = Ok out.
Proof.
  intros Hn Hl. unfold w_opts. rewrite (w_uint_in 8 nh) by exact Hn. cbn [bind].
  rewrite w_uint_in by exact Hl. cbn [bind]. rewrite zeros_bytes.
  match goal with |- context [bytes_of_bits ?l] => assert (exists n, length l = (8 * n)%nat) as [n Ln] end.
  { eexists. rewrite !app_length, !enc_length, !bits_of_bytes_length.
    instantiate (1 := (2 + length o + length (repeat zero_byte (Z.to_nat ((8 - (blen o + 2) mod 8) mod 8))))%nat). lia. }
  destruct (head_bytes _ _ Ln) as (hb & _ & _ & ->). cbn [bind]. eauto.
Qed.

Definition route_wire (nh rt sl : Z) (o : bytes) : bits :=
  enc 8 nh ++ enc 8 ((blen o + 4) / 8 - 1) ++ enc 8 rt ++ enc 8 sl ++ bits_of_bytes o.
Lemma rd_route_inv rec s q : rd_route rec s = Ok q ->
  exists nh rt sl o pb p, s = route_wire nh rt sl o ++ bits_of_bytes pb /\ byte_ok nh /\ byte_ok rt /\ byte_ok sl /\
    (blen o + 4) mod 8 = 0 /\ byte_ok ((blen o + 4) / 8 - 1) /\ decode rec true nh pb = Ok p /\ q = PRoute nh rt sl o p.
Proof.
  intros H. unfold rd_route in H. bo H [nh s1] E1. bo H [l s2] E2. bo H [rt s2'] E2'. bo H [sl s2''] E2''. bo H [o s3] E3. bo H b E4. bo H p E5. okinj H.
  apply bytes_of_bits_ok in E4. rinv. change (2 ^ Z.of_nat 8) with 256 in *.
  assert (blen o + 4 = (l + 1) * 8) as Lo by (unfold blen; lia).
  exists nh, rt, sl, o, b, p. unfold route_wire. rewrite Lo, Z.div_mul, Z.mod_mul by lia. replace (l + 1 - 1) with l by lia.
  rewrite <- !app_assoc. split; [reflexivity|]. unfold byte_ok. repeat split; auto; lia.
Qed.
Lemma rd_route_run rec nh rt sl o pb p :
  byte_ok nh -> byte_ok rt -> byte_ok sl -> (blen o + 4) mod 8 = 0 -> byte_ok ((blen o + 4) / 8 - 1) -> decode rec true nh pb = Ok p ->
  rd_route rec (route_wire nh rt sl o ++ bits_of_bytes pb) = Ok (PRoute nh rt sl o p).
Proof.
  intros Hn Hrt Hsl Hm Hl Hd. unfold rd_route, route_wire. rewrite <- !app_assoc.
  rewrite rd_uint_enc by exact Hn. cbn [bind]. rewrite rd_uint_enc by exact Hl. cbn [bind].
  rewrite rd_uint_enc by exact Hrt. cbn [bind]. rewrite rd_uint_enc by exact Hsl. cbn [bind].
  pose proof (Z.div_mod (blen o + 4) 8 ltac:(lia)) as D. unfold byte_ok in *.
  rewrite rd_bytes_app by (unfold blen in *; lia). cbn [bind]. rewrite bytes_of_bits_of_bytes. cbn [bind].
  rewrite Hd. reflexivity.
Qed.
Lemma w_route_inv nh rt sl o pb out : w_route nh rt sl o (Ok pb) = Ok out ->
  exists hb, out = hb ++ pb /\ bits_of_bytes hb = route_wire nh rt sl (pad8 4 o) /\ byte_ok nh /\ byte_ok rt /\ byte_ok sl /\
    byte_ok ((blen (pad8 4 o) + 4) / 8 - 1) /\ (blen (pad8 4 o) + 4) mod 8 = 0.
Proof.
  unfold w_route. intros H. bo H n E1. cbn zeta in H. bo H l E2. bo H r E2'. bo H s E2''. bo H hb E3. cbn [bind] in H. okinj H. winv.
  apply bytes_of_bits_ok in E3. destruct (pad8_len 4 o ltac:(lia)) as (P1 & P2 & P3). change (2 ^ Z.of_nat 8) with 256 in *.
  exists hb. split; [reflexivity|]. split.
  - rewrite <- E3. unfold route_wire. rewrite <- P2. unfold pad8. rewrite bits_of_bytes_app, zeros_bytes. reflexivity.
  - unfold byte_ok. rewrite <- P2. auto.
Qed.
Lemma route_wire_len nh rt sl o : length (route_wire nh rt sl o) = (8 * (4 + length o))%nat.
Proof. unfold route_wire. rewrite !app_length, !enc_length, bits_of_bytes_length. lia. Qed.
Lemma w_route_run nh rt sl o pb : byte_ok nh -> byte_ok rt -> byte_ok sl -> byte_ok ((blen o + 4 + 7) / 8 - 1) ->
  exists out, w_route nh rt sl o (Ok pb) = Ok out.
Proof.
  intros Hn Hr Hs Hl. unfold w_route. rewrite (w_uint_in 8 nh) by exact Hn. cbn [bind].
  rewrite w_uint_in by exact Hl. cbn [bind]. rewrite w_uint_in by exact Hr. cbn [bind]. rewrite w_uint_in by exact Hs. cbn [bind]. rewrite zeros_bytes.
  match goal with |- context [bytes_of_bits ?l] => assert (exists n, length l = (8 * n)%nat) as [n Ln] end.
  { eexists. rewrite !app_length, !enc_length, !bits_of_bytes_length.
    instantiate (1 := (4 + length o + length (repeat zero_byte (Z.to_nat ((8 - (blen o + 4) mod 8) mod 8))))%nat). lia. }
  destruct (head_bytes _ _ Ln) as (hb & _ & _ & ->). cbn [bind]. eauto.
Qed.

Definition frag_wire (nh off : Z) (mf : bool) (id : Z) : bits :=
  enc 8 nh ++ zeros 8 ++ enc 13 off ++ zeros 2 ++ (mf :: enc 32 id).
Definition frag_rng (nh off id : Z) : Prop := byte_ok nh /\ 0 <= off < 8192 /\ 0 <= id < 2 ^ 32.
Lemma rd_frag_inv s q : rd_frag s = Ok q ->
  exists nh r1 off r2 mf id pb, s = enc 8 nh ++ r1 ++ enc 13 off ++ r2 ++ (mf :: enc 32 id) ++ bits_of_bytes pb /\
    length r1 = 8%nat /\ length r2 = 2%nat /\ frag_rng nh off id /\ q = PFrag nh off mf id (PRaw pb).
Proof.
  intros H. unfold rd_frag in H. bo H [nh s1] E1. bo H [r1 s2] E2. bo H [off s3] E3. bo H [r2 s4] E4. bo H [mf s5] E5.
  bo H [id s6] E6. bo H b E7. okinj H. apply bytes_of_bits_ok in E7. rinv.
  exists nh, r1, off, r2, mf, id, b. split; [reflexivity|]. unfold frag_rng, byte_ok.
  repeat match goal with |- _ /\ _ => split end; try reflexivity; assumption || lia.
Qed.
Lemma rd_frag_run nh off mf id pb : frag_rng nh off id ->
  rd_frag (frag_wire nh off mf id ++ bits_of_bytes pb) = Ok (PFrag nh off mf id (PRaw pb)).
Proof.
  intros (R1 & R2 & R3). unfold rd_frag, frag_wire. rewrite <- !app_assoc. rewrite rd_uint_enc by exact R1. cbn [bind].
  rewrite rd_bits_app by apply zeros_length. cbn [bind]. rewrite rd_uint_enc by exact R2. cbn [bind].
  rewrite rd_bits_app by apply zeros_length. cbn [bind app rd_bool]. rewrite rd_uint_enc by exact R3. cbn [bind].
  rewrite bytes_of_bits_of_bytes. reflexivity.
Qed.
Lemma w_frag_inv nh off mf id pb out : w_frag nh off mf id (Ok pb) = Ok out ->
  exists hb, out = hb ++ pb /\ bits_of_bytes hb = frag_wire nh off mf id /\ frag_rng nh off id.
Proof.
  unfold w_frag. intros H. bo H n E1. bo H o E2. bo H i E3. bo H hb E4. cbn [bind] in H. okinj H. winv.
  apply bytes_of_bits_ok in E4. exists hb. split; [reflexivity|]. split; [symmetry; exact E4|]. unfold frag_rng, byte_ok. auto.
Qed.
Lemma w_frag_run nh off mf id pb : frag_rng nh off id -> exists out, w_frag nh off mf id (Ok pb) = Ok out.
Proof.
  intros (R1 & R2 & R3). unfold w_frag. rewrite w_uint_in by exact R1. cbn [bind]. rewrite w_uint_in by exact R2. cbn [bind].
  rewrite w_uint_in by exact R3. cbn [bind].
  match goal with |- context [bytes_of_bits ?l] => assert (length l = (8 * 8)%nat) as Ln end.
  { rewrite !app_length. cbn [length]. rewrite !enc_length, !zeros_length. reflexivity. }
  destruct (head_bytes _ _ Ln) as (hb & _ & _ & ->). cbn [bind]. eauto.
Qed.

(** ** UDP *)
Definition udp_wire (sp dp ck : Z) (pb : bytes) : bits := enc 16 sp ++ enc 16 dp ++ enc 16 (blen pb + 8) ++ enc 16 ck.
Definition u16 (z : Z) : Prop := 0 <= z < 65536.
Definition udp_payload (rec : kind -> bytes -> res pkt) (sp dp : Z) (pb : bytes) : res pkt :=
  if (sp =? 4341) || (dp =? 4341) then rec (KData true) pb
  else if (sp =? 4342) || (dp =? 4342) then rec KCtl pb else Ok (PRaw pb).
Lemma rd_udp_inv rec s q : rd_udp rec s = Ok q ->
  exists sp dp ck pb p, s = udp_wire sp dp ck pb ++ bits_of_bytes pb /\ u16 sp /\ u16 dp /\ u16 ck /\ u16 (blen pb + 8) /\
    udp_payload rec sp dp pb = Ok p /\ q = PUDP sp dp ck p.
Proof.
  intros H. unfold rd_udp in H. bo H [sp s1] E1. bo H [dp s2] E2. bo H [l s3] E3. bo H [] E4. bo H [ck s4] E5. bo H [pb s5] E6.
  bo H p E7. bo H [] E8. bo H [] E9. bo H [] E10. destruct s5; [|discriminate]. okinj H. rinv.
  change (2 ^ Z.of_nat 16) with 65536 in *. assert (blen pb + 8 = l) as Hl' by (unfold blen; lia).
  exists sp, dp, ck, pb, p. unfold udp_wire, u16. rewrite Hl', <- !app_assoc, app_nil_r. unfold udp_payload. repeat split; auto; lia.
Qed.
Lemma rd_udp_run rec sp dp ck pb p : u16 sp -> u16 dp -> u16 ck -> u16 (blen pb + 8) -> udp_payload rec sp dp pb = Ok p ->
  rd_udp rec (udp_wire sp dp ck pb ++ bits_of_bytes pb) = Ok (PUDP sp dp ck p).
Proof.
  intros R1 R2 R3 R4 Hp. unfold rd_udp, udp_wire. rewrite <- !app_assoc. rewrite rd_uint_enc by exact R1. cbn [bind].
  rewrite rd_uint_enc by exact R2. cbn [bind]. rewrite rd_uint_enc by exact R4. cbn [bind]. pose proof (blen_nonneg pb) as B.
  replace (8 <=? blen pb + 8) with true by lia. cbn [guard bind]. rewrite rd_uint_enc by exact R3. cbn [bind].
  rewrite <- (app_nil_r (bits_of_bytes pb)). rewrite rd_bytes_app by (unfold blen; lia). cbn [bind].
  fold (udp_payload rec sp dp pb). rewrite Hp. cbn [bind].
  assert (fits 16 sp = true) as -> by (apply fits_spec; exact R1). assert (fits 16 dp = true) as -> by (apply fits_spec; exact R2).
  reflexivity.
Qed.
Lemma w_udp_inv sp dp ck pb out : w_udp sp dp ck (Ok pb) = Ok out ->
  exists hb, out = hb ++ pb /\ bits_of_bytes hb = udp_wire sp dp ck pb /\ u16 sp /\ u16 dp /\ u16 ck /\ u16 (blen pb + 8).
Proof.
  unfold w_udp. intros H. bo H [] E1. bo H [] E2. bo H s E3. bo H d E4. bo H pb' E5. okinj E5. bo H l E6. bo H c E7. bo H hb E8.
  okinj H. winv. apply bytes_of_bits_ok in E8. exists hb. split; [reflexivity|]. split; [symmetry; exact E8|]. unfold u16. auto.
Qed.
Lemma udp_wire_len sp dp ck pb : length (udp_wire sp dp ck pb) = (8 * 8)%nat.
Proof. unfold udp_wire. rewrite !app_length, !enc_length. reflexivity. Qed.
Lemma w_udp_run sp dp ck pb : u16 sp -> u16 dp -> u16 ck -> u16 (blen pb + 8) ->
  exists hb, bits_of_bytes hb = udp_wire sp dp ck pb /\ w_udp sp dp ck (Ok pb) = Ok (hb ++ pb).
Proof.
  intros R1 R2 R3 R4. unfold w_udp. assert (fits 16 sp = true) as -> by (apply fits_spec; exact R1).
  assert (fits 16 dp = true) as -> by (apply fits_spec; exact R2). cbn [guard bind].
  rewrite w_uint_in by exact R1. cbn [bind]. rewrite w_uint_in by exact R2. cbn [bind].
  rewrite w_uint_in by exact R4. cbn [bind]. rewrite w_uint_in by exact R3. cbn [bind].
  fold (udp_wire sp dp ck pb). destruct (head_bytes _ _ (udp_wire_len sp dp ck pb)) as (hb & Hh & _ & ->). cbn [bind]. eauto.
Qed.

(** ** LISP data *)
Record dh_fits (d : dh) : Prop := {
  df_nonce : forall n, d_nonce d = Some n -> length n = 3%nat /\ d_sver d = None /\ d_dver d = None;
  df_ver : (d_sver d = None /\ d_dver d = None) \/
           exists s t, d_sver d = Some s /\ d_dver d = Some t /\ 0 <= s < 4096 /\ 0 <= t < 4096;
  df_lsb : forall l, d_lsb d = Some l -> length l = (if opt_none (d_iid d) then 32 else 8)%nat;
  df_iid : forall i, d_iid d = Some i -> 0 <= i < 2 ^ 24 }.
Definition with_echo (d : dh) (e : bool) : dh := DH e (d_nonce d) (d_sver d) (d_dver d) (d_lsb d) (d_iid d).

Lemma sanitize_dh_ok d d' : sanitize_dh d = Ok d' <->
  dh_fits d /\ d' = with_echo d (d_echo d && negb (opt_none (d_nonce d))).
Proof.
  unfold sanitize_dh, with_echo. split.
  - intros H. bo H [] E1. bo H [] E2. bo H [] E3. cbn zeta in H. bo H [] E4. bo H [] E5. okinj H. split; [|reflexivity]. winv.
    constructor.
    + intros n Hn. rewrite Hn in *. apply guard_ok in E1. unfold blen in E1.
      destruct (d_sver d), (d_dver d); try discriminate. repeat split; lia.
    + destruct (d_sver d) as [s|], (d_dver d) as [t|]; try discriminate; [|auto]. right. exists s, t.
      bo E4 [] E6. winv. apply fits_spec in E4, E6. auto.
    + intros l Hl. rewrite Hl in *. apply guard_ok in E3. unfold lenZ in E3. destruct (opt_none (d_iid d)); lia.
    + intros i Hi. rewrite Hi in *. apply guard_ok, fits_spec in E5. exact E5.
  - intros [[F1 F2 F3 F4] ->].
    assert (match d_nonce d with Some n => guard (blen n =? 3) EValue | None => Ok tt end = Ok tt) as ->.
    { destruct (d_nonce d) as [n|]; [|reflexivity]. destruct (F1 n eq_refl) as [L _]. unfold blen. rewrite L. reflexivity. }
    cbn [bind].
    assert (opt_none (d_nonce d) || opt_none (d_sver d) && opt_none (d_dver d) = true) as ->.
    { destruct (d_nonce d) as [n|]; [|reflexivity]. destruct (F1 n eq_refl) as (_ & -> & ->). reflexivity. }
    cbn [guard bind].
    assert (match d_lsb d with Some l => guard (lenZ l =? (if opt_none (d_iid d) then 32 else 8)) EValue | None => Ok tt end = Ok tt) as ->.
    { destruct (d_lsb d) as [l|]; [|reflexivity]. unfold lenZ. rewrite (F3 l eq_refl). destruct (opt_none (d_iid d)); reflexivity. }
    cbn [bind].
    assert (match d_iid d with Some i => guard (fits 24 i) EValue | None => Ok tt end = Ok tt) as ->.
    { destruct (d_iid d) as [i|]; [|reflexivity]. assert (fits 24 i = true) as -> by (apply fits_spec; apply F4; reflexivity). reflexivity. }
    destruct F2 as [[-> ->]|(s & t & -> & -> & Rs & Rt)]; [reflexivity|].
    assert (fits 12 s = true) as -> by (apply fits_spec; exact Rs). assert (fits 12 t = true) as -> by (apply fits_spec; exact Rt).
    reflexivity.
Qed.
Lemma dh_fits_echo d e : dh_fits d -> dh_fits (with_echo d e).
Proof. intros [F1 F2 F3 F4]. constructor; assumption. Qed.
Lemma sanitize_dh_idem d d' : sanitize_dh d = Ok d' -> sanitize_dh d' = Ok d'.
Proof.
  intros H. apply sanitize_dh_ok in H. destruct H as [F ->]. apply sanitize_dh_ok. split; [apply dh_fits_echo; exact F|].
  unfold with_echo. cbn [d_echo d_nonce d_sver d_dver d_lsb d_iid]. destruct (d_echo d), (opt_none (d_nonce d)); reflexivity.
Qed.

Definition nv_wire (d : dh) : bits :=
  match d_nonce d, d_sver d, d_dver d with
  | Some n, _, _ => bits_of_bytes n
  | None, Some s, Some t => enc 12 s ++ enc 12 t
  | None, _, _ => zeros 24
  end.
Definition lsb_wire (d : dh) : bits :=
  match d_iid d with Some i => enc 24 i | None => [] end ++
  match d_lsb d with Some l => rev l | None => zeros (if opt_none (d_iid d) then 32 else 8) end.
Definition data_flags (d : dh) : bits :=
  [negb (opt_none (d_nonce d)); negb (opt_none (d_lsb d)); d_echo d;
   negb (opt_none (d_sver d) && opt_none (d_dver d)); negb (opt_none (d_iid d))].
Definition data_wire (d : dh) : bits := data_flags d ++ zeros 3 ++ nv_wire d ++ lsb_wire d.
Lemma nv_wire_len d : dh_fits d -> length (nv_wire d) = 24%nat.
Proof.
  intros [F1 F2 _ _]. unfold nv_wire. destruct (d_nonce d) as [n|].
  - rewrite bits_of_bytes_length. destruct (F1 n eq_refl) as [-> _]. reflexivity.
  - destruct F2 as [[S T]|(s & t & S & T & _)]; rewrite S, ?T; [apply zeros_length|]. rewrite app_length, !enc_length. reflexivity.
Qed.
Lemma lsb_wire_len d : dh_fits d -> length (lsb_wire d) = 32%nat.
Proof.
  intros [_ _ F3 _]. unfold lsb_wire. rewrite app_length. destruct (d_lsb d) as [l|].
  - rewrite rev_length, (F3 l eq_refl). destruct (d_iid d); [rewrite enc_length|]; reflexivity.
  - destruct (d_iid d); rewrite ?enc_length, zeros_length; reflexivity.
Qed.
Lemma data_wire_len d : dh_fits d -> length (data_wire d) = (8 * 8)%nat.
Proof. intros F. unfold data_wire. rewrite !app_length, nv_wire_len, lsb_wire_len, zeros_length by exact F. reflexivity. Qed.

Lemma w_data_inv d pb out : dh_fits d -> w_data d (Ok pb) = Ok out ->
  exists hb, out = hb ++ pb /\ bits_of_bytes hb = data_wire d.
Proof.
  intros F H. unfold w_data in H. cbn zeta in H. bo H nv E1. bo H i E2. bo H hb E3. cbn [bind] in H. okinj H.
  apply bytes_of_bits_ok in E3. exists hb. split; [reflexivity|]. rewrite <- E3. unfold data_wire, data_flags.
  f_equal. f_equal. f_equal.
  - unfold nv_wire. destruct (d_nonce d) as [n|]; [okinj E1; reflexivity|].
    destruct (df_ver _ F) as [[S T]|(s & t & S & T & _)]; rewrite S, T in *; [okinj E1; reflexivity|].
    bo E1 a E4. bo E1 b E5. okinj E1. winv. reflexivity.
  - unfold lsb_wire. f_equal. destruct (d_iid d); [|okinj E2; reflexivity]. winv. reflexivity.
Qed.
Lemma w_data_run d pb : dh_fits d -> exists out, w_data d (Ok pb) = Ok out.
Proof.
  intros F. unfold w_data. cbn zeta.
  match goal with |- context [bind ?e _] => assert (e = Ok (nv_wire d)) as -> end.
  { unfold nv_wire. destruct (d_nonce d); [reflexivity|].
    destruct (df_ver _ F) as [[S T]|(s & t & S & T & R1 & R2)]; rewrite S, ?T; [reflexivity|].
    rewrite w_uint_in by exact R1. cbn [bind]. rewrite w_uint_in by exact R2. reflexivity. }
  cbn [bind].
  assert (match d_iid d with Some i => w_uint 24 i | None => Ok [] end = Ok match d_iid d with Some i => enc 24 i | None => [] end) as ->.
  { destruct (d_iid d) as [i|] eqn:Ei; [|reflexivity]. apply w_uint_in. apply (df_iid _ F). exact Ei. }
  cbn [bind]. match goal with |- context [bytes_of_bits ?l] => change l with (data_wire d) end.
  destruct (head_bytes _ _ (data_wire_len d F)) as (hb & _ & _ & ->). cbn [bind]. eauto.
Qed.

Lemma rd_data_inv rec dec s q : rd_data rec dec s = Ok q ->
  exists hdr s' d p, s = hdr ++ s' /\ length hdr = 64%nat /\ sanitize_dh d = Ok d /\
    decode_ip rec dec s' = Ok p /\ q = PData d p.
Proof.
  intros H. unfold rd_data in H. bo H [n s1] E1. bo H [l s2] E2. bo H [e s3] E3. bo H [v s4] E4. bo H [i s5] E5. bo H [r s6] E6.
  bo H [[[nonce sv] dv] s7] E7. bo H [iid s8] E8. cbn zeta in H. bo H [x s9] E9. bo H p E10. bo H d E11. okinj H.
  apply sanitize_dh_idem in E11.
  assert (exists h1, s6 = h1 ++ s7 /\ length h1 = 24%nat) as (h1 & -> & L1).
  { destruct n; [|destruct v].
    - bo E7 [a b] E. okinj E7. rinv. eexists. split; [reflexivity|]. rewrite bits_of_bytes_length. lia.
    - bo E7 [a b] E. bo E7 [a' b'] E'. okinj E7. rinv. exists (enc 12 a ++ enc 12 a'). rewrite app_length, !enc_length, <- app_assoc. auto.
    - bo E7 [a b] E. okinj E7. rinv. eauto. }
  assert (exists h2, s7 = h2 ++ s8 /\ length h2 = (if i then 24 else 0)%nat) as (h2 & -> & L2).
  { destruct i; [|okinj E8; exists []; auto]. bo E8 [a b] E. okinj E8. rinv. eexists. split; [reflexivity|apply enc_length]. }
  rinv. exists ([n; l; e; v; i] ++ r ++ h1 ++ h2 ++ x), s9, d, p.
  split; [cbn [app]; rewrite <- !app_assoc; reflexivity|].
  split; [|auto]. rewrite !app_length, L1, L2. cbn [length].
  match goal with H : length x = _ |- _ => rewrite H end. match goal with H : length r = _ |- _ => rewrite H end. destruct i; reflexivity.
Qed.

Lemma rd_data_run rec dec d s p : sanitize_dh d = Ok d -> decode_ip rec dec s = Ok p ->
  rd_data rec dec (data_wire d ++ s) = Ok (PData d p).
Proof.
  intros Hd Hp. pose proof Hd as Hd'. apply sanitize_dh_ok in Hd'. destruct Hd' as [F Hecho].
  unfold rd_data, data_wire, data_flags. rewrite <- !app_assoc. cbn [app rd_bool bind].
  rewrite rd_bits_app by apply zeros_length. cbn [bind].
  match goal with |- context [bind ?e _] => assert (e = Ok (d_nonce d, d_sver d, d_dver d, lsb_wire d ++ s)) as -> end.
  { unfold nv_wire. destruct (d_nonce d) as [n|] eqn:En.
    - destruct (df_nonce _ F n En) as (L & -> & ->). cbn [opt_none negb]. rewrite rd_bytes_app by exact L. reflexivity.
    - cbn [opt_none negb]. destruct (df_ver _ F) as [[S T]|(a & b & S & T & R1 & R2)]; rewrite S, T; cbn [opt_none negb andb].
      + rewrite rd_bits_app by apply zeros_length. reflexivity.
      + rewrite <- app_assoc. rewrite rd_uint_enc by exact R1. cbn [bind]. rewrite rd_uint_enc by exact R2. reflexivity. }
  cbn [bind]. unfold lsb_wire. rewrite <- app_assoc.
  match goal with |- context [bind ?e _] => assert (e = Ok (d_iid d, match d_lsb d with Some l => rev l | None => zeros (if opt_none (d_iid d) then 32 else 8) end ++ s)) as -> end.
  { destruct (d_iid d) as [i|] eqn:Ei; [|reflexivity]. cbn [opt_none negb]. rewrite rd_uint_enc by (apply (df_iid _ F); exact Ei). reflexivity. }
  cbn [bind].
  match goal with |- context [rd_bits ?n (?a ++ s)] => assert (rd_bits n (a ++ s) = Ok (a, s)) as -> end.
  { apply rd_bits_app. destruct (d_lsb d) as [l|] eqn:El; [rewrite rev_length, (df_lsb _ F l El)|rewrite zeros_length];
      destruct (opt_none (d_iid d)); reflexivity. }
  cbn [bind]. rewrite Hp. cbn [bind].
  match goal with |- context [DH _ _ _ _ ?x _] => assert (x = d_lsb d) as -> end.
  { destruct (d_lsb d); cbn [opt_none negb]; [rewrite rev_involutive|]; reflexivity. }
  assert (DH (d_echo d) (d_nonce d) (d_sver d) (d_dver d) (d_lsb d) (d_iid d) = d) as -> by (destruct d; reflexivity).
  rewrite Hd. reflexivity.
Qed.

(** ** Encapsulated control messages *)
Definition ecm_wire (ddt : bool) (rsv : bits) : bits := enc 4 8 ++ (false :: ddt :: rsv).
Lemma rd_ecm_inv rec s q : rd_ecm rec s = Ok q ->
  exists ddt rsv s' p, s = ecm_wire ddt rsv ++ s' /\ length rsv = 26%nat /\ decode_ip rec true s' = Ok p /\
    q = PECM false ddt false false rsv p.
Proof.
  intros H. unfold rd_ecm in H. bo H [t s1] E1. bo H [] E2. bo H [sec s2] E3. bo H [ddt s3] E4. bo H [rsv s4] E5. bo H [] E6.
  bo H p E7. okinj H. rinv. destruct sec; [discriminate|]. assert (t = 8) as -> by lia.
  exists ddt, rsv, s4, p. unfold ecm_wire. rewrite <- !app_assoc. auto.
Qed.
Lemma rd_ecm_run rec ddt rsv s p : length rsv = 26%nat -> decode_ip rec true s = Ok p ->
  rd_ecm rec (ecm_wire ddt rsv ++ s) = Ok (PECM false ddt false false rsv p).
Proof.
  intros L Hp. unfold rd_ecm, ecm_wire. rewrite <- !app_assoc. rewrite rd_uint_enc by (cbn; lia). cbn [bind].
  cbn [Z.eqb guard bind app rd_bool Pos.eqb]. rewrite rd_bits_app by exact L. cbn [bind guard negb]. rewrite Hp. reflexivity.
Qed.
Lemma w_ecm_inv sec ddt rsv pb out : w_ecm sec ddt rsv (Ok pb) = Ok out ->
  sec = false /\ exists hb, out = hb ++ pb /\ bits_of_bytes hb = ecm_wire ddt rsv.
Proof.
  unfold w_ecm. intros H. bo H [] E1. bo H t E2. cbn [bind] in H. bo H hb E3. okinj H. winv. destruct sec; [discriminate|].
  apply bytes_of_bits_ok in E3. split; [reflexivity|]. exists hb. auto.
Qed.
Lemma w_ecm_run ddt rsv pb : length rsv = 26%nat -> exists out, w_ecm false ddt rsv (Ok pb) = Ok out.
Proof.
  intros L. unfold w_ecm. cbn [guard negb bind]. rewrite w_uint_in by (cbn; lia). cbn [bind].
  fold (ecm_wire ddt rsv). assert (length (ecm_wire ddt rsv) = (8 * 4)%nat) as Ln
    by (unfold ecm_wire; rewrite app_length, enc_length; cbn [length]; rewrite L; reflexivity).
  destruct (head_bytes _ _ Ln) as (hb & _ & _ & ->). cbn [bind]. eauto.
Qed.

(** ** payload dispatch on the IP version *)
Lemma decode_ip_inv rec dec pb p : decode_ip rec dec (bits_of_bytes pb) = Ok p ->
  (pb = [] /\ p = PRaw []) \/
  exists v, (exists r, bits_of_bytes pb = enc 4 v ++ r) /\ 0 <= v < 16 /\
    ((v = 4 /\ rec (KIPv4 dec) pb = Ok p) \/ (v = 6 /\ rec (KIPv6 dec) pb = Ok p) \/ (v <> 4 /\ v <> 6 /\ p = PRaw pb)).
Proof.
  unfold decode_ip. intros H. destruct (bits_of_bytes pb) as [|b0 s0] eqn:E.
  - left. okinj H. split; [|reflexivity]. apply bits_of_bytes_inj. exact E.
  - right. rewrite <- E in H |- *. bo H [v r] E1. rewrite bytes_of_bits_of_bytes in H. cbn [bind] in H.
    apply rd_uint_ok in E1. destruct E1 as [E1 R]. exists v. split; [eauto|]. split; [exact R|].
    destruct (v =? 4) eqn:E4; [left; split; [lia|exact H]|]. destruct (v =? 6) eqn:E6; [right; left; split; [lia|exact H]|].
    okinj H. right; right. repeat split; lia.
Qed.
Lemma decode_ip_run rec dec pb v r p : bits_of_bytes pb = enc 4 v ++ r -> 0 <= v < 16 ->
  ((v = 4 /\ rec (KIPv4 dec) pb = Ok p) \/ (v = 6 /\ rec (KIPv6 dec) pb = Ok p) \/ (v <> 4 /\ v <> 6 /\ p = PRaw pb)) ->
  decode_ip rec dec (bits_of_bytes pb) = Ok p.
Proof.
  intros E R H. unfold decode_ip. rewrite E. destruct (enc 4 v ++ r) as [|b0 s0] eqn:E0; [discriminate|]. rewrite <- E0.
  rewrite rd_uint_enc by exact R. cbn [bind]. rewrite E0, <- E, bytes_of_bits_of_bytes. cbn [bind].
  destruct H as [[-> H]|[[-> H]|(H1 & H2 & ->)]]; [exact H|exact H|].
  replace (v =? 4) with false by lia. replace (v =? 6) with false by lia. reflexivity.
Qed.

(** ** Fuel *)
Lemma bind_ext {A B} (x : res A) (f g : A -> res B) : (forall a, x = Ok a -> f a = g a) -> bind x f = bind x g.
Proof. intros H. destruct x; cbn [bind]; auto. Qed.
Definition agree (r1 r2 : kind -> bytes -> res pkt) (n : nat) : Prop :=
  forall k b, (length b < n)%nat -> r1 k b = r2 k b.
Lemma decode_ext r1 r2 n dec nh b : agree r1 r2 n -> (length b < n)%nat -> decode r1 dec nh b = decode r2 dec nh b.
Proof. intros H L. unfold decode. destruct dec; [|reflexivity]. destruct (registry nh); [apply H; exact L|reflexivity]. Qed.
Lemma decode_ip_ext r1 r2 n dec s : agree r1 r2 n -> (length s < 8 * n)%nat -> decode_ip r1 dec s = decode_ip r2 dec s.
Proof.
  intros H L. unfold decode_ip. destruct s as [|x s]; [reflexivity|]. set (l := x :: s) in *.
  apply bind_ext. intros [v t] _. apply bind_ext. intros b Hb. apply bytes_of_bits_ok in Hb.
  assert (length b < n)%nat by (rewrite Hb, bits_of_bytes_length in L; lia).
  destruct (v =? 4); [apply H; assumption|]. destruct (v =? 6); [apply H; assumption|reflexivity].
Qed.
Ltac ext1 := apply bind_ext; let E := fresh "E" in first [intros [? ?] E | intros ? E]; cbn beta iota.
(** lengths of what is left *)
Ltac lens :=
  repeat match goal with
  | H : rd_uint _ _ = Ok (_, _) |- _ => apply rd_uint_ok in H; destruct H as [H _]; apply (f_equal (@length bool)) in H; rewrite app_length, enc_length in H
  | H : rd_bits _ _ = Ok (_, _) |- _ => apply rd_bits_ok in H; destruct H as [H ?]; apply (f_equal (@length bool)) in H; rewrite app_length in H
  | H : rd_bytes _ _ = Ok (_, _) |- _ => apply rd_bytes_ok in H; destruct H as [H ?]; apply (f_equal (@length bool)) in H; rewrite app_length, bits_of_bytes_length in H
  | H : rd_bool _ = Ok (_, _) |- _ => apply rd_bool_ok in H; apply (f_equal (@length bool)) in H; cbn [length] in H
  | H : bytes_of_bits _ = Ok _ |- _ => apply bytes_of_bits_ok in H; apply (f_equal (@length bool)) in H; rewrite bits_of_bytes_length in H
  end.
Lemma layer_ext r1 r2 k d : agree r1 r2 (length d) -> layer r1 k d = layer r2 k d.
Proof.
  intros H. unfold layer. pose proof (bits_of_bytes_length d) as Ld. set (s := bits_of_bytes d) in *. clearbody s.
  destruct k.
  - unfold rd_v4. repeat (match goal with |- bind (decode _ _ _ _) _ = _ => fail 1 | _ => ext1 end).
    f_equal. eapply decode_ext; [exact H|]. clear H. lens. lia.
  - unfold rd_v6. repeat (match goal with |- bind (decode _ _ _ _) _ = _ => fail 1 | _ => ext1 end).
    f_equal. eapply decode_ext; [exact H|]. clear H. lens. lia.
  - unfold rd_opts. repeat (match goal with |- bind (decode _ _ _ _) _ = _ => fail 1 | _ => ext1 end).
    f_equal. eapply decode_ext; [exact H|]. clear H. lens. lia.
  - unfold rd_opts. repeat (match goal with |- bind (decode _ _ _ _) _ = _ => fail 1 | _ => ext1 end).
    f_equal. eapply decode_ext; [exact H|]. clear H. lens. lia.
  - unfold rd_route. repeat (match goal with |- bind (decode _ _ _ _) _ = _ => fail 1 | _ => ext1 end).
    f_equal. eapply decode_ext; [exact H|]. clear H. lens. lia.
  - reflexivity.
  - reflexivity.
  - unfold rd_udp. do 6 ext1. f_equal.
    match goal with E : rd_bytes _ _ = Ok (?x, _) |- _ => assert (length x < length d)%nat by (clear H; lens; lia) end.
    destruct (_ || _); [apply H; assumption|]. destruct (_ || _); [apply H; assumption|reflexivity].
  - unfold rd_data. do 6 ext1. apply bind_ext. intros [[[nonce sv] dv] s7] E7. apply bind_ext. intros [iid s8] E8.
    cbn zeta. apply bind_ext. intros [x s9] E9. f_equal. eapply decode_ip_ext; [exact H|].
    clear H. match type of E7 with (if ?a then _ else if ?c then _ else _) = _ => destruct a; [|destruct c]; mon E7; okinj E7 end;
    match type of E8 with (if ?a then _ else _) = _ => destruct a; mon E8; okinj E8 end; lens; lia.
  - unfold rd_control. ext1. destruct (z =? 8); [|reflexivity]. unfold rd_ecm. do 6 ext1. f_equal.
    eapply decode_ip_ext; [exact H|]. clear H. lens. lia.
Qed.
