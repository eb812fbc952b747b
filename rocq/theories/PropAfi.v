(** * Properties C01-C06: addresses. *)
From Verif Require Import Base BaseLemmas Afi AfiProofs Spec SpecLemmas.

(** C01: any encodable address without network objects reads back, whatever follows. *)
Theorem C01_afi_roundtrip : forall (a : addr) (b : bits),
  no_nets a = true -> w_afi a = Ok b ->
  forall further, read_afi None (b ++ further) = Ok (a, further).
Proof. exact (fun a b Hn Hw => afi_roundtrip a b Hw Hn). Qed.
Print Assumptions C01_afi_roundtrip.

Definition ex_nested : addr :=
  LList [ANone; AIP V4 3232235777;
         LInst 17 (LAs 65000 (LGeo (Geo true 52 5 6 false 4 7 8 (-3)) (AIP V6 42540766411282592856903984951653826561))) 32;
         LNat 4342 4341 (AIP V4 1) ANone (LList []) [LNull; AIP V4 4294967295]].
Example C01_example : no_nets ex_nested = true /\ is_ok (w_afi ex_nested) = true.
Proof. vm_compute. split; reflexivity. Qed.

(** C02: prefixes, plain or inside an instance/AS/geo address or an address list. *)
Theorem C02_prefix_roundtrip : forall (n : Z) (a : addr) (b : bits),
  prefix_form n a -> wf_addr a = true -> w_afi a = Ok b ->
  forall further, read_afi (Some n) (b ++ further) = Ok (a, further).
Proof. exact afi_prefix_roundtrip. Qed.
Print Assumptions C02_prefix_roundtrip.

(** a well-formed plain or wrapped prefix always encodes (wrapped ids in range) *)
Example C02_example :
  prefix_form 24 (LInst 4294967295 (ANet V4 3221225984 24) 32) /\
  wf_addr (LInst 4294967295 (ANet V4 3221225984 24) 32) = true /\
  is_ok (w_afi (LInst 4294967295 (ANet V4 3221225984 24) 32)) = true.
Proof. split; [constructor|]. vm_compute. split; reflexivity. Qed.

(** C03: decoding an address with a prefix length. *)
Theorem C03_prefix_exact : forall (v : fam) (z n : Z) (further : bits),
  0 <= z < 2 ^ wz v ->
  let wire := enc 16 (match v with V4 => 1 | V6 => 2 end) ++ enc (width v) z ++ further in
  (0 <= n <= wz v /\ aligned (wz v) n z ->
     read_afi (Some n) wire = Ok (ANet v z n, further)) /\
  (~ (0 <= n <= wz v /\ aligned (wz v) n z) ->
     read_afi (Some n) wire = Err EValue).
Proof.
  intros v z n further Hz wire.
  assert (read_afi (Some n) wire =
    let* a := with_prefix (AIP v z) (Some n) in Ok (a, further)) as Hw.
  { unfold wire. rewrite app_assoc. apply read_ip_enc. exact Hz. }
  rewrite Hw, with_prefix_ip. unfold aligned.
  destruct ((0 <=? n) && (n <=? wz v) && (mask_to v n z =? z)) eqn:E; cbn [bind].
  - split; [reflexivity|]. intros Hnot. exfalso. apply Hnot.
    rewrite !andb_true_iff in E. destruct E as [[E1 E2] E3].
    split; [lia|]. apply mask_to_spec; [lia|exact E3].
  - split; [|reflexivity]. intros [Hn Ha]. apply mask_to_spec in Ha; [|exact Hn].
    rewrite Ha in E. lia.
Qed.
Print Assumptions C03_prefix_exact.

(** no address at all only goes with prefix length 0 *)
Theorem C03_no_address : forall (n : Z) (further : bits),
  (n = 0 -> read_afi (Some n) (enc 16 0 ++ further) = Ok (ANone, further)) /\
  (n <> 0 -> read_afi (Some n) (enc 16 0 ++ further) = Err EValue).
Proof.
  intros n further. rewrite read_afi_eq. unfold afi_body. rewrite rd_uint_enc by (cbn; lia). cbn [bind].
  split; intros H; destruct (Z.eqb_spec n 0); try contradiction; reflexivity.
Qed.
Print Assumptions C03_no_address.
Example C03_example_accept : aligned 32 24 3221225984.
Proof. reflexivity. Qed.
Example C03_example_reject : ~ aligned 32 16 3221225984.
Proof. intros H; discriminate H. Qed.

(** C04: totality (no fuel exhaustion, for any sufficient fuel the same result) and locality. *)
Theorem C04_decode_total : forall (pl : option Z) (s : bits),
  (exists a r, read_afi pl s = Ok (a, r)) \/ (exists e, read_afi pl s = Err e /\ e <> EFuel).
Proof.
  intros pl s. pose proof (read_afi_nofuel pl s) as H.
  destruct (read_afi pl s) as [[a r]|e]; [left; eauto|right]. exists e. split; [reflexivity|congruence].
Qed.
Print Assumptions C04_decode_total.

Theorem C04_fuel_irrelevant : forall (pl : option Z) (s : bits) (fuel : nat),
  (length s < fuel)%nat -> rd_afi fuel pl s = read_afi pl s.
Proof. exact (fun pl s f H => rd_afi_indep f (S (length s)) pl s H (Nat.lt_succ_diag_r _)). Qed.
Print Assumptions C04_fuel_irrelevant.

Theorem C04_decode_local : forall (pl : option Z) (s : bits) (a : addr) (r : bits),
  read_afi pl s = Ok (a, r) ->
  exists consumed, s = consumed ++ r /\
    forall further, read_afi pl (consumed ++ further) = Ok (a, further).
Proof.
  intros pl s a r H. destruct (read_afi_stable pl s a r H) as [c [H1 [H2 _]]]. exists c. auto.
Qed.
Print Assumptions C04_decode_local.

(** C05: whatever was decoded re-encodes, not longer, to the same address. *)
Theorem C05_decoded_stable : forall (pl : option Z) (s : bits) (a : addr) (r : bits),
  read_afi pl s = Ok (a, r) ->
  exists b, w_afi a = Ok b /\ (length b + length r <= length s)%nat /\
    forall further, read_afi pl (b ++ further) = Ok (a, further).
Proof.
  intros pl s a r H. destruct (read_afi_stable pl s a r H) as [c [-> [_ [b [H1 [H2 H3]]]]]].
  exists b. rewrite app_length. repeat split; auto. lia.
Qed.
Print Assumptions C05_decoded_stable.

(** non-trivial decodable input: an LCAF with ignored flags and trailing garbage in its data *)
Example C05_example :
  read_afi (Some 8) (bits_of_bytes (B [64;3; 1;2;2;9; 0;14; 0;0;0;5; 0;1;10;0;0;0; 222;173;190;239; 7]))
  = Ok (LInst 5 (ANet V4 167772160 8) 9, bits_of_bytes (B [7])).
Proof. vm_compute. reflexivity. Qed.

(** C06: address extraction. *)
Theorem C06_get_addresses : forall (a : addr) (l : list addr), get_addresses a = l <-> leaves a l.
Proof.
  intros a l. split.
  - intros <-. apply leaves_get_addresses.
  - intros H. symmetry. apply leaves_unique; assumption.
Qed.
Print Assumptions C06_get_addresses.

Example C06_example :
  get_addresses (LList [AIP V4 1; LInst 3 (LAs 4 (AIP V4 2)) 32; ANone; LList [AIP V6 3; AIP V4 1];
                        LNat 1 2 (AIP V4 7) (AIP V4 8) ANone [AIP V4 9]])
  = [AIP V4 1; AIP V4 2; ANone; AIP V6 3; AIP V4 1; AIP V4 9].
Proof. vm_compute. reflexivity. Qed.
