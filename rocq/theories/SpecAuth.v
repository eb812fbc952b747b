(** * Specification of message authentication (RFC 6830 section 6.1.6 / 14.4), on the wire.

    In Map-Register, Map-Notify and Info messages alike the 16-bit key id is at byte 12, the
    16-bit length of the authentication data at byte 14 and the data itself at byte 16. *)
From Verif Require Import Base Afi Spec Records Control SpecRec Auth.

(** [d] with its [n] bytes of authentication data zeroed *)
Definition zeroed (n : nat) (d : bytes) : bytes :=
  firstn 16 d ++ repeat zero_byte n ++ skipn (16 + n) d.
(** the authentication data of [d] *)
Definition auth_field (n : nat) (d : bytes) : bytes := slice 16 n d.

(** sizes of SHA-1 and SHA-256 digests, by key id *)
Definition digest_size (k : Z) (n : nat) : Prop := (k = 1 /\ n = 20%nat) \/ (k = 2 /\ n = 32%nat).
Definition digests (hm : Z -> bytes -> bytes -> bytes) : Prop :=
  forall k n, digest_size k n -> forall key msg, length (hm k key msg) = n.

(** Python objects *)
Definition obj_a (m : amsg) : Prop :=
  match m with AReg m => obj_mreg m | ANot m => obj_mnot m | AInfo m => obj_info m end.

(** the attributes of [m'] are those of [m] up to the normalisation of records *)
Definition arrives_a (m m' : amsg) : Prop :=
  match m, m' with
  | AReg m, AReg m' => arrives_mreg m m'
  | ANot m, ANot m' => arrives_mnot m m'
  | AInfo m, AInfo m' => m' = m
  | _, _ => False
  end.

(** ** What an exception leaves of a message *)
(** the record has the same contents; its locators may be in another order, and the action may be cleared if it has some *)
Definition kept_record (r r' : mrec) : Prop :=
  mr_ttl r' = mr_ttl r /\ mr_auth r' = mr_auth r /\ mr_rsv r' = mr_rsv r /\ mr_ver r' = mr_ver r /\ mr_eid r' = mr_eid r /\
  Permutation.Permutation (mr_locs r) (mr_locs r') /\ (mr_action r' = mr_action r \/ mr_locs r <> [] /\ mr_action r' = 0).
(** everything but the authentication data is kept *)
Definition kept_but_auth (m m' : amsg) : Prop :=
  match m, m' with
  | AReg m, AReg m' =>
      g_proxy m' = g_proxy m /\ g_rtr m' = g_rtr m /\ g_notify m' = g_notify m /\ g_rsv1 m' = g_rsv1 m /\ g_rsv2 m' = g_rsv2 m /\
      g_nonce m' = g_nonce m /\ g_key m' = g_key m /\ g_xtr m' = g_xtr m /\ g_site m' = g_site m /\
      Forall2 kept_record (g_records m) (g_records m')
  | ANot m, ANot m' =>
      n_rsv m' = n_rsv m /\ n_nonce m' = n_nonce m /\ n_key m' = n_key m /\ n_xtr m' = n_xtr m /\ n_site m' = n_site m /\
      Forall2 kept_record (n_records m) (n_records m')
  | AInfo m, AInfo m' =>
      i_reply m' = i_reply m /\ i_rsv1 m' = i_rsv1 m /\ i_rsv2 m' = i_rsv2 m /\ i_nonce m' = i_nonce m /\ i_key m' = i_key m /\ i_ttl m' = i_ttl m /\ i_eid m' = i_eid m /\ i_data m' = i_data m
  | _, _ => False
  end.
