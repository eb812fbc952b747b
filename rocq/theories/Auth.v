(** * Message authentication: the methods [calculate_authentication_data],
    [verify_authentication_data] and [insert_authentication_data] of Map-Register, Map-Notify and
    Info messages (map_register.py:159-207, map_notify.py:97-145, info_message.py:112-160; the
    three copies are textually identical).

    [hmac.new(key, msg, sha1/sha256).digest()] is a parameter [hm : key id -> key -> msg -> digest]
    of every definition; the theorems quantify over it. *)
From Verif Require Import Base Afi Records Control.

(** a message object that carries authentication data *)
Inductive amsg := AReg (m : mreg) | ANot (m : mnot) | AInfo (m : info).
Inductive akind := KReg | KNot | KInfo.
Definition kind (m : amsg) : akind :=
  match m with AReg _ => KReg | ANot _ => KNot | AInfo _ => KInfo end.

(** attribute [key_id] *)
Definition a_key (m : amsg) : Z :=
  match m with AReg m => g_key m | ANot m => n_key m | AInfo m => i_key m end.
(** attribute [authentication_data] *)
Definition a_auth (m : amsg) : bytes :=
  match m with AReg m => g_authdata m | ANot m => n_authdata m | AInfo m => i_authdata m end.
(** [self.authentication_data = a] *)
Definition set_auth (m : amsg) (a : bytes) : amsg :=
  match m with
  | AReg m => AReg (MReg (g_proxy m) (g_rtr m) (g_notify m) (g_rsv1 m) (g_rsv2 m) (g_nonce m)
                         (g_key m) a (g_records m) (g_xtr m) (g_site m))
  | ANot m => ANot (MNot (n_rsv m) (n_nonce m) (n_key m) a (n_records m) (n_xtr m) (n_site m))
  | AInfo m => AInfo (Info (i_reply m) (i_rsv1 m) (i_nonce m) (i_key m) a (i_ttl m) (i_rsv2 m)
                           (i_eid m) (i_data m))
  end.
(** methods [to_bytes] and [from_bytes] (Control.v) *)
Definition a_to_bytes (m : amsg) : res bytes :=
  match m with AReg m => mreg_to_bytes m | ANot m => mnot_to_bytes m | AInfo m => info_to_bytes m end.
Definition a_from_bytes (k : akind) (d : bytes) : res amsg :=
  match k with
  | KReg => let* m := mreg_from_bytes d in Ok (AReg m)
  | KNot => let* m := mnot_from_bytes d in Ok (ANot m)
  | KInfo => let* m := info_from_bytes d in Ok (AInfo m)
  end.

(** ** The attributes after [to_bytes] ran, whether or not it raised.  [sanitize] clears the
    action of a record with locators right after the TTL check (map_reply_record.py:68-97) and
    sorts the locators as its last step (139); the records are handled in order
    (map_register.py:153-157, map_notify.py:91-95), after all other checks. *)
Definition after_mrec (r : mrec) : mrec :=
  match sanitize_mrec r with
  | Ok r' => r'
  | Err _ =>
      if (0 <=? mr_ttl r) && (mr_ttl r <=? 4294967295)
      then MRec (mr_ttl r) (if nonempty (mr_locs r) then 0 else mr_action r) (mr_auth r) (mr_rsv r)
                (mr_ver r) (mr_eid r) (mr_locs r)
      else r
  end.
Fixpoint after_mrecs (l : list mrec) : list mrec :=
  match l with
  | [] => []
  | r :: l => match sanitize_mrec r with
              | Ok r' => r' :: after_mrecs l
              | Err _ => after_mrec r :: l
              end
  end.
Definition after (m : amsg) : amsg :=
  match m with
  | AReg m =>
      if fits 128 (g_xtr m) && fits 64 (g_site m) && key_ok (g_key m)
      then AReg (MReg (g_proxy m) (g_rtr m) (g_notify m) (g_rsv1 m) (g_rsv2 m) (g_nonce m) (g_key m)
                      (g_authdata m) (after_mrecs (g_records m)) (g_xtr m) (g_site m))
      else AReg m
  | ANot m =>
      if fits 128 (n_xtr m) && fits 64 (n_site m) && (blen (n_nonce m) =? 8) && key_ok (n_key m)
      then ANot (MNot (n_rsv m) (n_nonce m) (n_key m) (n_authdata m) (after_mrecs (n_records m))
                      (n_xtr m) (n_site m))
      else ANot m
  | AInfo m => AInfo m
  end.

Section Auth.
Variable hm : Z -> bytes -> bytes -> bytes.

(** [data_length]: map_register.py:169-176 *)
Definition digest_len (k : Z) : option nat :=
  if k =? 1 then Some 20%nat else if k =? 2 then Some 32%nat else None.

(** map_register.py:159-191: new object state and result *)
Definition calculate (m : amsg) (key : bytes) : amsg * res bytes :=
  if a_key m =? 0 then (m, Ok [])
  else match digest_len (a_key m) with
       | None => (m, Err EValue)
       | Some n =>
           let m0 := set_auth m (repeat zero_byte n) in
           match a_to_bytes m0 with
           | Ok msg => (set_auth (after m0) (a_auth m), Ok (hm (a_key m) key msg))
           | Err e => (after m0, Err e)
           end
       end.

(** map_register.py:193-199 *)
Definition verify (m : amsg) (key : bytes) : amsg * res bool :=
  let '(m', r) := calculate m key in
  (m', let* correct := r in Ok (bytes_eqb (a_auth m') correct)).

(** map_register.py:201-207 *)
Definition insert (m : amsg) (key : bytes) : amsg * res unit :=
  let '(m', r) := calculate m key in
  match r with
  | Ok correct => (set_auth m' correct, Ok tt)
  | Err e => (m', Err e)
  end.
End Auth.
