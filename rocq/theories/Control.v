(** * LISP control messages that do not carry packets (the Encapsulated Control Message is in
    Packet.v): pylisp/packet/lisp/control/{map_request,map_reply,map_register,map_notify,
    map_referral,info_message}.py *)
From Verif Require Import Base Afi Records.

(** ** Map-Request: map_request.py:22-60 *)
Record mreq := MReq {
  q_auth : bool; q_probe : bool; q_smr : bool; q_pitr : bool; q_smri : bool;
  q_rsv : bits; q_nonce : bytes; q_src : addr; q_rlocs : list addr; q_eids : list addr;
  q_reply : option mrec }.

(** the addresses an (LCAF) value stands for: map_request.py:129-132, 161-164 *)
Definition addresses_of (a : addr) : list addr :=
  if is_lcaf a then get_addresses a else [a].

(** map_request.py:62-180 *)
Definition sanitize_mreq (m : mreq) : res mreq :=
  let* _ := guard ((1 <=? lenZ (q_rlocs m)) && (lenZ (q_rlocs m) <=? 32)) EValue in
  let* _ := guard ((1 <=? lenZ (q_eids m)) && (lenZ (q_eids m) <=? 32)) EValue in
  let* _ := guard (blen (q_nonce m) =? 8) EValue in
  let* _ := match q_src m with
            | ANone => Ok tt
            | s => match addresses_of s with
                   | [x] => guard (is_ip x) EValue
                   | _ => Err EValue
                   end
            end in
  let* _ := checkM (fun a => guard (is_ip a) EValue) (q_rlocs m) in
  let* _ := checkM (fun e => checkM (fun a => guard (is_ip a || is_net a) EValue) (addresses_of e))
                   (q_eids m) in
  let* reply := match q_reply m with
                | None => Ok None
                | Some r => let* r' := sanitize_mrec r in Ok (Some r')
                end in
  Ok (MReq (q_auth m) (q_probe m) (q_smr m) (q_pitr m) (q_smri m) (q_rsv m) (q_nonce m)
           (q_src m) (q_rlocs m) (q_eids m) reply).

(** map_request.py:325-334 *)
Definition w_eid (e : addr) : res bits :=
  let* net := ip_network e in
  let* n := prefixlen net in
  let* a := w_uint 8 n in
  let* b := w_afi net in
  Ok (zeros 8 ++ a ++ b).

(** map_request.py:278-340 *)
Definition w_mreq (m : mreq) : res bits :=
  let* m := sanitize_mreq m in
  let* t := w_uint 4 1 in
  let* irc := w_uint 5 (lenZ (q_rlocs m) - 1) in
  let* cnt := w_uint 8 (lenZ (q_eids m)) in
  let* src := w_afi (q_src m) in
  let* rl := concatM w_afi (q_rlocs m) in
  let* ei := concatM w_eid (q_eids m) in
  let* re := match q_reply m with None => Ok [] | Some r => w_mrec r end in
  Ok (t ++ (q_auth m :: (match q_reply m with None => false | Some _ => true end)
              :: q_probe m :: q_smr m :: q_pitr m :: q_smri m :: q_rsv m)
        ++ irc ++ cnt ++ bits_of_bytes (q_nonce m) ++ src ++ rl ++ ei ++ re).

(** map_request.py:258-267 *)
Definition rd_eid (s : bits) : res (addr * bits) :=
  let* '(_, s) := rd_bits 8 s in
  let* '(n, s) := rd_uint 8 s in
  read_afi (Some n) s.

(** map_request.py:182-276 *)
Definition rd_mreq (s : bits) : res (mreq * bits) :=
  let* '(t, s) := rd_uint 4 s in
  let* _ := guard (t =? 1) EValue in
  let* '(auth, s) := rd_bool s in
  let* '(mdp, s) := rd_bool s in
  let* '(probe, s) := rd_bool s in
  let* '(smr, s) := rd_bool s in
  let* '(pitr, s) := rd_bool s in
  let* '(smri, s) := rd_bool s in
  let* '(rsv, s) := rd_bits 9 s in
  let* '(irc, s) := rd_uint 5 s in
  let* '(cnt, s) := rd_uint 8 s in
  let* '(nonce, s) := rd_bytes 8 s in
  let* '(src, s) := read_afi None s in
  let* '(rlocs, s) := rd_n (read_afi None) (Z.to_nat (irc + 1)) s in
  let* '(eids, s) := rd_n rd_eid (Z.to_nat cnt) s in
  let* '(reply, s) := if mdp : bool then let* '(r, s) := rd_mrec s in Ok (Some r, s)
                      else Ok (None, s) in
  let* m := sanitize_mreq (MReq auth probe smr pitr smri rsv nonce src rlocs eids reply) in
  Ok (m, s).

(** ** Map-Reply: map_reply.py:18-33 *)
Record mrep := MRep {
  p_probe : bool; p_enlra : bool; p_security : bool; p_rsv : bits; p_nonce : bytes;
  p_records : list mrec }.

(** map_reply.py:35-83 *)
Definition sanitize_mrep (m : mrep) : res mrep :=
  let* _ := guard (negb (p_security m)) ENotImpl in
  let* _ := guard ((blen (p_nonce m) =? 3) || (blen (p_nonce m) =? 8)) EValue in
  let* rs := mapM sanitize_mrec (p_records m) in
  Ok (MRep (p_probe m) (p_enlra m) (p_security m) (p_rsv m) (p_nonce m) rs).

(** map_reply.py:159-164 *)
Definition pad_nonce (n : bytes) : bits := zeros (8 * (8 - length n)) ++ bits_of_bytes n.

(** map_reply.py:136-176 *)
Definition w_mrep (m : mrep) : res bits :=
  let* m := sanitize_mrep m in
  let* t := w_uint 4 2 in
  let* cnt := w_uint 8 (lenZ (p_records m)) in
  let* rs := concatM w_mrec (p_records m) in
  let* _ := guard (negb (p_security m)) ENotImpl in
  Ok (t ++ (p_probe m :: p_enlra m :: p_security m :: p_rsv m) ++ cnt ++ pad_nonce (p_nonce m) ++ rs).

(** map_reply.py:85-134 *)
Definition rd_mrep (s : bits) : res (mrep * bits) :=
  let* '(t, s) := rd_uint 4 s in
  let* _ := guard (t =? 2) EValue in
  let* '(probe, s) := rd_bool s in
  let* '(enlra, s) := rd_bool s in
  let* '(sec, s) := rd_bool s in
  let* '(rsv, s) := rd_bits 17 s in
  let* '(cnt, s) := rd_uint 8 s in
  let* '(nonce, s) := rd_bytes 8 s in
  let* '(rs, s) := rd_n rd_mrec (Z.to_nat cnt) s in
  let* _ := guard (negb sec) ENotImpl in
  let* m := sanitize_mrep (MRep probe enlra sec rsv nonce rs) in
  Ok (m, s).

(** ** Authenticated part shared by Map-Register, Map-Notify and Info messages:
    'uint:16=%d, uint:16=%d, hex=%s' (map_register.py:308-311, map_notify.py:226-229,
    info_message.py:239-242) *)
Definition w_authdata (key_id : Z) (auth : bytes) : res bits :=
  let* k := w_uint 16 key_id in
  let* n := w_uint 16 (blen auth) in
  Ok (k ++ n ++ bits_of_bytes auth).

Definition rd_authdata (s : bits) : res (Z * bytes * bits) :=
  let* '(k, s) := rd_uint 16 s in
  let* '(n, s) := rd_uint 16 s in
  let* '(a, s) := rd_bytes (Z.to_nat n) s in
  Ok (k, a, s).

(** [key_id in (KEY_ID_NONE, KEY_ID_HMAC_SHA_1_96, KEY_ID_HMAC_SHA_256_128)], constants.py:17-19 *)
Definition key_ok (k : Z) : bool := (k =? 0) || (k =? 1) || (k =? 2).

(** optional xTR-ID and site-ID: map_register.py:265-267, 318-320; map_notify.py:193-195, 236-238 *)
Definition w_xtr (has : bool) (xtr site : Z) : res bits :=
  if has then let* a := w_uint 128 xtr in let* b := w_uint 64 site in Ok (a ++ b) else Ok [].
Definition rd_xtr (has : bool) (s : bits) : res (Z * Z * bits) :=
  if has then let* '(a, s) := rd_uint 128 s in let* '(b, s) := rd_uint 64 s in Ok (a, b, s)
  else Ok (0, 0, s).

(** ** Map-Register: map_register.py:26-47 *)
Record mreg := MReg {
  g_proxy : bool; g_rtr : bool; g_notify : bool; g_rsv1 : bits; g_rsv2 : bits;
  g_nonce : bytes; g_key : Z; g_authdata : bytes; g_records : list mrec; g_xtr : Z; g_site : Z }.

(** map_register.py:49-157 (the nonce is not checked, 125-127) *)
Definition sanitize_mreg (m : mreg) : res mreg :=
  let* _ := guard (fits 128 (g_xtr m)) EValue in
  let* _ := guard (fits 64 (g_site m)) EValue in
  let* _ := guard (key_ok (g_key m)) EValue in
  let* rs := mapM sanitize_mrec (g_records m) in
  Ok (MReg (g_proxy m) (g_rtr m) (g_notify m) (g_rsv1 m) (g_rsv2 m) (g_nonce m) (g_key m)
           (g_authdata m) rs (g_xtr m) (g_site m)).

(** map_register.py:291 *)
Definition g_has_xtr (m : mreg) : bool := negb (g_xtr m =? 0) || negb (g_site m =? 0) || g_rtr m.

(** map_register.py:274-322 *)
Definition w_mreg (m : mreg) : res bits :=
  let* m := sanitize_mreg m in
  let* t := w_uint 4 3 in
  let* cnt := w_uint 8 (lenZ (g_records m)) in
  let* au := w_authdata (g_key m) (g_authdata m) in
  let* rs := concatM w_mrec (g_records m) in
  let* xs := w_xtr (g_has_xtr m) (g_xtr m) (g_site m) in
  Ok (t ++ (g_proxy m :: g_rsv1 m) ++ (g_has_xtr m :: g_rtr m :: g_rsv2 m) ++ (g_notify m :: cnt)
        ++ bits_of_bytes (g_nonce m) ++ au ++ rs ++ xs).

(** map_register.py:209-272 *)
Definition rd_mreg (s : bits) : res (mreg * bits) :=
  let* '(t, s) := rd_uint 4 s in
  let* _ := guard (t =? 3) EValue in
  let* '(proxy, s) := rd_bool s in
  let* '(rsv1, s) := rd_bits 1 s in
  let* '(has, s) := rd_bool s in
  let* '(rtr, s) := rd_bool s in
  let* '(rsv2, s) := rd_bits 15 s in
  let* '(notify, s) := rd_bool s in
  let* '(cnt, s) := rd_uint 8 s in
  let* '(nonce, s) := rd_bytes 8 s in
  let* '(key, auth, s) := rd_authdata s in
  let* '(rs, s) := rd_n rd_mrec (Z.to_nat cnt) s in
  let* '(xtr, site, s) := rd_xtr has s in
  let* m := sanitize_mreg (MReg proxy rtr notify rsv1 rsv2 nonce key auth rs xtr site) in
  Ok (m, s).

(** ** Map-Notify: map_notify.py:22-38 *)
Record mnot := MNot {
  n_rsv : bits; n_nonce : bytes; n_key : Z; n_authdata : bytes; n_records : list mrec;
  n_xtr : Z; n_site : Z }.

(** map_notify.py:40-95 *)
Definition sanitize_mnot (m : mnot) : res mnot :=
  let* _ := guard (fits 128 (n_xtr m)) EValue in
  let* _ := guard (fits 64 (n_site m)) EValue in
  let* _ := guard (blen (n_nonce m) =? 8) EValue in
  let* _ := guard (key_ok (n_key m)) EValue in
  let* rs := mapM sanitize_mrec (n_records m) in
  Ok (MNot (n_rsv m) (n_nonce m) (n_key m) (n_authdata m) rs (n_xtr m) (n_site m)).

(** map_notify.py:213 *)
Definition n_has_xtr (m : mnot) : bool := negb (n_xtr m =? 0) || negb (n_site m =? 0).

(** map_notify.py:202-240 *)
Definition w_mnot (m : mnot) : res bits :=
  let* m := sanitize_mnot m in
  let* t := w_uint 4 4 in
  let* cnt := w_uint 8 (lenZ (n_records m)) in
  let* au := w_authdata (n_key m) (n_authdata m) in
  let* rs := concatM w_mrec (n_records m) in
  let* xs := w_xtr (n_has_xtr m) (n_xtr m) (n_site m) in
  Ok (t ++ (n_has_xtr m :: n_rsv m) ++ cnt ++ bits_of_bytes (n_nonce m) ++ au ++ rs ++ xs).

(** map_notify.py:147-200 *)
Definition rd_mnot (s : bits) : res (mnot * bits) :=
  let* '(t, s) := rd_uint 4 s in
  let* _ := guard (t =? 4) EValue in
  let* '(has, s) := rd_bool s in
  let* '(rsv, s) := rd_bits 19 s in
  let* '(cnt, s) := rd_uint 8 s in
  let* '(nonce, s) := rd_bytes 8 s in
  let* '(key, auth, s) := rd_authdata s in
  let* '(rs, s) := rd_n rd_mrec (Z.to_nat cnt) s in
  let* '(xtr, site, s) := rd_xtr has s in
  let* m := sanitize_mnot (MNot rsv nonce key auth rs xtr site) in
  Ok (m, s).

(** ** Map-Referral: map_referral.py:18-29 *)
Record mref := MRef { f_rsv : bits; f_nonce : bytes; f_records : list rrec }.

(** map_referral.py:31-61 *)
Definition sanitize_mref (m : mref) : res mref :=
  let* _ := guard (blen (f_nonce m) =? 8) EValue in
  let* rs := mapM sanitize_rrec (f_records m) in
  Ok (MRef (f_rsv m) (f_nonce m) rs).

(** map_referral.py:103-126 *)
Definition w_mref (m : mref) : res bits :=
  let* m := sanitize_mref m in
  let* t := w_uint 4 6 in
  let* cnt := w_uint 8 (lenZ (f_records m)) in
  let* rs := concatM w_rrec (f_records m) in
  Ok (t ++ f_rsv m ++ cnt ++ bits_of_bytes (f_nonce m) ++ rs).

(** map_referral.py:63-101 *)
Definition rd_mref (s : bits) : res (mref * bits) :=
  let* '(t, s) := rd_uint 4 s in
  let* _ := guard (t =? 6) EValue in
  let* '(rsv, s) := rd_bits 20 s in
  let* '(cnt, s) := rd_uint 8 s in
  let* '(nonce, s) := rd_bytes 8 s in
  let* '(rs, s) := rd_n rd_rrec (Z.to_nat cnt) s in
  let* m := sanitize_mref (MRef rsv nonce rs) in
  Ok (m, s).

(** ** Info-Request / Info-Reply: info_message.py:27-45 *)
Record info := Info {
  i_reply : bool; i_rsv1 : bits; i_nonce : bytes; i_key : Z; i_authdata : bytes;
  i_ttl : Z; i_rsv2 : bits; i_eid : addr; i_data : addr }.

(** info_message.py:47-110 *)
Definition sanitize_info (m : info) : res info :=
  let* _ := guard (blen (i_nonce m) =? 8) EValue in
  let* _ := guard (key_ok (i_key m)) EValue in
  let* _ := guard ((0 <=? i_ttl m) && (i_ttl m <=? 4294967295)) EValue in
  let* _ := guard (is_net (i_eid m)) EValue in
  let* _ := if i_reply m
            then match i_data m with LNat _ _ _ _ _ _ => Ok tt | _ => Err EValue end
            else match i_data m with ANone => Ok tt | _ => Err EValue end in
  Ok m.

(** info_message.py:219-259 *)
Definition w_info (m : info) : res bits :=
  let* m := sanitize_info m in
  let* t := w_uint 4 7 in
  let* au := w_authdata (i_key m) (i_authdata m) in
  let* ttl := w_uint 32 (i_ttl m) in
  let* n := prefixlen (i_eid m) in
  let* ml := w_uint 8 n in
  let* e := w_afi (i_eid m) in
  let* d := w_afi (i_data m) in
  Ok (t ++ (i_reply m :: i_rsv1 m) ++ bits_of_bytes (i_nonce m) ++ au ++ ttl ++ i_rsv2 m
        ++ ml ++ e ++ d).

(** info_message.py:162-217 *)
Definition rd_info (s : bits) : res (info * bits) :=
  let* '(t, s) := rd_uint 4 s in
  let* _ := guard (t =? 7) EValue in
  let* '(reply, s) := rd_bool s in
  let* '(rsv1, s) := rd_bits 27 s in
  let* '(nonce, s) := rd_bytes 8 s in
  let* '(key, auth, s) := rd_authdata s in
  let* '(ttl, s) := rd_uint 32 s in
  let* '(rsv2, s) := rd_bits 8 s in
  let* '(plen, s) := rd_uint 8 s in
  let* '(eid, s) := read_afi (Some plen) s in
  let* '(data, s) := read_afi None s in
  let* m := sanitize_info (Info reply rsv1 nonce key auth ttl rsv2 eid data) in
  Ok (m, s).

(** ** Any of the above *)
Inductive ctl :=
| CReq (m : mreq) | CRep (m : mrep) | CReg (m : mreg) | CNot (m : mnot) | CRef (m : mref) | CInfo (m : info).

(** [message_type]: map_request.py:20, map_reply.py:16, map_register.py:24, map_notify.py:20,
    map_referral.py:16, info_message.py:25 *)
Definition ctl_type (c : ctl) : Z :=
  match c with CReq _ => 1 | CRep _ => 2 | CReg _ => 3 | CNot _ => 4 | CRef _ => 6 | CInfo _ => 7 end.

Definition w_ctl (c : ctl) : res bits :=
  match c with
  | CReq m => w_mreq m | CRep m => w_mrep m | CReg m => w_mreg m
  | CNot m => w_mnot m | CRef m => w_mref m | CInfo m => w_info m
  end.

Definition rd_ctl (type : Z) (s : bits) : res (ctl * bits) :=
  if type =? 1 then let* '(m, s) := rd_mreq s in Ok (CReq m, s)
  else if type =? 2 then let* '(m, s) := rd_mrep s in Ok (CRep m, s)
  else if type =? 3 then let* '(m, s) := rd_mreg s in Ok (CReg m, s)
  else if type =? 4 then let* '(m, s) := rd_mnot s in Ok (CNot m, s)
  else if type =? 6 then let* '(m, s) := rd_mref s in Ok (CRef m, s)
  else if type =? 7 then let* '(m, s) := rd_info s in Ok (CInfo m, s)
  else Err EValue.

(** ** The public byte level: [to_bytes] is [to_bitstream().bytes] or ends in [bitstream.bytes];
    [from_bytes] wraps the given bytes in a ConstBitStream and ignores what it does not read.
    map_request.py:340/186, map_reply.py:176/89, map_register.py:322/213, map_notify.py:240/151,
    map_referral.py:126/67, info_message.py:259/166, locator_record.py:246-250,
    map_reply_record.py:190-194, map_referral_record.py:337-341 *)
Definition to_bytes {A} (w : A -> res bits) (m : A) : res bytes :=
  let* b := w m in bytes_of_bits b.
Definition from_bytes {A} (rd : bits -> res (A * bits)) (d : bytes) : res A :=
  let* '(m, _) := rd (bits_of_bytes d) in Ok m.

Definition loc_to_bytes := to_bytes w_loc.
Definition loc_from_bytes := from_bytes rd_loc.
Definition mrec_to_bytes := to_bytes w_mrec.
Definition mrec_from_bytes := from_bytes rd_mrec.
Definition rrec_to_bytes := to_bytes w_rrec.
Definition rrec_from_bytes := from_bytes rd_rrec.
Definition mreq_to_bytes := to_bytes w_mreq.
Definition mreq_from_bytes := from_bytes rd_mreq.
Definition mrep_to_bytes := to_bytes w_mrep.
Definition mrep_from_bytes := from_bytes rd_mrep.
Definition mreg_to_bytes := to_bytes w_mreg.
Definition mreg_from_bytes := from_bytes rd_mreg.
Definition mnot_to_bytes := to_bytes w_mnot.
Definition mnot_from_bytes := from_bytes rd_mnot.
Definition mref_to_bytes := to_bytes w_mref.
Definition mref_from_bytes := from_bytes rd_mref.
Definition info_to_bytes := to_bytes w_info.
Definition info_from_bytes := from_bytes rd_info.
