(** * Specification of what a receiver sees of a record or message.

    Relations between the object that was serialised and the object that is parsed from the
    bytes, in terms of the attributes only; nothing here mentions a codec or a [sanitize]
    function of the model. *)
From Coq Require Import Permutation Sorted.
From Verif Require Import Base Afi Spec Records Control.

(** the integer of a locator's IP address *)
Definition locator_number (l : loc) : Z := match l_addr l with AIP _ z => z | _ => 0 end.

(** [l'] is [l] put in ascending order of address number, equal ones keeping their order *)
Definition sorted_of (l l' : list loc) : Prop :=
  Permutation l l' /\
  StronglySorted (fun a b => locator_number a <= locator_number b) l' /\
  forall k, filter (fun a => locator_number a =? k) l' = filter (fun a => locator_number a =? k) l.

(** Map-Reply / Map-Register / Map-Notify record [r] arrives as [r'] *)
Record arrives_mrec (r r' : mrec) : Prop := {
  am_ttl : mr_ttl r' = mr_ttl r;
  am_action_neg : mr_locs r = [] -> mr_action r' = mr_action r;
  am_action_pos : mr_locs r <> [] -> mr_action r' = 0;
  am_auth : mr_auth r' = mr_auth r;
  am_rsv : mr_rsv r' = mr_rsv r;
  am_ver : mr_ver r' = mr_ver r;
  am_eid : mr_eid r' = mr_eid r;
  am_locs : sorted_of (mr_locs r) (mr_locs r') }.

(** Map-Referral record: plain prefixes arrive inside an instance-0 address *)
Record arrives_rrec (r r' : rrec) : Prop := {
  ar_ttl : rr_ttl r' = rr_ttl r;
  ar_action : rr_action r' = rr_action r;
  ar_auth : rr_auth r' = rr_auth r;
  ar_inc : rr_incomplete r' = rr_incomplete r;
  ar_rsv : rr_rsv r' = rr_rsv r;
  ar_sigs : rr_sigs r' = rr_sigs r;
  ar_ver : rr_ver r' = rr_ver r;
  ar_eid_plain : forall v z n, rr_eid r = ANet v z n -> rr_eid r' = LInst 0 (ANet v z n) 32;
  ar_eid_inst : forall i a m, rr_eid r = LInst i a m -> rr_eid r' = LInst i a m;
  ar_locs : sorted_of (rr_locs r) (rr_locs r') }.

(** an EID of a Map-Request arrives as a prefix: single addresses as host prefixes, and an
    instance-0 wrapper is not transmitted *)
Inductive as_prefix : addr -> addr -> Prop :=
| ap_ip v z : as_prefix (AIP v z) (ANet v z (wz v))
| ap_net v z n : as_prefix (ANet v z n) (ANet v z n)
| ap_inst0 a p m : as_prefix a p -> as_prefix (LInst 0 a m) p.

Definition arrives_opt (o o' : option mrec) : Prop :=
  match o, o' with
  | None, None => True
  | Some r, Some r' => arrives_mrec r r'
  | _, _ => False
  end.

(** well-formed Python objects: the reserved bit fields have the width the constructor gives
    them, network/address objects satisfy the [ipaddress] invariants *)
Definition obj_loc (l : loc) : Prop := length (l_rsv l) = 13%nat.
Definition obj_mrec (r : mrec) : Prop :=
  length (mr_rsv r) = 16%nat /\ wf_addr (mr_eid r) = true /\ Forall obj_loc (mr_locs r).
(** prefixes a Map-Referral record can carry and a receiver can decode *)
Definition plain_or_instance_prefix (a : addr) : Prop :=
  match a with
  | ANet _ _ _ => wf_ip a = true
  | LInst _ (ANet v z n) _ => wf_ip (ANet v z n) = true
  | _ => False
  end.
Definition obj_rrec (r : rrec) : Prop :=
  length (rr_rsv r) = 11%nat /\ plain_or_instance_prefix (rr_eid r) /\ Forall obj_loc (rr_locs r).
Definition obj_opt (o : option mrec) : Prop := match o with None => True | Some r => obj_mrec r end.

(** ** Messages: [m] arrives as [m'] *)
Record arrives_mreq (m m' : mreq) : Prop := {
  aq_flags : q_auth m' = q_auth m /\ q_probe m' = q_probe m /\ q_smr m' = q_smr m /\
             q_pitr m' = q_pitr m /\ q_smri m' = q_smri m /\ q_rsv m' = q_rsv m;
  aq_nonce : q_nonce m' = q_nonce m;
  aq_src : q_src m' = q_src m;
  aq_rlocs : q_rlocs m' = q_rlocs m;
  aq_eids : Forall2 as_prefix (q_eids m) (q_eids m');
  aq_reply : arrives_opt (q_reply m) (q_reply m') }.

(** nonces shorter than 8 bytes arrive with leading zero bytes *)
Definition arrives_nonce (n n' : bytes) : Prop :=
  length n' = 8%nat /\ exists k, n' = repeat zero_byte k ++ n.

Record arrives_mrep (m m' : mrep) : Prop := {
  ap_flags : p_probe m' = p_probe m /\ p_enlra m' = p_enlra m /\ p_security m' = p_security m /\
             p_rsv m' = p_rsv m;
  ap_nonce : arrives_nonce (p_nonce m) (p_nonce m');
  ap_records : Forall2 arrives_mrec (p_records m) (p_records m') }.

Record arrives_mreg (m m' : mreg) : Prop := {
  ag_flags : g_proxy m' = g_proxy m /\ g_rtr m' = g_rtr m /\ g_notify m' = g_notify m /\
             g_rsv1 m' = g_rsv1 m /\ g_rsv2 m' = g_rsv2 m;
  ag_nonce : g_nonce m' = g_nonce m;
  ag_auth : g_key m' = g_key m /\ g_authdata m' = g_authdata m;
  ag_xtr : g_xtr m' = g_xtr m /\ g_site m' = g_site m;
  ag_records : Forall2 arrives_mrec (g_records m) (g_records m') }.

Record arrives_mnot (m m' : mnot) : Prop := {
  an_rsv : n_rsv m' = n_rsv m;
  an_nonce : n_nonce m' = n_nonce m;
  an_auth : n_key m' = n_key m /\ n_authdata m' = n_authdata m;
  an_xtr : n_xtr m' = n_xtr m /\ n_site m' = n_site m;
  an_records : Forall2 arrives_mrec (n_records m) (n_records m') }.

Record arrives_mref (m m' : mref) : Prop := {
  af_rsv : f_rsv m' = f_rsv m;
  af_nonce : f_nonce m' = f_nonce m;
  af_records : Forall2 arrives_rrec (f_records m) (f_records m') }.

(** well-formed message objects *)
Definition obj_mreq (m : mreq) : Prop :=
  length (q_rsv m) = 9%nat /\ no_nets (q_src m) = true /\ forallb wf_addr (q_eids m) = true /\
  obj_opt (q_reply m).
Definition obj_mrep (m : mrep) : Prop := length (p_rsv m) = 17%nat /\ Forall obj_mrec (p_records m).
Definition obj_mreg (m : mreg) : Prop :=
  length (g_rsv1 m) = 1%nat /\ length (g_rsv2 m) = 15%nat /\ length (g_nonce m) = 8%nat /\
  Forall obj_mrec (g_records m).
Definition obj_mnot (m : mnot) : Prop := length (n_rsv m) = 19%nat /\ Forall obj_mrec (n_records m).
Definition obj_mref (m : mref) : Prop := length (f_rsv m) = 20%nat /\ Forall obj_rrec (f_records m).
Definition obj_info (m : info) : Prop :=
  length (i_rsv1 m) = 27%nat /\ length (i_rsv2 m) = 8%nat /\ wf_addr (i_eid m) = true /\
  no_nets (i_data m) = true.

(** ** Locators that may not be used (RFC 6830 / locator_record.py:178-192) *)
Inductive forbidden_locator : addr -> Prop :=
| fb_broadcast : forbidden_locator (AIP V4 (2 ^ 32 - 1))
| fb_mcast4 z : in_prefix 32 (224 * 2 ^ 24) 24 z -> forbidden_locator (AIP V4 z)      (* 224.0.0.0/24 *)
| fb_ff02 z : in_prefix 128 (0xff02 * 2 ^ 112) 16 z -> forbidden_locator (AIP V6 z)   (* ff02::/16 *)
| fb_ff12 z : in_prefix 128 (0xff12 * 2 ^ 112) 16 z -> forbidden_locator (AIP V6 z).  (* ff12::/16 *)

(** ** The DDT table (draft-ietf-lisp-ddt-00 section 6.4.1, quoted in map_referral_record.py:157-165):
    [ddt_row action incomplete has_referral_set ttl] *)
Inductive ddt_row : Z -> bool -> bool -> Z -> Prop :=
| row_node_referral : ddt_row 0 false true 1440
| row_ms_referral : ddt_row 1 false true 1440
| row_ms_ack i s : ddt_row 2 i s 1440
| row_ms_not_registered i s : ddt_row 3 i s 1
| row_delegation_hole : ddt_row 4 false false 15
| row_not_authoritative : ddt_row 5 true false 0.
Definition has_locators (l : list loc) : bool := match l with [] => false | _ => true end.
