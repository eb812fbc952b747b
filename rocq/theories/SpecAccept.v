(** * Specification: which addresses, records and messages can be sent at all *)
From Verif Require Import Base Afi Spec Records Control SpecRec.

(** ** Addresses *)
(** octets on the wire: AFI number, then address; an LCAF has six more octets of header *)
Fixpoint wire_size (a : addr) : Z :=
  match a with
  | ANone => 2
  | AIP v _ | ANet v _ _ => match v with V4 => 6 | V6 => 18 end
  | LNull => 8
  | LList l => 8 + fold_right Z.add 0 (map wire_size l)
  | LInst _ a _ => 12 + wire_size a
  | LAs _ a => 12 + wire_size a
  | LGeo _ a => 20 + wire_size a
  | LNat _ _ g m p l => 12 + wire_size g + wire_size m + wire_size p + fold_right Z.add 0 (map wire_size l)
  end.
(** the 16-bit length field of an LCAF counts the octets after its header *)
Definition short_enough (a : addr) : Prop := wire_size a - 8 <= 65535.
Definition in_bits (n z : Z) : Prop := 0 <= z < 2 ^ n.
Definition coordinates (g : geo) : Prop :=
  in_bits 15 (g_latd g) /\ in_bits 8 (g_latm g) /\ in_bits 8 (g_lats g) /\
  in_bits 15 (g_lond g) /\ in_bits 8 (g_lonm g) /\ in_bits 8 (g_lons g) /\ - 2 ^ 31 <= g_alt g < 2 ^ 31.
Inductive encodable : addr -> Prop :=
| ec_none : encodable ANone
| ec_ip v z : in_bits (wz v) z -> encodable (AIP v z)
| ec_net v z n : in_bits (wz v) z -> encodable (ANet v z n)
| ec_null : encodable LNull
| ec_list l : Forall encodable l -> short_enough (LList l) -> encodable (LList l)
| ec_inst i a m : in_bits 32 i -> in_bits 8 m -> encodable a -> short_enough (LInst i a m) -> encodable (LInst i a m)
| ec_as n a : in_bits 32 n -> encodable a -> short_enough (LAs n a) -> encodable (LAs n a)
| ec_geo g a : coordinates g -> encodable a -> short_enough (LGeo g a) -> encodable (LGeo g a)
| ec_nat mp ep g m p l : in_bits 16 mp -> in_bits 16 ep -> encodable g -> encodable m -> encodable p -> Forall encodable l ->
    short_enough (LNat mp ep g m p l) -> encodable (LNat mp ep g m p l).

(** ** Records *)
Definition octet (z : Z) : Prop := 0 <= z <= 255.
Record good_locator (l : loc) : Prop := {
  gl_octets : octet (l_prio l) /\ octet (l_weight l) /\ octet (l_mprio l) /\ octet (l_mweight l);
  gl_address : exists v z, l_addr l = AIP v z /\ in_bits (wz v) z;
  gl_allowed : ~ forbidden_locator (l_addr l) }.
Record good_mrec (r : mrec) : Prop := {
  gr_ttl : in_bits 32 (mr_ttl r);
  gr_action : mr_locs r = [] -> 0 <= mr_action r <= 3;
  gr_version : in_bits 12 (mr_ver r);
  gr_eid : exists v z n, mr_eid r = ANet v z n;
  gr_count : (length (mr_locs r) <= 255)%nat;
  gr_locators : Forall good_locator (mr_locs r) }.
Record good_rrec (r : rrec) : Prop := {
  gf_row : ddt_row (rr_action r) (rr_incomplete r) (has_locators (rr_locs r)) (rr_ttl r);
  gf_version : in_bits 12 (rr_ver r);
  gf_instance : forall i a m, rr_eid r = LInst i a m -> in_bits 32 i /\ in_bits 8 m;
  gf_unsigned : rr_sigs r = 0;
  gf_count : (length (rr_locs r) <= 255)%nat;
  gf_locators : Forall (fun l => good_locator l /\ l_probed l = false) (rr_locs r) }.

(** ** Messages *)
Definition nonce_of (n : nat) (b : bytes) : Prop := length b = n.
Definition known_key_id (k : Z) : Prop := k = 0 \/ k = 1 \/ k = 2.
Definition auth_fits (k : Z) (a : bytes) : Prop := known_key_id k /\ Z.of_nat (length a) <= 65535.
Record good_mreq (m : mreq) : Prop := {
  gq_rlocs : (1 <= length (q_rlocs m) <= 32)%nat /\ Forall (fun a => exists v z, a = AIP v z /\ in_bits (wz v) z) (q_rlocs m);
  gq_eids : (1 <= length (q_eids m) <= 32)%nat /\ Forall (fun e => exists p, as_prefix e p) (q_eids m);
  gq_nonce : nonce_of 8 (q_nonce m);
  gq_source : q_src m = ANone \/ (encodable (q_src m) /\ exists v z, leaves (q_src m) [AIP v z]);
  gq_reply : match q_reply m with None => True | Some r => good_mrec r end }.
Record good_mrep (m : mrep) : Prop := {
  gp_security : p_security m = false;
  gp_nonce : nonce_of 3 (p_nonce m) \/ nonce_of 8 (p_nonce m);
  gp_records : (length (p_records m) <= 255)%nat /\ Forall good_mrec (p_records m) }.
Record good_mreg (m : mreg) : Prop := {
  gg_ids : in_bits 128 (g_xtr m) /\ in_bits 64 (g_site m);
  gg_auth : auth_fits (g_key m) (g_authdata m);
  gg_records : (length (g_records m) <= 255)%nat /\ Forall good_mrec (g_records m) }.
Record good_mnot (m : mnot) : Prop := {
  gn_ids : in_bits 128 (n_xtr m) /\ in_bits 64 (n_site m);
  gn_nonce : nonce_of 8 (n_nonce m);
  gn_auth : auth_fits (n_key m) (n_authdata m);
  gn_records : (length (n_records m) <= 255)%nat /\ Forall good_mrec (n_records m) }.
Record good_mref (m : mref) : Prop := {
  gfm_nonce : nonce_of 8 (f_nonce m);
  gfm_records : (length (f_records m) <= 255)%nat /\ Forall good_rrec (f_records m) }.
Record good_info (m : info) : Prop := {
  gi_nonce : nonce_of 8 (i_nonce m);
  gi_auth : auth_fits (i_key m) (i_authdata m);
  gi_ttl : in_bits 32 (i_ttl m);
  gi_eid : exists v z n, i_eid m = ANet v z n;
  gi_data : if i_reply m then encodable (i_data m) /\ exists mp ep g s p l, i_data m = LNat mp ep g s p l
            else i_data m = ANone }.
