(** * Property C93: where messages end *)
From Verif Require Import Base BaseLemmas Afi AfiProofs Spec SpecLemmas Records RecordsProofs Control ControlProofs SpecRec PropAfi PropControl Packet PacketProofs PacketStack SpecPkt PropPacket PropPacket2 PropUdp PropPacket3 PropAccept PropLoop SpecDelim.

(** readers that look at nothing behind what they consume *)
Definition local {A} (rd : bits -> res (A * bits)) : Prop :=
  forall s a r, rd s = Ok (a, r) -> exists c, s = c ++ r /\ forall t, rd (c ++ t) = Ok (a, t).

Lemma local_ret {A} (a : A) : local (fun s => Ok (a, s)).
Proof. intros s a' r H. okinj H. exists []. split; [reflexivity|]. reflexivity. Qed.
Lemma local_err {A} e : local (fun s => Err e : res (A * bits)).
Proof. intros s a r H. discriminate. Qed.
Lemma local_bind {A C} (rd : bits -> res (A * bits)) (k : A -> bits -> res (C * bits)) :
  local rd -> (forall a, local (k a)) -> local (fun s => let* '(a, s') := rd s in k a s').
Proof.
  intros L K s c r H. bo H [a s1] E. destruct (L _ _ _ E) as (c1 & -> & H1). destruct (K a _ _ _ H) as (c2 & -> & H2).
  exists (c1 ++ c2). split; [rewrite app_assoc; reflexivity|]. intros t. rewrite <- app_assoc, H1. cbn [bind]. apply H2.
Qed.
Lemma local_bind3 {A A' C} (rd : bits -> res (A * A' * bits)) (k : A -> A' -> bits -> res (C * bits)) :
  local rd -> (forall a a', local (k a a')) -> local (fun s => let* '(a, a', s') := rd s in k a a' s').
Proof.
  intros L K s c r H. bo H [[a a'] s1] E. destruct (L _ _ _ E) as (c1 & -> & H1). destruct (K a a' _ _ _ H) as (c2 & -> & H2).
  exists (c1 ++ c2). split; [rewrite app_assoc; reflexivity|]. intros t. rewrite <- app_assoc, H1. cbn [bind]. apply H2.
Qed.
Lemma local_const {A C} (g : res A) (k : A -> bits -> res (C * bits)) :
  (forall a, local (k a)) -> local (fun s => let* a := g in k a s).
Proof. intros K. destruct g as [a|e]; cbn [bind]; [apply K|apply local_err]. Qed.
Lemma local_if {A} (b : bool) (f g : bits -> res (A * bits)) : local f -> local g -> local (fun s => if b then f s else g s).
Proof. intros F G. destruct b; assumption. Qed.

Lemma take_spec n s a r : take n s = Some (a, r) -> s = a ++ r /\ forall t, take n (a ++ t) = Some (a, t).
Proof.
  revert s a r. induction n as [|n IH]; intros s a r H; cbn [take] in H.
  - injection H as <- <-. split; reflexivity.
  - destruct s as [|b s]; [discriminate|]. destruct (take n s) as [[a' t']|] eqn:E; [|discriminate]. injection H as <- <-.
    destruct (IH _ _ _ E) as [-> K]. split; [reflexivity|]. intros t. cbn [take app]. rewrite K. reflexivity.
Qed.
Lemma local_bits n : local (rd_bits n).
Proof.
  intros s a r H. unfold rd_bits in *. destruct (take n s) as [[a' r']|] eqn:E; [|discriminate]. injection H as -> ->.
  destruct (take_spec _ _ _ _ E) as [-> K]. exists a. split; [reflexivity|]. intros t. rewrite K. reflexivity.
Qed.
Lemma local_uint n : local (rd_uint n).
Proof. unfold rd_uint. apply local_bind; [apply local_bits|]. intros a. apply local_ret. Qed.
Lemma local_bool : local rd_bool.
Proof. intros [|b s] a r H; [discriminate|]. cbn [rd_bool] in H. injection H as -> ->. exists [a]. split; reflexivity. Qed.
Lemma local_bytes n : local (rd_bytes n).
Proof. unfold rd_bytes. apply local_bind; [apply local_bits|]. intros a. apply local_const. intros b. apply local_ret. Qed.
Lemma local_afi pl : local (read_afi pl).
Proof. intros s a r H. destruct (C04_decode_local _ _ _ _ H) as (c & E & K). exists c. auto. Qed.
Lemma local_n {A} (rd : bits -> res (A * bits)) n : local rd -> local (rd_n rd n).
Proof.
  intros L. induction n as [|n IH]; cbn [rd_n]; [apply local_ret|]. apply local_bind; [exact L|]. intros a. apply local_bind; [exact IH|].
  intros l. apply local_ret.
Qed.
Ltac loc1 := first
  [ apply local_ret | apply local_err | apply local_bits | apply local_uint | apply local_bool | apply local_bytes | apply local_afi
  | apply local_n | apply local_bind3; [|intros ? ?] | apply local_bind; [|intros ?] | apply local_const; intros ? | apply local_if ].
Lemma local_loc : local rd_loc. Proof. unfold rd_loc. repeat loc1. Qed.
Lemma local_mrec : local rd_mrec. Proof. unfold rd_mrec. repeat loc1. Qed.
Lemma local_rrec : local rd_rrec. Proof. unfold rd_rrec. repeat loc1. Qed.
Lemma local_eid : local rd_eid. Proof. unfold rd_eid. repeat loc1. Qed.
Lemma local_auth : local rd_authdata. Proof. unfold rd_authdata. repeat loc1. Qed.
Lemma local_xtr h : local (rd_xtr h). Proof. unfold rd_xtr. repeat loc1. Qed.
Lemma local_mreq : local rd_mreq. Proof. unfold rd_mreq. repeat loc1. Qed.
Lemma local_mrep : local rd_mrep. Proof. unfold rd_mrep. repeat loc1. Qed.
Lemma local_mreg : local rd_mreg. Proof. unfold rd_mreg. repeat first [exact local_mrec|exact local_auth|apply local_xtr|loc1].
Qed.
Lemma local_mnot : local rd_mnot. Proof. unfold rd_mnot. repeat first [exact local_mrec|exact local_auth|apply local_xtr|loc1]. Qed.
Lemma local_mref : local rd_mref. Proof. unfold rd_mref. repeat loc1. Qed.
Lemma local_info : local rd_info. Proof. unfold rd_info. repeat first [exact local_auth|loc1]. Qed.
Lemma local_ctl t : local (rd_ctl t).
Proof. unfold rd_ctl. repeat first [exact local_mreq|exact local_mrep|exact local_mreg|exact local_mnot|exact local_mref|exact local_info|loc1]. Qed.

Lemma bits_len d : length (bits_of_bytes d) = (8 * length d)%nat.
Proof. apply bits_of_bytes_length. Qed.
(** two readings of the same string *)
Lemma local_cut {A} (rd : bits -> res (A * bits)) p q m r c t : local rd -> rd p = Ok (m, r) -> p ++ q = c ++ t ->
  (forall t, rd (c ++ t) = Ok (m, t)) \/ (exists m', forall t, rd (c ++ t) = Ok (m', t)) -> (length c <= length p)%nat.
Proof.
  intros L H E K. destruct (L _ _ _ H) as (c' & -> & K').
  assert (forall t, exists m', rd (c ++ t) = Ok (m', t)) as K2 by (intros u; destruct K as [K|[m' K]]; eauto).
  specialize (K2 t). destruct K2 as [m' K2]. rewrite <- E, <- app_assoc, K' in K2. injection K2 as _ X.
  apply (f_equal (@length _)) in E. rewrite !app_length in *. rewrite <- X in E. rewrite app_length in E. lia.
Qed.
Lemma local_delim {A} (rd : bits -> res (A * bits)) : local rd -> self_delimiting (from_bytes rd).
Proof.
  intros L d m H. destruct (from_bytes_ok _ _ _ H) as [r E]. destruct (L _ _ _ E) as (c & Ec & K).
  set (n := ((length c + 7) / 8)%nat).
  assert (length c <= 8 * n < length c + 8)%nat as Hn.
  { unfold n. pose proof (Nat.div_mod (length c + 7) 8 ltac:(lia)). pose proof (Nat.mod_upper_bound (length c + 7) 8 ltac:(lia)). lia. }
  assert (length c <= 8 * length d)%nat as Hc by (rewrite <- bits_len, Ec, app_length; lia).
  assert (n <= length d)%nat as Hd by lia.
  exists (firstn n d), (skipn n d). split; [symmetry; apply firstn_skipn|].
  assert (exists c1, bits_of_bytes (firstn n d) = c ++ c1) as [c1 E1].
  { exists (firstn (8 * n - length c) r).
    assert (bits_of_bytes (firstn n d) = firstn (8 * n) (bits_of_bytes d)) as ->.
    { rewrite <- (firstn_skipn n d) at 2. rewrite bits_of_bytes_app, firstn_app.
      assert (length (bits_of_bytes (firstn n d)) = 8 * n)%nat as Ln by (rewrite bits_len, firstn_length; lia).
      rewrite Ln, Nat.sub_diag, <- Ln, firstn_all. cbn [firstn]. rewrite app_nil_r. reflexivity. }
    rewrite Ec, firstn_app, firstn_all2 by lia. reflexivity. }
  split.
  - intros more. unfold from_bytes. rewrite bits_of_bytes_app, E1, <- app_assoc, K. reflexivity.
  - intros p q Ep Hq. unfold from_bytes. destruct (rd (bits_of_bytes p)) as [[m' r']|e] eqn:Erd; [|eexists; reflexivity]. exfalso.
    assert (length c <= length (bits_of_bytes p))%nat as X.
    { eapply local_cut with (q := bits_of_bytes q) (t := c1); [exact L|exact Erd| |right; exists m; exact K].
      rewrite <- bits_of_bytes_app, <- Ep. exact E1. }
    rewrite bits_len in X. assert (length p + length q = n)%nat as Y by (rewrite <- app_length, <- Ep, firstn_length; lia).
    destruct q; [congruence|]. cbn [length] in Y. lia.
Qed.
(** C93: records and control messages are read up to their own end *)
Theorem C93_self_delimiting :
  self_delimiting loc_from_bytes /\ self_delimiting mrec_from_bytes /\ self_delimiting rrec_from_bytes /\
  self_delimiting mreq_from_bytes /\ self_delimiting mrep_from_bytes /\ self_delimiting mreg_from_bytes /\
  self_delimiting mnot_from_bytes /\ self_delimiting mref_from_bytes /\ self_delimiting info_from_bytes.
Proof.
  repeat split; apply local_delim;
    first [exact local_loc|exact local_mrec|exact local_rrec|exact local_mreq|exact local_mrep|exact local_mreg|exact local_mnot|exact local_mref|exact local_info].
Qed.
(** the control message dispatcher *)
Lemma control_eq d : pkt_from_bytes KCtl d = let* '(t, _) := rd_uint 4 (bits_of_bytes d) in
  if t =? 8 then rd_ecm (parse (length d)) (bits_of_bytes d) else let* c := from_bytes (rd_ctl t) d in Ok (PCtl c).
Proof.
  rewrite from_bytes_layer. cbn [layer]. unfold rd_control. destruct (rd_uint 4 (bits_of_bytes d)) as [[t r]|]; [|reflexivity]. cbn [bind].
  destruct (t =? 8); [reflexivity|]. unfold from_bytes. destruct (rd_ctl t (bits_of_bytes d)) as [[c s]|]; reflexivity.
Qed.
Lemma type_app p q t s : rd_uint 4 (bits_of_bytes p) = Ok (t, s) -> rd_uint 4 (bits_of_bytes (p ++ q)) = Ok (t, s ++ bits_of_bytes q).
Proof. intros H. destruct (local_uint 4 _ _ _ H) as (c & E & K). rewrite bits_of_bytes_app, E, <- app_assoc, K. reflexivity. Qed.
Lemma type_of_prefix p q t s : p <> [] -> rd_uint 4 (bits_of_bytes (p ++ q)) = Ok (t, s) -> exists s', rd_uint 4 (bits_of_bytes p) = Ok (t, s').
Proof.
  intros N H. destruct p as [|[a b c d e f g h] p]; [congruence|]. cbn in H. injection H as <- _. eexists. reflexivity.
Qed.
Theorem C93_control_delimited : forall d c, pkt_from_bytes KCtl d = Ok (PCtl c) ->
  exists message rest, d = message ++ rest /\ (forall more, pkt_from_bytes KCtl (message ++ more) = Ok (PCtl c)) /\
    cuts_refused (pkt_from_bytes KCtl) message.
Proof.
  intros d c H. rewrite control_eq in H. bo H [t s] E. destruct (t =? 8) eqn:Et.
  { apply rd_ecm_inv in H. destruct H as (? & ? & ? & ? & _ & _ & _ & X). discriminate. }
  bo H c' E2. assert (c' = c) as -> by congruence. destruct (local_delim _ (local_ctl t) _ _ E2) as (m & r & -> & K & C).
  assert (m <> []) as Nm.
  { intros ->. specialize (K []). cbn in K. unfold from_bytes, rd_ctl in K.
    repeat match type of K with context [t =? ?y] => destruct (t =? y) end; vm_compute in K; discriminate. }
  destruct (type_of_prefix _ _ _ _ Nm E) as [s' E'].
  exists m, r. split; [reflexivity|]. split.
  - intros more. rewrite control_eq, (type_app _ _ _ _ E'). cbn [bind]. rewrite Et, K. reflexivity.
  - intros p q -> Hq. destruct (C p q eq_refl Hq) as [e Ee]. rewrite control_eq.
    destruct p as [|x p]; [eexists; reflexivity|].
    assert (x :: p <> []) as Np by congruence. destruct (type_of_prefix _ _ _ _ Np E') as [s2 E3]. rewrite E3. cbn [bind]. rewrite Et, Ee.
    eexists; reflexivity.
Qed.
(** an emitted message is the whole of itself: nothing shorter is accepted *)
Lemma rt_cut {A} (rd : bits -> res (A * bits)) out m : local rd -> (forall t, rd (bits_of_bytes out ++ t) = Ok (m, t)) ->
  cuts_refused (from_bytes rd) out.
Proof.
  intros L K p q -> Hq. unfold from_bytes. destruct (rd (bits_of_bytes p)) as [[m' r]|e] eqn:E; [|eexists; reflexivity]. exfalso.
  pose proof (local_cut rd (bits_of_bytes p) (bits_of_bytes q) _ _ (bits_of_bytes (p ++ q)) [] L E) as X.
  rewrite app_nil_r, bits_of_bytes_app in X. specialize (X eq_refl). assert (length (bits_of_bytes p ++ bits_of_bytes q) <= length (bits_of_bytes p))%nat as Y.
  { apply X. right. exists m. intros t. rewrite <- bits_of_bytes_app. apply K. }
  rewrite app_length, (bits_len q) in Y. destruct q; [congruence|]. cbn [length] in Y. lia.
Qed.
Lemma ctl_rt c b : obj_ctl c -> w_ctl c = Ok b -> exists c', forall t, rd_ctl (ctl_type c) (b ++ t) = Ok (c', t).
Proof.
  intros O H. destruct c as [m|m|m|m|m|m]; cbn [obj_ctl w_ctl ctl_type] in *; unfold rd_ctl; cbn [Z.eqb Pos.eqb].
  - destruct O as (H1 & H2 & H3 & H4). assert (wf_mreq m) as Hw by (repeat split; auto; intros x Hx; apply afi_roundtrip; assumption).
    destruct (mreq_rt _ _ Hw H) as (ps & rep & _ & _ & _ & _ & P3). eexists. intros t. rewrite P3. reflexivity.
  - destruct (mrep_rt _ _ O H) as (rs & _ & _ & P3). eexists. intros t. rewrite P3. reflexivity.
  - destruct (mreg_rt _ _ O H) as (rs & _ & _ & P3). eexists. intros t. rewrite P3. reflexivity.
  - destruct (mnot_rt _ _ O H) as (rs & _ & _ & P3). eexists. intros t. rewrite P3. reflexivity.
  - destruct (mref_rt _ _ O H) as (rs & _ & _ & P3). eexists. intros t. rewrite P3. reflexivity.
  - destruct O as (H1 & H2 & H3 & H4). assert (wf_info m) as Hw by (repeat split; auto; intros x Hx; apply afi_roundtrip; assumption).
    destruct (info_rt _ _ Hw H) as (_ & P2). eexists. intros t. rewrite P2. reflexivity.
Qed.
Theorem C93_emitted_uncut : forall c out, obj_ctl c -> pkt_to_bytes (PCtl c) = Ok out -> cuts_refused (pkt_from_bytes KCtl) out.
Proof.
  intros c out O H p q -> Hq. cbn [pkt_to_bytes] in H. apply to_bytes_ok in H. destruct (ctl_rt _ _ O H) as [c' K].
  destruct (w_ctl_starts _ _ H) as [r Hs]. assert (0 <= ctl_type c < 16) as R by (destruct c; cbn; lia).
  destruct p as [|x p]; [eexists; reflexivity|]. rewrite control_eq.
  assert (rd_uint 4 (bits_of_bytes ((x :: p) ++ q)) = Ok (ctl_type c, r)) as E by (rewrite Hs; apply rd_uint_enc; cbn; lia).
  destruct (type_of_prefix (x :: p) q _ _ ltac:(congruence) E) as [s2 E3]. rewrite E3. cbn [bind].
  assert (ctl_type c =? 8 = false) as -> by (destruct c; reflexivity).
  destruct (rt_cut _ _ _ (local_ctl (ctl_type c)) K _ q eq_refl Hq) as [e ->]. eexists; reflexivity.
Qed.
(** IP packets and UDP messages are as long as they say *)
Lemma field_prefix off w a b : (off + w <= 8 * length a)%nat -> field off w (a ++ b) = field off w a.
Proof.
  intros H. rewrite !field_fbits by (rewrite ?app_length; lia). rewrite bits_of_bytes_app. unfold fbits. f_equal.
  rewrite skipn_app, firstn_app, skipn_length, bits_of_bytes_length.
  replace (w - (8 * length a - off))%nat with 0%nat by lia. cbn [firstn]. apply app_nil_r.
Qed.
Theorem C93_exact : (forall dec, exact_length (pkt_from_bytes (KIPv4 dec))) /\ (forall dec, exact_length (pkt_from_bytes (KIPv6 dec))) /\
  exact_length (pkt_from_bytes KUDP).
Proof.
  split; [|split].
  - intros dec d more m m' H H'. destruct (C14_accepted_ipv4 _ _ _ H) as (h & p & ihl & ck & _ & I & L & (R & _) & _).
    destruct (C14_accepted_ipv4 _ _ _ H') as (h' & p' & ihl' & ck' & _ & _ & _ & (R' & _) & _).
    pose proof (layout_at _ _ 16 16 _ R ltac:(cbn; auto 20)) as F. pose proof (layout_at _ _ 16 16 _ R' ltac:(cbn; auto 20)) as F'.
    rewrite field_prefix in F' by lia. rewrite F, blen_app in F'. destruct more; [reflexivity|]. unfold blen in F'. cbn [length] in F'. lia.
  - intros dec d more m m' H H'. destruct (C15_accepted_ipv6 _ _ _ H) as (h & p & _ & L & (R & _) & _).
    destruct (C15_accepted_ipv6 _ _ _ H') as (h' & p' & _ & L' & (R' & _) & _).
    pose proof (layout_at _ _ 32 16 _ R ltac:(cbn; auto 20)) as F. pose proof (layout_at _ _ 32 16 _ R' ltac:(cbn; auto 20)) as F'.
    rewrite field_prefix in F' by lia. rewrite F, app_length in F'. destruct more; [reflexivity|]. cbn [length] in F'. lia.
  - intros d more m m' H H'. destruct (C17_udp_accepted _ _ H) as (s & e & ck & p & _ & R & L & _).
    destruct (C17_udp_accepted _ _ H') as (s' & e' & ck' & p' & _ & R' & _).
    pose proof (layout_at _ _ 32 16 _ R ltac:(cbn; auto 20)) as F. pose proof (layout_at _ _ 32 16 _ R' ltac:(cbn; auto 20)) as F'.
    unfold blen in L. rewrite field_prefix in F' by lia. rewrite F, blen_app in F'. destruct more; [reflexivity|]. unfold blen in F'. cbn [length] in F'. lia.
Qed.
(** an encapsulated control message ends where the IP packet in it ends; cut short it is accepted in one place only: directly
    after its own four octets, as a message without content *)
Lemma ecm_accepted d sec ddt rtr rel rsv p : pkt_from_bytes KCtl d = Ok (PECM sec ddt rtr rel rsv p) ->
  (4 <= length d)%nat /\ ip_payload_is true (skipn 4 d) p.
Proof.
  intros H. rewrite control_eq in H. bo H [t s] E. destruct (t =? 8); [|bo H c E2; discriminate].
  apply rd_ecm_inv in H. destruct H as (ddt' & rsv' & s' & p' & Es & L & Hd & X). assert (p' = p) as -> by congruence.
  assert (length (ecm_wire ddt' rsv') = 32)%nat as Lw by (unfold ecm_wire; rewrite !app_length; cbn [length app]; rewrite L; reflexivity).
  assert (4 <= length d)%nat as Ld by (apply (f_equal (@length _)) in Es; rewrite bits_len, app_length, Lw in Es; lia).
  split; [exact Ld|]. rewrite <- (firstn_skipn 4 d), bits_of_bytes_app in Es. apply app_inj_len in Es; [|rewrite bits_len, firstn_length; lia].
  destruct Es as [_ <-]. apply (ip_payload_spec d); [rewrite skipn_length; lia|exact Hd].
Qed.
Lemma control_kind p q m m' : p <> [] -> pkt_from_bytes KCtl p = Ok m -> pkt_from_bytes KCtl (p ++ q) = Ok m' ->
  (exists sec ddt rtr rel rsv x, m = PECM sec ddt rtr rel rsv x) <-> (exists sec ddt rtr rel rsv x, m' = PECM sec ddt rtr rel rsv x).
Proof.
  intros N H H'. rewrite control_eq in H, H'. bo H [t s] E. rewrite (type_app _ _ _ _ E) in H'. cbn [bind] in H'. destruct (t =? 8).
  - apply rd_ecm_inv in H, H'. destruct H as (? & ? & ? & ? & _ & _ & _ & ->), H' as (? & ? & ? & ? & _ & _ & _ & ->). split; intros _; eauto 8.
  - bo H c Ec. bo H' c' Ec'. assert (m = PCtl c) as -> by congruence. assert (m' = PCtl c') as -> by congruence.
    split; intros (? & ? & ? & ? & ? & ? & X); discriminate.
Qed.
Lemma ip_extend b more p p' : ip_payload_is true b p -> is_ip_packet p -> ip_payload_is true (b ++ more) p' -> more = [].
Proof.
  intros H I H'. destruct C93_exact as (X4 & X6 & _). destruct H' as [E'|q' L' G P'|q' L' G P'|L' G G'].
  - apply app_eq_nil in E'. tauto.
  - destruct H as [E|q L F P|q L F P|L F F']; [inversion I| | |inversion I]; rewrite field_prefix in G by lia; [exact (X4 _ _ _ _ _ P P')|lia].
  - destruct H as [E|q L F P|q L F P|L F F']; [inversion I| | |inversion I]; rewrite field_prefix in G by lia; [lia|exact (X6 _ _ _ _ _ P P')].
  - destruct H as [E|q L F P|q L F P|L F F']; [inversion I| | |inversion I]; rewrite field_prefix in G, G' by lia; lia.
Qed.
Lemma ip_cut b c p p' : ip_payload_is true (b ++ c) p -> is_ip_packet p -> ip_payload_is true b p' -> c <> [] -> b = [] /\ p' = PRaw [].
Proof.
  intros H I H' Hc. destruct H' as [E'|q' L' G P'|q' L' G P'|L' G G']; [auto|..]; exfalso; apply Hc.
  - eapply ip_extend; [apply (ip_v4 _ _ _ L' G P')| |exact H]. destruct (C14_accepted_ipv4 _ _ _ P') as (h & x & _ & _ & -> & _). constructor.
  - eapply ip_extend; [apply (ip_v6 _ _ _ L' G P')| |exact H]. destruct (C15_accepted_ipv6 _ _ _ P') as (h & x & -> & _). constructor.
  - destruct H as [E|q L F P|q L F P|L F F']; [inversion I| | |inversion I]; rewrite field_prefix in F by lia; lia.
Qed.
Theorem C93_encapsulated : forall d sec ddt rtr rel rsv ip, pkt_from_bytes KCtl d = Ok (PECM sec ddt rtr rel rsv ip) -> is_ip_packet ip ->
  (forall more m, pkt_from_bytes KCtl (d ++ more) = Ok m -> more = []) /\
  (forall p q m, d = p ++ q -> q <> [] -> pkt_from_bytes KCtl p = Ok m -> length p = 4%nat /\ exists sec ddt rtr rel rsv, m = PECM sec ddt rtr rel rsv (PRaw [])).
Proof.
  intros d sec ddt rtr rel rsv ip H I. destruct (ecm_accepted _ _ _ _ _ _ _ H) as [L P]. split.
  - intros more m H'. assert (d <> []) as Nd by (intros ->; cbn in L; lia).
    destruct (proj1 (control_kind d more _ _ Nd H H') ltac:(eauto 8)) as (? & ? & ? & ? & ? & x & ->).
    destruct (ecm_accepted _ _ _ _ _ _ _ H') as [_ P']. rewrite skipn_app in P'. replace (4 - length d)%nat with 0%nat in P' by lia. change (skipn 0 more) with more in P'.
    exact (ip_extend _ _ _ _ P I P').
  - intros p q m -> Hq H'. destruct p as [|x0 p0]; [discriminate|]. set (p := x0 :: p0) in *. assert (p <> []) as Np by (unfold p; congruence).
    destruct (proj2 (control_kind p q _ _ Np H' H) ltac:(eauto 8)) as (sec' & ddt' & rtr' & rel' & rsv' & x & ->).
    destruct (ecm_accepted _ _ _ _ _ _ _ H') as [L' P']. rewrite skipn_app in P. replace (4 - length p)%nat with 0%nat in P by lia. change (skipn 0 q) with q in P.
    destruct (ip_cut _ _ _ _ P I P' Hq) as [E ->]. apply (f_equal (@length _)) in E. rewrite skipn_length in E. cbn [length] in E. split; [lia|]. eauto 8.
Qed.
(** non-vacuity: a Map-Register with a record and a locator, followed by other bytes; the same inside UDP, IPv4 and an
    encapsulated control message *)
Example C93_example : exists out, pkt_to_bytes (PCtl (CReg ex_mreg)) = Ok out /\ obj_ctl (CReg ex_mreg) /\ (20 < length out)%nat /\
  exists m, pkt_from_bytes KCtl (out ++ B [1; 2; 3]) = Ok (PCtl m).
Proof. eexists. split; [vm_compute; reflexivity|]. split; [vm_compute; auto 20|]. split; [vm_compute; lia|]. eexists. vm_compute. reflexivity. Qed.
Example C93_ecm_example : exists out m, pkt_to_bytes (PECM false false false false (zeros 26) (PIPv4 ex_v4 (PUDP 53 54 0 (PRaw (B [1; 2; 3]))))) = Ok out /\
  pkt_from_bytes KCtl out = Ok m /\ (exists ip, m = PECM false false false false (zeros 26) ip /\ is_ip_packet ip) /\
  exists m', pkt_from_bytes KCtl (firstn 4 out) = Ok m'.
Proof.
  eexists. eexists. split; [vm_compute; reflexivity|]. split; [vm_compute; reflexivity|]. split; [eexists; split; [reflexivity|constructor]|].
  eexists. vm_compute. reflexivity.
Qed.
Print Assumptions C93_self_delimiting.
Print Assumptions C93_control_delimited.
Print Assumptions C93_emitted_uncut.
Print Assumptions C93_exact.
Print Assumptions C93_encapsulated.
