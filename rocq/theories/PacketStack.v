(** * Packet stacks: fuel, termination of the parser, stability of whole stacks. *)
From Verif Require Import Base BaseLemmas Afi AfiProofs Spec SpecLemmas Records Control SpecRec
  RecordsProofs ControlProofs PropControl Checksum ChecksumProofs Packet PacketProofs.

(** ** Enough fuel is enough *)
Lemma parse_fuel f f' k d : (length d < f)%nat -> (length d < f')%nat -> parse f k d = parse f' k d.
Proof.
  revert f' k d. induction f as [|f IH]; intros [|f'] k d L L'; try lia. cbn [parse]. apply layer_ext.
  intros k' b Lb. apply IH; lia.
Qed.

(** ** The out-of-fuel marker is never returned *)
Definition nf {A} (x : res A) : Prop := x <> Err EFuel.
Lemma nf_bind {A B} (x : res A) (f : A -> res B) : nf x -> (forall a, x = Ok a -> nf (f a)) -> nf (bind x f).
Proof. unfold nf. destruct x; cbn [bind]; auto. congruence. Qed.
Lemma nf_ok {A} (a : A) : nf (Ok a).
Proof. discriminate. Qed.
Lemma nf_guard c e : e <> EFuel -> nf (guard c e).
Proof. unfold nf, guard. destruct c; congruence. Qed.
Lemma nf_uint n s : nf (rd_uint n s).
Proof. intros E. apply rd_uint_err in E. destruct E; discriminate. Qed.
Lemma nf_bits n s : nf (rd_bits n s).
Proof. intros E. apply rd_bits_err in E. destruct E; discriminate. Qed.
Lemma nf_bytes n s : nf (rd_bytes n s).
Proof. intros E. apply rd_bytes_err in E. destruct E; discriminate. Qed.
Lemma nf_bool s : nf (rd_bool s).
Proof. unfold nf. destruct s; discriminate. Qed.
Lemma nf_bob l : nf (bytes_of_bits l).
Proof.
  unfold nf. induction l as [| l Hl | a b0 c d e f g h r IH] using bits_ind8; [discriminate| |].
  - destruct l as [|? [|? [|? [|? [|? [|? [|? [|? ?]]]]]]]]; cbn in *; try discriminate; lia.
  - cbn [bytes_of_bits]. destruct (bytes_of_bits r); cbn [bind]; congruence.
Qed.
Lemma nf_mapM {A B} (f : A -> res B) l : (forall x, nf (f x)) -> nf (mapM f l).
Proof.
  intros H. induction l as [|x l IH]; [apply nf_ok|]. cbn [mapM]. apply nf_bind; [apply H|]. intros y _.
  apply nf_bind; [exact IH|]. intros ys _. apply nf_ok.
Qed.
Lemma nf_checkM {A} (f : A -> res unit) l : (forall x, nf (f x)) -> nf (checkM f l).
Proof. intros H. apply nf_bind; [apply nf_mapM; exact H|]. intros; apply nf_ok. Qed.
Lemma nf_rd_n {A} (rd : bits -> res (A * bits)) n : (forall s, nf (rd s)) -> forall s, nf (rd_n rd n s).
Proof.
  intros H. induction n as [|n IH]; intros s; [apply nf_ok|]. cbn [rd_n]. apply nf_bind; [apply H|]. intros [a t] _.
  apply nf_bind; [apply IH|]. intros [l t'] _. apply nf_ok.
Qed.
Lemma nf_afi o s : nf (read_afi o s).
Proof. apply read_afi_nofuel. Qed.
Ltac nf1 :=
  match goal with
  | |- nf (Ok _) => apply nf_ok
  | |- nf (Err _) => discriminate
  | |- nf (guard _ _) => apply nf_guard; discriminate
  | |- nf (rd_uint _ _) => apply nf_uint
  | |- nf (rd_bits _ _) => apply nf_bits
  | |- nf (rd_bytes _ _) => apply nf_bytes
  | |- nf (rd_bool _) => apply nf_bool
  | |- nf (bytes_of_bits _) => apply nf_bob
  | |- nf (read_afi _ _) => apply nf_afi
  | |- nf (checkM _ _) => apply nf_checkM; intros
  | |- nf (mapM _ _) => apply nf_mapM; intros
  | |- nf (rd_n _ _ _) => apply nf_rd_n; intros
  | |- nf (bind _ _) => apply nf_bind; [|let E := fresh "E" in intros ? E]
  | |- nf (let (_, _) := ?x in _) => destruct x
  | |- nf (match ?x with _ => _ end) => destruct x
  end.
Ltac nfs := repeat (nf1; cbn beta zeta).
Lemma nf_san_loc l : nf (sanitize_loc l).
Proof. unfold sanitize_loc. nfs. Qed.
Lemma nf_rd_loc s : nf (rd_loc s).
Proof. unfold rd_loc. nfs. apply nf_san_loc. Qed.
Lemma nf_sort l : nf (sort_locs l).
Proof. unfold sort_locs, sort_key. nfs. Qed.
Lemma nf_san_mrec r : nf (sanitize_mrec r).
Proof. unfold sanitize_mrec. nfs; [apply nf_san_loc|apply nf_sort]. Qed.
Lemma nf_rd_mrec s : nf (rd_mrec s).
Proof. unfold rd_mrec. nfs; [apply nf_rd_loc|apply nf_san_mrec]. Qed.
Lemma nf_san_rrec r : nf (sanitize_rrec r).
Proof. unfold sanitize_rrec. nfs; [apply nf_san_loc|apply nf_sort]. Qed.
Lemma nf_rd_rrec s : nf (rd_rrec s).
Proof. unfold rd_rrec. nfs; [apply nf_rd_loc|apply nf_san_rrec]. Qed.
Lemma nf_rd_eid s : nf (rd_eid s).
Proof. unfold rd_eid. nfs. Qed.
Lemma nf_rd_ctl t s : nf (rd_ctl t s).
Proof.
  unfold rd_ctl, rd_mreq, rd_mrep, rd_mreg, rd_mnot, rd_mref, rd_info, rd_authdata, rd_xtr,
    sanitize_mreq, sanitize_mrep, sanitize_mreg, sanitize_mnot, sanitize_mref, sanitize_info.
  nfs; solve [apply nf_rd_eid|apply nf_rd_mrec|apply nf_rd_rrec|apply nf_san_mrec|apply nf_san_rrec].
Qed.
Lemma nf_san_v4 h p : nf (sanitize_v4 h p).
Proof. unfold sanitize_v4. nfs. Qed.
Lemma nf_san_v6 h p : nf (sanitize_v6 h p).
Proof. unfold sanitize_v6. nfs. Qed.
Lemma nf_san_dh h : nf (sanitize_dh h).
Proof. unfold sanitize_dh. nfs. Qed.

Lemma layer_nf r k d : (forall k b, (length b < length d)%nat -> nf (r k b)) -> nf (layer r k d).
Proof.
  intros H. pose (r' := fun k b => match r k b with Err EFuel => Err EValue | x => x end).
  rewrite (layer_ext r r').
  2:{ intros k' b Lb. unfold r'. specialize (H k' b Lb). unfold nf in H. destruct (r k' b) as [|[]]; congruence. }
  assert (forall k b, nf (r' k b)) as H' by (intros; unfold r', nf; destruct (r k0 b) as [|[]]; discriminate).
  clearbody r'. clear H.
  assert (forall dec nh b, nf (decode r' dec nh b)) as Hd by (intros; unfold decode; nfs; apply H').
  assert (forall dec s, nf (decode_ip r' dec s)) as Hi by (intros; unfold decode_ip; nfs; apply H').
  unfold layer. destruct k.
  - unfold rd_v4. nfs; [apply Hd|apply nf_san_v4].
  - unfold rd_v6. nfs; [apply Hd|apply nf_san_v6].
  - unfold rd_opts. nfs. apply Hd.
  - unfold rd_opts. nfs. apply Hd.
  - unfold rd_route. nfs. apply Hd.
  - unfold rd_frag. nfs.
  - nfs.
  - unfold rd_udp. nfs; apply H'.
  - unfold rd_data. nfs; solve [apply Hi|apply nf_san_dh].
  - unfold rd_control, rd_ecm. nfs; [apply Hi|apply nf_rd_ctl].
Qed.
Lemma parse_nf f : forall k d, (length d < f)%nat -> parse f k d <> Err EFuel.
Proof.
  induction f as [|f IH]; intros k d L; [lia|]. cbn [parse]. apply layer_nf. intros k' b Lb. apply IH. lia.
Qed.

(** ** Control messages inside packets *)
Definition plain_ctl (c : ctl) : Prop :=
  match c with CReq m => Forall (fun e => is_net e = true) (q_eids m) | _ => True end.
Definition starts4 (b : bits) (t : Z) : Prop := exists r, b = enc 4 t ++ r.

Lemma w_ctl_starts c b : w_ctl c = Ok b -> starts4 b (ctl_type c).
Proof.
  intros H. destruct c; cbn [w_ctl ctl_type] in *.
  - unfold w_mreq in H. bo H m' E. bo H t E1. mon H. okinj H. winv. eexists; reflexivity.
  - unfold w_mrep in H. bo H m' E. bo H t E1. mon H. okinj H. winv. eexists; reflexivity.
  - unfold w_mreg in H. bo H m' E. bo H t E1. mon H. okinj H. winv. eexists; reflexivity.
  - unfold w_mnot in H. bo H m' E. bo H t E1. mon H. okinj H. winv. eexists; reflexivity.
  - unfold w_mref in H. bo H m' E. bo H t E1. mon H. okinj H. winv. eexists; reflexivity.
  - unfold w_info in H. bo H m' E. bo H t E1. mon H. okinj H. winv. eexists; reflexivity.
Qed.
Lemma rd_ctl_type t s c r : rd_ctl t s = Ok (c, r) -> ctl_type c = t.
Proof.
  unfold rd_ctl. intros H. repeat match type of H with (if ?x =? ?y then _ else _) = _ => destruct (x =? y) eqn:?; [bo H [m' r'] E; okinj H; cbn; lia|] end.
  discriminate.
Qed.
Lemma ctl_stable t s c r b : rd_ctl t s = Ok (c, r) -> plain_ctl c -> w_ctl c = Ok b ->
  forall t', rd_ctl t (b ++ t') = Ok (c, t').
Proof.
  intros H Hp Hb t'. unfold rd_ctl in *.
  repeat match type of H with (if ?x =? ?y then _ else _) = _ => destruct (x =? y) eqn:? end; [| | | | | |discriminate];
    bo H [m r'] E; okinj H; cbn [w_ctl plain_ctl] in *.
  - apply rd_mreq_stable in E; [|exact Hp]. destruct E as (Hw & Hs & _).
    destruct (mreq_rt _ _ Hw Hb) as (ps & rep & P1 & P2 & _ & _ & P3). rewrite P3. cbn [bind].
    assert (ps = q_eids m) as ->.
    { clear - P1 Hp. induction P1 as [|x y l l' Hx Hl IH]; [reflexivity|]. inversion Hp; subst.
      f_equal; [|auto]. destruct Hx; [discriminate|reflexivity|discriminate]. }
    unfold sanitize_mreq in Hs. fold (san_reply (q_reply m)) in Hs. rewrite P2 in Hs.
    bo Hs [] E1. bo Hs [] E2. bo Hs [] E3. bo Hs [] E4. bo Hs [] E5. bo Hs [] E6. cbn [bind] in Hs. apply Ok_inj in Hs. rewrite Hs. reflexivity.
  - apply rd_mrep_stable in E. destruct E as (Hw & Hn & Hs & _).
    destruct (mrep_rt _ _ Hw Hb) as (rs & P1 & _ & P2). rewrite P2.
    rewrite Hn. cbn [Nat.sub repeat app]. unfold sanitize_mrep in Hs. bo Hs [] E1. bo Hs [] E2. bo Hs rs' E3.
    rewrite P1 in E3. okinj E3. apply Ok_inj in Hs. rewrite Hs. reflexivity.
  - apply rd_mreg_stable in E. destruct E as (Hw & Hs & _).
    destruct (mreg_rt _ _ Hw Hb) as (rs & P1 & _ & P2). rewrite P2.
    unfold sanitize_mreg in Hs. bo Hs [] E1. bo Hs [] E2. bo Hs [] E2'. bo Hs rs' E3.
    rewrite P1 in E3. okinj E3. apply Ok_inj in Hs. rewrite Hs. reflexivity.
  - apply rd_mnot_stable in E. destruct E as (Hw & Hs & _).
    destruct (mnot_rt _ _ Hw Hb) as (rs & P1 & _ & P2). rewrite P2.
    unfold sanitize_mnot in Hs. bo Hs [] E1. bo Hs [] E2. bo Hs [] E2'. bo Hs [] E2''. bo Hs rs' E3.
    rewrite P1 in E3. okinj E3. apply Ok_inj in Hs. rewrite Hs. reflexivity.
  - apply rd_mref_stable in E. destruct E as (Hw & Hs & _).
    destruct (mref_rt _ _ Hw Hb) as (rs & P1 & _ & P2). rewrite P2.
    unfold sanitize_mref in Hs. bo Hs [] E1. bo Hs rs' E3.
    rewrite P1 in E3. okinj E3. apply Ok_inj in Hs. rewrite Hs. reflexivity.
  - apply rd_info_stable in E. destruct E as (Hw & Hs & _).
    destruct (info_rt _ _ Hw Hb) as (_ & P2). rewrite P2. reflexivity.
Qed.

(** what comes out of a layer has the protocol number the layer was selected by *)
Lemma parse_header_type f k d p nh : parse f k d = Ok p -> registry nh = Some k -> header_type p = Some nh.
Proof.
  intros H Hr. destruct f as [|f]; [discriminate|]. cbn [parse] in H. unfold layer, registry in *.
  repeat match type of Hr with (if ?x =? ?y then _ else _) = _ => destruct (x =? y) eqn:?; [assert (x = y) as -> by lia; injection Hr as <-|] end;
    [| | | | | | | |discriminate].
  - apply rd_opts_inv in H; [|exists (length d); apply bits_of_bytes_length].
    destruct H as (? & ? & ? & ? & _ & _ & _ & _ & _ & ->). reflexivity.
  - apply rd_v4_inv in H. destruct H as (? & ? & ? & ? & ? & ? & _ & _ & _ & _ & _ & _ & _ & _ & _ & ->). reflexivity.
  - apply rd_udp_inv in H. destruct H as (? & ? & ? & ? & ? & _ & _ & _ & _ & _ & _ & ->). reflexivity.
  - apply rd_v6_inv in H. destruct H as (? & ? & ? & _ & _ & _ & _ & _ & ->). reflexivity.
  - apply rd_route_inv in H. destruct H as (? & ? & ? & ? & ? & ? & _ & _ & _ & _ & _ & _ & _ & ->). reflexivity.
  - apply rd_frag_inv in H. destruct H as (? & ? & ? & ? & ? & ? & ? & _ & _ & _ & _ & ->). reflexivity.
  - okinj H. reflexivity.
  - apply rd_opts_inv in H; [|exists (length d); apply bits_of_bytes_length].
    destruct H as (? & ? & ? & ? & _ & _ & _ & _ & _ & ->). reflexivity.
Qed.
Lemma decode_fix f dec nh pb p : decode (parse f) dec nh pb = Ok p -> fix_nh nh p = nh.
Proof.
  unfold decode, fix_nh. destruct dec; [|intros H; okinj H; reflexivity].
  destruct (registry nh) as [k|] eqn:Hr; [|intros H; okinj H; reflexivity].
  intros H. rewrite (parse_header_type _ _ _ _ _ H Hr). reflexivity.
Qed.

(** ** Stability of whole stacks *)
(** no IPv4 header carries options, Map-Requests ask for plain prefixes *)
Fixpoint reparsable (p : pkt) : Prop :=
  match p with
  | PRaw _ => True
  | PIPv4 h p => h_opts h = [] /\ reparsable p
  | PIPv6 _ p | PHop _ _ p | PDst _ _ p | PRoute _ _ _ _ p | PFrag _ _ _ _ p | PNoNext p
  | PUDP _ _ _ p | PData _ p | PECM _ _ _ _ _ p => reparsable p
  | PCtl c => plain_ctl c
  end.

Definition stable_at (f : nat) : Prop :=
  forall k d p out, parse f k d = Ok p -> reparsable p -> pkt_to_bytes p = Ok out ->
    forall f', (length out < f')%nat -> parse f' k out = Ok p.

Lemma decode_stable f dec nh pb p out f' : stable_at f -> decode (parse f) dec nh pb = Ok p -> reparsable p ->
  pkt_to_bytes p = Ok out -> (length out < f')%nat -> decode (parse f') dec nh out = Ok p.
Proof.
  intros IH H Hr Ho L. unfold decode in *. destruct dec.
  - destruct (registry nh) as [k|]; [eapply IH; eauto|]. okinj H. cbn in Ho. okinj Ho. reflexivity.
  - okinj H. cbn in Ho. okinj Ho. reflexivity.
Qed.

Lemma pkt_v4_starts h p out : pkt_to_bytes (PIPv4 h p) = Ok out -> starts4 (bits_of_bytes out) 4.
Proof.
  cbn [pkt_to_bytes]. intros H. bo H h' E. destruct (pkt_to_bytes p) as [pb|e].
  2:{ exfalso. unfold w_v4 in H. mon H. discriminate. }
  apply w_v4_inv in H. destruct H as (hb & ck & -> & Hb & _). rewrite bits_of_bytes_app, Hb. eexists.
  unfold v4_wire, v4_pre. rewrite <- !app_assoc. reflexivity.
Qed.
Lemma pkt_v6_starts h p out : pkt_to_bytes (PIPv6 h p) = Ok out -> starts4 (bits_of_bytes out) 6.
Proof.
  cbn [pkt_to_bytes]. intros H. bo H h' E. destruct (pkt_to_bytes p) as [pb|e].
  2:{ exfalso. unfold w_v6 in H. mon H. discriminate. }
  apply w_v6_inv in H. destruct H as (hb & -> & Hb & _). rewrite bits_of_bytes_app, Hb. eexists.
  unfold v6_wire. rewrite <- !app_assoc. reflexivity.
Qed.

Lemma decode_ip_stable f dec pb p out f' : stable_at f -> decode_ip (parse f) dec (bits_of_bytes pb) = Ok p -> reparsable p ->
  pkt_to_bytes p = Ok out -> (length out < f')%nat -> decode_ip (parse f') dec (bits_of_bytes out) = Ok p.
Proof.
  intros IH H Hr Ho L. apply decode_ip_inv in H.
  destruct H as [[-> ->]|(v & [r Hv] & Rv & [[-> H]|[[-> H]|(H1 & H2 & ->)]])].
  - cbn in Ho. okinj Ho. reflexivity.
  - pose proof (IH _ _ _ _ H Hr Ho _ L) as H'.
    assert (starts4 (bits_of_bytes out) 4) as [r' Hs].
    { destruct f as [|f]; [discriminate|]. apply rd_v4_inv in H. destruct H as (? & ? & ? & ? & ? & ? & _ & _ & _ & _ & _ & _ & _ & _ & _ & ->).
      eapply pkt_v4_starts; exact Ho. }
    eapply decode_ip_run; [exact Hs|lia|auto].
  - pose proof (IH _ _ _ _ H Hr Ho _ L) as H'.
    assert (starts4 (bits_of_bytes out) 6) as [r' Hs].
    { destruct f as [|f]; [discriminate|]. apply rd_v6_inv in H. destruct H as (? & ? & ? & _ & _ & _ & _ & _ & ->).
      eapply pkt_v6_starts; exact Ho. }
    eapply decode_ip_run; [exact Hs|lia|auto].
  - cbn in Ho. okinj Ho. eapply decode_ip_run; [exact Hv|exact Rv|auto].
Qed.

Lemma no_opts_wire h : h_opts h = [] -> pad_opts h = h /\ 5 + (blen (h_opts h) + 3) / 4 = 5.
Proof. intros H. unfold pad_opts, with_opts. destruct h; cbn in *; subst. split; reflexivity. Qed.

(** bytes after [k] bytes of header are shorter *)
Lemma wire_len hb w k : bits_of_bytes hb = w -> length w = (8 * k)%nat -> length hb = k.
Proof. intros <- H. rewrite bits_of_bytes_length in H. lia. Qed.

(** split a payload result *)
Ltac paybytes H p pb Ep :=
  destruct (pkt_to_bytes p) as [pb|] eqn:Ep;
  [|exfalso; unfold w_v4, w_v6, w_opts, w_route, w_frag, w_udp, w_data, w_ecm in H; cbn zeta in H; mon H; discriminate].

Lemma bits_split_tail d h s' : bits_of_bytes d = h ++ s' -> (exists k, length h = (8 * k)%nat) -> exists pb, s' = bits_of_bytes pb.
Proof.
  intros H [k Hk]. destruct (bytes_of_bits_total h k Hk) as [x [Hx _]]. apply bytes_of_bits_ok in Hx. subst h.
  assert (length s' = (8 * (length d - length x)))%nat as Ls.
  { apply (f_equal (@length bool)) in H. rewrite app_length, !bits_of_bytes_length in H. lia. }
  destruct (bytes_of_bits_total _ _ Ls) as [pb [Hp _]]. apply bytes_of_bits_ok in Hp. eauto.
Qed.

Theorem stack_stable f : stable_at f.
Proof.
  induction f as [|f IH]; intros k d q out H Hr Ho [|f'] L; try discriminate; try lia. cbn [parse] in *. unfold layer in *.
  destruct k.
  - apply rd_v4_inv in H. destruct H as (ihl & tl & h & ck & pb & p & Hs & Hi & Hopt & Ht & Htl & Hf & Hrg & Hck & Hd & ->).
    rewrite (decode_fix _ _ _ _ _ Hd), with_proto_id in *. cbn [pkt_to_bytes reparsable] in *. destruct Hr as [Hno Hr].
    bo Ho h' E. apply sanitize_v4_ok in E. destruct E as [_ ->]. rewrite (decode_fix _ _ _ _ _ Hd), with_proto_id in *.
    paybytes Ho p pb' Ep. apply w_v4_inv in Ho. destruct Ho as (hb & ck' & -> & Hb & Hck' & _ & Hl' & _).
    destruct (no_opts_wire h Hno) as [W1 W2]. rewrite W1, W2 in *. rewrite bits_of_bytes_app, Hb.
    pose proof (wire_len _ _ _ Hb (v4_wire_length _ _ _ _)) as Lh. rewrite app_length in L.
    rewrite (rd_v4_run (parse f') dec 5 (20 + blen pb') h ck' pb' p).
    + rewrite (decode_fix _ _ _ _ _ Hd), with_proto_id. reflexivity.
    + lia.
    + rewrite Hno. reflexivity.
    + lia.
    + exact Hl'.
    + exact Hf.
    + exact Hrg.
    + exact Hck'.
    + eapply decode_stable; eauto. lia.
  - apply rd_v6_inv in H. destruct H as (h & pb & p & Hs & Hl & Hf & Hrg & Hd & ->).
    assert (with_nh h (fix_nh (x_nh h) p) = h) as Hfix by (rewrite (decode_fix _ _ _ _ _ Hd); destruct h; reflexivity).
    rewrite Hfix in *. cbn [pkt_to_bytes reparsable] in *.
    bo Ho h' E. apply sanitize_v6_ok in E. destruct E as [_ ->]. rewrite Hfix in *.
    paybytes Ho p pb' Ep. apply w_v6_inv in Ho. destruct Ho as (hb & -> & Hb & Hl' & _).
    rewrite bits_of_bytes_app, Hb.
    pose proof (wire_len _ _ _ Hb (v6_wire_length _ _)) as Lh. rewrite app_length in L.
    rewrite (rd_v6_run (parse f') dec h pb' p); auto; [rewrite Hfix; reflexivity|].
    eapply decode_stable; eauto. lia.
  - apply rd_opts_inv in H; [|exists (length d); apply bits_of_bytes_length].
    destruct H as (nh & o & pb & p & Hs & Hn & Hm & Hl & Hd & ->). cbn [pkt_to_bytes reparsable] in *.
    paybytes Ho p pb' Ep. apply w_opts_inv in Ho. destruct Ho as (hb & -> & Hb & _). rewrite pad8_id in Hb by (lia || exact Hm).
    rewrite bits_of_bytes_app, Hb. pose proof (wire_len _ _ _ Hb (opts_wire_len _ _)) as Lh. rewrite app_length in L.
    apply rd_opts_run; auto. eapply decode_stable; eauto. lia.
  - apply rd_opts_inv in H; [|exists (length d); apply bits_of_bytes_length].
    destruct H as (nh & o & pb & p & Hs & Hn & Hm & Hl & Hd & ->). cbn [pkt_to_bytes reparsable] in *.
    paybytes Ho p pb' Ep. apply w_opts_inv in Ho. destruct Ho as (hb & -> & Hb & _). rewrite pad8_id in Hb by (lia || exact Hm).
    rewrite bits_of_bytes_app, Hb. pose proof (wire_len _ _ _ Hb (opts_wire_len _ _)) as Lh. rewrite app_length in L.
    apply rd_opts_run; auto. eapply decode_stable; eauto. lia.
  - apply rd_route_inv in H.
    destruct H as (nh & rt & sl & o & pb & p & Hs & Hn & Hrt & Hsl & Hm & Hl & Hd & ->). cbn [pkt_to_bytes reparsable] in *.
    paybytes Ho p pb' Ep. apply w_route_inv in Ho. destruct Ho as (hb & -> & Hb & _). rewrite pad8_id in Hb by (lia || exact Hm).
    rewrite bits_of_bytes_app, Hb. pose proof (wire_len _ _ _ Hb (route_wire_len _ _ _ _)) as Lh. rewrite app_length in L.
    apply rd_route_run; auto. eapply decode_stable; eauto. lia.
  - apply rd_frag_inv in H. destruct H as (nh & r1 & off & r2 & mf & id & pb & Hs & _ & _ & Hrg & ->).
    cbn [pkt_to_bytes] in Ho. apply w_frag_inv in Ho. destruct Ho as (hb & -> & Hb & _).
    rewrite bits_of_bytes_app, Hb. apply rd_frag_run. exact Hrg.
  - okinj H. cbn [pkt_to_bytes] in Ho. okinj Ho. reflexivity.
  - apply rd_udp_inv in H. destruct H as (sp & dp & ck & pb & p & Hs & R1 & R2 & R3 & R4 & Hp & ->).
    cbn [pkt_to_bytes reparsable] in *. paybytes Ho p pb' Ep. apply w_udp_inv in Ho. destruct Ho as (hb & -> & Hb & _ & _ & _ & R4').
    rewrite bits_of_bytes_app, Hb. pose proof (wire_len _ _ _ Hb (udp_wire_len _ _ _ _)) as Lh. rewrite app_length in L.
    apply rd_udp_run; auto. unfold udp_payload in *. assert (length pb' < f')%nat by lia.
    destruct (_ || _); [eapply IH; eauto|]. destruct (_ || _); [eapply IH; eauto|].
    okinj Hp. cbn in Ep. okinj Ep. reflexivity.
  - apply rd_data_inv in H. destruct H as (hdr & s' & dd & p & Hs & Lh & Hsan & Hd & ->).
    cbn [pkt_to_bytes reparsable] in *. bo Ho d' E. rewrite Hsan in E. okinj E.
    destruct (bits_split_tail _ _ _ Hs) as [pb ->]; [exists 8%nat; exact Lh|].
    paybytes Ho p pb' Ep. pose proof Hsan as Hf. apply sanitize_dh_ok in Hf. destruct Hf as [Hf _].
    apply w_data_inv in Ho; [|exact Hf]. destruct Ho as (hb & -> & Hb).
    rewrite bits_of_bytes_app, Hb. pose proof (wire_len _ _ _ Hb (data_wire_len _ Hf)) as Lh'. rewrite app_length in L.
    apply rd_data_run; [exact Hsan|]. eapply decode_ip_stable; eauto. lia.
  - unfold rd_control in *. bo H [t s1] E1. destruct (t =? 8) eqn:E8.
    + apply rd_ecm_inv in H. destruct H as (ddt & rsv & s' & p & Hs & Lr & Hd & ->).
      assert (length (ecm_wire ddt rsv) = (8 * 4)%nat) as Lw
        by (unfold ecm_wire; rewrite app_length, enc_length; cbn [length]; rewrite Lr; reflexivity).
      cbn [pkt_to_bytes reparsable] in *.
      destruct (bits_split_tail _ _ _ Hs) as [pb ->]; [exists 4%nat; exact Lw|].
      paybytes Ho p pb' Ep. apply w_ecm_inv in Ho. destruct Ho as (_ & hb & -> & Hb).
      rewrite bits_of_bytes_app, Hb. pose proof (wire_len _ _ _ Hb Lw) as Lh'. rewrite app_length in L.
      unfold ecm_wire at 1. rewrite <- app_assoc. rewrite rd_uint_enc by (cbn; lia). cbn [bind Z.eqb Pos.eqb].
      apply rd_ecm_run; [exact Lr|]. eapply decode_ip_stable; eauto. lia.
    + bo H [c s2] E2. okinj H. cbn [pkt_to_bytes reparsable] in *. apply to_bytes_ok in Ho.
      pose proof (ctl_stable _ _ _ _ _ E2 Hr Ho []) as Hc. rewrite app_nil_r in Hc.
      destruct (w_ctl_starts _ _ Ho) as [r Hst]. rewrite (rd_ctl_type _ _ _ _ E2) in Hst.
      apply rd_uint_ok in E1. destruct E1 as [_ R1]. rewrite Hst at 1. rewrite rd_uint_enc by exact R1. cbn [bind]. rewrite E8, Hc.
      reflexivity.
Qed.
