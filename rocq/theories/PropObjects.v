(** * C05, C32: what the parsers return are well-formed Python objects.

    The round-trip theorems speak of well-formed objects ([wf_addr], [obj_mreg], ...): everything that arrives
    is one. *)
From Verif Require Import Base BaseLemmas Afi AfiProofs Spec SpecLemmas SpecRec Records RecordsProofs Control ControlProofs PropControl SpecAccept PropAccept.

(** an address read without a prefix length: no network objects, the [ipaddress] invariants hold *)
Definition plain_address (a : addr) : Prop := wf_addr a = true /\ no_nets a = true.
(** an address read with prefix length [n]: no address (only with length 0); a prefix of length [n], plain, in an
    instance, AS or geo address, or a list of such; a null address; or a NAT address, whose addresses are read
    without the prefix length *)
Inductive prefix_read (n : Z) : addr -> Prop :=
| pr_none : n = 0 -> prefix_read n ANone
| pr_prefix a : prefix_form n a -> wf_addr a = true -> prefix_read n a
| pr_null : prefix_read n LNull
| pr_nat mp ep g m p l : plain_address (LNat mp ep g m p l) -> prefix_read n (LNat mp ep g m p l).

Lemma rd_all_Forall rd (P : addr -> Prop) : (forall s a r, rd s = Ok (a, r) -> P a) ->
  forall n s l, rd_all rd n s = Ok l -> Forall P l.
Proof.
  intros Hr. induction n as [|n IH]; intros s l H; destruct s as [|b s]; cbn [rd_all] in H; try (okinj H; constructor); [discriminate|].
  bo H [a r] E. bo H l' El. okinj H. constructor; eauto.
Qed.
Lemma with_prefix_wf a n a' : plain_address a -> with_prefix a (Some n) = Ok a' -> exists v z, a' = ANet v z n /\ wf_ip a' = true.
Proof.
  intros [W _] H. apply with_prefix_inv in H. destruct H as (v & z & -> & -> & Hn & Hm). exists v, z. split; [reflexivity|].
  cbn [wf_addr wf_ip] in *. rewrite !andb_true_iff. repeat split; try (apply Z.leb_le; lia); [exact W|apply Z.eqb_eq; exact Hm].
Qed.
Lemma ip_plain v s z r : rd_uint (width v) s = Ok (z, r) -> plain_address (AIP v z).
Proof.
  intros H. apply rd_uint_range in H. split; [|reflexivity]. cbn [wf_addr wf_ip]. apply fits_spec. exact H.
Qed.
Lemma plain_Forall l : Forall plain_address l -> forallb wf_addr l = true /\ forallb no_nets l = true.
Proof. intros F. split; apply forallb_forall; intros x I; apply (proj1 (Forall_forall _ _) F x I). Qed.

Lemma body_shape rd pl s a r : (forall s a r, rd s = Ok (a, r) -> plain_address a) -> afi_body rd pl s = Ok (a, r) ->
  match pl with None => plain_address a | Some n => prefix_read n a end.
Proof.
  intros Hr H. unfold afi_body in H. bo H [afi s1] E1.
  destruct (afi =? 0). { destruct pl as [n|]; [destruct (Z.eqb_spec n 0); [|discriminate]|]; okinj H; [constructor; assumption|split; reflexivity]. }
  assert (forall v s z r a', rd_uint (width v) s = Ok (z, r) -> with_prefix (AIP v z) pl = Ok a' ->
    match pl with None => plain_address a' | Some n => prefix_read n a' end) as IPs.
  { intros v s' z r' a' Hz Hp. apply ip_plain in Hz. destruct pl as [n|].
    - destruct (with_prefix_wf _ _ _ Hz Hp) as (v' & z' & -> & W). apply pr_prefix; [constructor|exact W].
    - apply with_prefix_inv in Hp. rewrite Hp. exact Hz. }
  destruct (afi =? 1). { bo H [z s2] E2. bo H a' E3. okinj H. eapply (IPs V4); eassumption. }
  destruct (afi =? 2). { bo H [z s2] E2. bo H a' E3. okinj H. eapply (IPs V6); eassumption. }
  destruct (afi =? AFI_LCAF); [|discriminate].
  bo H [r1 s2] E2. bo H [fl s3] E3. bo H [ty s4] E4. bo H [r2 s5] E5. bo H [ln s6] E6. bo H [d s7] E7. bo H a' E8. okinj H.
  unfold lcaf_from_data in E8.
  destruct (ty =? 0). { okinj E8. destruct pl; [apply pr_null|split; reflexivity]. }
  destruct (ty =? 1).
  { bo E8 l El. okinj E8. destruct pl as [n|].
    - assert (Forall (fun a => exists v z, a = ANet v z n /\ wf_ip a = true) l) as F.
      { eapply rd_all_Forall; [|exact El]. intros s' a' r' Hx. cbn beta in Hx. bo Hx [x q] Ex. bo Hx x' Ex'. okinj Hx. eapply with_prefix_wf; eauto. }
      apply pr_prefix; [constructor; exact F|]. cbn [wf_addr]. apply forallb_forall. intros x I. destruct (proj1 (Forall_forall _ _) F x I) as (v & z & -> & W). exact W.
    - assert (Forall plain_address l) as F.
      { eapply rd_all_Forall; [|exact El]. intros s' a' r' Hx. cbn beta in Hx. bo Hx [x q] Ex. bo Hx x' Ex'. okinj Hx. apply with_prefix_inv in Ex'. rewrite Ex'. eauto. }
      apply plain_Forall in F. exact F. }
  destruct (ty =? 2).
  { bo E8 [iid s8] G1. bo E8 [x s9] G2. bo E8 x' G3. okinj E8. apply Hr in G2. destruct pl as [n|].
    - destruct (with_prefix_wf _ _ _ G2 G3) as (v & z & -> & W). apply pr_prefix; [constructor|exact W].
    - apply with_prefix_inv in G3. rewrite G3. exact G2. }
  destruct (ty =? 3).
  { bo E8 [iid s8] G1. bo E8 [x s9] G2. bo E8 x' G3. okinj E8. apply Hr in G2. destruct pl as [n|].
    - destruct (with_prefix_wf _ _ _ G2 G3) as (v & z & -> & W). apply pr_prefix; [constructor|exact W].
    - apply with_prefix_inv in G3. rewrite G3. exact G2. }
  destruct (ty =? 5).
  { bo E8 [g s8] G1. bo E8 [x s9] G2. bo E8 x' G3. okinj E8. apply Hr in G2. destruct pl as [n|].
    - destruct (with_prefix_wf _ _ _ G2 G3) as (v & z & -> & W). apply pr_prefix; [constructor|exact W].
    - apply with_prefix_inv in G3. rewrite G3. exact G2. }
  destruct (ty =? 7); [|discriminate].
  bo E8 [mp s8] G1. bo E8 [ep s9] G2. bo E8 [g s10] G3. bo E8 [m s11] G4. bo E8 [p s12] G5. bo E8 l G6. okinj E8.
  assert (plain_address (LNat mp ep g m p l)) as PN.
  { apply Hr in G3. apply Hr in G4. apply Hr in G5. assert (Forall plain_address l) as F by (eapply rd_all_Forall; [exact Hr|exact G6]).
    apply plain_Forall in F. destruct G3 as [W3 N3], G4 as [W4 N4], G5 as [W5 N5], F as [F1 F2].
    split; cbn [wf_addr no_nets]; rewrite ?W3, ?W4, ?W5, ?F1, ?N3, ?N4, ?N5, ?F2; reflexivity. }
  destruct pl; [apply pr_nat|]; exact PN.
Qed.
Lemma rd_afi_plain f : forall s a r, rd_afi f None s = Ok (a, r) -> plain_address a.
Proof. induction f as [|f IH]; intros s a r H; [discriminate|]. exact (body_shape _ None _ _ _ IH H). Qed.

(** C05: an address that was read is a well-formed object: without a prefix length it contains no network objects ... *)
Theorem C05_decoded_plain : forall s a r, read_afi None s = Ok (a, r) -> plain_address a.
Proof. intros s a r. apply rd_afi_plain. Qed.
Print Assumptions C05_decoded_plain.
(** ... with one, it is exactly that prefix *)
Theorem C05_decoded_prefix : forall n s a r, read_afi (Some n) s = Ok (a, r) -> prefix_read n a.
Proof. intros n s a r H. unfold read_afi in H. cbn [rd_afi] in H. exact (body_shape _ (Some n) _ _ _ (rd_afi_plain _) H). Qed.
Print Assumptions C05_decoded_prefix.
Corollary C05_decoded_wf : forall pl s a r, read_afi pl s = Ok (a, r) -> wf_addr a = true.
Proof.
  intros [n|] s a r H; [|apply C05_decoded_plain in H; apply H]. apply C05_decoded_prefix in H. destruct H as [| ? ? ? | |? ? ? ? ? ? [? ?]]; auto.
Qed.
Print Assumptions C05_decoded_wf.
(** all four shapes do occur *)
Example C05_shapes :
  read_afi (Some 0) (bits_of_bytes (B [0;0])) = Ok (ANone, []) /\ wf_addr ANone = true /\
  read_afi (Some 8) (bits_of_bytes (B [64;3; 0;0;1;0; 0;12; 0;1;10;0;0;0; 0;1;11;0;0;0])) = Ok (LList [ANet V4 167772160 8; ANet V4 184549376 8], []) /\
  read_afi (Some 8) (bits_of_bytes (B [64;3; 0;0;0;0; 0;0])) = Ok (LNull, []) /\
  read_afi (Some 8) (bits_of_bytes (B [64;3; 0;0;7;0; 0;16; 16;246; 16;245; 0;1;10;0;0;1; 0;0; 0;0; 0;0])) =
    Ok (LNat 4342 4341 (AIP V4 167772161) ANone ANone [ANone], []).
Proof. vm_compute. repeat split. Qed.

(** C32: the messages that arrive are well-formed objects, with a nonce of eight bytes *)
Lemma nonce8 n s b r : rd_bytes n s = Ok (b, r) -> length b = n.
Proof. intros H. apply rd_bytes_ok in H. tauto. Qed.
Theorem C32_parsed_objects : forall d : bytes,
  (forall m, mrep_from_bytes d = Ok m -> obj_mrep m /\ length (p_nonce m) = 8%nat) /\
  (forall m, mreg_from_bytes d = Ok m -> obj_mreg m) /\
  (forall m, mnot_from_bytes d = Ok m -> obj_mnot m /\ length (n_nonce m) = 8%nat) /\
  (forall m, mref_from_bytes d = Ok m -> obj_mref m /\ length (f_nonce m) = 8%nat) /\
  (forall m, info_from_bytes d = Ok m -> obj_info m /\ length (i_nonce m) = 8%nat) /\
  (forall m, mreq_from_bytes d = Ok m -> obj_mreq m /\ length (q_nonce m) = 8%nat).
Proof.
  intros d. split; [|split; [|split; [|split; [|split]]]]; intros m H; apply from_bytes_ok in H; destruct H as [t H].
  - apply rd_mrep_stable in H. destruct H as (W & N & _). split; assumption.
  - apply rd_mreg_stable in H. apply H.
  - split; [apply rd_mnot_stable in H; apply H|]. unfold rd_mnot in H.
    bo H [ty s1] E1. bo H [] E2. bo H [has s5] E5. bo H [r1 s4] E4. bo H [cnt s9] E9. bo H [nonce s10] E10. bo H [[key au] s11] E11.
    bo H [rs s12] E12. bo H [[x si] s13] E13. bo H m' E14. okinj H.
    unfold sanitize_mnot in E14. bo E14 [] G1. bo E14 [] G2. bo E14 [] G3. bo E14 [] G3'. bo E14 rs' G4. okinj E14. cbn. eapply nonce8; eassumption.
  - split; [apply rd_mref_stable in H; apply H|]. unfold rd_mref in H.
    bo H [ty s1] E1. bo H [] E2. bo H [r1 s4] E4. bo H [cnt s9] E9. bo H [nonce s10] E10. bo H [rs s12] E12. bo H m' E14. okinj H.
    unfold sanitize_mref in E14. bo E14 [] G1. bo E14 rs' G4. okinj E14. cbn. eapply nonce8; eassumption.
  - pose proof (rd_info_stable _ _ _ H) as ((W1 & W2 & W3 & _) & _). unfold rd_info in H.
    bo H [ty s1] E1. bo H [] E2. bo H [rp s3] E3. bo H [r1 s4] E4. bo H [nonce s5] E5. bo H [[key au] s6] E6.
    bo H [ttl s7] E7. bo H [r2 s8] E8. bo H [pl s9] E9. bo H [eid s10] E10. bo H [data s11] E11. bo H m' E12. okinj H.
    unfold sanitize_info in E12. mon E12. okinj E12. cbn in *. repeat split; auto; [apply C05_decoded_plain in E11; apply E11|eapply nonce8; eassumption].
  - unfold rd_mreq in H.
    bo H [ty s1] E1. bo H [] E2. bo H [au s3] E3. bo H [mdp s4] E4. bo H [pr s5] E5. bo H [smr s6] E6.
    bo H [pi s7] E7. bo H [si s8] E8. bo H [rsv s9] E9. bo H [irc s10] E10. bo H [cnt s11] E11. bo H [nonce s12] E12.
    bo H [src s13] E13. bo H [rl s14] E14. bo H [es s15] E15. bo H [rep s16] E16. bo H m' E17. okinj H.
    assert (obj_opt rep) as R by (destruct mdp; [bo E16 [r s17] K; okinj E16; apply rd_mrec_stable in K; apply K|okinj E16; exact I]).
    unfold sanitize_mreq in E17. bo E17 [] G1. bo E17 [] G2. bo E17 [] G3. bo E17 [] G4. bo E17 [] G5. bo E17 [] G6. bo E17 rep' G7. okinj E17.
    cbn [q_auth q_probe q_smr q_pitr q_smri q_rsv q_nonce q_src q_rlocs q_eids q_reply] in *.
    assert (rep' = rep) as ->.
    { destruct mdp; [|okinj E16; cbn in G7; okinj G7; reflexivity]. bo E16 [r s17] K. okinj E16. apply rd_mrec_stable in K. destruct K as (_ & K2 & _).
      cbn in G7. rewrite K2 in G7. cbn [bind] in G7. okinj G7. reflexivity. }
    split; [|eapply nonce8; eassumption]. unfold obj_mreq. cbn [q_auth q_probe q_smr q_pitr q_smri q_rsv q_nonce q_src q_rlocs q_eids q_reply].
    repeat split.
    + apply rd_bits_ok in E9. tauto.
    + apply C05_decoded_plain in E13. apply E13.
    + apply forallb_forall. intros e I. apply rd_n_inv in E15. destruct E15 as [_ F]. destruct (proj1 (Forall_forall _ _) F e I) as (s0 & r0 & E).
      unfold rd_eid in E. bo E [u q0] E0. bo E [n q] E1'. eapply C05_decoded_wf; eassumption.
    + exact R.
Qed.
Print Assumptions C32_parsed_objects.

(** C32: exactly when a Map-Request that arrived can be sent on: if every EID is a prefix, plain or in an instance-0
    address.  What the next receiver gets is the same up to that wrapper, and from then on nothing changes any more. *)
Definition plain_or_instance0 (e : addr) : Prop := exists v z n, e = ANet v z n \/ exists mask, e = LInst 0 (ANet v z n) mask.
Lemma parsed_eid n e : prefix_read n e -> (exists p, as_prefix e p) <-> plain_or_instance0 e.
Proof.
  intros P. split.
  - intros [p A]. destruct P as [Z|a F W| |? ? ? ? ? ? ?]; try (inversion A; fail).
    inversion F; subst; inversion A; subst; [exists v, z, n; left; reflexivity|exists v, z, n; right; eexists; reflexivity].
  - intros (v & z & k & [-> |[mask ->]]); eexists; repeat constructor.
Qed.
Theorem C32_map_request_exact : forall d m, mreq_from_bytes d = Ok m ->
  (is_ok (mreq_to_bytes m) = true <-> Forall plain_or_instance0 (q_eids m)) /\
  (forall out, mreq_to_bytes m = Ok out ->
     exists m', mreq_from_bytes out = Ok m' /\ arrives_mreq m m' /\ Forall (fun e => is_net e = true) (q_eids m') /\
       exists out', mreq_to_bytes m' = Ok out' /\ mreq_from_bytes out' = Ok m').
Proof.
  intros d m H. pose proof (proj2 (proj2 (proj2 (proj2 (proj2 (C32_parsed_objects d))))) m H) as [O N].
  split.
  2:{ intros out Ho. destruct (C24_map_request_roundtrip m out O Ho) as (m' & A & R). specialize (R []). rewrite app_nil_r in R.
    assert (Forall (fun e => is_net e = true) (q_eids m')) as F.
    { pose proof (aq_eids _ _ A) as E. clear - E. induction E as [|x y l l' Hx Hl IH]; constructor; [|exact IH]. clear - Hx. induction Hx; auto. }
    exists m'. split; [exact R|]. split; [exact A|]. split; [exact F|]. exact (proj2 (proj2 (proj2 (proj2 (proj2 (C32_parsed_messages_stable out))))) m' R F). }
  rewrite (C91_map_request m O). apply from_bytes_ok in H. destruct H as [t H]. unfold rd_mreq in H.
  bo H [ty s1] E1. bo H [] E2. bo H [au s3] E3. bo H [mdp s4] E4. bo H [pr s5] E5. bo H [smr s6] E6.
  bo H [pi s7] E7. bo H [si s8] E8. bo H [rsv s9] E9. bo H [irc s10] E10. bo H [cnt s11] E11. bo H [nonce s12] E12.
  bo H [src s13] E13. bo H [rl s14] E14. bo H [es s15] E15. bo H [rep s16] E16. bo H m' E17. okinj H.
  unfold sanitize_mreq in E17. bo E17 [] G1. bo E17 [] G2. bo E17 [] G3. bo E17 [] G4. bo E17 [] G5. bo E17 [] G6. bo E17 rep' G7. okinj E17.
  cbn [q_auth q_probe q_smr q_pitr q_smri q_rsv q_nonce q_src q_rlocs q_eids q_reply] in *.
  apply rd_n_inv in E15. destruct E15 as [_ FE].
  assert (Forall (fun e => (exists p, as_prefix e p) <-> plain_or_instance0 e) es) as EQ.
  { eapply Forall_impl; [|exact FE]. intros e (s0 & r0 & E). unfold rd_eid in E. bo E [u q0] X0. bo E [n q] X1. eapply parsed_eid, C05_decoded_prefix, E. }
  split.
  - intros G. pose proof (proj2 (gq_eids _ G)) as F. cbn [q_eids] in F. rewrite Forall_forall in *. intros e I. apply EQ; auto.
  - intros F. destruct O as (_ & _ & We & Or). cbn [q_reply] in Or. apply guard_ok in G1, G2. constructor; unfold lenZ in *; cbn [q_rlocs q_eids q_nonce q_src q_reply].
    + split; [lia|]. apply rd_n_inv in E14. destruct E14 as [_ F14]. apply checkM_ok in G5. destruct G5 as [_ G5]. rewrite Forall_forall in *.
      intros a I. specialize (G5 a I). apply guard_ok in G5. destruct (F14 a I) as (s0 & r0 & Ha). apply C05_decoded_plain in Ha. destruct Ha as [Wa _].
      destruct a as [|v z| | | | | | |]; try discriminate. exists v, z. split; [reflexivity|]. cbn [wf_addr wf_ip] in Wa. apply fits_spec in Wa. exact Wa.
    + split; [lia|]. rewrite Forall_forall in *. intros e I. apply EQ; auto.
    + exact N.
    + assert (encodable src) as Es.
      { destruct (read_afi_stable _ _ _ _ E13) as (c & _ & _ & b & Hb & _). apply C91_address. rewrite Hb. reflexivity. }
      assert (src = ANone \/ exists x, addresses_of src = [x] /\ is_ip x = true) as X.
      { clear - G4. destruct src; [left; reflexivity| | | | | | | |]; right;
          match type of G4 with match ?l with _ => _ end = _ => destruct l as [|x [|]]; try discriminate end;
          exists x; apply guard_ok in G4; auto. }
      destruct X as [X|(x & X & Ix)]; [left; exact X|right]. split; [exact Es|]. destruct x as [|vx zx| | | | | | |]; try discriminate.
      exists vx, zx. apply addresses_of_leaves. exact X.
    + destruct mdp.
      * bo E16 [r s17] K. okinj E16. apply rd_mrec_stable in K. destruct K as (K1 & K2 & K3). rewrite K2 in G7. cbn [bind] in G7. okinj G7. apply mrec_iff; assumption.
      * okinj E16. okinj G7. exact I.
Qed.
Print Assumptions C32_map_request_exact.
(** both happen: an EID in instance 0 is sent on as a plain prefix, one in instance 5 cannot be sent on *)
Definition instance0_request : bytes :=
  B [16;0;0;1; 1;2;3;4;5;6;7;8; 0;0; 0;1;10;0;0;1;
     0;24; 64;3;0;0;2;32;0;10; 0;0;0;0; 0;1;192;0;2;0].
Example C32_exact_example :
  match mreq_from_bytes instance0_request with
  | Ok m => q_eids m = [LInst 0 (ANet V4 3221225984 24) 32] /\ is_ok (mreq_to_bytes m) = true
  | Err _ => False end /\
  match mreq_from_bytes lcaf_eid_request with
  | Ok m => q_eids m = [LInst 5 (ANet V4 3221225984 24) 32] /\ is_ok (mreq_to_bytes m) = false
  | Err _ => False end.
Proof. vm_compute. repeat split. Qed.

(** C34: an LCAF address whose content does not fit the 16-bit length field is refused, whatever its type and
    wherever it is nested *)
Inductive inside : addr -> addr -> Prop :=
| in_self a : inside a a
| in_list x a l : In a l -> inside x a -> inside x (LList l)
| in_inst x i a m : inside x a -> inside x (LInst i a m)
| in_as x n a : inside x a -> inside x (LAs n a)
| in_geo x g a : inside x a -> inside x (LGeo g a)
| in_nat x mp ep g m p l a : In a (g :: m :: p :: l) -> inside x a -> inside x (LNat mp ep g m p l).
Theorem C34_long_lcaf_refused : forall x a, inside x a -> is_lcaf x = true -> 65535 < wire_size x - 8 -> is_ok (w_afi a) = false.
Proof.
  intros x a I L S. destruct (is_ok (w_afi a)) eqn:E; [|reflexivity]. exfalso. apply C91_address in E.
  induction I as [a|x a l In1 I IH|x i a m I IH|x n a I IH|x g a I IH|x mp ep g m p l a In1 I IH].
  - destruct a; try discriminate L; inversion E; subst; unfold short_enough in *; cbn [wire_size] in *; lia.
  - inversion E; subst. apply IH; auto. match goal with F : Forall encodable l |- _ => exact (proj1 (Forall_forall _ _) F a In1) end.
  - inversion E; subst. auto.
  - inversion E; subst. auto.
  - inversion E; subst. auto.
  - inversion E; subst. apply IH; auto. destruct In1 as [<- |[<- |[<- |In1]]]; try assumption.
    match goal with F : Forall encodable l |- _ => exact (proj1 (Forall_forall _ _) F a In1) end.
Qed.
Print Assumptions C34_long_lcaf_refused.
(** the boundary: 3640 IPv6 addresses (65520 octets) fit, 3641 (65538 octets) do not *)
Example C34_boundary : wire_size (LList (repeat (AIP V6 1) (Z.to_nat 3640))) - 8 = 65520 /\ wire_size (LList (repeat (AIP V6 1) (Z.to_nat 3641))) - 8 = 65538 /\ is_ok (w_afi (LNat 1 1 ANone ANone ANone [LList (repeat (AIP V6 1) (Z.to_nat 3641))])) = false.
Proof.
  split; [vm_compute; reflexivity|]. split; [vm_compute; reflexivity|].
  apply (C34_long_lcaf_refused (LList (repeat (AIP V6 1) (Z.to_nat 3641)))); [|reflexivity|vm_compute; reflexivity].
  eapply in_nat; [right; right; right; left; reflexivity|constructor].
Qed.
