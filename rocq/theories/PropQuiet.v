(** * Property C145: an answer is not answered *)
From Verif Require Import Base BaseLemmas Afi AfiProofs Spec SpecEid PropEid Records Control SpecRec PropControl Packet SpecPkt PropPacket PropUdp PropPacket2 PropPacket3
  Auth SpecAuth PropAuth Tree SpecTree TreeProofs PropTree PropTree2 Dict MapServer SpecMs PropMs PropMs2 Net Ddt SpecDdt PropDdt2 Etr SpecEtr PropEtr PropEtr2
  Daemon SpecDaemon PropDaemon PropDaemon2 PropIso SpecReorder PropReorder.

(** what lispd sends because of a datagram: Map-Replies, Map-Notifies and Map-Referrals *)
Lemma sent_kinds hm cfg socks st e m v to port : is_datagram e -> In (OMsg m v to port) (snd (step hm cfg socks st e)) ->
  msg_type m 2 \/ msg_type m 4 \/ msg_type m 6.
Proof.
  assert (forall clock ar p inner s, In (OMsg m v to port) (snd (handle_message hm cfg socks clock ar p inner s)) -> msg_type m 2 \/ msg_type m 4 \/ msg_type m 6) as M.
  { intros clock ar p inner s I. unfold handle_message in I. destruct p as [| | | | | | | | | |sec ddt rtr rel rsv p|c]; try contradiction.
    - destruct inner as [[| | | | | | | | | | |[q| | | | |]]|]; try contradiction. destruct ddt; [|contradiction]. cbn [snd] in I.
      destruct (handle_ddt _ _ _ _ _) as [[r|]|]; try contradiction. destruct I as [I|[]]. injection I as <- <- <- <-. right. right. constructor.
    - destruct c; try contradiction.
      + cbn [snd] in I. destruct (handle_map_request _ _ _ _ _ _) as [[r|]|]; try contradiction. destruct I as [I|[]]. injection I as <- <- <- <-. left. constructor.
      + destruct (handle_map_register _ _ _ _ _ _) as [[w m1] [[r|]|]]; try contradiction. destruct I as [I|[]]. injection I as <- <- <- <-. right. left. constructor. }
  assert (forall clock ar p s, In (OMsg m v to port) (snd (handle_control_message hm cfg socks clock ar p s)) -> msg_type m 2 \/ msg_type m 4 \/ msg_type m 6) as C.
  { intros clock ar p s I. unfold handle_control_message in I. destruct (received _ _) as [ctr [inner|x]]; [|contradiction]. exact (M _ _ _ _ _ I). }
  destruct e as [ar d clock|ar d clock| | |]; cbn [is_datagram]; intros D I; try contradiction; cbn [step] in I.
  - unfold control_datagram in I. destruct (pkt_from_bytes KCtl d); [|contradiction]. exact (C _ _ _ _ I).
  - unfold data_datagram in I. destruct (pkt_from_bytes (KData true) d) as [[| | | | | | | | |h p| |]|]; try contradiction.
    destruct (match d_iid h with Some i => i =? 16777215 | None => false end).
    + destruct (get_final_payload p) as [[n [| | | | | | | |s dp ck q| | |]]|]; try contradiction. destruct (dp =? 4342); [|contradiction]. exact (C _ _ _ _ I).
    + cbn [snd] in I. destruct p; try contradiction; destruct (pkt_to_bytes _); try contradiction; destruct I as [I|[]]; discriminate.
Qed.
Lemma kinds_silent hm cfg socks st ar q clock : msg_type q 2 \/ msg_type q 4 \/ msg_type q 6 ->
  snd (handle_control_message hm cfg socks clock ar q st) = [] /\ dm_ms (fst (handle_control_message hm cfg socks clock ar q st)) = dm_ms st /\
  dm_etr (fst (handle_control_message hm cfg socks clock ar q st)) = dm_etr st.
Proof.
  intros K. unfold handle_control_message, received. destruct K as [K|[K|K]]; inversion K; subst; repeat split.
Qed.
(** Whatever a datagram makes lispd send: when it arrives at the control port of any lispd, nothing is sent, no registration and
    no ETR node changes. *)
Theorem C145_not_answered : forall hm cfg socks st e m v to port b, is_datagram e -> In (OMsg m v to port) (snd (step hm cfg socks st e)) ->
  pkt_to_bytes m = Ok b ->
  forall hm' cfg' socks' st' ar clock, let r := step hm' cfg' socks' st' (AtControl ar b clock) in
  snd r = [] /\ dm_ms (fst r) = dm_ms st' /\ dm_etr (fst r) = dm_etr st'.
Proof.
  intros hm cfg socks st e m v to port b D I W hm' cfg' socks' st' ar clock. cbn zeta. cbn [step]. unfold control_datagram.
  destruct (pkt_from_bytes KCtl b) as [q|x] eqn:E; [|auto]. apply kinds_silent.
  apply C31_dispatch in E. destruct E as [_ E]. destruct (sent_kinds _ _ _ _ _ _ _ _ _ D I) as [K|[K|K]];
    destruct (C31_emitted_type _ _ _ K W) as [_ F]; rewrite F in E; auto.
Qed.
(** example: the Map-Notify for a Map-Register, received by the same daemon *)
Example C145_example : exists n b, snd (step toy_hm ms_cfg [] PropDaemon2.start ro_one) = [OMsg (PCtl (CNot n)) VThis [AIP V4 77] 4342] /\
  pkt_to_bytes (PCtl (CNot n)) = Ok b /\ (16 <= length b)%nat /\ snd (step toy_hm ms_cfg [] PropDaemon2.start (AtControl there b (fun _ => 6))) = [].
Proof. do 2 eexists. split; [vm_compute; reflexivity|]. split; [vm_compute; reflexivity|]. split; [vm_compute; lia|]. vm_compute. reflexivity. Qed.
Print Assumptions C145_not_answered.
