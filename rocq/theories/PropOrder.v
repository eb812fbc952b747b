(** * Property C144: the order of the nodes in the configuration does not matter to the daemon *)
From Coq Require Import Permutation.
From Verif Require Import Base BaseLemmas Afi AfiProofs Spec SpecEid PropEid Records Control SpecRec PropControl Packet SpecPkt
  Auth SpecAuth PropAuth Tree SpecTree TreeProofs PropTree PropTree2 Dict MapServer SpecMs PropMs PropMs2 Net Ddt SpecDdt PropDdt2 Etr SpecEtr PropEtr PropEtr2
  Daemon SpecDaemon PropDaemon PropDaemon2 SpecOrder.

Definition alike (x y : node) : Prop := n_id x = n_id y /\ n_pfx x = n_pfx y /\ n_cls x = n_cls y.
Lemma same_alike x y : same_tree x y -> alike x y.
Proof. intros []. repeat split. Qed.
Lemma resolve_same a b q : same_tree a b ->
  match resolve a q, resolve b q with Ok x, Ok y => alike x y | Err e, Err e' => e = e' | _, _ => False end.
Proof.
  intros S. pose proof (C46_order_independent a b q S) as H. unfold resolve. destruct (resolve_path a q) as [l|e], (resolve_path b q) as [l'|e']; cbn [bind]; try contradiction; [|exact H].
  destruct H as [|x y l l' Sxy _]; [reflexivity|apply same_alike, Sxy].
Qed.
Section Two.
Variables cfg cfg' : instances.
Hypothesis RC : reordered_config cfg cfg'.
Lemma g_resolve_same iid afi q :
  match g_resolve cfg iid afi q, g_resolve cfg' iid afi q with
  | Ok (Some x), Ok (Some y) => alike x y | Ok None, Ok None => True | Err e, Err e' => e = e' | _, _ => False end.
Proof.
  unfold g_resolve. specialize (RC iid afi). destruct (root_of cfg iid afi) as [n|], (root_of cfg' iid afi) as [n'|]; try contradiction; [|exact Logic.I].
  pose proof (resolve_same n n' q RC) as H. destruct (resolve n q), (resolve n' q); cbn [bind]; try contradiction; exact H.
Qed.
Lemma etr_for_same e : etr_for cfg e = etr_for cfg' e.
Proof.
  unfold etr_for. destruct (determine e) as [[[iid afi] a]|]; [|reflexivity]. destruct (pfx_of a) as [q|]; [|reflexivity].
  pose proof (g_resolve_same iid afi q) as H. destruct (g_resolve cfg iid afi q) as [[x|]|], (g_resolve cfg' iid afi q) as [[y|]|]; cbn [bind]; try contradiction; try reflexivity; [|congruence].
  destruct H as (<- & _ & <-). reflexivity.
Qed.
Lemma notify_same src n l : forall w, notify_loop cfg src n l w = notify_loop cfg' src n l w.
Proof. induction l as [|r l IH]; intros w; [reflexivity|]. cbn [notify_loop]. rewrite etr_for_same. destruct (etr_for cfg' (mr_eid r)) as [[id|]|]; auto. Qed.
Lemma info_same src m w : handle_info cfg src m w = handle_info cfg' src m w.
Proof. unfold handle_info. rewrite etr_for_same. reflexivity. Qed.
Lemma request_same w socks m dest port : handle_map_request cfg w socks m dest port = handle_map_request cfg' w socks m dest port.
Proof.
  unfold handle_map_request. destruct (q_eids m) as [|eid [|]]; try reflexivity. destruct (determine eid) as [[[iid afi] a]|]; [|reflexivity].
  specialize (RC iid afi). destruct (root_of cfg iid afi) as [n|], (root_of cfg' iid afi) as [n'|]; try contradiction; [|reflexivity].
  destruct (pfx_of a) as [q|]; [|reflexivity]. pose proof (C46_order_independent n n' q RC) as H.
  destruct (resolve_path n q) as [l|e], (resolve_path n' q) as [l'|e']; cbn [bind]; try contradiction; [|congruence].
  destruct H as [|x y l l' Sxy _]; [reflexivity|]. destruct (same_alike _ _ Sxy) as (<- & <- & <-). reflexivity.
Qed.
Lemma scan_same l l' : Forall2 alike l l' -> forall a a', (match a, a' with Some x, Some y => alike x y | None, None => True | _, _ => False end) ->
  match scan a l, scan a' l' with (x, h), (y, h') =>
    (match x, y with Some x, Some y => alike x y | None, None => True | _, _ => False end) /\
    (match h, h' with Some x, Some y => alike x y | None, None => True | _, _ => False end) end.
Proof.
  induction 1 as [|x y l l' A F IH]; intros a a' Ha; cbn [scan]; [auto|]. pose proof A as (E1 & E2 & E3). rewrite <- E3.
  destruct (n_cls x); try (split; [exact A || exact Ha|exact A]); apply IH; assumption.
Qed.
Lemma ddt_same security m src port : handle_ddt cfg security m src port = handle_ddt cfg' security m src port.
Proof.
  unfold handle_ddt. destruct security; [reflexivity|]. destruct (q_eids m) as [|eid l]; [reflexivity|].
  destruct (determine eid) as [[[iid afi] a]|]; [|reflexivity].
  specialize (RC iid afi). destruct (root_of cfg iid afi) as [n|], (root_of cfg' iid afi) as [n'|]; try contradiction; [|reflexivity].
  destruct (pfx_of a) as [q|]; [|reflexivity]. pose proof (C46_order_independent n n' q RC) as H.
  destruct (resolve_path n q) as [p|e], (resolve_path n' q) as [p'|e']; cbn [bind]; try contradiction; [|congruence].
  assert (Forall2 alike (rev p) (rev p')) as R.
  { assert (Forall2 alike p p') as F by (induction H; constructor; auto using same_alike). clear -F.
    induction F as [|x y l l' A F IH]; cbn [rev]; [constructor|]. apply Forall2_app; [exact IH|constructor; [exact A|constructor]]. }
  pose proof (scan_same _ _ R None None Logic.I) as S. destruct (scan None (rev p)) as [x h], (scan None (rev p')) as [y h']. destruct S as [Sx Sh].
  destruct h as [h|], h' as [h'|]; try contradiction; [|reflexivity]. destruct Sh as (_ & <- & <-).
  destruct x as [x|], y as [y|]; try contradiction; [|reflexivity]. destruct Sx as (_ & _ & Ex). unfold ddt_nodes_of. rewrite <- Ex. reflexivity.
Qed.
Variable hm : Z -> bytes -> bytes -> bytes.
Lemma loop_same src clock : forall k i w m done key, reg_loop hm cfg src clock k i w m done key = reg_loop hm cfg' src clock k i w m done key.
Proof.
  induction k as [|k IH]; intros i w m done key; [reflexivity|]. cbn [reg_loop]. destruct (nth_error (g_records m) i) as [r|]; [|reflexivity].
  destruct (determine (mr_eid r)) as [[[iid afi] a]|]; [|apply IH]. destruct (pfx_of a) as [q|]; [|reflexivity].
  pose proof (g_resolve_same iid afi q) as H. destruct (g_resolve cfg iid afi q) as [[x|]|], (g_resolve cfg' iid afi q) as [[y|]|]; try contradiction; [|apply IH|congruence].
  destruct H as (<- & <- & <-). destruct (n_cls x); try apply IH.
  destruct (handle_record hm (n_pfx x) (w (n_id x)) m i src (clock i)) as [[s' m'] [| |]]; [apply IH|apply IH|reflexivity].
Qed.
Lemma register_same w m src clock : handle_map_register hm cfg w m src clock = handle_map_register hm cfg' w m src clock.
Proof. unfold handle_map_register. rewrite loop_same. reflexivity. Qed.
Variable socks : list (fam * Z).
Lemma message_same clock ar m inner st : handle_message hm cfg socks clock ar m inner st = handle_message hm cfg' socks clock ar m inner st.
Proof.
  unfold handle_message. destruct m as [| | | | | | | | | |sec ddt rtr rel rsv p|c]; try reflexivity.
  - destruct inner as [[| | | | | | | | | | |[]]|]; try reflexivity. rewrite ddt_same. reflexivity.
  - destruct c; try reflexivity.
    + rewrite request_same. reflexivity.
    + rewrite register_same. reflexivity.
    + rewrite notify_same. reflexivity.
    + rewrite info_same. reflexivity.
Qed.
Lemma control_same clock ar m st : handle_control_message hm cfg socks clock ar m st = handle_control_message hm cfg' socks clock ar m st.
Proof. unfold handle_control_message. destruct (received _ _) as [ctr [inner|e]]; [|reflexivity]. apply message_same. Qed.
Lemma step_same st e : step hm cfg socks st e = step hm cfg' socks st e.
Proof.
  destruct e as [ar d clock|ar d clock|petr d|j now|j x o]; cbn [step]; try reflexivity.
  - unfold control_datagram. destruct (pkt_from_bytes KCtl d); [|reflexivity]. apply control_same.
  - unfold data_datagram. destruct (pkt_from_bytes (KData true) d) as [[| | | | | | | | |h p| |]|]; try reflexivity.
    destruct (match d_iid h with Some i => i =? 16777215 | None => false end); [|reflexivity].
    destruct (get_final_payload p) as [[n [| | | | | | | |s dp ck q| | |]]|]; try reflexivity. destruct (dp =? 4342); [|reflexivity]. apply control_same.
Qed.
End Two.
(** Two daemons whose configurations differ in the order of the nodes, with the same state, do and send the same for ever. *)
Theorem C144_order : forall hm cfg cfg' socks st h, reordered_config cfg cfg' -> run hm cfg socks st h = run hm cfg' socks st h.
Proof.
  intros hm cfg cfg' socks st h RC. revert st. induction h as [|e h IH]; intros st; [reflexivity|]. cbn [run]. rewrite (step_same cfg cfg' RC).
  destruct (step hm cfg' socks st e) as [s o]. rewrite IH. reflexivity.
Qed.
(** example: two Map-Servers the other way round *)
Definition swapped_cfg : instances := [(0, [(1, Node 0 (Pfx V4 0 0) NContainer [Node 8 (Pfx V4 (11 * 2 ^ 24) 8) NMapServer []; ms_node])])].
Definition straight_cfg : instances := [(0, [(1, Node 0 (Pfx V4 0 0) NContainer [ms_node; Node 8 (Pfx V4 (11 * 2 ^ 24) 8) NMapServer []])])].
Example C144_example : reordered_config straight_cfg swapped_cfg /\ straight_cfg <> swapped_cfg.
Proof.
  split; [|discriminate]. intros iid afi. unfold root_of, straight_cfg, swapped_cfg. cbn [assoc]. destruct (_ =? iid); [|exact Logic.I]. cbn [assoc].
  destruct (_ =? afi); [|exact Logic.I]. eapply same_node; [apply perm_swap|]. repeat constructor; econstructor; (reflexivity || constructor).
Qed.
Print Assumptions C144_order.
