(** * Concrete cases for the theorems whose own files show none

    Each [Cxx_witness] is a non-trivial case that meets the hypotheses of the theorems of property Cxx (and of several
    theorems where they share hypotheses).  The other properties have [Cxx_example] beside their theorems. *)
From Coq Require Import Permutation Sorting.Sorted.
From Verif Require Import Base BaseLemmas Afi AfiProofs Spec Records Control SpecRec PropAfi PropControl Packet PacketProofs PacketStack SpecPkt PropPacket PropPacket2
  PropPacket3 PropUdp Auth SpecAuth PropAuth Tree SpecTree TreeProofs PropTree PropTree2 MapServer SpecMs PropMs PropMs2 Net SpecNet PropNet Etr SpecEtr PropEtr PropEtr2
  Daemon SpecDaemon PropDaemon PropDaemon2 Main PropLoop PropLoop3 PropExch PropRoute SpecAccept.

(** an LCAF address followed by a byte that is left unread; a string that ends too early; a string that is no address *)
Example C04_witness :
  read_afi (Some 8) (bits_of_bytes (B [64;3; 1;2;2;9; 0;14; 0;0;0;5; 0;1;10;0;0;0; 222;173;190;239; 7]))
    = Ok (LInst 5 (ANet V4 167772160 8) 9, bits_of_bytes (B [7])) /\
  is_ok (read_afi None (bits_of_bytes (B [0;1; 10;0;0]))) = false /\ is_ok (read_afi None (bits_of_bytes (B [64;3; 0;0; 77;0; 0;0]))) = false.
Proof. vm_compute. auto. Qed.

(** a packet with options is serialised, and refused when read again *)
Definition wit_v4 : v4h := V4H 0 7 true false 0 64 253 (AIP V4 1) (AIP V4 2) (B [1; 1; 7]).
Example C13_witness : h_opts wit_v4 <> [] /\
  match pkt_to_bytes (PIPv4 wit_v4 (PRaw (B [1; 2; 3]))) with
  | Ok out => length out = 27%nat /\ pkt_from_bytes (KIPv4 true) out = Err EValue
  | Err _ => False
  end.
Proof. split; [discriminate|]. vm_compute. auto. Qed.

(** a well-formed packet with options, as another implementation sends it (total length counting them), is accepted, and a packet without *)
Example C14_witness : is_ok (pkt_from_bytes (KIPv4 true) ex_v4_wire) = true /\
  match pkt_from_bytes (KIPv4 false) (B [70;0; 0;27; 0;7; 64;0; 64;253; 48;220; 0;0;0;1; 0;0;0;2; 1;1;7;0; 1;2;3]) with
  | Ok (PIPv4 h (PRaw p)) => h_opts h = B [1; 1; 7; 0] /\ p = B [1; 2; 3]
  | _ => False
  end.
Proof. vm_compute. auto. Qed.

Example C19_witness : ext (PHop 253 (B [1; 2; 3]) (PUDP 1 2 0 (PRaw []))) 253 (PUDP 1 2 0 (PRaw [])) /\
  is_ok (pkt_to_bytes (PHop 253 (B [1; 2; 3]) (PUDP 1 2 0 (PRaw [])))) = true.
Proof. split; [constructor|vm_compute; reflexivity]. Qed.

Example C23_witness : exists out,
  pkt_to_bytes (PData (DH true (Some (B [1; 2; 3])) None None (Some (repeat true 8)) (Some 16777215)) (PRaw (B [16; 2]))) = Ok out /\ length out = 10%nat.
Proof. eexists. split; vm_compute; reflexivity. Qed.

(** an encapsulated control message whose payload is read back *)
Definition wit_inner : pkt := PIPv4 (V4H 0 7 true false 0 64 17 (AIP V4 1) (AIP V4 2) []) (PUDP 4342 4342 0 (PCtl (CReq (many_eids 2)))).
Example C30_witness : length (zeros 26) = 26%nat /\
  match pkt_to_bytes (PECM false true true false (zeros 26) wit_inner), pkt_to_bytes wit_inner with
  | Ok out, Ok b => exists q, ip_payload_is true b q /\ pkt_from_bytes KCtl out = Ok (PECM false true false false (zeros 26) q)
  | _, _ => False
  end.
Proof.
  split; [reflexivity|].
  destruct (pkt_to_bytes (PECM false true true false (zeros 26) wit_inner)) as [out|] eqn:E; [|vm_compute in E; discriminate].
  destruct (pkt_to_bytes wit_inner) as [b|] eqn:E2; [|vm_compute in E2; discriminate].
  destruct (pkt_from_bytes (KIPv4 true) b) as [q|] eqn:P; [|exfalso; revert P; vm_compute in E2; injection E2 as <-; vm_compute; discriminate].
  exists q. assert (ip_payload_is true b q) as I.
  { apply ip_v4; [| |exact P]; vm_compute in E2; injection E2 as <-; vm_compute; [lia|reflexivity]. }
  split; [exact I|]. destruct (C30_ecm_round_trip_partial false true true false (zeros 26) wit_inner out eq_refl E) as (_ & _ & b' & Hb & _ & R).
  assert (b' = b) as -> by congruence. exact (R q I).
Qed.

(** an IPv4 and an IPv6 locator, out of order *)
Definition wit_4 : loc := ex_loc V4 3232235777.
Definition wit_6 : loc := ex_loc V6 42540766411282592856903984951653826561.
Example C36_witness : sorted_of [wit_6; wit_4] [wit_4; wit_6].
Proof.
  split; [constructor|]. split.
  - repeat constructor. vm_compute. discriminate.
  - intros k. cbn [filter]. destruct (Z.eqb_spec (locator_number wit_4) k) as [E|E], (Z.eqb_spec (locator_number wit_6) k) as [E'|E']; try reflexivity.
    exfalso. vm_compute in E, E'. congruence.
Qed.

(** a Map-Register with a good MAC that is verified, one with a wrong MAC that is not, and one whose records cannot be serialised *)
Definition wit_signed : amsg := fst (insert toy_hm (AReg ex_mreg) (B [5])).
Example C42_witness : digests toy_hm /\ obj_a wit_signed /\ is_ok (a_to_bytes wit_signed) = true /\ digest_size (a_key wit_signed) 20 /\
  snd (verify toy_hm wit_signed (B [5])) = Ok true /\ snd (verify toy_hm wit_signed (B [6])) = Ok false /\ length (a_auth wit_signed) = 20%nat.
Proof.
  split; [exact toy_digests|]. split; [|split; [vm_compute; reflexivity|split; [left; split; vm_compute; reflexivity|split; [|split]; vm_compute; reflexivity]]].
  vm_compute. repeat split; repeat constructor.
Qed.
Example C43_witness : is_ok (snd (calculate toy_hm (AReg ex_mreg) (B [5]))) = true /\ snd (verify toy_hm wit_signed (B [5])) = Ok true /\
  snd (calculate toy_hm bad_notify (B [5])) = Err EValue /\ digest_size (a_key bad_notify) 20.
Proof. split; [|split; [|split]]; [vm_compute; reflexivity..|]. left. split; reflexivity. Qed.
Example C44_witness : match a_to_bytes wit_signed with
  | Ok d => auth_field 20 d = toy_hm (a_key wit_signed) (B [5]) (zeroed 20 d) /\ auth_field 20 d <> repeat zero_byte 20
  | Err _ => False end.
Proof. vm_compute. split; [reflexivity|discriminate]. Qed.

(** a tree of depth two: authority, lookup, copying, replacing *)
Definition wit_q : pfx := host V4 (10 * 2 ^ 24 + 5 * 2 ^ 16 + 258).
Lemma wit_q_wf : wf_pfx wit_q.
Proof. repeat split; vm_compute; congruence. Qed.
Example C46_witness : tidy ex_root /\ in_pfx (n_pfx ex_root) V4 (10 * 2 ^ 24 + 5 * 2 ^ 16 + 258) /\ resolve_path ex_root wit_q = Ok [ex_etr; ex_root] /\
  g_resolve_path [(3, [(1, ex_root)])] 3 1 wit_q = Ok (Some [ex_etr; ex_root]) /\ g_resolve_path [(3, [(1, ex_root)])] 3 2 wit_q = Ok None /\
  inside wit_q p8.
Proof.
  split; [exact ex_root_tidy|]. split; [|split; [vm_compute; reflexivity|split; [vm_compute; reflexivity|split; [vm_compute; reflexivity|]]]].
  - vm_compute. repeat split; congruence.
  - apply inside_interval; [exact wit_q_wf|exact p8_wf|]. vm_compute. repeat split; congruence.
Qed.
Example C48_witness : all_wf ex_root /\ wf_pfx wit_q /\ find_one ex_root wit_q = Ok (Some ex_etr) /\
  snd (add ex_root (Node 5 (Pfx V4 0 4) NETR [])) = Err ENotAuth.
Proof.
  split; [intros x I; apply (tidy_inv x), (tidy_in x _ ex_root_tidy I)|]. split; [exact wit_q_wf|]. split; vm_compute; reflexivity.
Qed.
Definition wit_twin : node := Node 9 p16 NMapServer [].
Example C47_witness : (forall c, In c (given [CAdd ex_etr; CAdd wit_twin; CDiscard (ByNet p16); CAdd ex_etr]) -> wf_pfx (n_pfx c)) /\
  length (n_ch (container_after 0 p8 NContainer [CAdd ex_etr; CAdd wit_twin])) = 2%nat.
Proof. split; [|vm_compute; reflexivity]. cbn. intros c [<-|[<-|[<-|[]]]]; exact p16_wf. Qed.
Example C49_witness : tidy ex_root /\ In ex_etr (n_ch ex_root) /\ n_pfx ex_etr = n_pfx wit_twin /\ has_id (n_ch ex_root) wit_twin = false.
Proof. split; [exact ex_root_tidy|]. split; [left; reflexivity|]. split; reflexivity. Qed.
Example C50_witness : snd (remove ex_root (ByNode ex_etr)) = Err EKey /\ n_ch (fst (remove ex_root (ByNode ex_etr))) = [] /\
  snd (remove ex_root (ByNode wit_twin)) = Ok tt.
Proof. vm_compute. auto. Qed.
Example C70_witness : tidy ex_root /\ NoDup (map n_id (n_ch ex_root)) /\ n_ch (fst (copy 77 ex_root)) = [ex_etr].
Proof. split; [exact ex_root_tidy|]. split; [repeat constructor; intros []|vm_compute; reflexivity]. Qed.

(** a Map-Register with a MAC, one without, and a cleanup: a history of objects, with registrations in force *)
Definition wit_reg : mreg :=
  match fst (insert toy_hm (AReg (MReg (g_proxy open_register) (g_rtr open_register) (g_notify open_register) (g_rsv1 open_register) (g_rsv2 open_register)
                                       (g_nonce open_register) 1 [] (g_records open_register) (g_xtr open_register) (g_site open_register))) (B [5])) with
  | AReg g => g | _ => open_register end.
Lemma wit_reg_obj : obj_mreg wit_reg.
Proof. vm_compute. repeat split; repeat constructor. Qed.
Definition wit_history : list ms_ev := [SpecMs.EvReg open_register 0 (V4, 77) 5; EvClean 9; SpecMs.EvReg wit_reg 0 (V4, 78) 7; SpecMs.EvReg wit_reg 1 (V4, 78) 7].
Example C51_witness : objects wit_history /\ wf_pfx p8 /\
  registered (ms_run toy_hm p8 (new_ms (B [5]) true) wit_history) p16 (SAddr V4 77) = Some (Reg open_record false (5 + 180 * sec)) /\
  registered (ms_run toy_hm p8 (new_ms (B [5]) true) wit_history) p16 (SAddr V4 78) = Some (Reg open_record false (7 + 180 * sec)) /\
  (* another key: the authenticated one is refused; more specifics not allowed: both are *)
  registered (ms_run toy_hm p8 (new_ms (B [6]) true) wit_history) p16 (SAddr V4 78) = None /\
  registered (ms_run toy_hm p8 (new_ms (B [5]) false) wit_history) p16 (SAddr V4 77) = None.
Proof.
  split; [|split; [exact p8_wf|repeat split; vm_compute; reflexivity]].
  intros m i src now [E|[E|[E|[E|[]]]]]; [|discriminate| |]; injection E as <- <- <- <-; [exact open_register_obj|exact wit_reg_obj..].
Qed.
(** the hypotheses of the theorem about key holders: every Map-Register has a key *)
Example C53_witness : digests toy_hm /\ g_key wit_reg <> 0 /\ digest_size (g_key wit_reg) 20 /\
  registered (ms_run toy_hm p8 (new_ms (B [5]) true) [SpecMs.EvReg wit_reg 0 (V4, 78) 7]) p16 (SAddr V4 78) = Some (Reg open_record false (7 + 180 * sec)) /\
  g_key open_register = 0 /\ g_authdata open_register = [].
Proof. split; [exact toy_digests|]. split; [discriminate|]. split; [left; split; reflexivity|]. repeat split; vm_compute; reflexivity. Qed.
Example C52_witness : exists so rg, acceptable toy_hm (B [5]) true p8 wit_reg 0 (V4, 78) 7 p16 so rg.
Proof.
  pose proof (C51_store_refines toy_hm (B [5]) true p8 [SpecMs.EvReg wit_reg 0 (V4, 78) 7] p16 (SAddr V4 78) (Reg open_record false (7 + 180 * sec)) p8_wf) as H.
  destruct H as [H _]; [intros m i src now [E|[]]; injection E as <- <- <- <-; exact wit_reg_obj|].
  destruct H as (h1 & m & i & src & now & h2 & E & A & _); [vm_compute; reflexivity|].
  destruct h1 as [|? [|]]; [injection E as <- <- <- <- _; eauto|discriminate..].
Qed.

(** message numbers: two taken, one given, one taken; hardware addresses: a group address, zero, a usable one *)
Example C65_witness : take_nrs 0 [None; None; Some 77; Some 0; None] = [1; 2; 77; 3; 4].
Proof. vm_compute. reflexivity. Qed.
Example C72_witness : Forall mac [[1;0;94;0;0;1]; [0;0;0;0;0;0]; [2;17;34;51;68;85]] /\
  get_xtr_id [[1;0;94;0;0;1]; [0;0;0;0;0;0]; [2;17;34;51;68;85]] = 0x5374656666616e6e0000021122334455.
Proof. split; [|vm_compute; reflexivity]. 
  constructor; [|constructor; [|constructor; [|constructor]]]; (split; [reflexivity|]); repeat constructor; vm_compute; congruence.
Qed.
Example C63_witness : let h := [(ip4 192 0 2 1, BindOk 1); (ip4 127 0 0 1, BindOk 2)] in
  fresh_ids (h ++ [(ip4 192 0 2 9, BindOk 3)]) /\ bindable V4 (ip4 192 0 2 9) /\
  auto_fileno (fst (rb_run V4 asock0 h)) = None /\ auto_fileno (fst (rb_run V4 asock0 (h ++ [(ip4 192 0 2 9, BindOk 3)]))) = Some 3%nat.
Proof.
  cbn zeta. split; [|split; [|split; vm_compute; reflexivity]].
  - vm_compute. repeat constructor; cbn; intuition congruence.
  - apply usable_spec. vm_compute. reflexivity.
Qed.

(** two successful registrations and an iteration in between; a failed one *)
Example C60_witness : exists pre x mid i e, thread_log [go PropEtr2.start; go (PropEtr2.start + 5000000); go (PropEtr2.start + 61000000)] = (pre ++ x :: mid) ++ [(i, e)] /\
  completed x true /\ Forall quiet mid /\ mid <> [] /\ last_detection (pre ++ x :: mid) PropEtr2.start /\ SpecEtr.registers e.
Proof.
  exists [], (go PropEtr2.start, [EvNat; EvReg true]), [(go (PropEtr2.start + 5000000), [])], (go (PropEtr2.start + 61000000)), [EvReg false].
  split; [vm_compute; reflexivity|]. split; [split; [exists true; right; left; reflexivity|reflexivity]|].
  split; [constructor; [intros [f []]|constructor]|]. split; [discriminate|]. split; [|exists false; left; reflexivity].
  apply (ld_some [] (go PropEtr2.start, [EvNat; EvReg true])); [split; [left; reflexivity|reflexivity]|constructor; [|constructor]].
  intros [[] _].
Qed.
(** the RTRs of a registration change, and stay the same *)
Example C61_witness : let e := Etr [] [(4%nat, [AIP V4 7])] [(4%nat, false); (5%nat, false)] in
  nassoc 4 (e_rtrs e) = Some [AIP V4 7] /\ nassoc 5 (e_flags e) <> None /\
  nassoc 5 (e_flags (set_rtrs 4 [AIP V4 8] e)) = Some true /\ nassoc 5 (e_flags (set_rtrs 4 [AIP V4 7] e)) = Some false.
Proof. split; [reflexivity|]. split; [discriminate|]. split; vm_compute; reflexivity. Qed.
(** a Map-Notify for a Map-Register with a key, accepted *)
Example C59_witness : exists d n, mnot_from_bytes d = Ok n /\ n_key n = 1 /\ notify_content_ok toy_hm (B [9]) ex_reg (Some n) = Ok true.
Proof.
  destruct (insert toy_hm (ANot (ex_other [])) (B [9])) as [[|n|] r] eqn:E; [vm_compute in E; discriminate| |vm_compute in E; discriminate].
  destruct (mnot_to_bytes n) as [d|] eqn:D; [|vm_compute in E; injection E as <- <-; vm_compute in D; discriminate].
  destruct (mnot_from_bytes d) as [n'|] eqn:P; [|exfalso; revert P; vm_compute in E; injection E as <- <-; vm_compute in D; injection D as <-; vm_compute; discriminate].
  exists d, n'. split; [exact P|]. vm_compute in E; injection E as <- <-; vm_compute in D; injection D as <-; vm_compute in P; injection P as <-. split; vm_compute; reflexivity.
Qed.

(** datagrams that are answered, and an ETR node whose thread has run, with other things happening afterwards *)
Definition wit_bytes : bytes := match mreg_to_bytes open_register with Ok d => d | Err _ => [] end.
Definition wit_etr : etr := Etr [ex_l V4 10 1] [] [(0%nat, true)].
Definition wit_after : list event := [AtControl there wit_bytes (fun _ => 5); AtControl there (B [1;2;3]) (fun _ => 6); EtrThread 2 wit_etr (NOut [] [])].
Lemma wit_left_alone : left_alone wit_after.
Proof.
  intros e m ar clock n i [<-|[<-|[<-|[]]]] H.
  - inversion H as [? ? ? ? P|]; subst. vm_compute in P. injection P as <-. split; discriminate.
  - inversion H as [? ? ? ? P|]; subst. vm_compute in P. discriminate.
  - inversion H.
Qed.
Example C73_witness : exists outs,
  control_datagram toy_hm ms_cfg [] (fun _ => 5) there wit_bytes PropDaemon2.start = (fst (control_datagram toy_hm ms_cfg [] (fun _ => 5) there wit_bytes PropDaemon2.start), outs) /\
  length outs = 1%nat /\
  let h := EtrThread 1 (Etr [] [] []) (NOut [ex_o] []) :: AtControl there wit_bytes (fun _ => 5) :: EtrThread 1 wit_etr (NOut [ex_o] []) :: wit_after in
  dm_etr (fst (run toy_hm ms_cfg [] PropDaemon2.start h)) 1%nat = wit_etr /\ dm_out (fst (run toy_hm ms_cfg [] PropDaemon2.start h)) 1%nat = NOut [ex_o] [].
Proof.
  eexists. split; [apply surjective_pairing|]. split; [vm_compute; reflexivity|]. cbn zeta.
  destruct (C73_etr_nodes toy_hm ms_cfg [] PropDaemon2.start
    (EtrThread 1 (Etr [] [] []) (NOut [ex_o] []) :: AtControl there wit_bytes (fun _ => 5) :: EtrThread 1 wit_etr (NOut [ex_o] []) :: wit_after) 1) as [H _].
  specialize (H [EtrThread 1 (Etr [] [] []) (NOut [ex_o] []); AtControl there wit_bytes (fun _ => 5)] wit_etr (NOut [ex_o] []) wit_after eq_refl).
  destruct H as [H1 H2]; [intros x o [E|[E|[E|[]]]]; discriminate|]. split; [exact H1|exact (H2 wit_left_alone)].
Qed.

(** a registration without NAT, behind an IPv4 NAT and behind an IPv6 one *)
Definition wit_r (v : fam) : etrr := Etrr (v, 3221225985) 0 [] false None.
Example C82_witness : (exists b, mreg_to_bytes open_register = Ok b /\ 28 + Z.of_nat (length b) <= 65535 /\ (16 <= length b)%nat) /\ obj_mreg open_register /\
  (forall v, in_bits (wz v) 10 /\ in_bits (wz v) (snd (tr_ms (wit_r v))) /\
     exists m, send_register (wit_r v) (Some ((v, 10), [AIP V4 7])) open_register = Ok (Some (OMsg m VData [AIP V4 7] 4342))).
Proof.
  split; [|split; [exact open_register_obj|]].
  - eexists. split; [vm_compute; reflexivity|]. vm_compute. split; [congruence|lia].
  - intros v. split; [destruct v; vm_compute; split; congruence|]. split; [destruct v; vm_compute; split; congruence|].
    destruct v; eexists; vm_compute; reflexivity.
Qed.

(** the right Map-Notify from another address leaves both Map-Registers waiting *)
Example C83_witness : let ar := Arr (V4, 66) 4342 (V4, 10) in let e := AtControl ar (ctl_bytes (PCtl (CNot ex_n))) (fun _ => 5) in
  brings e (PCtl (CNot ex_n)) ar (fun _ => 5) /\ tr_ms (o_etrr ex_o) <> ar_src ar /\
  no_regs (dm_out (fst (step toy_hm ex_etr_cfg [] (waiting ex_o) e)) 1%nat) = no_regs (dm_out (waiting ex_o) 1%nat).
Proof. cbn zeta. split; [constructor; vm_compute; reflexivity|]. split; [discriminate|vm_compute; reflexivity]. Qed.
