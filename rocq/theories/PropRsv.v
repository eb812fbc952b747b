(** * Property C124: reserved bits are sent as zero *)
From Coq Require Import Permutation.
From Verif Require Import Base BaseLemmas Afi AfiProofs Spec SpecLemmas Records Control SpecRec RecordsProofs ControlProofs
  Packet PacketProofs PacketStack SpecPkt Auth SpecAuth PropAuth Tree SpecTree TreeProofs PropTree PropTree2
  Dict MapServer SpecMs PropMs PropMs2 Net Ddt Etr InfoReq Tools Daemon SpecDaemon PropDaemon PropDaemon2 PropControl PropPacket PropPacket3 PropLoop PropAmpl.

(** ** Specification *)
Definition zero (b : bits) : Prop := Forall (eq false) b.
Definition clean_loc (l : loc) : Prop := zero (l_rsv l).
Definition clean_mrec (r : mrec) : Prop := zero (mr_rsv r) /\ Forall clean_loc (mr_locs r).
Definition clean_rrec (r : rrec) : Prop := zero (rr_rsv r) /\ Forall clean_loc (rr_locs r).
(** every reserved field of a control message and of the records and locators in it is zero; headers around it have none that
    are kept in the packet object, except those of encapsulated control messages *)
Definition clean_ctl (c : ctl) : Prop :=
  match c with
  | CReq q => zero (q_rsv q) /\ match q_reply q with Some r => clean_mrec r | None => True end
  | CRep r => zero (p_rsv r) /\ Forall clean_mrec (p_records r)
  | CReg g => zero (g_rsv1 g) /\ zero (g_rsv2 g) /\ Forall clean_mrec (g_records g)
  | CNot n => zero (n_rsv n) /\ Forall clean_mrec (n_records n)
  | CRef f => zero (f_rsv f) /\ Forall clean_rrec (f_records f)
  | CInfo i => zero (i_rsv1 i) /\ zero (i_rsv2 i)
  end.
Fixpoint clean (p : pkt) : Prop :=
  match p with
  | PRaw _ => True
  | PIPv4 _ p | PIPv6 _ p | PHop _ _ p | PDst _ _ p | PRoute _ _ _ _ p | PFrag _ _ _ _ p | PNoNext p | PUDP _ _ _ p | PData _ p => clean p
  | PECM _ _ _ _ rsv p => zero rsv /\ clean p
  | PCtl c => clean_ctl c
  end.
(** [r'] has the reserved bits of [r] *)
Definition same_reserved (r r' : mrec) : Prop := mr_rsv r' = mr_rsv r /\ Permutation (map l_rsv (mr_locs r)) (map l_rsv (mr_locs r')).

(** ** Lemmas *)
Lemma zero_repeat n : zero (repeat false n).
Proof. induction n; constructor; auto. Qed.
Ltac zz := first [apply zero_repeat|repeat constructor].
Lemma same_reserved_refl r : same_reserved r r. Proof. split; reflexivity. Qed.
Lemma same_reserved_trans a b c : same_reserved a b -> same_reserved b c -> same_reserved a c.
Proof. intros [H1 H2] [K1 K2]. split; [congruence|]. etransitivity; eassumption. Qed.
Lemma all_same_refl l : Forall2 same_reserved l l.
Proof. induction l; constructor; auto using same_reserved_refl. Qed.
Lemma all_same_trans a b c : Forall2 same_reserved a b -> Forall2 same_reserved b c -> Forall2 same_reserved a c.
Proof.
  intros H. revert c. induction H as [|x y a b R H IH]; intros c K; inversion K; subst; constructor; eauto using same_reserved_trans.
Qed.
Lemma same_clean r r' : same_reserved r r' -> clean_mrec r -> clean_mrec r'.
Proof.
  intros [E P] [Z F]. split; [rewrite E; exact Z|]. unfold clean_loc in *.
  assert (Forall zero (map l_rsv (mr_locs r'))) as K.
  { eapply Permutation_Forall; [exact P|]. rewrite Forall_map. exact F. }
  rewrite Forall_map in K. exact K.
Qed.
Lemma all_clean l l' : Forall2 same_reserved l l' -> Forall clean_mrec l -> Forall clean_mrec l'.
Proof. intros H. induction H; intros K; [constructor|]. inversion K; subst. constructor; eauto using same_clean. Qed.
Lemma sorted_reserved l l' : sorted_of l l' -> Permutation (map l_rsv l) (map l_rsv l').
Proof. intros [P _]. apply Permutation_map, P. Qed.
Lemma ins_perm x l : Permutation (x :: l) (ins x l).
Proof. induction l as [|y l IH]; cbn [ins]; [reflexivity|]. destruct (_ <=? _); [reflexivity|]. rewrite perm_swap. constructor. exact IH. Qed.
Lemma isort_perm l : Permutation l (isort l).
Proof. induction l as [|x l IH]; [constructor|]. cbn. etransitivity; [constructor; exact IH|]. apply ins_perm. Qed.
Lemma sort_perm l l' : sort_locs l = Ok l' -> Permutation l l'.
Proof.
  unfold sort_locs. intros H. bo H kl E. okinj H. rewrite <- (isort_perm kl).
  assert (map snd kl = l) as ->; [|reflexivity].
  revert kl E. induction l as [|x l IH]; intros kl E; cbn [mapM] in E; [okinj E; reflexivity|].
  bo E y E1. bo E1 k E2. okinj E1. bo E ys E3. okinj E. cbn [map snd]. f_equal. apply IH. exact E3.
Qed.
Lemma sanitize_same r r' : sanitize_mrec r = Ok r' -> same_reserved r r'.
Proof.
  unfold sanitize_mrec. intros H. mon H. okinj H. split; [reflexivity|]. cbn [mr_locs]. apply Permutation_map. eapply sort_perm. eassumption.
Qed.
Lemma after_same r : same_reserved r (after_mrec r).
Proof.
  unfold after_mrec. destruct (sanitize_mrec r) eqn:E; [apply sanitize_same; exact E|]. destruct (_ && _); [|apply same_reserved_refl]. split; reflexivity.
Qed.
Lemma after_all_same l : Forall2 same_reserved l (after_mrecs l).
Proof.
  induction l as [|r l IH]; cbn [after_mrecs]; [constructor|].
  destruct (sanitize_mrec r) as [r'|] eqn:E; constructor; auto using all_same_refl, after_same. apply sanitize_same. exact E.
Qed.
(** the records of a message that can be authenticated *)
Definition a_records (a : amsg) : list mrec := match a with AReg m => g_records m | ANot m => n_records m | AInfo _ => [] end.
(** reserved fields of its header *)
Definition a_reserved (a : amsg) : list bits :=
  match a with AReg m => [g_rsv1 m; g_rsv2 m] | ANot m => [n_rsv m] | AInfo m => [i_rsv1 m; i_rsv2 m] end.
Definition a_kind_of (a : amsg) : Z := match a with AReg _ => 3 | ANot _ => 4 | AInfo _ => 7 end.
Definition a_same (a b : amsg) : Prop := a_kind_of b = a_kind_of a /\ a_reserved b = a_reserved a /\ Forall2 same_reserved (a_records a) (a_records b).
Lemma a_same_refl a : a_same a a. Proof. repeat split. apply all_same_refl. Qed.
Lemma a_same_trans a b c : a_same a b -> a_same b c -> a_same a c.
Proof. intros (H1 & H2 & H3) (K1 & K2 & K3). repeat split; try congruence. eapply all_same_trans; eassumption. Qed.
Lemma set_auth_same a x : a_same a (set_auth a x).
Proof. destruct a; repeat split; apply all_same_refl. Qed.
Lemma after_a_same a : a_same a (after a).
Proof. destruct a; cbn [after]; try destruct (_ && _); try apply a_same_refl; repeat split; apply after_all_same. Qed.
Lemma calculate_same hm a key : a_same a (fst (calculate hm a key)).
Proof.
  unfold calculate. destruct (_ =? 0); [apply a_same_refl|]. destruct (digest_len _) as [n|]; [|apply a_same_refl].
  assert (a_same a (after (set_auth a (repeat zero_byte n)))) as K by (eapply a_same_trans; [apply set_auth_same|apply after_a_same]).
  destruct (a_to_bytes _); cbn [fst]; [|exact K]. eapply a_same_trans; [exact K|apply set_auth_same].
Qed.
Lemma insert_same hm a key : a_same a (fst (insert hm a key)).
Proof.
  unfold insert. pose proof (calculate_same hm a key) as K. destruct (calculate hm a key) as [a' [c|e]]; cbn [fst] in *; [|exact K].
  eapply a_same_trans; [exact K|apply set_auth_same].
Qed.
Lemma verify_same hm a key : a_same a (fst (verify hm a key)).
Proof. unfold verify. pose proof (calculate_same hm a key) as K. destruct (calculate hm a key). exact K. Qed.

(** ** Locators an ETR announces *)
Lemma set_add_forall {A} (P : A -> Prop) same x l : P x -> Forall P l -> Forall P (set_add same x l).
Proof. intros Hx Hl. unfold set_add. destruct (existsb _ _); [exact Hl|]. apply Forall_app. split; [exact Hl|]. constructor; [exact Hx|constructor]. Qed.
Lemma new_loc_clean l b a : clean_loc (new_loc l b a). Proof. zz. Qed.
Lemma announce_clean socks rtrs : forall locs inc acc ls, Forall clean_loc acc -> announce socks rtrs locs inc acc = Ok ls -> Forall clean_loc ls.
Proof.
  assert (forall l rs acc, Forall clean_loc acc -> Forall clean_loc (fold_left (fun s r => set_add loc_same (new_loc l false r) s) rs acc)) as F.
  { intros l rs. induction rs as [|r rs IH]; intros acc H; [exact H|]. cbn [fold_left]. apply IH. apply set_add_forall; [apply new_loc_clean|exact H]. }
  induction locs as [|l locs IH]; intros inc acc ls H E; cbn [announce] in E; [okinj E; exact H|].
  destruct (l_addr l); try discriminate. destruct (_ =? 0); [eapply IH; eassumption|].
  destruct (_ && _); [destruct inc; [eapply IH; eassumption|]|]; (eapply IH; [|exact E]); [apply F; exact H|].
  apply set_add_forall; [apply new_loc_clean|exact H].
Qed.
Lemma locators_clean locs stored socks tentative ls : get_etr_locators locs stored socks tentative = Ok ls -> Forall clean_loc ls.
Proof. unfold get_etr_locators. intros H. bo H rtrs E. eapply announce_clean; [constructor|exact H]. Qed.
Lemma new_mrec_clean action p ls : Forall clean_loc ls -> clean_mrec (new_mrec action p ls).
Proof. intros H. split; [zz|exact H]. Qed.

(** ** The answers of the daemon *)
Lemma reply_clean cfg w socks q dest port s : handle_map_request cfg w socks q dest port = Ok (Some s) -> clean (PCtl (CRep (s_msg s))).
Proof.
  unfold handle_map_request. intros H. destruct (q_eids q) as [|eid []]; try discriminate. destruct (determine eid) as [[[iid afi] a]|]; [|discriminate].
  destruct (root_of cfg iid afi); [|discriminate]. destruct (pfx_of a); [|discriminate]. bo H l E. destruct l as [|x l]; [discriminate|].
  destruct (n_cls x); try discriminate. bo H s' E'. injection H as <-. unfold etr_map_request in E'. bo E' ls El. injection E' as <-. apply locators_clean in El.
  cbn [s_msg clean clean_ctl p_rsv p_records]. split; [zz|]. constructor; [|constructor].
  destruct ls as [|l0 ls]; apply new_mrec_clean; [constructor|]. rewrite Forall_map. exact El.
Qed.
Lemma new_rrec_clean ttl action auth inc eid ls : Forall clean_loc ls -> clean_rrec (new_rrec ttl action auth inc eid ls).
Proof. intros H. split; [zz|exact H]. Qed.

Lemma referral_clean cfg sec q src port s : handle_ddt cfg sec q src port = Ok (Some s) -> clean (PCtl (CRef (s_msg s))).
Proof.
  assert (forall r, clean_rrec r -> clean (PCtl (CRef (s_msg (send_answer q src port r))))) as K.
  { intros r H. cbn [send_answer s_msg clean clean_ctl f_rsv f_records]. split; [zz|]. constructor; [exact H|constructor]. }
  assert (forall d l, ddt_locators d = Ok l -> Forall clean_loc l) as D by (intros [|x d] l E; [okinj E; constructor|discriminate]).
  unfold handle_ddt. intros H. destruct sec; [discriminate|]. destruct (q_eids q) as [|eid t]; [discriminate|]. bo H path E. destruct path as [l|]; [|discriminate].
  destruct (Ddt.scan None (rev l)) as [auth [h|]].
  2: { injection H as <-. apply K. apply new_rrec_clean. constructor. }
  assert (forall auth : option node, match auth with Some _ => Ok (Some (send_answer q src port (delegation_hole eid))) | None => Ok (Some (send_answer q src port (not_authoritative eid))) end = Ok (Some s) ->
    clean (PCtl (CRef (s_msg s)))) as Z.
  { intros [a|] H'; injection H' as <-; apply K; apply new_rrec_clean; constructor. }
  destruct (n_cls h); try (eapply Z; exact H).
  - bo H r Er. injection H as <-. unfold get_referral in Er. bo Er ls El. injection Er as <-. apply K, new_rrec_clean. eapply D; exact El.
  - bo H o Eo. bo H r Er. injection H as <-. unfold ms_not_registered in Er. bo Er ls El. injection Er as <-. apply K, new_rrec_clean. eapply D; exact El.
Qed.
Definition regs_same (m m' : mreg) : Prop := Forall2 same_reserved (g_records m) (g_records m').
Lemma record_reserved hm p s m i src now s' m' o : handle_record hm p s m i src now = (s', m', o) -> regs_same m m'.
Proof.
  unfold handle_record. pose proof (verify_same hm (AReg m) (ms_key s)) as V. destruct (verify hm (AReg m) (ms_key s)) as [a ok]. cbn [fst] in V. intros H.
  assert (m' = match a with AReg m1 => m1 | _ => m end) as ->.
  { destruct ok as [[|]|]; [|congruence|congruence]. destruct (nth_error _ _) as [r|]; [|congruence].
    destruct (determine (mr_eid r)) as [[[iid afi] x]|]; [|congruence]. destruct x; try congruence.
    destruct (_ || _); [congruence|]. destruct (_ && _); congruence. }
  destruct V as (V1 & _ & V3). destruct a; try discriminate. exact V3.
Qed.
Lemma loop_reserved hm cfg src clock : forall k i w m done key w' m' o, reg_loop hm cfg src clock k i w m done key = (w', m', o) -> regs_same m m'.
Proof.
  assert (forall m, regs_same m m) as R by (intros; apply all_same_refl).
  induction k as [|k IH]; intros i w m done key w' m' o H; cbn [reg_loop] in H; [injection H as _ <- _; apply R|].
  destruct (nth_error (g_records m) i) as [r|]; [|injection H as _ <- _; apply R].
  destruct (determine (mr_eid r)) as [[[iid afi] a]|]; [|eauto]. destruct (pfx_of a) as [q|]; [|injection H as _ <- _; apply R].
  destruct (g_resolve cfg iid afi q) as [[nd|]|]; [|eauto|injection H as _ <- _; apply R]. destruct (n_cls nd); eauto.
  destruct (handle_record hm (n_pfx nd) (w (n_id nd)) m i src (clock i)) as [[s1 x1] y1] eqn:E1. apply record_reserved in E1.
  destruct y1; [| |injection H as _ <- _; exact E1]; (eapply all_same_trans; [exact E1|]; eapply IH; exact H).
Qed.
Lemma notify_reserved hm cfg w m src clock w' m' s : handle_map_register hm cfg w m src clock = (w', m', Ok (Some s)) ->
  zero (n_rsv (s_msg s)) /\ Forall (fun r => exists r0, In r0 (g_records m) /\ same_reserved r0 r) (n_records (s_msg s)).
Proof.
  unfold handle_map_register. destruct (reg_loop _ _ _ _ _ _ _ _ _ _) as [[w1 m1] out] eqn:EL. intros H. apply loop_reserved in EL.
  destruct out as [[done key]|]; [|discriminate]. destruct (g_notify m1 && nonempty done); [|discriminate].
  set (rs := flat_map _ done) in H.
  assert (Forall (fun r => exists r0, In r0 (g_records m) /\ same_reserved r0 r) rs) as Hrs.
  { apply Forall_forall. intros r Hr. unfold rs in Hr. apply in_flat_map in Hr. destruct Hr as (i & _ & Hi).
    destruct (nth_error (g_records m1) i) as [r1|] eqn:Ei; [|destruct Hi]. destruct Hi as [<-|[]]. apply nth_error_In in Ei.
    unfold regs_same in EL. revert Ei. generalize (g_records m1), (g_records m), EL. clear. intros l l0 F. induction F as [|x y l0 l R F IH]; [intros []|].
    intros [<-|I]; [exists x; split; [left; reflexivity|exact R]|]. destruct (IH I) as (r0 & I0 & R0). exists r0. split; [right; exact I0|exact R0]. }
  clearbody rs. set (n0 := MNot (repeat false 19) _ _ _ rs _ _) in H. pose proof (insert_same hm (ANot n0) key) as I.
  destruct (insert hm (ANot n0) key) as [a r]. cbn [fst] in I. destruct I as (I1 & I2 & I3). destruct r; [|discriminate].
  destruct a as [|n|]; try discriminate. injection H as _ _ <-. cbn [s_msg]. cbn [a_reserved a_records] in I2, I3. injection I2 as I2. split; [rewrite I2; zz|].
  cbn [n_records n0] in I3. clear - Hrs I3. revert Hrs. induction I3 as [|x y l l' R F IH]; intros K; [constructor|]. inversion K as [|? ? (r0 & I0 & R0) K']; subst.
  constructor; [|apply IH; exact K']. exists r0. split; [exact I0|eapply same_reserved_trans; eassumption].
Qed.

(** ** C124 *)
(** whatever lispd sends in answer to a datagram or for a queued packet *)
Theorem C124_answers hm cfg socks st e m v to port : In (OMsg m v to port) (snd (step hm cfg socks st e)) ->
  (forall n, m <> PCtl (CNot n)) -> clean m.
Proof.
  intros Hin Nn. assert ((exists ar d clock, e = AtControl ar d clock \/ e = AtData ar d clock) \/ exists petr d, e = Queued petr d \/ snd (step hm cfg socks st e) = []) as [(ar & d & clock & He)|(petr & d & He)].
  { destruct e as [ar d clock|ar d clock|petr d|j now|j x o]; [left; eauto 6|left; eauto 6|right; eauto|right; exists None, []; auto|right; exists None, []; auto]. }
  2: { destruct He as [->|He]; [|rewrite He in Hin; destruct Hin]. cbn [step snd] in Hin. unfold queued_packet in Hin. destruct petr as [x|]; [|destruct Hin].
       destruct d as [|b0 d]; [destruct Hin|]. destruct (if _ =? 4 then _ else _); [|destruct Hin]. destruct Hin as [Hin|[]]. injection Hin as <- _ _ _. exact I. }
  destruct (answer_comes _ _ _ _ _ _ _ _ _ _ _ _ He Hin) as (p & inner & st' & B & Er & _ & Hin'). clear Hin. rename Hin' into Hin.
  unfold handle_message in Hin. destruct p as [| | | | | | | | | |sec ddt rtr rel rsv p|c]; try destruct Hin.
  - destruct inner as [i|]; [|destruct Hin]. destruct i as [| | | | | | | | | | |c]; try destruct Hin. destruct c; try destruct Hin.
    destruct ddt; [|destruct Hin]. cbn [snd] in Hin.
    match type of Hin with context[handle_ddt ?a ?b ?c ?d ?e] => destruct (handle_ddt a b c d e) as [[s|]|] eqn:E end; [|destruct Hin|destruct Hin].
    destruct Hin as [Hin|[]]. injection Hin as <- _ _ _. eapply referral_clean; exact E.
  - destruct c as [q|r|g|n|f|i]; cbn [snd] in Hin; try destruct Hin.
    + match type of Hin with context[handle_map_request ?a ?b ?c ?d ?e ?f] => destruct (handle_map_request a b c d e f) as [[s|]|] eqn:E end; [|destruct Hin|destruct Hin].
      destruct Hin as [Hin|[]]. injection Hin as <- _ _ _. eapply reply_clean; exact E.
    + match type of Hin with context[handle_map_register ?a ?b ?c ?d ?e ?f] => destruct (handle_map_register a b c d e f) as [[w' m'] [[s|]|]] eqn:E end; cbn [snd] in Hin; [|destruct Hin|destruct Hin].
      destruct Hin as [Hin|[]]. injection Hin as <- _ _ _. exfalso. exact (Nn _ eq_refl).
Qed.
(** a Map-Notify: its own reserved bits are zero, those of its records are the ones of the Map-Register it answers *)
Theorem C124_notify hm cfg socks st e n v to port : In (OMsg (PCtl (CNot n)) v to port) (snd (step hm cfg socks st e)) ->
  exists g ar clock, brings e (PCtl (CReg g)) ar clock /\ zero (n_rsv n) /\
    (forall r, In r (n_records n) -> exists r0, In r0 (g_records g) /\ same_reserved r0 r) /\
    (clean (PCtl (CReg g)) -> clean (PCtl (CNot n))).
Proof.
  intros Hin. assert ((exists ar d clock, e = AtControl ar d clock \/ e = AtData ar d clock) \/ exists petr d, e = Queued petr d \/ snd (step hm cfg socks st e) = []) as [(ar & d & clock & He)|(petr & d & He)].
  { destruct e as [ar d clock|ar d clock|petr d|j now|j x o]; [left; eauto 6|left; eauto 6|right; eauto|right; exists None, []; auto|right; exists None, []; auto]. }
  2: { destruct He as [->|He]; [|rewrite He in Hin; destruct Hin]. cbn [step snd] in Hin. unfold queued_packet in Hin. destruct petr as [x|]; [|destruct Hin].
       destruct d as [|b0 d]; [destruct Hin|]. destruct (if _ =? 4 then _ else _); [|destruct Hin]. destruct Hin as [Hin|[]]. discriminate. }
  destruct (answer_comes _ _ _ _ _ _ _ _ _ _ _ _ He Hin) as (p & inner & st' & B & Er & _ & Hin'). clear Hin. rename Hin' into Hin.
  unfold handle_message in Hin. destruct p as [| | | | | | | | | |sec ddt rtr rel rsv p|c]; try destruct Hin.
  - destruct inner as [i|]; [|destruct Hin]. destruct i as [| | | | | | | | | | |c]; try destruct Hin. destruct c; try destruct Hin.
    destruct ddt; [|destruct Hin]. cbn [snd] in Hin.
    match type of Hin with context[handle_ddt ?a ?b ?c ?d ?e] => destruct (handle_ddt a b c d e) as [[s|]|] eqn:E end; [|destruct Hin|destruct Hin].
    destruct Hin as [Hin|[]]. discriminate.
  - destruct c as [q|r|g|n0|f|i]; cbn [snd] in Hin; try destruct Hin.
    + match type of Hin with context[handle_map_request ?a ?b ?c ?d ?e ?f] => destruct (handle_map_request a b c d e f) as [[s|]|] eqn:E end; [|destruct Hin|destruct Hin].
      destruct Hin as [Hin|[]]. discriminate.
    + match type of Hin with context[handle_map_register ?a ?b ?c ?d ?e ?f] => destruct (handle_map_register a b c d e f) as [[w' m'] [[s|]|]] eqn:E end; cbn [snd] in Hin; [|destruct Hin|destruct Hin].
      destruct Hin as [Hin|[]]. injection Hin as <- _ _ _. apply notify_reserved in E. destruct E as [Z F]. rewrite Forall_forall in F.
      exists g, ar, clock. split; [exact B|]. split; [exact Z|]. split; [exact F|]. cbn [clean clean_ctl]. intros (_ & _ & C). split; [exact Z|].
      rewrite Forall_forall in C |- *. intros r Hr. destruct (F r Hr) as (r0 & I0 & R0). eapply same_clean; [exact R0|]. apply C. exact I0.
Qed.
(** the Map-Registers of the registration threads, directly or through an RTR *)
Theorem C124_register hm p r locs stored socks tentative ls rtrs want nonce xtr site g u nat m v to port :
  get_etr_locators locs stored socks tentative = Ok ls ->
  insert hm (AReg (new_register p r ls rtrs want nonce xtr site)) (tr_key r) = (AReg g, Ok u) ->
  send_register r nat g = Ok (Some (OMsg m v to port)) -> clean m.
Proof.
  intros El Ei Es. apply locators_clean in El. pose proof (insert_same hm (AReg (new_register p r ls rtrs want nonce xtr site)) (tr_key r)) as S.
  rewrite Ei in S. cbn [fst] in S. destruct S as (_ & S2 & S3). cbn [a_reserved a_records new_register g_rsv1 g_rsv2 g_records] in S2, S3.
  assert (clean (PCtl (CReg g))) as C.
  { injection S2 as S2 S2'. cbn [clean clean_ctl]. rewrite S2, S2'. split; [zz|]. split; [zz|].
    eapply all_clean; [exact S3|]. constructor; [|constructor]. apply new_mrec_clean. exact El. }
  unfold send_register in Es. destruct nat as [[private rs]|]; [|injection Es as <- _ _ _; exact C].
  bo Es o Eo. destruct o as [m0|]; [|discriminate]. injection Es as <- _ _ _. unfold natt_message in Eo. destruct (negb _); [discriminate|].
  destruct (calculate_checksum _ _ _) as [u0 c0] eqn:Ec. bo Eo c Ec'. injection Eo as <-. cbn [clean]. split; [zz|].
  assert (u_payload u0 = PCtl (CReg g)) as U.
  { unfold calculate_checksum in Ec. destruct (pseudo_header _ _ _); [|injection Ec as <- _; reflexivity]. destruct (pkt_to_bytes _); injection Ec as <- _; reflexivity. }
  unfold natt_ip, udp_pkt, set_uck. destruct (fst (tr_ms r)); cbn [clean u_payload]; rewrite U; exact C.
Qed.

(** the Info-Requests *)
Theorem C124_info_request hm p r nonce m u : make_info_request hm p r nonce = (AInfo m, Ok u) -> clean (PCtl (CInfo m)).
Proof.
  unfold make_info_request. intros E. pose proof (insert_same hm (AInfo (new_info_request p r nonce)) (tr_key r)) as S. rewrite E in S.
  destruct S as (_ & S & _). cbn [fst a_reserved new_info_request i_rsv1 i_rsv2] in S. injection S as S1 S2. cbn [clean clean_ctl]. rewrite S1, S2. split; zz.
Qed.
(** the messages of the tools *)
Theorem C124_tools : (forall ddt nonce src v q sport m, query_message ddt nonce src v q sport = Ok m -> clean m) /\
  (forall hm p key nonce g u, insert hm (AReg (tool_register p nonce)) key = (AReg g, Ok u) -> clean (PCtl (CReg g))).
Proof.
  split.
  - intros ddt nonce src v q sport m H. unfold query_message in H. destruct (calculate_checksum _ _ _) as [u0 c0] eqn:Ec. bo H c Ec'. injection H as <-.
    cbn [clean]. split; [zz|].
    assert (clean (u_payload u0)) as U.
    { unfold calculate_checksum in Ec. assert (zero (repeat false 9)) as Z9 by apply zero_repeat.
      destruct (pseudo_header _ _ _); [|injection Ec as <- _; cbn [u_payload clean clean_ctl q_rsv q_reply]; auto]. destruct (pkt_to_bytes _); injection Ec as <- _; cbn [u_payload set_uck clean clean_ctl q_rsv q_reply]; auto. }
    unfold udp_pkt, set_uck. destruct v; cbn [clean u_payload]; exact U.
  - intros hm p key nonce g u E. pose proof (insert_same hm (AReg (tool_register p nonce)) key) as S. rewrite E in S.
    destruct S as (_ & S2 & S3). cbn [fst a_reserved a_records tool_register g_rsv1 g_rsv2 g_records] in S2, S3. injection S2 as S2 S2'.
    cbn [clean clean_ctl]. rewrite S2, S2'. split; [zz|]. split; [zz|]. eapply all_clean; [exact S3|].
    constructor; [|constructor]. split; [zz|]. constructor; [zz|constructor].
Qed.
(** and the receiver reads what was sent: a message arrives with the reserved bits it was sent with *)
Lemma arrives_clean_loc l l' : sorted_of l l' -> Forall clean_loc l <-> Forall clean_loc l'.
Proof. intros [P _]. split; intros H; (eapply Permutation_Forall; [|exact H]); [exact P|symmetry; exact P]. Qed.
Lemma arrives_clean_mrec r r' : arrives_mrec r r' -> clean_mrec r <-> clean_mrec r'.
Proof. intros [_ _ _ _ E _ _ S]. unfold clean_mrec. rewrite E, (arrives_clean_loc _ _ S). reflexivity. Qed.
Lemma arrives_clean_rrec r r' : arrives_rrec r r' -> clean_rrec r <-> clean_rrec r'.
Proof. intros [_ _ _ _ E _ _ _ _ S]. unfold clean_rrec. rewrite E, (arrives_clean_loc _ _ S). reflexivity. Qed.
Lemma forall2_iff {A} (P : A -> Prop) (R : A -> A -> Prop) l l' : (forall x y, R x y -> P x <-> P y) -> Forall2 R l l' -> Forall P l <-> Forall P l'.
Proof.
  intros K F. induction F as [|x y l l' H F IH]; [reflexivity|]. rewrite !Forall_cons_iff, IH, (K _ _ H). reflexivity.
Qed.
(** a message that can be written and read back *)
Definition obj_ctl (c : ctl) : Prop :=
  match c with CReq m => obj_mreq m | CRep m => obj_mrep m | CReg m => obj_mreg m | CNot m => obj_mnot m | CRef m => obj_mref m | CInfo m => obj_info m end.
Theorem C124_arrives c b : obj_ctl c -> pkt_to_bytes (PCtl c) = Ok b ->
  exists c', pkt_from_bytes KCtl b = Ok (PCtl c') /\ (clean (PCtl c) <-> clean (PCtl c')).
Proof.
  intros O H. pose proof H as W. cbn [pkt_to_bytes] in W.
  destruct c as [m|m|m|m|m|m]; cbn [obj_ctl] in O.
  - destruct (C24_map_request_roundtrip m b O W) as (m' & A & P). specialize (P []). rewrite app_nil_r in P. apply from_bytes_ok in P. destruct P as [t P].
    exists (CReq m'). split; [apply (ctl_parse _ _ t (CReq m') H); cbn [ctl_type]; unfold rd_ctl; cbn [Z.eqb Pos.eqb]; rewrite P; reflexivity|].
    destruct A as [(_ & _ & _ & _ & _ & E) _ _ _ _ R]. cbn [clean clean_ctl]. rewrite E. unfold arrives_opt in R.
    destruct (q_reply m) as [r|], (q_reply m') as [r'|]; try contradiction; [rewrite (arrives_clean_mrec _ _ R)|]; reflexivity.
  - destruct (C25_map_reply_roundtrip m b O W) as (m' & A & P). specialize (P []). rewrite app_nil_r in P. apply from_bytes_ok in P. destruct P as [t P].
    exists (CRep m'). split; [apply (ctl_parse _ _ t (CRep m') H); cbn [ctl_type]; unfold rd_ctl; cbn [Z.eqb Pos.eqb]; rewrite P; reflexivity|].
    destruct A as [(_ & _ & _ & E) _ R]. cbn [clean clean_ctl]. rewrite E, (forall2_iff _ _ _ _ arrives_clean_mrec R). reflexivity.
  - destruct (C26_map_register_roundtrip m b O W) as (m' & A & P). specialize (P []). rewrite app_nil_r in P. apply from_bytes_ok in P. destruct P as [t P].
    exists (CReg m'). split; [apply (ctl_parse _ _ t (CReg m') H); cbn [ctl_type]; unfold rd_ctl; cbn [Z.eqb Pos.eqb]; rewrite P; reflexivity|].
    destruct A as [(_ & _ & _ & E1 & E2) _ _ _ R]. cbn [clean clean_ctl]. rewrite E1, E2, (forall2_iff _ _ _ _ arrives_clean_mrec R). reflexivity.
  - destruct (C27_map_notify_roundtrip m b O W) as (m' & A & P). specialize (P []). rewrite app_nil_r in P. apply from_bytes_ok in P. destruct P as [t P].
    exists (CNot m'). split; [apply (ctl_parse _ _ t (CNot m') H); cbn [ctl_type]; unfold rd_ctl; cbn [Z.eqb Pos.eqb]; rewrite P; reflexivity|].
    destruct A as [E _ _ _ R]. cbn [clean clean_ctl]. rewrite E, (forall2_iff _ _ _ _ arrives_clean_mrec R). reflexivity.
  - destruct (C28_map_referral_roundtrip m b O W) as (m' & A & P). specialize (P []). rewrite app_nil_r in P. apply from_bytes_ok in P. destruct P as [t P].
    exists (CRef m'). split; [apply (ctl_parse _ _ t (CRef m') H); cbn [ctl_type]; unfold rd_ctl; cbn [Z.eqb Pos.eqb]; rewrite P; reflexivity|].
    destruct A as [E _ R]. cbn [clean clean_ctl]. rewrite E, (forall2_iff _ _ _ _ arrives_clean_rrec R). reflexivity.
  - pose proof (C29_info_roundtrip m b O W []) as P. rewrite app_nil_r in P. apply from_bytes_ok in P. destruct P as [t P].
    exists (CInfo m). split; [apply (ctl_parse _ _ t (CInfo m) H); cbn [ctl_type]; unfold rd_ctl; cbn [Z.eqb Pos.eqb]; rewrite P; reflexivity|reflexivity].
Qed.
(** ** Examples: a Map-Notify and a Map-Reply; and reserved bits of a Map-Register come back in the Map-Notify *)
Definition dirty_record := MRec 1440 0 true (repeat true 16) 0 (ANet V4 (10 * 2 ^ 24 + 5 * 2 ^ 16) 16) [].
Definition dirty_register := MReg false false true [true] (repeat true 15) (repeat zero_byte 8) 0 [] [dirty_record] 0 0.
Definition notifies (d : bytes) : list (bits * list bits) :=
  flat_map (fun o => match o with OMsg (PCtl (CNot n)) _ _ _ => [(n_rsv n, map mr_rsv (n_records n))] | _ => [] end)
    (snd (step toy_hm ms_cfg [] start (AtControl there d (fun _ => 5)))).
Example C124_example :
  notifies (wire (PCtl (CReg open_register))) = [(repeat false 19, [repeat false 16])] /\
  notifies (wire (PCtl (CReg dirty_register))) = [(repeat false 19, [repeat true 16])] /\
  match snd (step toy_hm an_etr_cfg [] with_locators (AtControl there (wire (PCtl (CReq small_request))) (fun _ => 5))) with
  | [OMsg (PCtl (CRep r)) _ _ _] => p_rsv r = repeat false 17 /\ map (fun x => map l_rsv (mr_locs x)) (p_records r) = [[repeat false 13; repeat false 13]]
  | _ => False
  end.
Proof. vm_compute. repeat split; reflexivity. Qed.
Print Assumptions C124_answers.
Print Assumptions C124_notify.
Print Assumptions C124_register.
Print Assumptions C124_info_request.
Print Assumptions C124_tools.
Print Assumptions C124_arrives.
