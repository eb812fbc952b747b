(** * Property C126: the texts of addresses *)
From Verif Require Import Base BaseLemmas Afi AfiProofs Spec SpecLemmas Tree SpecTree Ddt RootFile SpecRoot PropRoot IpText SpecText PropText Masks LcafText SpecLcafText.

Lemma cut_at (c : Z) : forall (x y s t : list Z), ~ In c x -> ~ In c y -> x ++ c :: s = y ++ c :: t -> x = y /\ s = t.
Proof.
  induction x as [|a x IH]; intros [|b y] s t Hx Hy E; cbn [app] in E; inversion E; subst.
  - auto.
  - destruct Hy. left. reflexivity.
  - destruct Hx. left. reflexivity.
  - destruct (IH y s t) as [-> ->]; auto; intros I; [apply Hx|apply Hy]; right; exact I.
Qed.
Lemma dec_no c n : 0 <= n -> ~ digit c -> ~ In c (print_int 10 n).
Proof. intros Hn Hc. destruct (print_dec n Hn) as (_ & [_ F] & _). apply digit_not; assumption. Qed.
Lemma dec_inj n m : 0 <= n -> 0 <= m -> print_int 10 n = print_int 10 m -> n = m.
Proof. intros Hn Hm E. destruct (print_dec n Hn) as (A & _). destruct (print_dec m Hm) as (B & _). congruence. Qed.

Section P.
Variable coords : Z * Z * Z -> Z * Z * Z -> text.
Variable listed : list addr -> text.
Variable octal : text -> bool.
Variable dotted : text -> option Z.
Hypothesis masks : forall m n, dotted m = Some n -> 0 <= n <= 32 /\ Forall (fun c => digit c \/ c = 46) m.
Notation utext := (utext coords listed).

(** ** Which addresses have a text *)
Lemma raises_spec a : fmt_raises a = true <-> prints_list a.
Proof.
  split.
  - revert a. fix IH 1. intros [|v z|v z n| |[|x l]|i a m|n a|g a|mp ep g m p l]; cbn [fmt_raises]; intros H; try discriminate.
    + constructor.
    + constructor. apply IH, H.
    + constructor. apply IH, H.
    + constructor. apply IH, H.
    + apply orb_true_iff in H. destruct H as [H|H]; [apply orb_true_iff in H; destruct H as [H|H]|].
      * eapply pl_nat with (x := m); [auto|apply IH, H].
      * eapply pl_nat with (x := p); [auto|apply IH, H].
      * eapply pl_nat with (x := g); [auto|apply IH, H].
  - induction 1 as [x l|i a m H IH|n a H IH|g a H IH|mp ep g m p l x E H IH]; cbn [fmt_raises]; auto.
    destruct E as [->|[->| ->]]; rewrite IH; rewrite ?orb_true_r; reflexivity.
Qed.
Lemma utext_raises : forall a, if fmt_raises a then utext a = Err EType else exists t, utext a = Ok t.
Proof.
  fix IH 1. intros [|v z|v z n| |[|x l]|i a m|n a|g a|mp ep g m p l]; cbn [fmt_raises LcafText.utext]; eauto.
  - specialize (IH a). destruct (fmt_raises a); [rewrite IH; destruct (i =? 0); reflexivity|]. destruct IH as [t ->]. destruct (i =? 0); cbn [bind]; eauto.
  - specialize (IH a). destruct (fmt_raises a); [rewrite IH; reflexivity|]. destruct IH as [t ->]. cbn [bind]. eauto.
  - specialize (IH a). destruct (fmt_raises a); [rewrite IH; reflexivity|]. destruct IH as [t ->]. cbn [bind]. eauto.
  - pose proof (IH g) as Hg. pose proof (IH m) as Hm. pose proof (IH p) as Hp.
    destruct (fmt_raises m); [rewrite Hm; reflexivity|]. destruct Hm as [tm ->]. cbn [bind orb].
    destruct (fmt_raises p); [rewrite Hp; reflexivity|]. destruct Hp as [tp ->]. cbn [bind orb].
    destruct (fmt_raises g); [rewrite Hg; reflexivity|]. destruct Hg as [tg ->]. cbn [bind]. eauto.
Qed.

Theorem C126_has_text_partial a : (exists t, utext a = Ok t) <-> ~ prints_list a.
Proof.
  rewrite <- raises_spec. pose proof (utext_raises a) as H. destruct (fmt_raises a).
  - split; [intros [t E]; rewrite H in E; discriminate|intros C; destruct C; reflexivity].
  - split; [intros _; discriminate|auto].
Qed.
Theorem C126_list_raises a : prints_list a -> utext a = Err EType.
Proof. intros H. apply raises_spec in H. pose proof (utext_raises a) as U. rewrite H in U. exact U. Qed.

(** ** Texts that are read back *)
Definition odd_start (t : text) : Prop := match t with [] => True | c :: _ => ~ addr_char c end.
Lemma odd_no_address t : odd_start t -> address_of octal t = None.
Proof.
  intros O. destruct (address_of octal t) as [x|] eqn:E; [|reflexivity]. apply C113_address in E. apply denotes_addr in E. destruct E as [N F].
  destruct t as [|c t]; [destruct (N eq_refl)|]. inversion F as [|? ? Fc Ft]; subst. destruct (O Fc).
Qed.
Lemma odd_no_network t : odd_start t -> network_of octal dotted t = None.
Proof.
  intros O. destruct (network_of octal dotted t) as [x|] eqn:E; [|reflexivity]. apply (C113_network octal dotted masks) in E.
  exfalso. destruct E as [[D _]|(a & m & -> & D & _)]; apply denotes_addr in D; destruct D as [N F].
  - destruct t as [|c t]; [exact (N eq_refl)|]. inversion F as [|? ? Fc Ft]; subst. exact (O Fc).
  - destruct a as [|c t]; [exact (N eq_refl)|]. inversion F as [|? ? Fc Ft]; subst. exact (O Fc).
Qed.
Lemma not_bracket : ~ addr_char 91. Proof. unfold addr_char, hex, digit. lia. Qed.
Lemma not_n : ~ addr_char 78. Proof. unfold addr_char, hex, digit. lia. Qed.
Lemma not_angle : ~ addr_char 60. Proof. unfold addr_char, hex, digit. lia. Qed.
Lemma net_no_address p : wf_pfx p -> address_of octal (net_text p) = None.
Proof.
  intros W. destruct (address_of octal (net_text p)) as [x|] eqn:E; [|reflexivity]. apply C113_address in E. apply denotes_addr in E.
  exfalso. eapply (addr_slash octal); [exact E|]. unfold net_text. apply in_or_app. right. left. reflexivity.
Qed.
Lemma ip_real v z : wf_addr (AIP v z) = true -> real_address (v, z).
Proof. cbn [wf_addr wf_ip]. unfold fits, real_address, wz. cbn [fst snd]. rewrite andb_true_iff, Z.leb_le, Z.ltb_lt. auto. Qed.
Lemma net_wf v z n : wf_addr (ANet v z n) = true -> wf_pfx (Pfx v z n).
Proof.
  cbn [wf_addr wf_ip]. unfold fits. rewrite !andb_true_iff, !Z.leb_le, Z.ltb_lt, Z.eqb_eq. intros [[[[A1 A2] A3] A4] A5].
  unfold wf_pfx. cbn [x_fam x_len x_net]. split; [lia|]. split; [unfold wz; lia|].
  unfold aligned. unfold mask_to in A5. rewrite <- A5. apply Z.mod_mul.
  assert (0 < 2 ^ (wz v - n)); [|lia]. apply Z.pow_pos_nonneg; lia.
Qed.
Lemma odd_cases a t : utext a = Ok t -> match a with AIP _ _ | ANet _ _ _ | LInst _ _ _ => True | _ => odd_start t end.
Proof.
  destruct a as [|v z|v z n| |[|x l]|i a m|n a|g a|mp ep g m p l]; cbn [LcafText.utext]; intros H; auto.
  - okinj H. exact not_n.
  - okinj H. exact not_n.
  - okinj H. exact I.
  - discriminate.
  - bo H u U. okinj H. exact not_bracket.
  - bo H u U. okinj H. exact not_bracket.
  - bo H u U. bo H u1 U1. bo H u2 U2. okinj H. exact not_angle.
Qed.

Theorem C126_read_as_address : forall a, wf_addr a = true -> address_text coords listed octal a = as_address a.
Proof.
  assert (forall a, (forall v z, a <> AIP v z) -> (forall v z n, a <> ANet v z n) -> (forall i b m, a <> LInst i b m) ->
    address_text coords listed octal a = if fmt_raises a then Err EType else Err EValue) as G.
  { intros a N1 N2 N3. unfold address_text. pose proof (utext_raises a) as U. destruct (fmt_raises a); [rewrite U; reflexivity|].
    destruct U as [t E]. rewrite E. cbn [bind]. pose proof (odd_cases a t E) as O.
    rewrite odd_no_address; [reflexivity|]. destruct a; auto; exfalso; congruence. }
  fix IH 1. intros a W. destruct a as [|v z|v z n| |l|i a m|n a|g a|mp ep g m p l]; try (rewrite G by discriminate; reflexivity).
  - unfold address_text. cbn [LcafText.utext bind as_address]. destruct (C113_printed octal (v, z) (ip_real v z W)) as [_ E]. rewrite E. reflexivity.
  - unfold address_text. cbn [LcafText.utext bind as_address]. rewrite net_no_address by (apply net_wf; exact W). reflexivity.
  - cbn [as_address]. specialize (IH a W). destruct (i =? 0) eqn:E0.
    { rewrite <- IH. unfold address_text. cbn [LcafText.utext]. rewrite E0. reflexivity. }
    unfold address_text. cbn [LcafText.utext]. rewrite E0. pose proof (utext_raises a) as U.
    destruct (fmt_raises a); [rewrite U; reflexivity|]. destruct U as [t ->]. cbn [bind]. rewrite odd_no_address by exact not_bracket. reflexivity.
Qed.
Theorem C126_read_as_network : forall a, wf_addr a = true -> network_text coords listed octal dotted a = ip_network a.
Proof.
  assert (forall a, (forall v z, a <> AIP v z) -> (forall v z n, a <> ANet v z n) -> (forall i b m, a <> LInst i b m) ->
    network_text coords listed octal dotted a = if fmt_raises a then Err EType else Err EValue) as G.
  { intros a N1 N2 N3. unfold network_text. pose proof (utext_raises a) as U. destruct (fmt_raises a); [rewrite U; reflexivity|].
    destruct U as [t E]. rewrite E. cbn [bind]. pose proof (odd_cases a t E) as O.
    rewrite odd_no_network; [reflexivity|]. destruct a; auto; exfalso; congruence. }
  fix IH 1. intros a W. destruct a as [|v z|v z n| |l|i a m|n a|g a|mp ep g m p l]; try (rewrite G by discriminate; reflexivity).
  - unfold network_text. cbn [LcafText.utext bind ip_network]. destruct (C113_printed octal (v, z) (ip_real v z W)) as [D _].
    assert (network_of octal dotted (text_of (v, z)) = Some (Pfx v z (wz v))) as ->; [|reflexivity].
    apply (C113_network octal dotted masks). left. cbn [x_fam x_net x_len]. auto.
  - unfold network_text. cbn [LcafText.utext bind ip_network]. destruct (C113_network_printed octal dotted masks (Pfx v z n) (net_wf v z n W)) as [_ ->]. reflexivity.
  - cbn [ip_network]. specialize (IH a W). destruct (i =? 0) eqn:E0.
    { rewrite <- IH. unfold network_text. cbn [LcafText.utext]. rewrite E0. reflexivity. }
    unfold network_text. cbn [LcafText.utext]. rewrite E0. pose proof (utext_raises a) as U.
    destruct (fmt_raises a); [rewrite U; reflexivity|]. destruct U as [t ->]. cbn [bind]. rewrite odd_no_network by exact not_bracket. reflexivity.
Qed.

(** only an address, or one in instance 0, is read as an address *)
Theorem C126_text_of_address a t v z : wf_addr a = true -> utext a = Ok t -> (denotes octal t (v, z) <-> shown a = Some (v, z)).
Proof.
  intros W E. rewrite <- C113_address. rewrite <- as_address_shown. rewrite <- C126_read_as_address by exact W. unfold address_text. rewrite E. cbn [bind].
  destruct (address_of octal t) as [x|]; split; intros [= <-]; reflexivity.
Qed.

(** ** Different addresses have different texts *)
Lemma plain_has_text a : plain a -> exists t, utext a = Ok t.
Proof.
  induction 1 as [|v z|v z n| | |i a m Hi Ha [t IH]|n a Hn Ha [t IH]]; cbn [LcafText.utext]; eauto.
  - rewrite IH. destruct (i =? 0); cbn [bind]; eauto.
  - rewrite IH. cbn [bind]. eauto.
Qed.
(** the address inside all wrappers for instance 0 *)
Fixpoint core0 (a : addr) : addr := match a with LInst i b m => if i =? 0 then core0 b else a | _ => a end.
Lemma core0_text a : utext (core0 a) = utext a.
Proof.
  revert a. fix IH 1. intros [|v z|v z n| |l|i a m|n a|g a|mp ep g m p l]; cbn [core0]; try reflexivity.
  destruct (i =? 0) eqn:E; [|reflexivity]. cbn [LcafText.utext]. rewrite E. apply IH.
Qed.
Lemma core0_left a b : same_but_default (core0 a) b -> same_but_default a b.
Proof. induction a using addr_ind'; cbn [core0]; auto. destruct (Z.eqb_spec i 0) as [->|]; [intros H; constructor|]; auto. Qed.
Lemma core0_right a b : same_but_default a (core0 b) -> same_but_default a b.
Proof. induction b using addr_ind'; cbn [core0]; auto. destruct (Z.eqb_spec i 0) as [->|]; [intros H; constructor|]; auto. Qed.
Lemma core0_plain a : plain a -> plain (core0 a).
Proof. induction 1; cbn [core0]; try constructor; auto. destruct (i =? 0); [assumption|constructor; assumption]. Qed.
Lemma core0_wf a : wf_addr a = true -> wf_addr (core0 a) = true.
Proof. induction a using addr_ind'; cbn [core0]; auto. destruct (i =? 0); auto. Qed.
Fixpoint depth (a : addr) : nat := match a with LInst _ b _ | LAs _ b => S (depth b) | _ => 0%nat end.
Lemma core0_depth a : (depth (core0 a) <= depth a)%nat.
Proof. induction a using addr_ind'; cbn [core0 depth]; auto. destruct (i =? 0); cbn [depth]; lia. Qed.
Lemma core0_inst a i b m : core0 a = LInst i b m -> i <> 0.
Proof. induction a using addr_ind'; cbn [core0]; try discriminate. destruct (Z.eqb_spec i0 0); [auto|]. intros [= <- <- <-]. assumption. Qed.

(** [a] is no wrapper for instance 0 *)
Definition bare (a : addr) : Prop := match a with LInst i _ _ => i <> 0 | _ => True end.
Lemma core0_bare a : bare (core0 a).
Proof. destruct (core0 a) eqn:E; try exact I. apply core0_inst in E. exact E. Qed.
Lemma text_chars x : real_address x -> some_of addr_char (text_of x).
Proof. intros R. destruct (C113_printed octal x R) as [D _]. exact (denotes_addr octal _ _ D). Qed.
Lemma text_starts x : real_address x -> exists c t, text_of x = c :: t /\ addr_char c.
Proof. intros R. destruct (text_chars x R) as [N F]. destruct (text_of x) as [|c t]; [destruct (N eq_refl)|]. inversion F; subst. eauto. Qed.
Lemma text_no_slash x : real_address x -> ~ In 47 (text_of x).
Proof. intros R. apply (addr_slash octal), text_chars, R. Qed.
Lemma dec_starts n : 0 <= n -> exists c t, print_int 10 n = c :: t /\ digit c.
Proof. intros Hn. destruct (print_dec n Hn) as (_ & [N F] & _). destruct (print_int 10 n) as [|c t]; [destruct (N eq_refl)|]. inversion F; subst. eauto. Qed.
Lemma pfx_real v z n : wf_pfx (Pfx v z n) -> real_address (v, z).
Proof. unfold wf_pfx, real_address. cbn [x_fam x_len x_net fst snd]. tauto. Qed.
(** the ways in which the text of a bare address can begin *)
Inductive look : addr -> text -> Prop :=
| k_none : look ANone [78; 111; 110; 101]
| k_ip v z c t : text_of (v, z) = c :: t -> addr_char c -> look (AIP v z) (c :: t)
| k_net v z n c t : text_of (v, z) = c :: t -> addr_char c -> look (ANet v z n) (c :: t ++ 47 :: print_int 10 n)
| k_null : look LNull [78; 85; 76; 76]
| k_empty : look (LList []) []
| k_inst i a m c d t : print_int 10 i = c :: d -> digit c -> utext a = Ok t -> look (LInst i a m) (91 :: c :: d ++ 93 :: t)
| k_as n a t : utext a = Ok t -> look (LAs n a) (91 :: 65 :: 83 :: print_int 10 n ++ 93 :: t).
Lemma look_of a t : plain a -> wf_addr a = true -> bare a -> utext a = Ok t -> look a t.
Proof.
  intros P W N H. destruct P as [|v z|v z n| | |i a m Hi Ha|n a Hn Ha]; cbn [LcafText.utext] in H.
  - okinj H. constructor.
  - destruct (text_starts (v, z) (ip_real v z W)) as (c & s & E & C). rewrite E in H. okinj H. constructor; assumption.
  - destruct (text_starts (v, z) (pfx_real v z n (net_wf v z n W))) as (c & s & E & C). unfold net_text in H. cbn [x_fam x_net x_len] in H.
    rewrite E in H. cbn [app] in H. okinj H. constructor; assumption.
  - okinj H. constructor.
  - okinj H. constructor.
  - cbn [bare] in N. destruct (Z.eqb_spec i 0) as [E|_]; [destruct (N E)|]. bo H u U. destruct (dec_starts i Hi) as (c & s & E & C). rewrite E in H. cbn [app] in H. okinj H.
    constructor; assumption.
  - bo H u U. okinj H. constructor. assumption.
Qed.
Lemma slash_dec n : 0 <= n -> ~ In 93 (print_int 10 n).
Proof. intros Hn. apply dec_no; [exact Hn|]. unfold digit. lia. Qed.

Lemma identifies_bare : forall k a b t, (depth a + depth b <= k)%nat -> plain a -> plain b -> wf_addr a = true -> wf_addr b = true -> bare a -> bare b ->
  utext a = Ok t -> utext b = Ok t -> same_but_default a b.
Proof.
  induction k as [k IH] using lt_wf_ind. intros a b t K Pa Pb Wa Wb Na Nb Ea Eb.
  pose proof (look_of a t Pa Wa Na Ea) as La. pose proof (look_of b t Pb Wb Nb Eb) as Lb.
  assert (REC : forall a' b' t', (depth a' + depth b' < depth a + depth b)%nat -> plain a' -> plain b' -> wf_addr a' = true -> wf_addr b' = true ->
     utext a' = Ok t' -> utext b' = Ok t' -> same_but_default a' b').
  { intros a' b' t' D Qa Qb Va Vb Fa Fb. apply core0_left, core0_right.
    apply (IH (depth a' + depth b')%nat) with (t := t'); auto using core0_plain, core0_wf, core0_bare.
    - lia.
    - pose proof (core0_depth a'). pose proof (core0_depth b'). lia.
    - rewrite core0_text. exact Fa.
    - rewrite core0_text. exact Fb. }
  pose proof not_n as X1. pose proof not_bracket as X2.
  inversion La; subst a t; inversion Lb; subst b; try constructor; try (exfalso; subst; auto; fail).
  - assert ((v, z) = (v0, z0)) as [= -> ->]; [|constructor].
    apply (C113_printed_differently octal); auto using ip_real. congruence.
  - exfalso. apply (text_no_slash (v, z) (ip_real v z Wa)). cbn [LcafText.utext] in Ea, Eb. assert (text_of (v, z) = net_text (Pfx v0 z0 n)) as -> by congruence.
    unfold net_text. apply in_or_app. right. left. reflexivity.
  - exfalso. apply (text_no_slash (v0, z0) (ip_real v0 z0 Wb)). cbn [LcafText.utext] in Ea, Eb. assert (text_of (v0, z0) = net_text (Pfx v z n)) as -> by congruence.
    unfold net_text. apply in_or_app. right. left. reflexivity.
  - assert (Pfx v z n = Pfx v0 z0 n0) as [= -> -> ->]; [|constructor].
    apply (C113_networks_printed_differently octal dotted masks); auto using net_wf.
    cbn [LcafText.utext] in Ea, Eb. congruence.
  - inversion Pa; subst. inversion Pb; subst.
    match goal with H1 : print_int 10 i = ?c :: ?d, H2 : print_int 10 i0 = ?c :: ?d', H3 : ?d' ++ 93 :: ?t' = ?d ++ 93 :: ?t |- _ =>
      destruct (cut_at 93 (print_int 10 i0) (print_int 10 i) t' t) as [D T];
        [apply slash_dec; assumption|apply slash_dec; assumption|rewrite H1, H2; cbn [app]; f_equal; assumption|] end.
    apply dec_inj in D; [|assumption|assumption]. subst. constructor. eapply REC; eauto. cbn [depth]. lia.
  - exfalso. match goal with H : digit _ |- _ => unfold digit in H; lia end.
  - exfalso. match goal with H : digit _ |- _ => unfold digit in H; lia end.
  - inversion Pa; subst. inversion Pb; subst.
    match goal with H3 : print_int 10 n0 ++ 93 :: ?t' = print_int 10 n ++ 93 :: ?t |- _ =>
      destruct (cut_at 93 (print_int 10 n0) (print_int 10 n) t' t) as [D T];
        [apply slash_dec; assumption|apply slash_dec; assumption|exact H3|] end.
    apply dec_inj in D; [|assumption|assumption]. subst. constructor. eapply REC; eauto. cbn [depth]. lia.
Qed.

Theorem C126_text_identifies_partial : forall a b t, plain a -> plain b -> wf_addr a = true -> wf_addr b = true ->
  utext a = Ok t -> (utext b = Ok t <-> same_but_default a b).
Proof.
  intros a b t Pa Pb Wa Wb Ea. split.
  - intros Eb. apply core0_left, core0_right. apply (identifies_bare (depth (core0 a) + depth (core0 b))) with (t := t); auto using core0_plain, core0_wf, core0_bare; rewrite core0_text; assumption.
  - intros S. assert (utext a = utext b) as <-; [|exact Ea]. clear -S. induction S as [a|a b m S IH|a b m S IH|i a b m m' S IH|n a b S IH]; cbn [LcafText.utext].
    + reflexivity.
    + exact IH.
    + exact IH.
    + rewrite IH. reflexivity.
    + rewrite IH. reflexivity.
Qed.

(** ** Not so for positions: neither the hemispheres nor the altitude are printed *)
Theorem C126_hemispheres : forall g g' a, 
  (g_lond g, g_lonm g, g_lons g) = (g_lond g', g_lonm g', g_lons g') -> (g_latd g, g_latm g, g_lats g) = (g_latd g', g_latm g', g_lats g') ->
  utext (LGeo g a) = utext (LGeo g' a).
Proof. intros g g' a E1 E2. cbn [LcafText.utext]. rewrite E1, E2. reflexivity. Qed.
End P.

(** ** Examples: 192.0.2.1 in instance 7 of AS 65000, and its text; a position and its mirror image; a list in an instance *)
Definition ex_coords (x y : Z * Z * Z) : text := [].
Definition ex_listed (l : list addr) : text := [].
Definition ex_in : addr := LInst 7 (LAs 65000 (AIP V4 (192 * 2 ^ 24 + 2 * 2 ^ 8 + 1))) 32.
Example C126_an_address : plain ex_in /\ wf_addr ex_in = true /\
  utext ex_coords ex_listed ex_in =
    Ok ([91; 55; 93; 91; 65; 83; 54; 53; 48; 48; 48; 93] ++ [49; 57; 50; 46; 48; 46; 50; 46; 49]) /\
  utext ex_coords ex_listed (LInst 0 ex_in 24) = utext ex_coords ex_listed ex_in /\
  address_text ex_coords ex_listed (fun _ => false) ex_in = Err EValue /\
  address_text ex_coords ex_listed (fun _ => false) (LInst 0 (AIP V4 7) 0) = Ok (V4, 7).
Proof. split; [unfold ex_in; repeat constructor; lia|]. vm_compute. repeat split; reflexivity. Qed.
Example C126_two_places : exists g g', utext ex_coords ex_listed (LGeo g ANone) = utext ex_coords ex_listed (LGeo g' ANone) /\ LGeo g ANone <> LGeo g' ANone.
Proof. exists (Geo true 52 5 25 true 4 18 1 0), (Geo false 52 5 25 false 4 18 1 100). split; [reflexivity|discriminate]. Qed.
Example C126_a_list : prints_list (LInst 7 (LList [AIP V4 7]) 0) /\ utext ex_coords ex_listed (LInst 7 (LList [AIP V4 7]) 0) = Err EType.
Proof. split; [repeat constructor|reflexivity]. Qed.
Example C126_masks_met : forall octal m n, dotted10 octal m = Some n -> 0 <= n <= 32 /\ Forall (fun c => digit c \/ c = 46) m.
Proof. exact C113_masks_ok. Qed.

Print Assumptions C126_has_text_partial.
Print Assumptions C126_list_raises.
Print Assumptions C126_read_as_address.
Print Assumptions C126_read_as_network.
Print Assumptions C126_text_of_address.
Print Assumptions C126_text_identifies_partial.
Print Assumptions C126_hemispheres.
