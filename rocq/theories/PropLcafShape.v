(** * Property C126: what the text of an address is, and that addresses behind NAT are told apart by it *)
From Coq Require Import Ascii String.
From Verif Require Import Base BaseLemmas Afi AfiProofs Spec SpecLemmas Tree SpecTree Ddt RootFile SpecRoot PropRoot IpText SpecText PropText SpecCanon PropCanon Masks LcafText SpecLcafText PropLcafText.

Lemma in_decimal_print n t : 0 <= n -> (in_decimal n t <-> t = print_int 10 n).
Proof.
  intros N. split.
  - intros (S & E & Z0). rewrite (canon_decimal t S Z0), <- E. reflexivity.
  - intros ->. destruct (print_dec n N) as (D & S & Z0). split; [exact S|]. split; [auto|].
    intros H. specialize (Z0 H). destruct (print_int 10 n) as [|c [|]]; try discriminate Z0. cbn [hd] in H. congruence.
Qed.
Lemma in_decimal_pos n t : in_decimal n t -> 0 <= n.
Proof.
  intros ((_ & F) & -> & _). unfold decimal. assert (forall l a, 0 <= a -> Forall digit l -> 0 <= fold_left (fun n c => 10 * n + (c - 48)) l a) as G.
  { induction l as [|c l IH]; intros a A FF; cbn [fold_left]; [exact A|]. inversion FF; subst. unfold digit in *. apply IH; [lia|assumption]. }
  apply G; [lia|exact F].
Qed.

Lemma net_wf0 v z n : wf_addr (ANet v z n) = true -> wf_pfx (Pfx v z n).
Proof. apply (net_wf (fun _ => None)). discriminate. Qed.
Lemma pfx_real0 v z n : wf_pfx (Pfx v z n) -> real_address (v, z).
Proof. unfold wf_pfx, real_address. cbn [x_fam x_len x_net fst snd]. tauto. Qed.
Lemma slash_dec0 n : 0 <= n -> ~ In 93 (print_int 10 n).
Proof. intros Hn. apply dec_no; [exact Hn|]. unfold digit. lia. Qed.

Section P.
Variable coords : Z * Z * Z -> Z * Z * Z -> text.
Variable listed : list addr -> text.
Notation utext := (utext coords listed).
Notation written_as := (written_as coords listed).

Theorem C126_written_as : forall a t, wf_addr a = true -> unsigned a -> (utext a = Ok t <-> written_as a t).
Proof.
  fix IH 1. intros [|v z|v z n| |[|x l]|i a m|n a|g a|mp ep g m p l] t W U; cbn [LcafText.utext].
  - split; [intros E; okinj E; constructor|intros H; inversion H; reflexivity].
  - pose proof (ip_real v z W) as R. split.
    + intros E. okinj E. constructor. apply C113_canonical; [exact R|reflexivity].
    + intros H. inversion H; subst. f_equal. symmetry. apply C113_canonical; assumption.
  - pose proof (net_wf0 v z n W) as R. split.
    + intros E. okinj E. constructor. apply (C113_canonical_net (Pfx v z n)); [exact R|reflexivity].
    + intros H. inversion H; subst. f_equal. symmetry. apply (C113_canonical_net (Pfx v z n)); assumption.
  - split; [intros E; okinj E; constructor|intros H; inversion H; reflexivity].
  - split; [intros E; okinj E; constructor|intros H; inversion H; reflexivity].
  - split; [discriminate|intros H; inversion H].
  - cbn [wf_addr] in W. inversion U; subst. specialize (IH a). destruct (Z.eqb_spec i 0) as [->|N].
    + rewrite IH by assumption. split; [intros H; constructor; exact H|intros H; inversion H; subst; [assumption|congruence]].
    + split.
      * intros E. bo E u Eu. okinj E. apply IH in Eu; [|assumption|assumption]. apply (w_inst coords listed i (print_int 10 i)); [exact N|apply in_decimal_print; auto|exact Eu].
      * intros H. inversion H; subst; [congruence|]. match goal with D : in_decimal _ _ |- _ => apply in_decimal_print in D; [subst|assumption] end.
        match goal with D : SpecLcafText.written_as _ _ a _ |- _ => apply IH in D; [rewrite D|assumption|assumption] end. reflexivity.
  - cbn [wf_addr] in W. inversion U; subst. specialize (IH a). split.
    + intros E. bo E u Eu. okinj E. apply IH in Eu; [|assumption|assumption]. apply (w_as coords listed n (print_int 10 n)); [apply in_decimal_print; auto|exact Eu].
    + intros H. inversion H; subst. match goal with D : in_decimal _ _ |- _ => apply in_decimal_print in D; [subst|assumption] end.
      match goal with D : SpecLcafText.written_as _ _ a _ |- _ => apply IH in D; [rewrite D|assumption|assumption] end. reflexivity.
  - cbn [wf_addr] in W. inversion U; subst. specialize (IH a). split.
    + intros E. bo E u Eu. okinj E. apply IH in Eu; [|assumption|assumption]. apply (w_geo coords listed g a _ Eu).
    + intros H. inversion H; subst. match goal with D : SpecLcafText.written_as _ _ a _ |- _ => apply IH in D; [rewrite D|assumption|assumption] end. reflexivity.
  - cbn [wf_addr] in W. rewrite !andb_true_iff in W. destruct W as [[[Wg Wm] Wp] _]. inversion U; subst.
    pose proof (fun t => IH g t) as Hg. pose proof (fun t => IH m t) as Hm. pose proof (fun t => IH p t) as Hp. clear IH. split.
    + intros E. bo E tm Em. bo E tp Ep. bo E tg Eg. okinj E. apply Hm in Em; [|assumption|assumption]. apply Hp in Ep; [|assumption|assumption]. apply Hg in Eg; [|assumption|assumption].
      apply (w_nat coords listed mp ep g m p l tm (print_int 10 mp) tp tg (print_int 10 ep)); try assumption; apply in_decimal_print; auto.
    + intros H. inversion H; subst. repeat match goal with D : in_decimal _ _ |- _ => apply in_decimal_print in D; [subst|assumption] end.
      match goal with A : SpecLcafText.written_as _ _ m _, B : SpecLcafText.written_as _ _ p _, C : SpecLcafText.written_as _ _ g _ |- _ =>
        apply Hm in A; [rewrite A|assumption|assumption]; apply Hp in B; [rewrite B|assumption|assumption]; apply Hg in C; [rewrite C|assumption|assumption] end.
      reflexivity.
Qed.

(** ** A text inside brackets ends where it ends *)
Inductive seg : text -> Prop :=
| sg_flat t : ~ In 93 t -> hd 0 t <> 91 -> seg t
| sg_tag d t : ~ In 93 d -> seg t -> seg (91 :: d ++ 93 :: t).
Lemma seg_cut : forall t, seg t -> forall t' r r', seg t' -> t ++ 93 :: r = t' ++ 93 :: r' -> t = t' /\ r = r'.
Proof.
  induction 1 as [t N Hd|d t N S IH]; intros t' r r' S' E; inversion S' as [u N' Hd'|d' u N' S'']; subst.
  - eapply cut_at; eassumption.
  - exfalso. destruct t as [|c t]; cbn [app hd] in *; congruence.
  - exfalso. destruct t' as [|c t']; cbn [app hd] in *; congruence.
  - cbn [app] in E. injection E as E. rewrite <- !app_assoc in E. cbn [app] in E. apply cut_at in E; [|assumption|assumption]. destruct E as [-> E].
    apply IH in E; [|assumption]. destruct E as [-> ->]. auto.
Qed.
Lemma addr_flat t : some_of addr_char t -> ~ In 93 t /\ hd 0 t <> 91.
Proof.
  intros [N F]. rewrite Forall_forall in F. split.
  - intros I. apply F in I. unfold addr_char, hex, digit in I. lia.
  - destruct t as [|c t]; [destruct (N eq_refl)|]. cbn [hd]. intros ->. apply not_bracket, F. left. reflexivity.
Qed.
Lemma plain_seg a t : plain a -> wf_addr a = true -> utext a = Ok t -> seg t.
Proof.
  intros P. revert t. induction P as [|v z|v z n| | |i a m Hi Ha IH|n a Hn Ha IH]; intros t W H; cbn [LcafText.utext] in H; cbn [wf_addr] in W.
  - okinj H. apply sg_flat; [intros I; cbn [In t_none] in I; lia|cbn; lia].
  - okinj H. destruct (addr_flat (text_of (v, z)) (text_chars (fun _ => false) (v, z) (ip_real v z W))). apply sg_flat; assumption.
  - okinj H. pose proof (net_wf0 v z n W) as NW. destruct (addr_flat (text_of (v, z)) (text_chars (fun _ => false) (v, z) (pfx_real0 v z n NW))) as [A B].
    destruct NW as (L & _). cbn [x_len] in L. unfold net_text. cbn [x_fam x_net x_len]. apply sg_flat.
    + intros I. apply in_app_or in I. destruct I as [I|[I|I]]; [auto|discriminate|]. revert I. apply slash_dec0. lia.
    + destruct (text_starts (fun _ => false) (v, z) (pfx_real0 v z n (net_wf0 v z n W))) as (c & s & E & C). rewrite E in *. exact B.
  - okinj H. apply sg_flat; [intros I; cbn [In t_null] in I; lia|cbn; lia].
  - okinj H. apply sg_flat; [intros []|cbn; lia].
  - destruct (i =? 0); [apply IH; assumption|]. bo H u U. okinj H. apply sg_tag; [apply slash_dec0; exact Hi|apply IH; auto].
  - bo H u U. okinj H. cbn [t_as app]. apply (sg_tag ([65; 83] ++ print_int 10 n)); [|apply IH; auto].
    intros I. apply in_app_or in I. destruct I as [[I|[I|[]]]|I]; try discriminate. revert I. apply slash_dec0. exact Hn.
Qed.

Theorem C126_nat_text_identifies : forall (octal : text -> bool) (dotted : text -> option Z), (forall m n, dotted m = Some n -> 0 <= n <= 32 /\ Forall (fun c => digit c \/ c = 46) m) ->
  forall mp ep g m p l mp' ep' g' m' p' l' t,
  Forall plain [g; m; p; g'; m'; p'] -> Forall (fun a => wf_addr a = true) [g; m; p; g'; m'; p'] -> 0 <= mp -> 0 <= ep -> 0 <= mp' -> 0 <= ep' ->
  utext (LNat mp ep g m p l) = Ok t ->
  (utext (LNat mp' ep' g' m' p' l') = Ok t <->
   mp = mp' /\ ep = ep' /\ same_but_default g g' /\ same_but_default m m' /\ same_but_default p p' /\ listed l = listed l').
Proof.
  intros octal dotted masks mp ep g m p l mp' ep' g' m' p' l' t P W M1 M2 M3 M4 H.
  repeat match goal with H : Forall _ (_ :: _) |- _ => inversion H; subst; clear H end.
  pose proof (fun a b t => C126_text_identifies_partial coords listed octal dotted masks a b t) as ID.
  cbn [LcafText.utext] in H. bo H tm Em. bo H tp Ep. bo H tg Eg. okinj H.
  destruct (plain_has_text coords listed m' ltac:(assumption)) as [tm' Em'].
  destruct (plain_has_text coords listed p' ltac:(assumption)) as [tp' Ep'].
  destruct (plain_has_text coords listed g' ltac:(assumption)) as [tg' Eg'].
  cbn [LcafText.utext]. rewrite Em', Ep', Eg'. cbn [bind]. split.
  - intros E. okinj E.
    match goal with X : _ = _ |- _ => match type of X with t_ms ++ _ = _ => rename X into Q end end.
    assert (seg tm /\ seg tm' /\ seg tp /\ seg tp' /\ seg tg /\ seg tg') as (S1 & S2 & S3 & S4 & S5 & S6).
    { repeat split; [apply (plain_seg m)|apply (plain_seg m')|apply (plain_seg p)|apply (plain_seg p')|apply (plain_seg g)|apply (plain_seg g')]; assumption. }
    cbn [t_ms app] in Q. injection Q as Q. cbn [t_port app] in Q.
    apply seg_cut in Q; [|assumption|assumption]. destruct Q as [Q1 Q]. cbn [app] in Q. injection Q as Q.
    cbn [t_private app] in Q. apply cut_at in Q; [|apply dec_no; [assumption|unfold digit; lia]|apply dec_no; [assumption|unfold digit; lia]]. destruct Q as [Q2 Q].
    injection Q as Q. cbn [t_public app] in Q. apply seg_cut in Q; [|assumption|assumption]. destruct Q as [Q3 Q]. injection Q as Q.
    apply seg_cut in Q; [|assumption|assumption]. destruct Q as [Q4 Q]. injection Q as Q.
    cbn [t_rtrs app] in Q. apply cut_at in Q; [|apply dec_no; [assumption|unfold digit; lia]|apply dec_no; [assumption|unfold digit; lia]]. destruct Q as [Q5 Q].
    injection Q as Q. apply app_inv_tail in Q.
    apply dec_inj in Q2; [|assumption|assumption]. apply dec_inj in Q5; [|assumption|assumption]. subst.
    repeat split; try congruence.
    + apply (ID g g' tg); auto; congruence.
    + apply (ID m m' tm); auto; congruence.
    + apply (ID p p' tp); auto; congruence.
  - intros (<- & <- & Sg & Sm & Sp & El).
    assert (tg' = tg) as -> by (apply (ID g g' tg) in Sg; auto; congruence).
    assert (tm' = tm) as -> by (apply (ID m m' tm) in Sm; auto; congruence).
    assert (tp' = tp) as -> by (apply (ID p p' tp) in Sp; auto; congruence).
    rewrite El. reflexivity.
Qed.
End P.

(** An xTR behind NAT, and the same with another public port *)
Definition ex_nat (port : Z) : addr := LNat 4342 port (AIP V4 7) (LInst 7 (AIP V4 8) 0) (AIP V4 9) [].
Example C126_behind_nat : unsigned (ex_nat 4341) /\ wf_addr (ex_nat 4341) = true /\
  utext ex_coords ex_listed (ex_nat 4341) = Ok (codes "<MS:[[7]0.0.0.8]:4342 Private:[0.0.0.9] Public:[0.0.0.7]:4341 RTRs:>") /\
  utext ex_coords ex_listed (ex_nat 61000) <> utext ex_coords ex_listed (ex_nat 4341).
Proof. split; [repeat constructor; lia|]. vm_compute. repeat split; congruence. Qed.

Print Assumptions C126_written_as.
Print Assumptions C126_nat_text_identifies.
