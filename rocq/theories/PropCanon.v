(** * C113: what is printed for an address is its RFC 5952 form *)
From Verif Require Import Base BaseLemmas Afi AfiProofs Spec Tree SpecTree PropTree2 Ddt SpecDdt RootFile SpecRoot PropRoot IpText SpecText PropText SpecCanon.

(** ** Numbers *)
Lemma digits_fuel b : 2 <= b -> forall f f' n, 0 <= n -> enough f n -> enough f' n -> (f <> 0)%nat -> (f' <> 0)%nat -> digits f b n = digits f' b n.
Proof.
  intros B. induction f as [|f IH]; intros f' n N E E' F F'; [contradiction|]. destruct f' as [|f']; [contradiction|]. rewrite !digits_S.
  destruct (Z.ltb_spec n b) as [L|L]; [reflexivity|]. f_equal. destruct (enough_div f b n B N L E) as [E1 P]. destruct (enough_div f' b n B N L E') as [E2 _].
  assert (1 <= n / b) by (apply Z.div_le_lower_bound; lia).
  apply IH; auto; intros ->; [unfold enough in E1; cbn in E1|unfold enough in E2; cbn in E2]; lia.
Qed.
Lemma print_step b n d : 2 <= b -> 0 < n -> 0 <= d < b -> print_int b (b * n + d) = print_int b n ++ [digit_char d].
Proof.
  intros B N D. unfold print_int at 1. rewrite digits_S. destruct (Z.ltb_spec (b * n + d) b) as [L|L]; [nia|].
  replace ((b * n + d) / b) with n by (apply Z.div_unique with d; lia). replace ((b * n + d) mod b) with d by (apply Z.mod_unique with n; lia).
  f_equal. assert (0 <= b * n + d) as N' by nia. pose proof (enough_print _ N') as E. assert (b <= b * n + d) as L' by nia.
  destruct (enough_div _ b (b * n + d) B N' L' E) as [E' _]. replace ((b * n + d) / b) with n in E' by (apply Z.div_unique with d; lia).
  apply digits_fuel; auto; try lia; [apply enough_print; lia|]. intros X. rewrite X in E'. unfold enough in E'. cbn in E'. lia.
Qed.
Lemma lower_char c d : hex_value c d -> lower c -> c = digit_char d.
Proof. unfold lower, digit_char. intros [x R|x R|x R] H; destruct (Z.ltb_spec (x - 48) 10), (Z.ltb_spec (x - 97 + 10) 10), (Z.ltb_spec (x - 65 + 10) 10); lia. Qed.
Lemma print_small b n : 0 <= n < b -> print_int b n = [digit_char n].
Proof. intros R. unfold print_int. rewrite digits_S. destruct (Z.ltb_spec n b); [reflexivity|lia]. Qed.
(** the canonical text of a number is the one printed *)
Lemma canon_group_print t n : canon_group t n <-> t = print_int 16 n /\ 0 <= n.
Proof.
  split.
  - intros (H & L & Z0). pose proof (hex_number_range t n H) as R. split; [|lia]. clear R. induction H as [c d H|t c n d H IH D].
    + pose proof (hex_value_range c d H). rewrite print_small by lia. f_equal. apply lower_char; [exact H|]. inversion L; auto.
    + apply Forall_app in L. destruct L as [L1 L2]. pose proof (hex_number_range t n H) as R. pose proof (hex_value_range c d D) as RD.
      pose proof (hex_number_chars t n H) as [NE _].
      assert (hd 0 t <> 48) as NH.
      { intros X. destruct t as [|x t]; [congruence|]. cbn [app hd] in Z0, X. specialize (Z0 X). destruct t; discriminate. }
      assert (t = print_int 16 n) as E by (apply IH; [exact L1|intros X; contradiction]).
      assert (0 < n) as NP. { assert (n <> 0); [|lia]. intros ->. apply NH. rewrite E. reflexivity. }
      rewrite print_step by lia. rewrite <- E. f_equal. f_equal. apply lower_char; [exact D|]. inversion L2; auto.
  - intros [-> N]. destruct (print_hex n N) as [H L]. split; [exact H|]. split; [exact L|]. clear H L.
    assert (forall f n, 0 <= n -> enough f n -> (f <> 0)%nat -> hd 0 (digits f 16 n) = 48 -> n = 0) as HD.
    { clear n N. induction f as [|f IH]; intros n N E F; [contradiction|]. rewrite digits_S. destruct (Z.ltb_spec n 16) as [L|L].
      - cbn [hd]. unfold digit_char. destruct (Z.ltb_spec n 10); lia.
      - destruct (enough_div f 16 n ltac:(lia) N L E) as [E' P]. assert (1 <= n / 16) by (apply Z.div_le_lower_bound; lia).
        assert (f <> 0)%nat as F' by (intros ->; unfold enough in E'; cbn in E'; lia). specialize (IH _ P E' F').
        destruct f as [|f]; [contradiction|]. pose proof (digits_ne f 16 (n / 16)). destruct (digits (S f) 16 (n / 16)); [congruence|]. cbn [app hd] in *. intros X. specialize (IH X). lia. }
    intros X. assert (n = 0) as -> by (refine (HD _ n N (enough_print n N) _ X); lia). reflexivity.
Qed.
Lemma canon_seq_join t l : canon_seq t l <-> l <> [] /\ Forall (fun g => 0 <= g) l /\ t = join 58 (map (print_int 16) l).
Proof.
  split.
  - induction 1 as [t n G|t n t' l G S (N & F & ->)].
    + apply canon_group_print in G. destruct G as [-> N]. split; [discriminate|]. split; [constructor; auto|reflexivity].
    + apply canon_group_print in G. destruct G as [-> N']. split; [discriminate|]. split; [constructor; auto|]. destruct l; [congruence|]. reflexivity.
  - revert t. induction l as [|n l IH]; intros t (N & F & ->); [congruence|]. inversion F as [|? ? Hn F']; subst. destruct l as [|m l].
    + apply cs_one. apply canon_group_print. auto.
    + cbn [map]. rewrite join_cons by discriminate. apply cs_more; [apply canon_group_print; auto|]. apply IH. split; [discriminate|]. split; [exact F'|reflexivity].
Qed.

(** ** Runs of zeros *)
Lemma zeros_nth l : forall s n, zeros_at l s n <-> (s + n <= length l)%nat /\ forall j, (s <= j < s + n)%nat -> nth j l 1 = 0.
Proof.
  intros s n. split.
  - intros (a & b & -> & <-). rewrite !app_length, repeat_length. split; [lia|]. intros j J. rewrite app_nth2 by lia. rewrite app_nth1 by (rewrite repeat_length; lia).
    rewrite (nth_indep _ 1 0) by (rewrite repeat_length; lia). apply nth_repeat.
  - intros [L H]. exists (firstn s l), (skipn (s + n) l). split; [|rewrite firstn_length; lia]. revert l L H. induction s as [|s IH]; intros l L H.
    + cbn [firstn app Nat.add]. revert l L H. induction n as [|n IHn]; intros l L H; [reflexivity|]. destruct l as [|g l]; [cbn in L; lia|]. cbn [repeat skipn app].
      assert (g = 0) as -> by (apply (H 0%nat); lia). f_equal. apply IHn; [cbn in L; lia|]. intros j J. apply (H (S j)). lia.
    + destruct l as [|g l]; [cbn in L; lia|]. cbn [firstn app Nat.add skipn]. f_equal. apply IH; [cbn in L; lia|]. intros j J. apply (H (S j)). lia.
Qed.
Lemma print_zero n : 0 <= n -> print_int 16 n = [48] <-> n = 0.
Proof.
  intros N. split; [|intros ->; reflexivity]. intros E. destruct (print_hex n N) as [H _]. rewrite E in H. apply hex_int_number in H. destruct H as [_ H]. cbn in H. congruence.
Qed.
Lemma zero_text_at l : Forall (fun g => 0 <= g) l -> forall s n, zero_text (map (print_int 16) l) s n <-> zeros_at l s n.
Proof.
  intros F s n. rewrite zeros_nth. unfold zero_text. rewrite map_length. split; intros [L H]; (split; [exact L|]); intros j J; specialize (H j J).
  - rewrite (nth_indep _ [] (print_int 16 1)) in H by (rewrite map_length; lia). rewrite map_nth in H. apply print_zero in H; [exact H|].
    rewrite Forall_forall in F. apply F. apply nth_In. lia.
  - rewrite (nth_indep _ [] (print_int 16 1)) by (rewrite map_length; lia). rewrite map_nth, H. reflexivity.
Qed.
(** of all runs that end at [i] or before, [scan] has the longest and of these the first *)
Definition best_of (L : list text) (i s n : nat) : Prop :=
  zero_text L s n /\ (s + n <= i)%nat /\ forall s' n', zero_text L s' n' -> (s' + n' <= i)%nat -> (n' <= n)%nat /\ (n' = n -> (s <= s')%nat).
Lemma scan_best L : forall l i r, L = firstn i L ++ l -> i = length (firstn i L) ->
  best_of L i (best_start r) (best_len r) -> zero_text L (cur_start r) (cur_len r) -> (cur_len r <> 0%nat -> cur_start r + cur_len r = i)%nat ->
  (forall s n, zero_text L s n -> (s + n = i)%nat -> (n <= cur_len r)%nat) ->
  best_of L (length L) (best_start (scan i l r)) (best_len (scan i l r)).
Proof.
  induction l as [|h l IH]; intros i r E EI B C CE CM.
  - cbn [scan]. rewrite app_nil_r in E. rewrite E at 2. rewrite <- EI. exact B.
  - cbn [scan].
    assert (i < length L)%nat as LI by (rewrite E, app_length; cbn; lia).
    assert (nth i L [] = h) as NI by (rewrite E, app_nth2 by lia; rewrite <- EI, Nat.sub_diag; reflexivity).
    assert (L = firstn (S i) L ++ l) as E'.
    { rewrite E at 2. rewrite firstn_app, <- EI. replace (S i - i)%nat with 1%nat by lia. change (firstn 1 (h :: l)) with [h]. rewrite firstn_firstn. replace (Nat.min (S i) i) with i by lia. rewrite <- app_assoc. exact E. }
    assert (S i = length (firstn (S i) L)) as EI' by (rewrite firstn_length; lia).
    destruct B as (BZ & BE & BM).
    destruct (match h with [48] => true | _ => false end) eqn:H.
    + apply is48 in H. set (s := if Nat.eqb (cur_len r) 0 then i else cur_start r).
      assert (zero_text L s (S (cur_len r)) /\ (s + S (cur_len r) = S i)%nat) as [C' CE'].
      { unfold s. destruct (Nat.eqb_spec (cur_len r) 0) as [Z0|NZ].
        - rewrite Z0. split; [|lia]. split; [lia|]. intros j J. replace j with i by lia. congruence.
        - specialize (CE NZ). split; [|lia]. split; [lia|]. intros j J. destruct (Nat.eq_dec j i) as [->|]; [congruence|]. apply C. lia. }
      assert (forall s' n', zero_text L s' n' -> (s' + n' = S i)%nat -> (n' <= S (cur_len r))%nat) as CM'.
      { intros s' n' [ZL ZH] Q. destruct n' as [|n']; [lia|]. assert (n' <= cur_len r)%nat; [|lia]. apply (CM s' n'); [|lia]. split; [lia|]. intros j J. apply ZH. lia. }
      destruct (Nat.ltb_spec (best_len r) (S (cur_len r))) as [LT|LT]; apply IH; try exact E'; try exact EI'; cbn [best_start best_len cur_start cur_len]; try assumption; try (intros _; exact CE').
      * split; [exact C'|]. split; [lia|]. intros s' n' Z' Q. destruct (Nat.eq_dec (s' + n') (S i)) as [Q'|NQ].
        -- specialize (CM' s' n' Z' Q'). split; [exact CM'|]. intros ->. lia.
        -- destruct (BM s' n' Z' ltac:(lia)) as [M _]. split; lia.
      * split; [exact BZ|]. split; [lia|]. intros s' n' Z' Q. destruct (Nat.eq_dec (s' + n') (S i)) as [Q'|NQ].
        -- specialize (CM' s' n' Z' Q'). split; [lia|]. intros ->. lia.
        -- apply (BM s' n' Z'). lia.
    + assert (forall s' n', zero_text L s' n' -> (s' + n' = S i)%nat -> n' = 0%nat) as CM'.
      { intros s' n' [ZL ZH] Q. destruct n' as [|n']; [reflexivity|]. exfalso. specialize (ZH i ltac:(lia)). rewrite NI in ZH. apply is48 in ZH. congruence. }
      apply IH; try exact E'; try exact EI'; cbn [best_start best_len cur_start cur_len].
      * split; [exact BZ|]. split; [lia|]. intros s' n' Z' Q. destruct (Nat.eq_dec (s' + n') (S i)) as [Q'|NQ].
        -- pose proof (CM' s' n' Z' Q'). split; lia.
        -- apply (BM s' n' Z'). lia.
      * split; [lia|]. intros j J. lia.
      * congruence.
      * intros s' n' Z' Q'. rewrite (CM' s' n' Z' Q'). lia.
Qed.

Lemma hextets_range z : Forall (fun g => 0 <= g < 2 ^ 16) (hextets z).
Proof. unfold hextets. apply Forall_forall. intros g Hg. apply in_map_iff in Hg. destruct Hg as (k & <- & _). apply Z.mod_pos_bound. lia. Qed.
Lemma canon_part_join l : Forall (fun g => 0 <= g) l -> canon_part (join 58 (map (print_int 16) l)) l.
Proof. intros F. destruct l as [|g l]; [left; auto|right]. apply canon_seq_join. split; [discriminate|]. auto. Qed.
Lemma canon_part_fun t t' l : canon_part t l -> canon_part t' l -> t = t'.
Proof.
  intros [[-> ->]|H] [[-> E]|H'].
  - reflexivity.
  - apply canon_seq_join in H'. destruct H' as [N _]. congruence.
  - subst l. apply canon_seq_join in H. destruct H as [N _]. congruence.
  - apply canon_seq_join in H. apply canon_seq_join in H'. destruct H as (_ & _ & ->), H' as (_ & _ & ->). reflexivity.
Qed.

Lemma text6_canonical z : 0 <= z < 2 ^ 128 -> canonical6 (text6 z) z.
Proof.
  intros R. exists (hextets z). split; [reflexivity|]. split; [apply hextets_range|]. split; [symmetry; apply hextets_value; exact R|].
  unfold text6. pose proof (hextets_range z) as RG. assert (length (hextets z) = 8%nat) as L8 by reflexivity. set (hs := hextets z) in *. clearbody hs. clear R z.
  assert (Forall (fun g => 0 <= g) hs) as N by (eapply Forall_impl; [|exact RG]; cbn; intros; lia).
  set (P := map (print_int 16) hs). assert (length P = 8%nat) as LP by (unfold P; rewrite map_length; exact L8).
  assert (best_of P (length P) (best_start (scan 0 P (Runs 0 0 0 0))) (best_len (scan 0 P (Runs 0 0 0 0)))) as B.
  { apply scan_best; try reflexivity; cbn [best_start best_len cur_start cur_len]; try (split; [lia|intros j J; lia]).
    - split; [split; [lia|intros j J; lia]|]. split; [lia|]. intros s' n' _ Q. split; lia.
    - intros s' n' _ Q. lia. }
  unfold compress. destruct (scan 0 P (Runs 0 0 0 0)) as [s n cs cn]. cbn [best_start best_len] in *. destruct B as (BZ & BE & BM).
  assert (forall s' n', zeros_at hs s' n' -> (n' <= n)%nat /\ (n' = n -> (s <= s')%nat)) as BM'.
  { intros s' n' Z'. apply (zero_text_at hs N) in Z'. fold P in Z'. apply BM; [exact Z'|]. apply Z'. }
  assert (zeros_at hs s n) as BZ' by (apply (zero_text_at hs N); exact BZ).
  destruct (Nat.ltb_spec 1 n) as [N1|N1].
  - right. destruct BZ' as (l1 & l2 & E & LS). exists (join 58 (map (print_int 16) l1)), (join 58 (map (print_int 16) l2)), l1, l2, n.
    rewrite E in N. apply Forall_app in N. destruct N as [F1 N]. apply Forall_app in N. destruct N as [_ F2].
    split; [|split; [exact E|split; [apply canon_part_join; exact F1|split; [apply canon_part_join; exact F2|split; [lia|split]]]]].
    + assert (firstn s P = map (print_int 16) l1) as EF.
      { unfold P. rewrite E, map_app, <- LS. rewrite firstn_app, map_length, Nat.sub_diag. cbn [firstn]. rewrite app_nil_r. apply firstn_all2. rewrite map_length. lia. }
      assert (skipn (s + n) P = map (print_int 16) l2) as ES.
      { unfold P. rewrite E, app_assoc, map_app. rewrite skipn_app, map_length, app_length, repeat_length, LS, Nat.sub_diag. cbn [skipn]. rewrite skipn_all2; [reflexivity|]. rewrite map_length, app_length, repeat_length. lia. }
      rewrite EF, ES. assert (length P = s + n + length l2)%nat as LE.
      { unfold P. rewrite map_length, E, !app_length, repeat_length. lia. }
      set (A := (if Nat.eqb s 0 then [[]] else map (print_int 16) l1) : list text). set (B := (if Nat.eqb (s + n) (length P) then [[]] else map (print_int 16) l2) : list text).
      assert (((if Nat.eqb s 0 then [[]] else []) ++ map (print_int 16) l1 ++ [[]] ++ map (print_int 16) l2 ++ (if Nat.eqb (s + n) (length P) then [[]] else []) : list text) = A ++ [[]] ++ B) as EQ.
      { unfold A, B. destruct (Nat.eqb_spec s 0) as [Q|NS].
        - destruct l1; [|cbn in LS; lia]. cbn [map app]. destruct (Nat.eqb_spec (s + n) (length P)) as [Q'|]; [destruct l2; [reflexivity|cbn in LE; lia]|rewrite app_nil_r; reflexivity].
        - destruct (Nat.eqb_spec (s + n) (length P)) as [Q'|]; [destruct l2; [reflexivity|cbn in LE; lia]|rewrite app_nil_r; reflexivity]. }
      change (list (list Z)) with (list text) in *. rewrite EQ.
      assert (A <> [] /\ join 58 A = join 58 (map (print_int 16) l1)) as [NA JA].
      { unfold A. destruct (Nat.eqb_spec s 0) as [Q|NS]; [destruct l1; [split; [discriminate|reflexivity]|cbn in LS; lia]|]. destruct l1; [cbn in LS; lia|]. split; [discriminate|reflexivity]. }
      assert (B <> [] /\ join 58 B = join 58 (map (print_int 16) l2)) as [NB JB].
      { unfold B. destruct (Nat.eqb_spec (s + n) (length P)) as [Q'|NQ]; [destruct l2; [split; [discriminate|reflexivity]|cbn in LE; lia]|]. destruct l2; [cbn in LE; lia|]. split; [discriminate|reflexivity]. }
      rewrite <- JA, <- JB. rewrite join_app; [|exact NA|discriminate]. cbn [app]. rewrite join_cons by exact NB. reflexivity.
    + intros s' n' Z'. apply (BM' s' n' Z').
    + intros s' Z'. rewrite LS. apply (BM' s' n Z'). reflexivity.
  - left. split.
    + apply canon_seq_join. split; [intros ->; discriminate|]. split; [exact N|reflexivity].
    + intros s' Z'. destruct (BM' s' 2%nat Z') as [M _]. lia.
Qed.

(** ** Uniqueness *)
Lemma value_snoc l g : value (l ++ [g]) = value l * 2 ^ 16 + g.
Proof. unfold value. rewrite fold_left_app. reflexivity. Qed.
Lemma value_inj : forall l l', length l = length l' -> Forall (fun g => 0 <= g < 2 ^ 16) l -> Forall (fun g => 0 <= g < 2 ^ 16) l' -> value l = value l' -> l = l'.
Proof.
  induction l as [|g l IH] using rev_ind; intros l' L F F' E.
  - destruct l'; [reflexivity|discriminate].
  - destruct l' as [|g' l' _] using rev_ind; [rewrite app_length in L; cbn in L; lia|]. rewrite !app_length in L. cbn in L. rewrite !value_snoc in E.
    apply Forall_app in F. apply Forall_app in F'. destruct F as [F G], F' as [F' G']. inversion G; inversion G'; subst.
    assert (g = g' /\ value l = value l') as [-> EV] by (change (2 ^ 16) with 65536 in *; lia). f_equal. apply IH; auto. lia.
Qed.
Lemma canonical6_fun t t' z : canonical6 t z -> canonical6 t' z -> t = t'.
Proof.
  intros (l & L & F & E & H) (l' & L' & F' & E' & H'). assert (l = l') as <- by (apply value_inj; auto; congruence). clear F' E' L'.
  assert (forall l1 l2 k, l = l1 ++ repeat 0 k ++ l2 -> (2 <= k)%nat -> zeros_at l (length l1) 2) as Two.
  { intros l1 l2 k -> K. exists l1, (repeat 0 (k - 2) ++ l2). split; [|reflexivity]. f_equal. rewrite app_assoc, <- repeat_app. do 2 f_equal. lia. }
  destruct H as [[S NZ]|(hi & lo & l1 & l2 & k & -> & EL & H1 & H2 & K & M & FS)].
  - destruct H' as [[S' _]|(hi & lo & l1 & l2 & k & -> & EL & H1 & H2 & K & M & FS)].
    + exact (canon_part_fun t t' l (or_intror S) (or_intror S')).
    + exfalso. exact (NZ _ (Two _ _ _ EL K)).
  - destruct H' as [[S' NZ]|(hi' & lo' & l1' & l2' & k' & -> & EL' & H1' & H2' & K' & M' & FS')].
    + exfalso. exact (NZ _ (Two _ _ _ EL K)).
    + assert (zeros_at l (length l1) k) as ZA by (exists l1, l2; auto). assert (zeros_at l (length l1') k') as ZA' by (exists l1', l2'; auto).
      assert (k = k') as <- by (pose proof (M _ _ ZA'); pose proof (M' _ _ ZA); lia).
      assert (length l1 = length l1') as LL by (pose proof (FS _ ZA'); pose proof (FS' _ ZA); lia).
      rewrite EL in EL'. assert (l1 = l1' /\ l2 = l2') as [<- <-].
      { clear -EL' LL. revert l1' LL EL'. induction l1 as [|x l1 IH]; intros [|x' l1'] LL EL'; try discriminate LL.
        - split; [reflexivity|]. cbn [app] in EL'. apply app_inv_head in EL'. exact EL'.
        - cbn [app] in EL'. injection EL' as -> EL'. injection LL as LL. destruct (IH l1' LL EL') as [-> ->]. auto. }
      rewrite (canon_part_fun _ _ _ H1 H1'), (canon_part_fun _ _ _ H2 H2'). reflexivity.
Qed.

Lemma dec_char c : digit c -> c = digit_char (c - 48) /\ 0 <= c - 48 < 10.
Proof. unfold digit, digit_char. intros H. destruct (Z.ltb_spec (c - 48) 10); lia. Qed.
Lemma canon_decimal t : some_of digit t -> (hd 0 t = 48 -> t = [48]) -> t = print_int 10 (decimal t).
Proof.
  rewrite <- int_of_decimal. induction t as [|c t IH] using rev_ind; intros [NE F] Z0; [congruence|]. apply Forall_app in F. destruct F as [F1 F2].
  assert (digit c) as D by (inversion F2; auto). destruct (dec_char c D) as [EC RC]. rewrite int_of_app. cbn [int_of]. destruct t as [|x t].
  - cbn [int_of app]. replace (10 * 0 + (c - 48)) with (c - 48) by lia. rewrite print_small by lia. rewrite <- EC. reflexivity.
  - assert (hd 0 (x :: t) <> 48) as NH by (cbn [hd app] in Z0 |- *; intros X; specialize (Z0 X); destruct t; discriminate).
    assert (x :: t = print_int 10 (int_of 0 (x :: t))) as E by (apply IH; [split; [discriminate|exact F1]|intros X; contradiction]).
    assert (0 <= int_of 0 (x :: t)) as NN by (rewrite int_of_decimal; apply (decimal_nonneg (fun _ => false)); exact F1).
    assert (int_of 0 (x :: t) <> 0) as NZ by (intros X; rewrite X in E; apply NH; rewrite E; reflexivity).
    rewrite print_step by lia. rewrite <- EC, <- E. reflexivity.
Qed.
Lemma octet_print t n : octet_text (fun _ => false) t n -> t = print_int 10 n.
Proof.
  intros (S & L & -> & _ & Z0). apply canon_decimal; [exact S|]. intros H. destruct t as [|c [|c' t]]; [destruct S; congruence|cbn [hd] in H; congruence|]. specialize (Z0 H ltac:(cbn; lia)). discriminate.
Qed.
Lemma canonical4_fun t z : denotes4 (fun _ => false) t z -> t = text4 z.
Proof.
  intros (a & b & c & d & x & y & v & w & -> & A & B & C & D & ->).
  pose proof (octet_range _ a x A). pose proof (octet_range _ b y B). pose proof (octet_range _ c v C). pose proof (octet_range _ d w D).
  rewrite (octet_print _ _ A), (octet_print _ _ B), (octet_print _ _ C), (octet_print _ _ D).
  unfold text4. cbn [map join]. set (z := x * 2 ^ 24 + y * 2 ^ 16 + v * 2 ^ 8 + w).
  assert (z / 2 ^ 24 mod 256 = x) as ->.
  { unfold z. replace (x * 2 ^ 24 + y * 2 ^ 16 + v * 2 ^ 8 + w) with ((y * 2 ^ 16 + v * 2 ^ 8 + w) + x * 2 ^ 24) by lia. rewrite Z.div_add by lia. rewrite Z.div_small by lia. apply Z.mod_small. lia. }
  assert (z / 2 ^ 16 mod 256 = y) as ->.
  { unfold z. replace (x * 2 ^ 24 + y * 2 ^ 16 + v * 2 ^ 8 + w) with ((v * 2 ^ 8 + w) + (y + x * 256) * 2 ^ 16) by lia. rewrite Z.div_add by lia. rewrite Z.div_small by lia. rewrite Z.add_0_l, Z.mod_add by lia. apply Z.mod_small. lia. }
  assert (z / 2 ^ 8 mod 256 = v) as ->.
  { unfold z. replace (x * 2 ^ 24 + y * 2 ^ 16 + v * 2 ^ 8 + w) with (w + (v + (y + x * 256) * 256) * 2 ^ 8) by lia. rewrite Z.div_add by lia. rewrite Z.div_small by lia. rewrite Z.add_0_l, Z.mod_add by lia. apply Z.mod_small. lia. }
  assert (z mod 256 = w) as ->.
  { unfold z. replace (x * 2 ^ 24 + y * 2 ^ 16 + v * 2 ^ 8 + w) with (w + (v + (y + x * 256) * 256) * 256) by lia. rewrite Z.mod_add by lia. apply Z.mod_small. lia. }
  reflexivity.
Qed.

(** ** C113: what is printed is the canonical text and no other text is *)
Theorem C113_canonical : forall a t, real_address a -> canonical t a <-> t = text_of a.
Proof.
  intros [v z] t R. unfold real_address in R. cbn [fst snd] in R. destruct v; cbn [canonical text_of wz] in *.
  - split; [apply canonical4_fun|]. intros ->. apply text4_denotes. exact R.
  - split; [|intros ->; apply text6_canonical; exact R]. intros H. exact (canonical6_fun _ _ z H (text6_canonical z R)).
Qed.
Theorem C113_canonical_net : forall p t, wf_pfx p -> canonical_net t (x_fam p) (x_net p) (x_len p) <-> t = net_text p.
Proof.
  intros p t W. assert (real_address (x_fam p, x_net p) /\ 0 <= x_len p) as [R N].
  { destruct W as (A & B & C). unfold real_address. cbn [fst snd]. split; lia. }
  split.
  - intros (a & m & -> & C & S & E & Z0). apply C113_canonical in C; [|exact R]. rewrite (canon_decimal m S Z0), <- E, C. reflexivity.
  - intros ->. destruct (print_dec (x_len p) N) as (D & S & Z0). exists (text_of (x_fam p, x_net p)), (print_int 10 (x_len p)). split; [reflexivity|]. split; [apply C113_canonical; [exact R|reflexivity]|]. split; [exact S|]. split; [auto|].
    intros H. specialize (Z0 H). destruct (print_int 10 (x_len p)) as [|c [|]]; try discriminate Z0. cbn [hd] in H. congruence.
Qed.
(** "2001:db8::1:0:0:1" (RFC 5952 section 4.2.3), and not the text with the later sequence left out *)
Example C113_canonical_example :
  let z := value [8193; 3512; 0; 0; 1; 0; 0; 1] in
  canonical [50;48;48;49;58;100;98;56;58;58;49;58;48;58;48;58;49] (V6, z) /\
  ~ canonical [50;48;48;49;58;100;98;56;58;48;58;48;58;49;58;58;49] (V6, z) /\
  address_of (fun _ => false) [50;48;48;49;58;100;98;56;58;48;58;48;58;49;58;58;49] = Some (V6, z).
Proof.
  assert (real_address (V6, value [8193; 3512; 0; 0; 1; 0; 0; 1])) as R by (vm_compute; split; congruence).
  split; [|split]; [apply C113_canonical; [exact R|vm_compute; reflexivity]| |vm_compute; reflexivity].
  intros H. apply C113_canonical in H; [|exact R]. vm_compute in H. discriminate.
Qed.

Print Assumptions C113_canonical.
Print Assumptions C113_canonical_net.
