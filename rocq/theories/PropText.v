(** * Addresses and networks as text: C113 *)
From Verif Require Import Base BaseLemmas Afi AfiProofs Spec Tree SpecTree PropTree2 Ddt SpecDdt RootFile SpecRoot PropRoot IpText SpecText.

(** ** Numbers *)
Lemma hex_int_app a b : forall acc, hex_int acc (a ++ b) = match hex_int acc a with Some n => hex_int n b | None => None end.
Proof. induction a as [|c a IH]; intros acc; cbn [hex_int app]; [reflexivity|]. destruct (hex_val c); [apply IH|reflexivity]. Qed.
Lemma hex_val_spec c d : hex_val c = Some d <-> hex_value c d.
Proof.
  unfold hex_val, is_digit. split.
  - destruct (Z.leb_spec 48 c), (Z.leb_spec c 57), (Z.leb_spec 97 c), (Z.leb_spec c 102), (Z.leb_spec 65 c), (Z.leb_spec c 70); cbn; try discriminate; try lia; intros [= <-];
      (apply hv_digit; lia) || (replace (c - 87) with (c - 97 + 10) by lia; apply hv_lower; lia) || (replace (c - 55) with (c - 65 + 10) by lia; apply hv_upper; lia).
  - intros [x H|x H|x H]; destruct (Z.leb_spec 48 x), (Z.leb_spec x 57), (Z.leb_spec 97 x), (Z.leb_spec x 102), (Z.leb_spec 65 x), (Z.leb_spec x 70); cbn; try lia; f_equal; lia.
Qed.
Lemma hex_value_range c d : hex_value c d -> 0 <= d <= 15.
Proof. intros []; lia. Qed.
Lemma hex_value_hex c d : hex_value c d -> hex c.
Proof. unfold hex, digit. intros []; lia. Qed.
Lemma hex_int_number t n : hex_number t n <-> t <> [] /\ hex_int 0 t = Some n.
Proof.
  split.
  - induction 1 as [c d H|t c n d H [N IH] D].
    + split; [discriminate|]. cbn [hex_int]. apply hex_val_spec in H. rewrite H. reflexivity.
    + split; [destruct t; discriminate|]. rewrite hex_int_app, IH. cbn [hex_int]. apply hex_val_spec in D. rewrite D. reflexivity.
  - revert n. induction t as [|c t IH] using rev_ind; intros n [N H]; [destruct N; reflexivity|]. rewrite hex_int_app in H. destruct (hex_int 0 t) as [m|] eqn:E; [|discriminate].
    cbn [hex_int] in H. destruct (hex_val c) as [d|] eqn:D; [|discriminate]. injection H as <-. apply hex_val_spec in D. destruct t as [|c' t].
    + cbn in E. injection E as <-. replace (16 * 0 + d) with d by lia. constructor. exact D.
    + apply hn_more; [|exact D]. apply IH. split; [discriminate|reflexivity].
Qed.
Lemma hex_number_range t n : hex_number t n -> 0 <= n < 16 ^ Z.of_nat (length t).
Proof.
  induction 1 as [c d H|t c n d H IH D].
  - apply hex_value_range in H. cbn. lia.
  - apply hex_value_range in D. rewrite app_length, Nat2Z.inj_add. change (Z.of_nat (length [c])) with 1. rewrite Z.pow_add_r by lia. lia.
Qed.
Lemma hex_number_chars t n : hex_number t n -> some_of hex t.
Proof.
  induction 1 as [c d H|t c n d H [N IH] D].
  - split; [discriminate|]. constructor; [|constructor]. exact (hex_value_hex c d H).
  - split; [destruct t; discriminate|]. apply Forall_app. split; [exact IH|]. constructor; [|constructor]. exact (hex_value_hex c d D).
Qed.

(** printing *)
Lemma digits_S f b n : digits (S f) b n = if n <? b then [digit_char n] else digits f b (n / b) ++ [digit_char (n mod b)].
Proof. reflexivity. Qed.
Definition enough (f : nat) (n : Z) : Prop := n < 2 ^ Z.of_nat f.
Lemma enough_div f b n : 2 <= b -> 0 <= n -> b <= n -> enough (S f) n -> enough f (n / b) /\ 0 <= n / b.
Proof.
  unfold enough. intros B N L E. rewrite Nat2Z.inj_succ, Z.pow_succ_r in E by lia. split; [|apply Z.div_pos; lia].
  apply Z.div_lt_upper_bound; [lia|]. assert (0 < 2 ^ Z.of_nat f) by lia. nia.
Qed.
Lemma enough_print n : 0 <= n -> enough (S (Z.to_nat (Z.log2 n))) n.
Proof.
  intros H. unfold enough. rewrite Nat2Z.inj_succ, Z2Nat.id by apply Z.log2_nonneg. destruct (Z.eq_dec n 0) as [->|N]; [reflexivity|]. apply Z.log2_spec. lia.
Qed.
Lemma digits_ne f b n : digits (S f) b n <> [].
Proof. rewrite digits_S. destruct (n <? b); [discriminate|]. destruct (digits f b (n / b)); discriminate. Qed.
Lemma digits_hex : forall f n, 0 <= n -> enough f n -> (f <> 0)%nat -> hex_int 0 (digits f 16 n) = Some n /\ Forall (fun c => 48 <= c <= 57 \/ 97 <= c <= 102) (digits f 16 n).
Proof.
  assert (forall d, 0 <= d < 16 -> hex_val (digit_char d) = Some d /\ (48 <= digit_char d <= 57 \/ 97 <= digit_char d <= 102)) as D.
  { intros d R. assert (In d (map Z.of_nat (seq 0 16))) as I by (apply in_map_iff; exists (Z.to_nat d); split; [lia|apply in_seq; lia]).
    cbn in I. repeat (destruct I as [<-|I]; [split; [reflexivity|cbn; lia]|]). destruct I. }
  induction f as [|f IH]; intros n N E F; [contradiction|]. rewrite digits_S. destruct (Z.ltb_spec n 16) as [L|L].
  - cbn [hex_int]. destruct (D n ltac:(lia)) as [-> R]. split; [f_equal; lia|]. constructor; [exact R|constructor].
  - destruct (enough_div f 16 n ltac:(lia) N L E) as [E' P]. assert (f <> 0)%nat as F'.
    { intros ->. unfold enough in E'. cbn in E'. assert (1 <= n / 16) by (apply Z.div_le_lower_bound; lia). lia. }
    destruct (IH (n / 16) P E' F') as [H C]. rewrite hex_int_app, H. destruct (D (n mod 16)) as [DV DC]; [apply Z.mod_pos_bound; lia|]. cbn [hex_int]. rewrite DV. split.
    + f_equal. pose proof (Z.div_mod n 16). lia.
    + apply Forall_app. split; [exact C|]. constructor; [exact DC|constructor].
Qed.
Lemma int_of_app a b : forall acc, int_of acc (a ++ b) = int_of (int_of acc a) b.
Proof. induction a as [|c a IH]; intros acc; cbn [int_of app]; [reflexivity|apply IH]. Qed.
Lemma digits_dec : forall f n, 0 <= n -> enough f n -> (f <> 0)%nat -> int_of 0 (digits f 10 n) = n /\ Forall digit (digits f 10 n) /\
  (hd 0 (digits f 10 n) = 48 -> length (digits f 10 n) = 1%nat).
Proof.
  assert (forall d, 0 <= d < 10 -> digit_char d = 48 + d) as D by (intros d R; unfold digit_char; destruct (Z.ltb_spec d 10); lia).
  assert (forall f n, 0 < n -> enough f n -> (f <> 0)%nat -> hd 0 (digits f 10 n) <> 48) as HD.
  { induction f as [|f IH]; intros n N E F; [contradiction|]. rewrite digits_S. destruct (Z.ltb_spec n 10) as [L|L]; [cbn [hd]; rewrite D by lia; lia|].
    destruct (enough_div f 10 n ltac:(lia) ltac:(lia) L E) as [E' P]. assert (1 <= n / 10) by (apply Z.div_le_lower_bound; lia). assert (f <> 0)%nat as F' by (intros ->; unfold enough in E'; cbn in E'; lia).
    specialize (IH (n / 10) ltac:(lia) E' F'). destruct f as [|f]; [contradiction|]. pose proof (digits_ne f 10 (n / 10)). destruct (digits (S f) 10 (n / 10)); [congruence|exact IH]. }
  induction f as [|f IH]; intros n N E F; [contradiction|]. rewrite digits_S. destruct (Z.ltb_spec n 10) as [L|L].
  - cbn [int_of hd length]. rewrite D by lia. split; [lia|]. split; [|auto]. constructor; [unfold digit; lia|constructor].
  - destruct (enough_div f 10 n ltac:(lia) N L E) as [E' P]. assert (1 <= n / 10) by (apply Z.div_le_lower_bound; lia). assert (f <> 0)%nat as F' by (intros ->; unfold enough in E'; cbn in E'; lia).
    destruct (IH (n / 10) P E' F') as (H1 & C & _). pose proof (Z.mod_pos_bound n 10 ltac:(lia)) as M. rewrite int_of_app, H1. cbn [int_of]. rewrite D by lia. split; [pose proof (Z.div_mod n 10); lia|]. split.
    + apply Forall_app. split; [exact C|]. constructor; [unfold digit; lia|constructor].
    + intros X. exfalso. apply (HD f (n / 10) ltac:(lia) E' F'). destruct f as [|f]; [contradiction|]. pose proof (digits_ne f 10 (n / 10)). destruct (digits (S f) 10 (n / 10)); [congruence|exact X].
Qed.
Lemma digits_len b : 2 <= b -> forall f k n, 0 <= n < b ^ Z.of_nat (S k) -> (length (digits f b n) <= S k)%nat.
Proof.
  intros B. induction f as [|f IH]; intros k n R; [cbn; lia|]. rewrite digits_S. destruct (Z.ltb_spec n b) as [L|L]; [cbn; lia|].
  rewrite Nat2Z.inj_succ, Z.pow_succ_r in R by lia. destruct k as [|k]; [change (b ^ Z.of_nat 0) with 1 in R; lia|].
  assert (0 <= n / b < b ^ Z.of_nat (S k)) as R' by (split; [apply Z.div_pos; lia|apply Z.div_lt_upper_bound; lia]).
  specialize (IH k _ R'). rewrite app_length. cbn. lia.
Qed.
Lemma print_hex n : 0 <= n -> hex_number (print_int 16 n) n /\ Forall (fun c => 48 <= c <= 57 \/ 97 <= c <= 102) (print_int 16 n).
Proof.
  intros N. unfold print_int. destruct (digits_hex _ n N (enough_print n N) ltac:(lia)) as [H C]. split; [|exact C]. apply hex_int_number. split; [apply digits_ne|exact H].
Qed.
Lemma print_dec n : 0 <= n -> decimal (print_int 10 n) = n /\ some_of digit (print_int 10 n) /\ (hd 0 (print_int 10 n) = 48 -> length (print_int 10 n) = 1%nat).
Proof.
  intros N. unfold print_int. destruct (digits_dec _ n N (enough_print n N) ltac:(lia)) as (H & C & Z0). rewrite <- int_of_decimal. split; [exact H|]. split; [|exact Z0]. split; [apply digits_ne|exact C].
Qed.

(** ** split and join *)
Lemma split_ne c t : split c t <> [].
Proof. destruct t as [|x t]; cbn [split]; [discriminate|]. destruct (x =? c); [discriminate|]. destruct (split c t); discriminate. Qed.
Lemma split_cons c x t : split c (x :: t) = if x =? c then [] :: split c t else match split c t with [] => [[x]] | l :: ls => (x :: l) :: ls end.
Proof. reflexivity. Qed.
Lemma split_app c : forall a b, split c (a ++ c :: b) = split c a ++ split c b.
Proof.
  induction a as [|x a IH]; intros b.
  - cbn [app]. rewrite split_cons, Z.eqb_refl. reflexivity.
  - cbn [app]. rewrite !split_cons. destruct (x =? c); [rewrite IH; reflexivity|]. rewrite IH. pose proof (split_ne c a). destruct (split c a); [congruence|reflexivity].
Qed.
Lemma split_none c t : ~ In c t -> split c t = [t].
Proof.
  induction t as [|x t IH]; intros N; [reflexivity|]. rewrite split_cons. cbn in N. destruct (Z.eqb_spec x c) as [->|_]; [tauto|]. rewrite IH by tauto. reflexivity.
Qed.
Lemma split_parts c t : Forall (fun p => ~ In c p) (split c t).
Proof.
  induction t as [|x t IH]; [cbn; auto|]. rewrite split_cons. destruct (Z.eqb_spec x c) as [->|N]; [constructor; [intros []|exact IH]|].
  destruct (split c t) as [|l ls]; inversion IH; subst; constructor; auto; cbn; tauto.
Qed.
Lemma join_cons c t l : l <> [] -> join c (t :: l) = t ++ c :: join c l.
Proof. destruct l; [congruence|reflexivity]. Qed.
Lemma join_split c t : join c (split c t) = t.
Proof.
  induction t as [|x t IH]; [reflexivity|]. rewrite split_cons. destruct (Z.eqb_spec x c) as [->|N].
  - rewrite join_cons by apply split_ne. rewrite IH. reflexivity.
  - pose proof (split_ne c t). destruct (split c t) as [|l ls]; [congruence|]. destruct ls as [|l' ls]; [cbn in *; congruence|]. rewrite join_cons in * by discriminate. rewrite <- IH. reflexivity.
Qed.
Lemma split_join c l : l <> [] -> Forall (fun p => ~ In c p) l -> split c (join c l) = l.
Proof.
  intros N H. induction H as [|t l T H IH]; [congruence|]. destruct l as [|t' l]; [apply split_none; exact T|].
  rewrite join_cons by discriminate. rewrite split_app, IH by discriminate. rewrite (split_none c t T). reflexivity.
Qed.
Lemma join_app c a b : a <> [] -> b <> [] -> join c (a ++ b) = join c a ++ c :: join c b.
Proof.
  intros NA NB. induction a as [|t a IH]; [congruence|]. destruct a as [|t' a].
  - cbn [app]. rewrite join_cons by exact NB. reflexivity.
  - rewrite <- app_comm_cons, join_cons by discriminate. rewrite IH by discriminate. rewrite (join_cons c t (t' :: a)) by discriminate. rewrite <- app_assoc. reflexivity.
Qed.

(** ** IPv4 *)
Section P.
Variable octal : text -> bool.
Lemma is_digit_spec c : is_digit c = true <-> digit c.
Proof. unfold is_digit, digit. rewrite andb_true_iff, !Z.leb_le. reflexivity. Qed.
Lemma digits_spec t : empty t || negb (forallb is_digit t) = false <-> some_of digit t.
Proof.
  unfold some_of. rewrite orb_false_iff, negb_false_iff, forallb_forall, Forall_forall. split.
  - intros [E F]. split; [destruct t; discriminate|]. intros c I. apply is_digit_spec, F, I.
  - intros [E F]. split; [destruct t; [congruence|reflexivity]|]. intros c I. apply is_digit_spec, F, I.
Qed.
Lemma parse_octet_spec t n : parse_octet octal t = Some n <-> octet_text octal t n.
Proof.
  unfold parse_octet, octet_text. rewrite int_of_decimal.
  destruct (empty t || negb (forallb is_digit t)) eqn:E; cbn [orb].
  - split; [discriminate|]. intros [H _]. apply digits_spec in H. congruence.
  - apply digits_spec in E. destruct (Z.ltb_spec 3 (Z.of_nat (length t))) as [L|L]; [split; [discriminate|]; intros (_ & X & _); lia|].
    assert ((hd 0 t =? 48) && (1 <? Z.of_nat (length t)) && negb (octal t) = true <-> (hd 0 t = 48 /\ (1 < length t)%nat /\ octal t = false)) as O.
    { rewrite !andb_true_iff, Z.eqb_eq, Z.ltb_lt, negb_true_iff. split; [intros ((? & ?) & ?)|intros (? & ? & ?)]; repeat split; auto; lia. }
    destruct ((hd 0 t =? 48) && (1 <? Z.of_nat (length t)) && negb (octal t)).
    + split; [discriminate|]. intros (_ & _ & _ & _ & H). destruct O as [O _]. specialize (O eq_refl) as (A & B & C). rewrite (H A B) in C. discriminate.
    + assert (hd 0 t = 48 -> (1 < length t)%nat -> octal t = true) as Z0.
      { intros A B. destruct (octal t) eqn:C; [reflexivity|]. destruct O as [_ O]. specialize (O (conj A (conj B eq_refl))). discriminate. }
      destruct (Z.ltb_spec 255 (decimal t)) as [M|M]; [split; [discriminate|]; intros (_ & _ & -> & X & _); lia|].
      split; [intros [= <-]; repeat (split; [first [assumption|lia|reflexivity]|]); assumption|intros (_ & _ & -> & _); reflexivity].
Qed.
Lemma decimal_nonneg t : Forall digit t -> 0 <= decimal t.
Proof.
  unfold decimal. assert (forall a, 0 <= a -> Forall digit t -> 0 <= fold_left (fun n c => 10 * n + (c - 48)) t a) as H; [|apply H; lia].
  induction t as [|c t IH]; intros a A F; [exact A|]. inversion F as [|? ? D F']; subst. unfold digit in D. cbn [fold_left]. apply IH; [lia|assumption].
Qed.
Lemma octet_range t n : octet_text octal t n -> 0 <= n <= 255.
Proof. intros ((_ & D) & _ & -> & M & _). split; [apply decimal_nonneg, D|exact M]. Qed.
Lemma octet_chars t n : octet_text octal t n -> some_of digit t.
Proof. intros (H & _). exact H. Qed.
Lemma digit_not c t : ~ digit c -> Forall digit t -> ~ In c t.
Proof. intros N F I. rewrite Forall_forall in F. exact (N (F c I)). Qed.
Lemma not_dot : ~ digit 46. Proof. unfold digit. lia. Qed.
Lemma not_colon : ~ digit 58. Proof. unfold digit. lia. Qed.
(** C113: the texts accepted as IPv4 addresses are those in dotted decimal notation *)
Theorem C113_ipv4 : forall t z, parse4 octal t = Some z <-> denotes4 octal t z.
Proof.
  intros t z. unfold parse4, denotes4. split.
  - intros H. pose proof (join_split 46 t) as J. destruct (split 46 t) as [|a [|b [|c [|d [|e l]]]]]; try discriminate.
    destruct (parse_octet octal a) as [x|] eqn:A; [|discriminate]. destruct (parse_octet octal b) as [y|] eqn:B; [|discriminate].
    destruct (parse_octet octal c) as [v|] eqn:C; [|discriminate]. destruct (parse_octet octal d) as [w|] eqn:D; [|discriminate]. injection H as <-.
    apply parse_octet_spec in A, B, C, D. exists a, b, c, d, x, y, v, w. rewrite <- J. split; [reflexivity|]. repeat (split; [assumption|]). lia.
  - intros (a & b & c & d & x & y & v & w & -> & A & B & C & D & ->).
    assert (forall t n, octet_text octal t n -> ~ In 46 t) as N by (intros t n [[_ F] _]; exact (digit_not 46 t not_dot F)).
    rewrite !split_app. rewrite (split_none 46 a), (split_none 46 b), (split_none 46 c), (split_none 46 d) by eauto. cbn [app].
    apply parse_octet_spec in A, B, C, D. rewrite A, B, C, D. f_equal. lia.
Qed.
Lemma denotes4_range t z : denotes4 octal t z -> 0 <= z < 2 ^ 32.
Proof.
  intros (a & b & c & d & x & y & v & w & -> & A & B & C & D & ->). apply octet_range in A, B, C, D. lia.
Qed.
Lemma denotes4_chars t z : denotes4 octal t z -> Forall (fun c => digit c \/ c = 46) t /\ In 46 t /\ t <> [].
Proof.
  intros (a & b & c & d & x & y & v & w & -> & A & B & C & D & ->).
  assert (forall t n, octet_text octal t n -> Forall (fun c => digit c \/ c = 46) t) as F by (intros t n [[_ G] _]; eapply Forall_impl; [|exact G]; cbn; tauto).
  split; [|split; [rewrite in_app_iff; cbn; tauto|destruct a; discriminate]].
  repeat first [apply Forall_app; split; [eauto|]|constructor; [right; reflexivity|]]. eauto.
Qed.

(** ** IPv6 *)
Definition step16 (n g : Z) : Z := n * 2 ^ 16 + g.
Lemma value_step l : value l = fold_left step16 l 0.
Proof. reflexivity. Qed.
Lemma zeros : forall k n, fold_left step16 (repeat 0 k) n = n * 2 ^ (16 * Z.of_nat k).
Proof.
  induction k as [|k IH]; intros n; [cbn [repeat fold_left]; lia|]. cbn [repeat fold_left]. rewrite IH. unfold step16. rewrite Z.add_0_r, <- Z.mul_assoc. f_equal.
  rewrite <- Z.pow_add_r by lia. f_equal. lia.
Qed.
Lemma value_gap l1 k l2 : value (l1 ++ repeat 0 k ++ l2) = fold_left step16 l2 (value l1 * 2 ^ (16 * Z.of_nat k)).
Proof. rewrite value_step, !fold_left_app, zeros. reflexivity. Qed.
Lemma parse_hextet_spec t n : parse_hextet t = Some n <-> group t n.
Proof.
  unfold parse_hextet, group. rewrite hex_int_number. destruct (empty t) eqn:E; cbn [orb].
  - split; [discriminate|]. intros (_ & N & _). destruct t; [congruence|discriminate].
  - destruct (Z.ltb_spec 4 (Z.of_nat (length t))).
    + split; [discriminate|]. intros (L & _). lia.
    + split; [intros X; split; [lia|]; split; [destruct t; [discriminate|congruence]|exact X]|tauto].
Qed.
Lemma parse_hextets_spec : forall P acc z, parse_hextets acc P = Some z <-> exists l, Forall2 group P l /\ z = fold_left step16 l acc.
Proof.
  induction P as [|t P IH]; intros acc z; cbn [parse_hextets].
  - split; [intros [= <-]; exists []; split; [constructor|reflexivity]|]. intros (l & F & ->). inversion F. reflexivity.
  - destruct (parse_hextet t) as [h|] eqn:H.
    + apply parse_hextet_spec in H. rewrite IH. split.
      * intros (l & F & ->). exists (h :: l). split; [constructor; assumption|]. cbn [fold_left]. f_equal. unfold step16. lia.
      * intros (l & F & ->). inversion F as [|? h' ? l' G F']; subst. apply parse_hextet_spec in G, H. rewrite G in H. injection H as <-. exists l'. split; [exact F'|]. cbn [fold_left]. f_equal. unfold step16. lia.
    + split; [discriminate|]. intros (l & F & ->). inversion F as [|? h' ? l' G F']; subst. apply parse_hextet_spec in G. congruence.
Qed.
Lemma group_chars t n : group t n -> some_of hex t.
Proof. intros [_ H]. exact (hex_number_chars t n H). Qed.
Lemma group_range t n : group t n -> 0 <= n < 2 ^ 16.
Proof.
  intros [L H]. apply hex_number_range in H. assert (16 ^ Z.of_nat (length t) <= 16 ^ 4) by (apply Z.pow_le_mono_r; lia). lia.
Qed.
Lemma hex_not c t : ~ hex c -> Forall hex t -> ~ In c t.
Proof. intros N F I. rewrite Forall_forall in F. exact (N (F c I)). Qed.
Lemma hex_dot : ~ hex 46. Proof. unfold hex, digit. lia. Qed.
Lemma hex_colon : ~ hex 58. Proof. unfold hex, digit. lia. Qed.
Lemma hex_slash : ~ hex 47. Proof. unfold hex, digit. lia. Qed.
Lemma group_no t n c : group t n -> ~ hex c -> ~ In c t.
Proof. intros G N. destruct (group_chars t n G) as [_ F]. exact (hex_not c t N F). Qed.
Lemma group_full t n : group t n -> empty t = false.
Proof. intros G. destruct (group_chars t n G) as [N _]. destruct t; [congruence|reflexivity]. Qed.
Lemma quad_no t z c : denotes4 octal t z -> ~ digit c -> c <> 46 -> ~ In c t.
Proof. intros D N M I. destruct (denotes4_chars t z D) as [F _]. rewrite Forall_forall in F. destruct (F c I); auto. Qed.

(** sequences of groups as lists of parts *)
Inductive gparts (quad : bool) : list text -> list Z -> Prop :=
| gp_one t n : group t n -> gparts quad [t] [n]
| gp_quad t z : quad = true -> denotes4 octal t z -> gparts quad [t] [z / 2 ^ 16; z mod 2 ^ 16]
| gp_more t n ps l : group t n -> gparts quad ps l -> gparts quad (t :: ps) (n :: l).
Lemma gparts_ne q ps l : gparts q ps l -> ps <> [].
Proof. intros []; discriminate. Qed.
Lemma gparts_spec q t l : group_seq octal q t l <-> gparts q (split 58 t) l.
Proof.
  split.
  - induction 1 as [t n G|t z Q D|t n t' l G S IH].
    + rewrite split_none by (exact (group_no t n 58 G hex_colon)). constructor. exact G.
    + rewrite split_none by (apply (quad_no t z 58 D not_colon); lia). apply gp_quad; assumption.
    + rewrite split_app, (split_none 58 t) by (exact (group_no t n 58 G hex_colon)). apply gp_more; assumption.
  - intros G. rewrite <- (join_split 58 t). remember (split 58 t) as ps eqn:E. clear E. induction G as [t' n G|t' z Q D|t' n ps l G S IH].
    + apply gr_one. exact G.
    + apply gr_quad; assumption.
    + rewrite join_cons by exact (gparts_ne _ _ _ S). apply gr_more; assumption.
Qed.
Lemma gparts_plain ps l : gparts false ps l <-> ps <> [] /\ Forall2 group ps l.
Proof.
  split.
  - intros G. split; [exact (gparts_ne _ _ _ G)|]. induction G as [t n G|t z Q D|t n ps l G S IH]; [constructor; [exact G|constructor]|discriminate|constructor; assumption].
  - intros [N F]. induction F as [|t n ps l G F IH]; [congruence|]. destruct ps as [|t' ps]; [inversion F; apply gp_one; exact G|]. apply gp_more; [exact G|]. apply IH. discriminate.
Qed.
Lemma last_app {A} (a b : list A) d : b <> [] -> last (a ++ b) d = last b d.
Proof. intros N. induction a as [|x a IH]; [reflexivity|]. cbn [app]. rewrite <- IH. cbn [last]. destruct (a ++ b) eqn:E; [|reflexivity]. apply app_eq_nil in E. destruct E; contradiction. Qed.
Lemma removelast_app {A} (a b : list A) : b <> [] -> removelast (a ++ b) = a ++ removelast b.
Proof. intros N. apply removelast_app. exact N. Qed.
Lemma expand_app a b : b <> [] -> expand octal (a ++ b) = option_map (app a) (expand octal b).
Proof.
  intros N. unfold expand. rewrite last_app, removelast_app by exact N. destruct (existsb (Z.eqb 46) (last b [])); [|reflexivity].
  destruct (parse4 octal (last b [])); cbn [option_map]; [rewrite <- app_assoc|]; reflexivity.
Qed.
Lemma has_dot t : existsb (Z.eqb 46) t = true <-> In 46 t.
Proof. rewrite existsb_exists. split; [intros (c & I & E); apply Z.eqb_eq in E; subst; exact I|intros I; exists 46; split; [exact I|reflexivity]]. Qed.
Lemma no_dot t : ~ In 46 t -> existsb (Z.eqb 46) t = false.
Proof. intros N. destruct (existsb (Z.eqb 46) t) eqn:E; [apply has_dot in E; contradiction|reflexivity]. Qed.
Lemma print_group n : 0 <= n < 2 ^ 16 -> group (print_int 16 n) n.
Proof. intros R. split; [|apply print_hex; lia]. unfold print_int. apply (digits_len 16 ltac:(lia) _ 3). change (16 ^ Z.of_nat 4) with (2 ^ 16). exact R. Qed.
Lemma group_fun t n m : group t n -> group t m -> n = m.
Proof. intros A B. apply parse_hextet_spec in A, B. congruence. Qed.
Lemma groups_fun P l : Forall2 group P l -> forall l', Forall2 group P l' -> l = l'.
Proof. induction 1 as [|t n P l G F IH]; intros l' F'; inversion F'; subst; [reflexivity|]. f_equal; [eapply group_fun; eassumption|auto]. Qed.
Lemma expand_one t : expand octal [t] = if existsb (Z.eqb 46) t then match parse4 octal t with Some z => Some [print_int 16 (z / 65536); print_int 16 (z mod 65536)] | None => None end else Some [t].
Proof. reflexivity. Qed.
Lemma quad_groups t z : denotes4 octal t z -> Forall2 group [print_int 16 (z / 65536); print_int 16 (z mod 65536)] [z / 2 ^ 16; z mod 2 ^ 16].
Proof.
  intros D. apply denotes4_range in D. constructor; [|constructor; [|constructor]]; apply print_group.
  - split; [apply Z.div_pos; lia|apply Z.div_lt_upper_bound; lia].
  - apply Z.mod_pos_bound. lia.
Qed.
Lemma gparts_expand ps l : ps <> [] -> (gparts true ps l <-> exists P, expand octal ps = Some P /\ Forall2 group P l).
Proof.
  intros N. split.
  - induction 1 as [t n G|t z Q D|t n ps l G S IH].
    + exists [t]. rewrite expand_one, no_dot by (exact (group_no t n 46 G hex_dot)). split; [reflexivity|constructor; [exact G|constructor]].
    + exists [print_int 16 (z / 65536); print_int 16 (z mod 65536)]. rewrite expand_one. destruct (denotes4_chars t z D) as (_ & I & _). apply has_dot in I. rewrite I.
      split; [apply C113_ipv4 in D; rewrite D; reflexivity|exact (quad_groups t z D)].
    + pose proof (gparts_ne _ _ _ S) as N'. destruct (IH N') as (P & E & F). exists (t :: P). change (t :: ps) with ([t] ++ ps). rewrite expand_app, E by exact N'. split; [reflexivity|constructor; assumption].
  - revert l. induction ps as [|t ps IH]; intros l (P & E & F); [congruence|]. destruct ps as [|t' ps].
    + rewrite expand_one in E. destruct (existsb (Z.eqb 46) t).
      * destruct (parse4 octal t) as [z|] eqn:D; [|discriminate]. apply C113_ipv4 in D. injection E as <-. rewrite (groups_fun _ _ F _ (quad_groups t z D)). apply gp_quad; [reflexivity|exact D].
      * injection E as <-. inversion F as [|? n ? l' G F']; subst. inversion F'. apply gp_one. exact G.
    + change (t :: t' :: ps) with ([t] ++ t' :: ps) in E. rewrite expand_app in E by discriminate. destruct (expand octal (t' :: ps)) as [P'|]; [|discriminate]. injection E as <-.
      inversion F as [|? n ? l' G F']; subst. apply gp_more; [exact G|]. apply IH; [discriminate|]. exists P'. split; [reflexivity|exact F'].
Qed.
(** groups, or one empty part *)
Definition sparts (P : list text) (l : list Z) : Prop := (P = [[]] /\ l = []) \/ (P <> [] /\ Forall2 group P l).
Lemma split_nil t : split 58 t = [[]] <-> t = [].
Proof. split; [|intros ->; reflexivity]. intros H. rewrite <- (join_split 58 t), H. reflexivity. Qed.
Lemma sparts_plain t l : some_groups octal false t l <-> sparts (split 58 t) l.
Proof. unfold some_groups, sparts. rewrite gparts_spec, gparts_plain, split_nil. reflexivity. Qed.
Lemma expand_empty ps : ps <> [] -> expand octal ps = Some [[]] -> ps = [[]].
Proof.
  intros N. unfold expand. destruct (existsb (Z.eqb 46) (last ps [])); [|congruence]. destruct (parse4 octal (last ps [])) as [z|]; [|discriminate]. intros [= H].
  apply (f_equal (@length text)) in H. rewrite app_length in H. cbn in H. lia.
Qed.
Lemma expand_ne ps P : ps <> [] -> expand octal ps = Some P -> P <> [].
Proof.
  intros N. unfold expand. destruct (existsb (Z.eqb 46) (last ps [])); [|congruence]. destruct (parse4 octal (last ps [])) as [z|]; [|discriminate]. intros [= <-].
  destruct (removelast ps); discriminate.
Qed.
Lemma sparts_quad t l : some_groups octal true t l <-> exists P, expand octal (split 58 t) = Some P /\ sparts P l.
Proof.
  pose proof (split_ne 58 t) as N. unfold some_groups. rewrite gparts_spec, gparts_expand by exact N. split.
  - intros [[-> ->]|(P & E & F)]; [exists [[]]; split; [reflexivity|left; auto]|exists P; split; [exact E|]]. right. split; [exact (expand_ne _ _ N E)|exact F].
  - intros (P & E & [[-> ->]|[_ F]]); [left; split; [|reflexivity]|right; exists P; auto]. apply split_nil. exact (expand_empty _ N E).
Qed.
(** what [parse6] does with the parts *)
Definition core (parts : list text) : option Z :=
  if Nat.ltb 9 (length parts) then None
  else match gaps parts with
       | [] =>
           if negb (Nat.eqb (length parts) 8) || empty (hd [] parts) || empty (last parts []) then None
           else parse_hextets 0 parts
       | [s] =>
           let hi := s in
           let lo := (length parts - s - 1)%nat in
           let hi' := if empty (hd [] parts) then (hi - 1)%nat else hi in
           let lo' := if empty (last parts []) then (lo - 1)%nat else lo in
           if (empty (hd [] parts) && negb (Nat.eqb hi' 0)) || (empty (last parts []) && negb (Nat.eqb lo' 0)) then None
           else if Nat.ltb 7 (hi' + lo') then None
           else match parse_hextets 0 (firstn hi' parts) with
                | Some a => parse_hextets (a * 2 ^ (16 * Z.of_nat (8 - (hi' + lo')))) (skipn (length parts - lo') parts)
                | None => None
                end
       | _ => None
       end.
Lemma parse6_core t : parse6 octal t = if Nat.ltb (length (split 58 t)) 3 then None else match expand octal (split 58 t) with None => None | Some P => core P end.
Proof. reflexivity. Qed.
Lemma empty_spec t : empty t = true <-> t = [].
Proof. destruct t; cbn; split; congruence || reflexivity. Qed.
Lemma groups_nth P l : Forall2 group P l -> forall i, (i < length P)%nat -> empty (nth i P []) = false.
Proof. induction 1 as [|t n P l G F IH]; intros i L; [cbn in L; lia|]. destruct i as [|i]; [exact (group_full t n G)|]. apply IH. cbn in L. lia. Qed.
Lemma groups_len P l : Forall2 group P l -> length P = length l.
Proof. induction 1; cbn [length]; congruence. Qed.
Lemma filter_none {A} (f : A -> bool) l : (forall x, In x l -> f x = false) -> filter f l = [].
Proof. induction l as [|x l IH]; intros H; [reflexivity|]. cbn [filter]. rewrite (H x) by (left; reflexivity). apply IH. intros y I. apply H. right. exact I. Qed.
Lemma gaps_in P i : In i (gaps P) <-> (1 <= i /\ i + 1 < length P)%nat /\ nth i P [] = [].
Proof. unfold gaps. rewrite filter_In, in_seq, empty_spec. split; intros [H E]; (split; [lia|exact E]). Qed.
Lemma last_nth (P : list text) : last P [] = nth (length P - 1) P [].
Proof.
  induction P as [|t P IH]; [reflexivity|]. destruct P as [|t' P]; [reflexivity|]. change (last (t :: t' :: P) []) with (last (t' :: P) []). rewrite IH. cbn [length].
  replace (S (S (length P)) - 1)%nat with (S (S (length P) - 1)) by lia. reflexivity.
Qed.
Lemma hd_nth (P : list text) : @hd text [] P = nth 0 P [].
Proof. destruct P; reflexivity. Qed.
Definition sides (P : list text) (z : Z) : Prop :=
  exists (A B : list text) l1 l2 k, P = A ++ ([] : text) :: B /\ sparts A l1 /\ sparts B l2 /\ (length l1 + k + length l2 = 8)%nat /\ (1 <= k)%nat /\ z = value (l1 ++ repeat 0 k ++ l2).
Lemma sparts_ne P l : sparts P l -> P <> [].
Proof. intros [[-> _]|[N _]]; [discriminate|exact N]. Qed.
Lemma sparts_nth P l i : sparts P l -> (i < length P)%nat -> (P = [[]] /\ i = 0%nat) \/ empty (nth i P []) = false.
Proof. intros [[-> ->]|[N F]] L; [left; split; [reflexivity|cbn in L; lia]|right; exact (groups_nth P l F i L)]. Qed.
Lemma sparts_len P l : sparts P l -> (P = [[]] /\ l = []) \/ (length P = length l /\ P <> [] /\ P <> [[]] /\ Forall2 group P l).
Proof.
  intros [H|[N F]]; [left; exact H|right]. split; [exact (groups_len P l F)|]. split; [exact N|]. split; [|exact F]. intros ->. inversion F as [|? ? ? ? G]; subst. apply group_full in G. discriminate.
Qed.
Lemma gaps_sides (A B : list text) l1 l2 : sparts A l1 -> sparts B l2 -> gaps (A ++ ([] : text) :: B) = [length A].
Proof.
  intros SA SB. pose proof (sparts_ne A l1 SA) as NA. pose proof (sparts_ne B l2 SB) as NB.
  assert (1 <= length A)%nat as LA by (destruct A; [congruence|cbn; lia]). assert (1 <= length B)%nat as LB by (destruct B; [congruence|cbn; lia]).
  unfold gaps. rewrite app_length. cbn [length].
  replace (length A + S (length B) - 2)%nat with ((length A - 1) + (1 + (length B - 1)))%nat by lia. rewrite seq_app, seq_app, !filter_app.
  replace (1 + (length A - 1))%nat with (length A) by lia. rewrite (filter_none _ (seq 1 (length A - 1))), (filter_none _ (seq (length A + 1) (length B - 1))).
  - cbn [seq filter app]. rewrite app_nth2, Nat.sub_diag by lia. reflexivity.
  - intros i I. apply in_seq in I. rewrite app_nth2 by lia. replace (i - length A)%nat with (S (i - length A - 1)) by lia. cbn [nth].
    destruct (sparts_nth B l2 (i - length A - 1) SB ltac:(lia)) as [[-> E]|E]; [cbn in I; lia|exact E].
  - intros i I. apply in_seq in I. rewrite app_nth1 by lia. destruct (sparts_nth A l1 i SA ltac:(lia)) as [[-> ->]|E]; [lia|exact E].
Qed.
Lemma core_spec P z : core P = Some z <-> (exists l, Forall2 group P l /\ length l = 8%nat /\ z = value l) \/ sides P z.
Proof.
  split.
  - unfold core. destruct (Nat.ltb_spec 9 (length P)) as [|L9]; [discriminate|]. destruct (gaps P) as [|s [|s' r]] eqn:G; [| |discriminate].
    + destruct (Nat.eqb_spec (length P) 8) as [L8|]; cbn [negb orb]; [|discriminate]. destruct (empty (hd [] P) || empty (last P [])); [discriminate|]. intros H. left.
      apply parse_hextets_spec in H. destruct H as (l & F & ->). exists l. split; [exact F|]. split; [|reflexivity]. rewrite <- (groups_len P l F). exact L8.
    + intros H. right. assert (In s (gaps P)) as I by (rewrite G; left; reflexivity). apply gaps_in in I. destruct I as [R E].
      set (A := firstn s P). set (B := skipn (S s) P).
      assert (P = A ++ [] :: B) as EP.
      { unfold A, B. rewrite <- (firstn_skipn s P) at 1. f_equal. rewrite <- E. clear -R. revert s R. induction P as [|t P IH]; intros s R; [cbn in R; lia|].
        destruct s as [|s]; [reflexivity|]. cbn [skipn nth]. destruct s as [|s]; [destruct P; [cbn in R; lia|reflexivity]|]. apply IH. cbn in R. lia. }
      assert (length A = s) as LA by (unfold A; rewrite firstn_length; lia). assert (length B = length P - s - 1)%nat as LB by (unfold B; rewrite skipn_length; lia).
      rewrite <- LB in H. clearbody A B. assert (hd [] P = hd [] A) as HD by (rewrite EP; destruct A; [cbn in LA; lia|reflexivity]).
      assert (last P [] = last B []) as LD by (rewrite EP; change ([] :: B) with ([[]] ++ B); rewrite app_assoc; apply last_app; destruct B; [cbn in LB; lia|discriminate]).
      rewrite HD, LD in H.
      destruct (_ || _) eqn:X; [discriminate|]. apply orb_false_iff in X. destruct X as [XA XB].
      set (hi' := if empty (hd [] A) then (s - 1)%nat else s) in *. set (lo' := if empty (last B []) then (length B - 1)%nat else length B) in *.
      destruct (Nat.ltb_spec 7 (hi' + lo')) as [|L7]; [discriminate|]. destruct (parse_hextets 0 (firstn hi' P)) as [a|] eqn:PA; [|discriminate].
      apply parse_hextets_spec in PA, H. destruct PA as (l1 & F1 & ->). destruct H as (l2 & F2 & ->).
      assert (sparts A l1 /\ hi' = length l1) as [SA H1].
      { unfold hi' in *. destruct (empty (hd [] A)) eqn:EA.
        - cbn [andb] in XA. apply negb_false_iff, Nat.eqb_eq in XA. rewrite XA in F1. cbn in F1. inversion F1; subst l1. split; [|exact XA]. left. split; [|reflexivity].
          destruct A as [|x [|y A]]; cbn in LA; try lia. apply empty_spec in EA. cbn in EA. subst x. reflexivity.
        - assert (firstn s P = A) as FA by (rewrite EP, <- LA, firstn_app, Nat.sub_diag, firstn_all, app_nil_r; reflexivity). rewrite FA in F1. split; [|rewrite <- (groups_len _ _ F1); lia]. right. split; [|exact F1].
          destruct A; [cbn in LA; lia|discriminate]. }
      assert (sparts B l2 /\ lo' = length l2) as [SB H2].
      { unfold lo' in *. destruct (empty (last B [])) eqn:EB.
        - cbn [andb] in XB. apply negb_false_iff, Nat.eqb_eq in XB. rewrite XB, Nat.sub_0_r, skipn_all in F2. inversion F2; subst l2. split; [|exact XB]. left. split; [|reflexivity].
          destruct B as [|x [|y B]]; cbn in XB, LB; try lia. apply empty_spec in EB. cbn in EB. subst x. reflexivity.
        - assert (skipn (length P - length B) P = B) as FB.
          { replace (length P - length B)%nat with (length (A ++ [[]])) by (rewrite app_length; cbn; lia). rewrite EP. change ([] :: B) with ([[]] ++ B). rewrite app_assoc, skipn_app, skipn_all, Nat.sub_diag. reflexivity. }
          rewrite FB in F2. split; [|rewrite <- (groups_len _ _ F2); lia]. right. split; [|exact F2]. destruct B; [cbn in LB; lia|discriminate]. }
      exists A, B, l1, l2, (8 - (hi' + lo'))%nat. split; [exact EP|]. split; [exact SA|]. split; [exact SB|]. split; [lia|]. split; [lia|]. rewrite value_gap. reflexivity.
  - intros [(l & F & L & ->)|(A & B & l1 & l2 & k & -> & SA & SB & L & K & ->)].
    + unfold core. pose proof (groups_len P l F) as LP. replace (gaps P) with (@nil nat).
      * rewrite LP, L. cbn [Nat.ltb Nat.leb Nat.eqb negb orb]. rewrite hd_nth, last_nth, LP, L, !(groups_nth P l F) by lia. cbn [orb]. apply parse_hextets_spec. exists l. split; [exact F|reflexivity].
      * symmetry. unfold gaps. apply filter_none. intros i I. apply in_seq in I. apply (groups_nth P l F). lia.
    + assert (core (A ++ ([] : text) :: B) = match parse_hextets 0 (firstn (length l1) (A ++ ([] : text) :: B)) with Some a => parse_hextets (a * 2 ^ (16 * Z.of_nat k)) (skipn (length (A ++ ([] : text) :: B) - length l2) (A ++ ([] : text) :: B)) | None => None end) as ->.
      { unfold core. change (@hd (list Z)) with (@hd text). rewrite (gaps_sides A B l1 l2 SA SB).
        assert (@hd text [] (A ++ ([] : text) :: B) = @hd text [] A) as -> by (pose proof (sparts_ne A l1 SA); destruct A; [congruence|reflexivity]).
        assert (@last text (A ++ ([] : text) :: B) [] = @last text B []) as -> by (change ([] :: B) with ([[]] ++ B); rewrite app_assoc; apply last_app; exact (sparts_ne B l2 SB)).
        rewrite !app_length. cbn [length]. replace (length A + S (length B) - length A - 1)%nat with (length B) by lia.
        assert ((if empty (@hd text [] A) then (length A - 1)%nat else length A) = length l1 /\ (empty (@hd text [] A) = true -> l1 = [])) as [-> EA].
        { destruct (sparts_len A l1 SA) as [[-> ->]|(LA & NA & _ & F)]; [cbn; auto|]. rewrite hd_nth, (groups_nth A l1 F) by (destruct A; [congruence|cbn; lia]). split; [exact LA|discriminate]. }
        assert ((if empty (@last text B []) then (length B - 1)%nat else length B) = length l2 /\ (empty (@last text B []) = true -> l2 = [])) as [-> EB].
        { destruct (sparts_len B l2 SB) as [[-> ->]|(LB & NB & _ & F)]; [cbn; auto|]. rewrite last_nth, (groups_nth B l2 F) by (destruct B; [congruence|cbn; lia]). split; [exact LB|discriminate]. }
        assert (length A + S (length B) <= 9)%nat as L9.
        { destruct (sparts_len A l1 SA) as [[-> ->]|(LA & _)], (sparts_len B l2 SB) as [[-> ->]|(LB & _)]; cbn [length] in *; lia. }
        destruct (Nat.ltb_spec 9 (length A + S (length B))) as [|_]; [lia|].
        replace (empty (@hd text [] A) && negb (Nat.eqb (length l1) 0)) with false by (destruct (empty (@hd text [] A)); [rewrite EA by reflexivity; reflexivity|reflexivity]).
        replace (empty (@last text B []) && negb (Nat.eqb (length l2) 0)) with false by (destruct (empty (@last text B [])); [rewrite EB by reflexivity; reflexivity|reflexivity]).
        cbn [orb]. destruct (Nat.ltb_spec 7 (length l1 + length l2)) as [|_]; [lia|]. replace (8 - (length l1 + length l2))%nat with k by lia. reflexivity. }
      assert (Forall2 group (firstn (length l1) (A ++ ([] : text) :: B)) l1) as F1.
      { destruct (sparts_len A l1 SA) as [[-> ->]|(LA & _ & _ & F)]; [constructor|]. rewrite <- LA, firstn_app, Nat.sub_diag, firstn_all, app_nil_r. exact F. }
      assert (Forall2 group (skipn (length (A ++ ([] : text) :: B) - length l2) (A ++ ([] : text) :: B)) l2) as F2.
      { destruct (sparts_len B l2 SB) as [[-> ->]|(LB & _ & _ & F)]; [cbn [length]; rewrite Nat.sub_0_r, skipn_all; constructor|].
        rewrite <- LB. replace (length (A ++ ([] : text) :: B) - length B)%nat with (length (A ++ [[]])) by (rewrite !app_length; cbn; lia).
        change ([] :: B) with ([[]] ++ B). rewrite app_assoc, skipn_app, skipn_all, Nat.sub_diag. exact F. }
      assert (parse_hextets 0 (firstn (length l1) (A ++ ([] : text) :: B)) = Some (value l1)) as -> by (apply parse_hextets_spec; exists l1; split; [exact F1|reflexivity]).
      apply parse_hextets_spec. exists l2. split; [exact F2|]. rewrite value_gap. reflexivity.
Qed.
Lemma two_tail (u v : list text) a b x y : u ++ [a; b] = v ++ [x; y] -> u = v /\ [a; b] = [x; y].
Proof.
  intros E. change (u ++ [a; b]) with (u ++ [a] ++ [b]) in E. change (v ++ [x; y]) with (v ++ [x] ++ [y]) in E. rewrite !app_assoc in E.
  apply app_inj_tail in E. destruct E as [E ->]. apply app_inj_tail in E. destruct E as [-> ->]. auto.
Qed.
(** C113: the texts accepted as IPv6 addresses are those of RFC 4291 *)
Theorem C113_ipv6 : forall t z, parse6 octal t = Some z <-> denotes6 octal t z.
Proof.
  intros t z. rewrite parse6_core. unfold denotes6. pose proof (split_ne 58 t) as N. split.
  - destruct (Nat.ltb (length (split 58 t)) 3); [discriminate|]. destruct (expand octal (split 58 t)) as [P|] eqn:E; [|discriminate]. intros H. apply core_spec in H.
    destruct H as [(l & F & L & ->)|(A & B & l1 & l2 & k & -> & SA & SB & H)].
    + left. exists l. split; [|auto]. apply gparts_spec, gparts_expand; [exact N|]. exists P. auto.
    + right. assert (exists B', split 58 t = A ++ [] :: B' /\ expand octal B' = Some B /\ B' <> []) as (B' & E1 & E2 & NB).
      { unfold expand in E. destruct (existsb (Z.eqb 46) (last (split 58 t) [])) eqn:X.
        - destruct (parse4 octal (last (split 58 t) [])) as [q|] eqn:Q; [|discriminate]. injection E as E. destruct (sparts_len B l2 SB) as [[-> ->]|(_ & NB & _ & F)].
          + exfalso. apply C113_ipv4 in Q. apply (f_equal (fun l => last l [])) in E. rewrite last_app in E by discriminate. change (A ++ [[]; []]) with (A ++ [[]] ++ [[]]) in E. rewrite app_assoc, last_app in E by discriminate. cbn [last] in E.
            apply quad_groups in Q. inversion Q as [|? ? ? ? _ Q2]; subst. inversion Q2 as [|? ? ? ? G _]; subst. apply group_full in G. rewrite E in G. discriminate.
          + assert (exists B0 x y, B = B0 ++ [x; y]) as (B0 & x & y & ->).
            { destruct B as [|x0 B] using rev_ind; [congruence|]. clear IHB. destruct B as [|y0 B] using rev_ind; [|clear IHB; exists B, y0, x0; rewrite <- app_assoc; reflexivity].
              exfalso. cbn [app] in E. apply (f_equal (fun l => last (removelast l) [])) in E. change (A ++ [[]; x0]) with (A ++ [[]] ++ [x0]) in E. rewrite app_assoc in E. rewrite removelast_last in E.
              rewrite last_app in E by discriminate. rewrite removelast_app in E by discriminate. cbn [removelast] in E. rewrite last_app in E by discriminate. cbn [last] in E.
              apply C113_ipv4, quad_groups in Q. inversion Q as [|? ? ? ? G _]; subst. apply group_full in G. rewrite E in G. discriminate. }
            change ([] :: B0 ++ [x; y]) with (([] :: B0) ++ [x; y]) in E. rewrite app_assoc in E.
            assert (removelast (split 58 t) = A ++ [] :: B0 /\ [print_int 16 (q / 65536); print_int 16 (q mod 65536)] = [x; y]) as [E1 E2].
            { exact (two_tail _ _ _ _ _ _ E). }
            exists (B0 ++ [last (split 58 t) []]). split; [|split; [|destruct B0; discriminate]].
            * transitivity (removelast (split 58 t) ++ [last (split 58 t) []]); [exact (app_removelast_last [] N)|]. rewrite E1, <- app_assoc. reflexivity.
            * rewrite expand_app by discriminate. rewrite expand_one, X, Q, E2. reflexivity.
        - injection E as E. exists B. split; [exact E|]. split; [|exact (sparts_ne _ _ SB)]. unfold expand. rewrite E in X. change ([] :: B) with ([[]] ++ B) in X. rewrite app_assoc, last_app in X by exact (sparts_ne _ _ SB). rewrite X. reflexivity. }
      assert (Forall (fun p => ~ In 58 p) A /\ Forall (fun p => ~ In 58 p) B') as [FA FB].
      { pose proof (split_parts 58 t) as F. rewrite E1 in F. apply Forall_app in F. destruct F as [FA F]. inversion F; subst. auto. }
      exists (join 58 A), (join 58 B'), l1, l2, k. split; [|split; [|split; [|exact H]]].
      * rewrite <- (join_split 58 t), E1. rewrite join_app; [|exact (sparts_ne _ _ SA)|discriminate]. rewrite join_cons by exact NB. reflexivity.
      * apply sparts_plain. rewrite split_join; [exact SA|exact (sparts_ne _ _ SA)|exact FA].
      * apply sparts_quad. exists B. rewrite split_join; [split; [exact E2|exact SB]|exact NB|exact FB].
  - intros [(l & G & L & ->)|(hi & lo & l1 & l2 & k & -> & SH & SL & H)].
    + apply gparts_spec in G. pose proof G as G2. apply gparts_expand in G2; [|exact N]. destruct G2 as (P & E & F). rewrite E. destruct (Nat.ltb_spec (length (split 58 t)) 3) as [X|_]; [|apply core_spec; left; exists l; auto].
      exfalso. assert (length l <= S (length (split 58 t)))%nat as M; [|lia]. clear -G. induction G; cbn; lia.
    + rewrite split_app. change (split 58 (58 :: lo)) with ([] :: split 58 lo). apply sparts_plain in SH. apply sparts_quad in SL. destruct SL as (P & E & SP). clear N.
      change ([] :: split 58 lo) with ([[]] ++ split 58 lo). rewrite app_assoc, expand_app, E by apply split_ne. cbn [option_map].
      match goal with |- context [Nat.ltb ?a 3] => destruct (Nat.ltb_spec a 3) as [X|_] end.
      * exfalso. rewrite !app_length in X. pose proof (split_ne 58 hi). pose proof (split_ne 58 lo). destruct (split 58 hi); [congruence|]. destruct (split 58 lo); [congruence|]. cbn in X. lia.
      * apply core_spec. right. exists (split 58 hi), P, l1, l2, k. rewrite <- app_assoc. auto.
Qed.
(** ** Both families *)
Lemma group_seq_colon q t l : group_seq octal q t l -> (2 < length l)%nat -> In 58 t.
Proof. intros [t' n G|t' z Q D|t' n t'' l' G S] L; [cbn in L; lia|cbn in L; lia|]. apply in_or_app. right. left. reflexivity. Qed.
Lemma denotes6_colon t z : denotes6 octal t z -> In 58 t.
Proof.
  intros [(l & G & L & _)|(hi & lo & l1 & l2 & k & -> & _)]; [apply (group_seq_colon true t l G); lia|]. apply in_or_app. right. left. reflexivity.
Qed.
Lemma denotes_apart t z z' : denotes4 octal t z -> denotes6 octal t z' -> False.
Proof. intros D D'. apply denotes6_colon in D'. exact (quad_no t z 58 D not_colon ltac:(lia) D'). Qed.
Lemma fold_range l : forall n k, 0 <= n < 2 ^ (16 * Z.of_nat k) -> Forall (fun g => 0 <= g < 2 ^ 16) l -> 0 <= fold_left step16 l n < 2 ^ (16 * Z.of_nat (k + length l)).
Proof.
  induction l as [|g l IH]; intros n k R F; cbn [fold_left length]; [rewrite Nat.add_0_r; exact R|]. inversion F as [|? ? G F']; subst.
  replace (k + S (length l))%nat with (S k + length l)%nat by lia. apply IH; [|exact F']. unfold step16. rewrite Nat2Z.inj_succ.
  replace (16 * Z.succ (Z.of_nat k)) with (16 * Z.of_nat k + 16) by lia. rewrite Z.pow_add_r by lia. nia.
Qed.
Lemma value_range l : length l = 8%nat -> Forall (fun g => 0 <= g < 2 ^ 16) l -> 0 <= value l < 2 ^ 128.
Proof. intros L F. rewrite value_step. pose proof (fold_range l 0 0 ltac:(cbn; lia) F) as H. rewrite L in H. exact H. Qed.
Lemma group_seq_range q t l : group_seq octal q t l -> Forall (fun g => 0 <= g < 2 ^ 16) l.
Proof.
  induction 1 as [t n G|t z Q D|t n t' l G S IH].
  - constructor; [exact (group_range t n G)|constructor].
  - apply denotes4_range in D. constructor; [split; [apply Z.div_pos; lia|apply Z.div_lt_upper_bound; lia]|]. constructor; [|constructor]. apply Z.mod_pos_bound. lia.
  - constructor; [exact (group_range t n G)|exact IH].
Qed.
Lemma some_groups_range q t l : some_groups octal q t l -> Forall (fun g => 0 <= g < 2 ^ 16) l.
Proof. intros [[_ ->]|H]; [constructor|exact (group_seq_range q t l H)]. Qed.
Lemma denotes6_range t z : denotes6 octal t z -> 0 <= z < 2 ^ 128.
Proof.
  intros [(l & G & L & ->)|(hi & lo & l1 & l2 & k & -> & S1 & S2 & L & _ & ->)].
  - apply value_range; [exact L|exact (group_seq_range true t l G)].
  - apply value_range; [rewrite !app_length, repeat_length; lia|]. apply Forall_app. split; [exact (some_groups_range _ _ _ S1)|]. apply Forall_app. split; [|exact (some_groups_range _ _ _ S2)].
    apply Forall_forall. intros g I. apply repeat_spec in I. lia.
Qed.
Lemma digit_hex c : digit c -> hex c. Proof. unfold hex. auto. Qed.
Lemma denotes4_addr t z : denotes4 octal t z -> some_of addr_char t.
Proof.
  intros D. destruct (denotes4_chars t z D) as (F & _ & N). split; [exact N|]. eapply Forall_impl; [|exact F]. unfold addr_char. intros c [X|X]; [left; apply digit_hex, X|auto].
Qed.
Lemma group_seq_addr q t l : group_seq octal q t l -> some_of addr_char t.
Proof.
  assert (forall t n, group t n -> some_of addr_char t) as K.
  { intros t' n G. destruct (group_chars t' n G) as [N F]. split; [exact N|]. eapply Forall_impl; [|exact F]. unfold addr_char. auto. }
  induction 1 as [t n G|t z Q D|t n t' l G S [N IH]]; [exact (K t n G)|exact (denotes4_addr t z D)|]. destruct (K t n G) as [N' F]. split; [destruct t; discriminate|].
  apply Forall_app. split; [exact F|]. constructor; [right; right; reflexivity|exact IH].
Qed.
Lemma denotes6_addr t z : denotes6 octal t z -> some_of addr_char t.
Proof.
  assert (forall q t l, some_groups octal q t l -> Forall addr_char t) as K by (intros q t' l [[-> _]|H]; [constructor|exact (proj2 (group_seq_addr q t' l H))]).
  intros [(l & G & L & ->)|(hi & lo & l1 & l2 & k & -> & S1 & S2 & _)]; [exact (group_seq_addr true t l G)|]. split; [destruct hi; discriminate|].
  apply Forall_app. split; [exact (K _ _ _ S1)|]. constructor; [right; right; reflexivity|]. constructor; [right; right; reflexivity|exact (K _ _ _ S2)].
Qed.
Lemma denotes_addr t a : denotes octal t a -> some_of addr_char t.
Proof. destruct a as [[] z]; [apply denotes4_addr|apply denotes6_addr]. Qed.
Lemma denotes_real t a : denotes octal t a -> real_address a.
Proof. unfold real_address. destruct a as [[] z]; cbn [denotes fst snd]; [apply denotes4_range|apply denotes6_range]. Qed.
Lemma addr_slash t : some_of addr_char t -> ~ In 47 t.
Proof. intros [_ F] I. rewrite Forall_forall in F. specialize (F 47 I). unfold addr_char, hex, digit in F. lia. Qed.
(** C113: a text is accepted as an address exactly if it is one, and stands for one address only *)
Theorem C113_address : forall t a, address_of octal t = Some a <-> denotes octal t a.
Proof.
  intros t a. unfold address_of. destruct (parse4 octal t) as [z|] eqn:E4.
  - apply C113_ipv4 in E4. split; [intros [= <-]; exact E4|]. destruct a as [[] z']; cbn [denotes]; intros D.
    + apply C113_ipv4 in D, E4. congruence.
    + exfalso. exact (denotes_apart t z z' E4 D).
  - destruct (parse6 octal t) as [z|] eqn:E6.
    + apply C113_ipv6 in E6. split; [intros [= <-]; exact E6|]. destruct a as [[] z']; cbn [denotes]; intros D.
      * exfalso. exact (denotes_apart t z' z D E6).
      * apply C113_ipv6 in D, E6. congruence.
    + split; [discriminate|]. destruct a as [[] z']; cbn [denotes]; intros D; [apply C113_ipv4 in D|apply C113_ipv6 in D]; congruence.
Qed.
Theorem C113_one_address : forall t a b, denotes octal t a -> denotes octal t b -> a = b /\ real_address a.
Proof. intros t a b A B. split; [apply C113_address in A, B; congruence|exact (denotes_real t a A)]. Qed.

(** ** Printing *)
Lemma print_octet n : 0 <= n <= 255 -> octet_text octal (print_int 10 n) n.
Proof.
  intros R. destruct (print_dec n ltac:(lia)) as (D & S & Z0). unfold octet_text. split; [exact S|]. split; [unfold print_int; apply (digits_len 10 ltac:(lia) _ 2); cbn; lia|].
  split; [symmetry; exact D|]. split; [lia|]. intros H L. specialize (Z0 H). lia.
Qed.
Lemma text4_denotes z : 0 <= z < 2 ^ 32 -> denotes4 octal (text4 z) z.
Proof.
  intros R. unfold text4, denotes4. cbn [map]. do 8 eexists. split; [reflexivity|].
  do 4 (split; [apply print_octet; match goal with |- 0 <= ?x mod 256 <= 255 => pose proof (Z.mod_pos_bound x 256 ltac:(lia)); lia end|]).
  pose proof (Z.div_mod z 256 ltac:(lia)). pose proof (Z.div_mod (z / 2 ^ 8) 256 ltac:(lia)). pose proof (Z.div_mod (z / 2 ^ 16) 256 ltac:(lia)).
  assert (z / 2 ^ 8 / 256 = z / 2 ^ 16) by (rewrite Z.div_div by lia; reflexivity). assert (z / 2 ^ 16 / 256 = z / 2 ^ 24) by (rewrite Z.div_div by lia; reflexivity).
  assert ((z / 2 ^ 24) mod 256 = z / 2 ^ 24) by (apply Z.mod_small; split; [apply Z.div_pos; lia|apply Z.div_lt_upper_bound; lia]). change (z / 256) with (z / 2 ^ 8) in *. lia.
Qed.
(** the run that [compress] replaces consists of zeros *)
Definition zero_text (P : list text) (s n : nat) : Prop := (s + n <= length P)%nat /\ forall j, (s <= j < s + n)%nat -> nth j P [] = [48].
Lemma is48 (h : text) : (match h with [48] => true | _ => false end) = true <-> h = [48].
Proof.
  split; [|intros ->; reflexivity]. intros H. destruct h as [|c [|c' h]]; [discriminate| |exfalso; destruct c as [|p|p]; try discriminate H; repeat (destruct p as [p|p|]; try discriminate H)].
  destruct c as [|p|p]; try discriminate H. repeat (destruct p as [p|p|]; try discriminate H). reflexivity.
Qed.
Lemma scan_spec L : forall l i r, L = firstn i L ++ l -> i = length (firstn i L) ->
  zero_text L (best_start r) (best_len r) -> zero_text L (cur_start r) (cur_len r) -> (cur_len r <> 0%nat -> cur_start r + cur_len r = i)%nat ->
  zero_text L (best_start (scan i l r)) (best_len (scan i l r)).
Proof.
  induction l as [|h l IH]; intros i r E EI B C CE; [exact B|]. cbn [scan].
  assert (i < length L)%nat as LI by (rewrite E, app_length; cbn; lia).
  assert (nth i L [] = h) as NI by (rewrite E, app_nth2 by lia; rewrite <- EI, Nat.sub_diag; reflexivity).
  assert (L = firstn (S i) L ++ l) as E'.
  { rewrite E at 2. rewrite firstn_app, <- EI. replace (S i - i)%nat with 1%nat by lia. change (firstn 1 (h :: l)) with [h]. rewrite firstn_firstn. replace (Nat.min (S i) i) with i by lia. rewrite <- app_assoc. exact E. }
  assert (S i = length (firstn (S i) L)) as EI' by (rewrite firstn_length; lia).
  destruct (match h with [48] => true | _ => false end) eqn:H.
  - apply is48 in H. assert (zero_text L (if Nat.eqb (cur_len r) 0 then i else cur_start r) (S (cur_len r)) /\ ((if Nat.eqb (cur_len r) 0 then i else cur_start r) + S (cur_len r) = S i)%nat) as [C' CE'].
    { destruct (Nat.eqb_spec (cur_len r) 0) as [Z0|NZ].
      - rewrite Z0. split; [|lia]. split; [lia|]. intros j J. replace j with i by lia. congruence.
      - specialize (CE NZ). split; [|lia]. split; [lia|]. intros j J. destruct (Nat.eq_dec j i) as [->|]; [congruence|]. apply C. lia. }
    destruct (Nat.ltb (best_len r) (S (cur_len r))); apply IH; try exact E'; try exact EI'; cbn [best_start best_len cur_start cur_len]; try assumption; intros _; exact CE'.
  - apply IH; try exact E'; try exact EI'; cbn [best_start best_len cur_start cur_len]; [exact B|split; [lia|intros j J; lia]|congruence].
Qed.
Lemma zero_run : forall (hs : list Z) P s n, Forall2 group P hs -> zero_text P s n -> hs = firstn s hs ++ repeat 0 n ++ skipn (s + n) hs.
Proof.
  assert (forall t g, group t g -> t = [48] -> g = 0) as Z0 by (intros t g G ->; apply parse_hextet_spec in G; cbn in G; congruence).
  intros hs P s. revert hs P. induction s as [|s IHs]; intros hs P n F.
  - cbn [firstn app Nat.add]. revert hs P F. induction n as [|n IHn]; intros hs P F [L H]; [reflexivity|]. destruct F as [|t g P hs G F]; [cbn in L; lia|]. cbn [repeat skipn app].
    assert (g = 0) as -> by (apply (Z0 t g G), (H 0%nat); lia). f_equal. apply (IHn hs P F). split; [cbn in L; lia|]. intros j J. apply (H (S j)). lia.
  - intros [L H]. destruct F as [|t g P hs G F]; [cbn in L; lia|]. cbn [firstn app Nat.add skipn]. f_equal. apply (IHs hs P n F). split; [cbn in L; lia|]. intros j J. apply (H (S j)). lia.
Qed.
Lemma Forall2_firstn {A B} (R : A -> B -> Prop) : forall n l l', Forall2 R l l' -> Forall2 R (firstn n l) (firstn n l').
Proof. induction n as [|n IH]; intros l l' F; [constructor|]. destruct F; cbn [firstn]; constructor; auto. Qed.
Lemma Forall2_skipn {A B} (R : A -> B -> Prop) : forall n l l', Forall2 R l l' -> Forall2 R (skipn n l) (skipn n l').
Proof. induction n as [|n IH]; intros l l' F; [exact F|]. destruct F; cbn [skipn]; [constructor|auto]. Qed.
Lemma hextets_value z : 0 <= z < 2 ^ 128 -> value (hextets z) = z.
Proof.
  intros R. unfold value, hextets. cbn [map fold_left].
  assert (forall k, 0 <= k -> z / 2 ^ (16 * k) = z / 2 ^ (16 * (k + 1)) * 2 ^ 16 + z / 2 ^ (16 * k) mod 65536) as S.
  { intros k K. pose proof (Z.div_mod (z / 2 ^ (16 * k)) 65536 ltac:(lia)) as D. rewrite Z.div_div in D by lia. replace (16 * (k + 1)) with (16 * k + 16) by lia. rewrite Z.pow_add_r by lia. change (2 ^ 16) with 65536. lia. }
  assert (z / 2 ^ (16 * 8) = 0) as E8 by (apply Z.div_small; exact R). assert (z / 2 ^ (16 * 0) = z) as E0 by apply Z.div_1_r.
  pose proof (S 0 ltac:(lia)) as S0. pose proof (S 1 ltac:(lia)) as S1. pose proof (S 2 ltac:(lia)) as S2. pose proof (S 3 ltac:(lia)) as S3.
  pose proof (S 4 ltac:(lia)) as S4. pose proof (S 5 ltac:(lia)) as S5. pose proof (S 6 ltac:(lia)) as S6. pose proof (S 7 ltac:(lia)) as S7.
  change (0 + 1) with 1 in *. change (1 + 1) with 2 in *. change (2 + 1) with 3 in *. change (3 + 1) with 4 in *. change (4 + 1) with 5 in *. change (5 + 1) with 6 in *. change (6 + 1) with 7 in *. change (7 + 1) with 8 in *.
  rewrite Z.mul_0_l, Z.add_0_l. rewrite E8, Z.mul_0_l, Z.add_0_l in S7. rewrite <- S7, <- S6, <- S5, <- S4, <- S3, <- S2, <- S1, <- S0. exact E0.
Qed.
Lemma hextets_groups z : Forall2 group (map (print_int 16) (hextets z)) (hextets z).
Proof.
  unfold hextets. rewrite map_map. generalize [7; 6; 5; 4; 3; 2; 1; 0]. intros ks. induction ks as [|k ks IH]; cbn [map]; constructor; [|exact IH]. apply print_group. apply Z.mod_pos_bound. lia.
Qed.
Lemma groups_no P l : Forall2 group P l -> Forall (fun p => ~ In 58 p) P.
Proof. induction 1 as [|t n P l G F IH]; constructor; [exact (group_no t n 58 G hex_colon)|exact IH]. Qed.
Lemma sparts_no P l : sparts P l -> Forall (fun p => ~ In 58 p) P.
Proof. intros [[-> _]|[_ F]]; [constructor; [intros []|constructor]|exact (groups_no P l F)]. Qed.
Lemma text6_denotes z : 0 <= z < 2 ^ 128 -> denotes6 octal (text6 z) z.
Proof.
  intros R. pose proof (hextets_value z R) as V. pose proof (hextets_groups z) as G. unfold text6. set (P := map (print_int 16) (hextets z)) in *. set (hs := hextets z) in *.
  assert (length hs = 8%nat) as L8 by reflexivity. clearbody P hs. pose proof (groups_len P hs G) as LP. unfold compress.
  assert (zero_text P (best_start (scan 0 P (Runs 0 0 0 0))) (best_len (scan 0 P (Runs 0 0 0 0)))) as ZT.
  { apply scan_spec; try reflexivity; cbn [best_start best_len cur_start cur_len]; try (split; [lia|intros j J; lia]). }
  destruct (scan 0 P (Runs 0 0 0 0)) as [s n cs cn]. cbn [best_start best_len] in *. destruct (Nat.ltb_spec 1 n) as [N|N].
  - right. pose proof (zero_run hs P s n G ZT) as H. destruct ZT as [LE _].
    set (A := (if Nat.eqb s 0 then [[]] else firstn s P) : list text). set (B := (if Nat.eqb (s + n) (length P) then [[]] else skipn (s + n) P) : list text).
    assert (((if Nat.eqb s 0 then [[]] else []) ++ firstn s P ++ [[]] ++ skipn (s + n) P ++ (if Nat.eqb (s + n) (length P) then [[]] else []) : list text) = A ++ [[]] ++ B) as EQ.
    { unfold A, B. destruct (Nat.eqb_spec s 0) as [->|NS]; cbn [firstn app].
      - destruct (Nat.eqb_spec (0 + n) (length P)) as [->|]; [rewrite skipn_all; reflexivity|rewrite app_nil_r; reflexivity].
      - destruct (Nat.eqb_spec (s + n) (length P)) as [->|]; [rewrite skipn_all; reflexivity|rewrite app_nil_r; reflexivity]. }
    change (list (list Z)) with (list text) in *. rewrite EQ.
    assert (sparts A (firstn s hs)) as SA.
    { unfold A. destruct (Nat.eqb_spec s 0) as [->|NS]; [left; auto|right]. split; [|apply Forall2_firstn, G]. intros X. apply (f_equal (@length text)) in X. rewrite firstn_length in X. cbn in X. lia. }
    assert (sparts B (skipn (s + n) hs)) as SB.
    { unfold B. destruct (Nat.eqb_spec (s + n) (length P)) as [X|NX]; [left; split; [reflexivity|]; apply skipn_all2; lia|right]. split; [|apply Forall2_skipn, G].
      intros X. apply (f_equal (@length text)) in X. rewrite skipn_length in X. cbn in X. lia. }
    clearbody A B. exists (join 58 A), (join 58 B), (firstn s hs), (skipn (s + n) hs), n. split; [|split; [|split; [|split; [|split; [lia|]]]]].
    + rewrite join_app; [|exact (sparts_ne _ _ SA)|discriminate]. cbn [app]. rewrite join_cons by exact (sparts_ne _ _ SB). reflexivity.
    + apply sparts_plain. rewrite split_join; [exact SA|exact (sparts_ne _ _ SA)|exact (sparts_no _ _ SA)].
    + apply sparts_quad. exists B. rewrite split_join; [|exact (sparts_ne _ _ SB)|exact (sparts_no _ _ SB)]. split; [|exact SB]. unfold expand. rewrite no_dot; [reflexivity|].
      destruct SB as [[-> _]|[NB F]]; [intros []|]. clear -F. induction F as [|t g P l G F IH]; [intros []|]. destruct F; [cbn [last]; exact (group_no t g 46 G hex_dot)|exact IH].
    + rewrite firstn_length, skipn_length. lia.
    + rewrite <- H. symmetry. exact V.
  - left. exists hs. split; [|split; [exact L8|symmetry; exact V]]. apply gparts_spec. assert (P <> []) as NP by (intros ->; cbn in LP; lia). rewrite split_join; [|exact NP|exact (groups_no P hs G)]. apply gparts_expand; [exact NP|].
    exists P. split; [|exact G]. unfold expand. rewrite no_dot; [reflexivity|]. clear -G. induction G as [|t g P l G F IH]; [intros []|]. destruct F; [cbn [last]; exact (group_no t g 46 G hex_dot)|exact IH].
Qed.
(** C113: an address printed is read back, and different addresses are printed differently *)
Theorem C113_printed : forall a, real_address a -> denotes octal (text_of a) a /\ address_of octal (text_of a) = Some a.
Proof.
  intros [v z] R. assert (denotes octal (text_of (v, z)) (v, z)) as D by (destruct v; [exact (text4_denotes z R)|exact (text6_denotes z R)]). split; [exact D|]. apply C113_address. exact D.
Qed.
Theorem C113_printed_differently : forall a b, real_address a -> real_address b -> text_of a = text_of b -> a = b.
Proof. intros a b RA RB E. destruct (C113_printed a RA) as [_ A], (C113_printed b RB) as [_ B]. rewrite E in A. congruence. Qed.

(** ** Networks *)
Section Net.
Variable dotted : text -> option Z.
Hypothesis masks : forall m n, dotted m = Some n -> 0 <= n <= 32 /\ Forall (fun c => digit c \/ c = 46) m.
Lemma split_count c t : length (split c t) = S (length (filter (Z.eqb c) t)).
Proof.
  induction t as [|x t IH]; [reflexivity|]. rewrite split_cons. cbn [filter]. rewrite Z.eqb_sym. destruct (c =? x); cbn [length]; [rewrite IH; reflexivity|].
  rewrite <- IH. pose proof (split_ne c t). destruct (split c t); [congruence|reflexivity].
Qed.
Lemma parse_len_spec v m n : parse_len v m = Some n <-> some_of digit m /\ n = decimal m /\ n <= wz v.
Proof.
  unfold parse_len. rewrite int_of_decimal. destruct (empty m || negb (forallb is_digit m)) eqn:E.
  - split; [discriminate|]. intros [H _]. apply digits_spec in H. congruence.
  - apply digits_spec in E. destruct (Z.ltb_spec (wz v) (decimal m)) as [L|L]; [split; [discriminate|intros (_ & -> & X); lia]|]. split; [intros [= <-]; auto|intros (_ & -> & _); reflexivity].
Qed.
Lemma parse_mask_spec v m n : parse_mask dotted v m = Some n <-> length_text dotted v m n.
Proof.
  unfold parse_mask, length_text. destruct v.
  - rewrite split_count. assert (some_of digit m -> filter (Z.eqb 46) m = []) as K.
    { intros [_ F]. apply filter_none. intros x I. rewrite Forall_forall in F. specialize (F x I). unfold digit in F. apply Z.eqb_neq. lia. }
    destruct (Nat.eqb_spec (S (length (filter (Z.eqb 46) m))) 4) as [E|E].
    + split; [intros H; right; split; [reflexivity|]; split; [lia|exact H]|]. intros [(D & _)|(_ & _ & H)]; [rewrite (K D) in E; discriminate|exact H].
    + rewrite parse_len_spec. split; [auto|]. intros [H|(_ & X & _)]; [exact H|lia].
  - rewrite parse_len_spec. split; [auto|]. intros [H|([=] & _)]. exact H.
Qed.
Lemma length_range v m n : length_text dotted v m n -> 0 <= n <= wz v /\ ~ In 47 m.
Proof.
  intros [((N & D) & -> & L)|(-> & _ & H)].
  - split; [split; [apply decimal_nonneg, D|exact L]|]. apply digit_not with (2 := D). unfold digit. lia.
  - destruct (masks m n H) as [R F]. split; [exact R|]. intros I. rewrite Forall_forall in F. specialize (F 47 I). unfold digit in F. lia.
Qed.
Lemma parse_net_spec v t p : parse_net octal dotted v t = Some p <-> denotes_net octal dotted t p /\ x_fam p = v.
Proof.
  assert (forall a z, (match v with V4 => parse4 octal | V6 => parse6 octal end) a = Some z <-> denotes octal a (v, z)) as PA by (intros a z; destruct v; [apply C113_ipv4|apply C113_ipv6]).
  unfold parse_net. split.
  - intros H. pose proof (join_split 47 t) as J. destruct (split 47 t) as [|a [|m [|? ?]]]; try discriminate.
    + destruct (_ a) as [z|] eqn:Z0 in H; [|discriminate]. injection H as <-. apply PA in Z0. cbn in J. subst a. split; [left; split; [exact Z0|reflexivity]|reflexivity].
    + destruct (_ a) as [z|] eqn:Z0 in H; [|discriminate]. apply PA in Z0. destruct (parse_mask dotted v m) as [n|] eqn:M; [|discriminate]. apply parse_mask_spec in M.
      destruct (Z.eqb_spec (mask_to v n z) z) as [E|]; [|discriminate]. injection H as <-. split; [|reflexivity]. right. exists a, m. cbn [x_fam x_net x_len]. split; [symmetry; exact J|]. split; [exact Z0|]. split; [exact M|].
      unfold aligned. apply mask_to_spec; [exact (proj1 (length_range v m n M))|]. apply Z.eqb_eq. exact E.
  - intros [H <-]. destruct p as [v z n]. cbn [x_fam x_net x_len] in *. destruct H as [[D E]|(a & m & -> & D & M & A)]; cbn [x_fam x_net x_len] in *.
    + rewrite split_none by (apply addr_slash, (denotes_addr t (v, z) D)). apply PA in D. rewrite D, E. reflexivity.
    + destruct (length_range v m n M) as [R N]. rewrite split_app, (split_none 47 a), (split_none 47 m) by (exact N || apply addr_slash, (denotes_addr a (v, z) D)). cbn [app].
      apply PA in D. rewrite D. apply parse_mask_spec in M. rewrite M. unfold aligned in A. apply mask_to_spec in A; [|exact R]. rewrite A. reflexivity.
Qed.
Lemma denotes_net_wf t p : denotes_net octal dotted t p -> wf_pfx p.
Proof.
  intros H. unfold wf_pfx. destruct H as [[D E]|(a & m & -> & D & M & A)]; pose proof (denotes_real _ _ D) as R; unfold real_address in R; cbn [fst snd] in R.
  - rewrite E. unfold aligned. rewrite Z.sub_diag. split; [|split; [exact R|]]; [destruct (x_fam p); cbn; lia|]. change (2 ^ 0) with 1. apply Z.mod_1_r.
  - destruct (length_range _ _ _ M) as [L _]. auto.
Qed.
Lemma denotes_net_apart t p q : denotes_net octal dotted t p -> denotes_net octal dotted t q -> x_fam p = x_fam q.
Proof.
  assert (forall t p, denotes_net octal dotted t p -> exists a, denotes octal a (x_fam p, x_net p) /\ hd [] (split 47 t) = a) as K.
  { intros t' p' [[D _]|(a & m & -> & D & _)].
    - exists t'. split; [exact D|]. rewrite split_none by (apply addr_slash, (denotes_addr t' _ D)). reflexivity.
    - exists a. split; [exact D|]. rewrite split_app, (split_none 47 a) by (apply addr_slash, (denotes_addr a _ D)). reflexivity. }
  intros P Q. destruct (K t p P) as (a & D & E), (K t q Q) as (b & D' & E'). rewrite E in E'. subst b. destruct (C113_one_address a _ _ D D') as [X _]. congruence.
Qed.
(** C113: a text is accepted as a network exactly if it is one; it is then a network without host bits *)
Theorem C113_network : forall t p, network_of octal dotted t = Some p <-> denotes_net octal dotted t p.
Proof.
  intros t p. unfold network_of. destruct (parse_net octal dotted V4 t) as [q|] eqn:E4.
  - split; [intros [= <-]; apply parse_net_spec in E4; tauto|]. intros D. pose proof E4 as H. apply parse_net_spec in H. destruct H as [D' F]. pose proof (denotes_net_apart t p q D D') as X.
    rewrite F in X. assert (parse_net octal dotted V4 t = Some p) by (apply parse_net_spec; auto). congruence.
  - split; [intros H; apply parse_net_spec in H; tauto|]. intros D. destruct (x_fam p) eqn:F.
    + assert (parse_net octal dotted V4 t = Some p) by (apply parse_net_spec; auto). congruence.
    + apply parse_net_spec. auto.
Qed.
Theorem C113_network_wf : forall t p, network_of octal dotted t = Some p -> wf_pfx p.
Proof. intros t p H. apply C113_network in H. exact (denotes_net_wf t p H). Qed.
Theorem C113_network_printed : forall p, wf_pfx p -> denotes_net octal dotted (net_text p) p /\ network_of octal dotted (net_text p) = Some p.
Proof.
  intros p W. destruct W as (L & R & A). assert (denotes_net octal dotted (net_text p) p) as D; [|split; [exact D|apply C113_network; exact D]].
  right. exists (text_of (x_fam p, x_net p)), (print_int 10 (x_len p)). split; [reflexivity|]. split; [exact (proj1 (C113_printed (x_fam p, x_net p) R))|]. split; [|exact A].
  left. destruct (print_dec (x_len p) ltac:(lia)) as (D & S & _). split; [exact S|]. split; [symmetry; exact D|lia].
Qed.
Theorem C113_networks_printed_differently : forall p q, wf_pfx p -> wf_pfx q -> net_text p = net_text q -> p = q.
Proof. intros p q WP WQ E. destruct (C113_network_printed p WP) as [_ P], (C113_network_printed q WQ) as [_ Q]. rewrite E in P. congruence. Qed.
End Net.
End P.

(** ** Identifiers of xTRs *)
(** C113: the names under which registrations of different xTRs are stored are different, and none of them is the text of an address *)
Theorem C113_xtr_names : forall s x s' x', 0 <= s -> 0 <= x -> 0 <= s' -> 0 <= x' -> xtr_text s x = xtr_text s' x' -> s = s' /\ x = x'.
Proof.
  intros s x s' x' S X S' X' E. unfold xtr_text in E.
  assert (forall n, 0 <= n -> ~ In 45 (print_int 16 n)) as N.
  { intros n P I. destruct (print_hex n P) as [_ F]. rewrite Forall_forall in F. specialize (F 45 I). cbn in F. lia. }
  apply (f_equal (split 45)) in E. rewrite !split_app, !split_none in E by auto. injection E as E1 E2.
  assert (forall n m, 0 <= n -> 0 <= m -> print_int 16 n = print_int 16 m -> n = m) as J.
  { intros n m P Q H. destruct (print_hex n P) as [A _], (print_hex m Q) as [B _]. apply hex_int_number in A, B. rewrite H in A. destruct A as [_ A], B as [_ B]. congruence. }
  split; apply J; assumption.
Qed.
Theorem C113_xtr_no_address : forall s x a, real_address a -> xtr_text s x <> text_of a.
Proof.
  intros s x a R E. destruct (C113_printed (fun _ => true) a R) as [D _]. apply denotes_addr in D. destruct D as [_ F]. rewrite <- E in F. unfold xtr_text in F. apply Forall_app in F. destruct F as [_ F].
  inversion F as [|? ? H _]; subst. unfold addr_char, hex, digit in H. lia.
Qed.

(** ** DDT root files *)
Section Root.
Variable octal : text -> bool.
Variable dotted : text -> option Z.
Hypothesis masks : forall m n, dotted m = Some n -> 0 <= n <= 32 /\ Forall (fun c => digit c \/ c = 46) m.
(** C113: what a line of a DDT root file says, down to the characters *)
Theorem C113_line : forall raw iid afi p x,
  read_line (address_of octal) (network_of octal dotted) raw = Ok (Some (Line iid afi p x)) <-> says_text octal dotted raw iid afi p x.
Proof.
  intros raw iid afi p x. rewrite (proj1 (proj2 (C105_line (address_of octal) (network_of octal dotted) raw))). unfold says, says_text. split.
  - intros (i & a & pt & xt & z & F & A & [= -> -> -> ->]). exists i, a, pt, xt. split; [exact F|]. split; [reflexivity|]. split; [reflexivity|]. split; [apply C113_address, A|].
    destruct (network_of octal dotted pt) as [q|] eqn:N; [apply C113_network; assumption|]. intros q D. apply C113_network in D; [congruence|exact masks].
  - intros (i & a & pt & xt & F & -> & -> & A & P). exists i, a, pt, xt, x. split; [exact F|]. split; [apply C113_address, A|]. f_equal. destruct p as [q|].
    + symmetry. apply C113_network; assumption.
    + destruct (network_of octal dotted pt) as [q|] eqn:N; [|reflexivity]. apply C113_network in N; [|exact masks]. destruct (P q N).
Qed.
Lemma net_text_chars p : wf_pfx p -> some_of pfx_char (net_text p).
Proof.
  intros (L & R & A). unfold net_text. split; [destruct (text_of (x_fam p, x_net p)); discriminate|]. apply Forall_app. split.
  - destruct (C113_printed octal (x_fam p, x_net p) R) as [D _]. apply denotes_addr in D. destruct D as [_ F]. eapply Forall_impl; [|exact F]. unfold pfx_char. auto.
  - constructor; [right; reflexivity|]. destruct (print_dec (x_len p) ltac:(lia)) as (_ & [_ F] & _). eapply Forall_impl; [|exact F]. unfold pfx_char, addr_char. intros c D. left. left. apply digit_hex, D.
Qed.
Lemma written_says e : entry_ok e -> read_line (address_of octal) (network_of octal dotted) (written_line (print_int 10) text_of net_text e) = Ok (Some (entry_line e)).
Proof.
  destruct e as [[[iid afi] p] x]. intros (I & A & W & R). cbn [entry_line]. apply C113_line.
  destruct (print_dec iid I) as (DI & SI & _), (print_dec afi A) as (DA & SA & _). destruct (C113_printed octal x R) as [X _].
  exists (print_int 10 iid), (print_int 10 afi), (net_text p), (text_of x). split.
  - exists [], [32], [32], [32], [10], []. cbn [written_line]. split; [rewrite !app_nil_r; reflexivity|].
    assert (forall c, white c -> some_of white [c]) as Wc by (intros c Hc; split; [discriminate|constructor; [exact Hc|constructor]]).
    split; [constructor|]. do 3 (split; [apply Wc; left; reflexivity|]). split; [constructor; [right; lia|constructor]|]. split; [left; reflexivity|]. split; [exact SI|]. split; [exact SA|].
    split; [exact (net_text_chars p W)|exact (denotes_addr octal _ _ X)].
  - split; [symmetry; exact DI|]. split; [symmetry; exact DA|]. split; [exact X|]. exact (proj1 (C113_network_printed octal dotted masks p W)).
Qed.
Lemma written_newline e : entry_ok e -> exists l, written_line (print_int 10) text_of net_text e = l ++ [10] /\ ~ In 10 l.
Proof.
  destruct e as [[[iid afi] p] x]. intros (I & A & W & R). cbn [written_line].
  exists (print_int 10 iid ++ [32] ++ print_int 10 afi ++ [32] ++ net_text p ++ [32] ++ text_of x). split; [rewrite <- !app_assoc; reflexivity|].
  destruct (print_dec iid I) as (_ & [_ SI] & _), (print_dec afi A) as (_ & [_ SA] & _). destruct (C113_printed octal x R) as [X _]. apply denotes_addr in X. destruct X as [_ FX]. destruct (net_text_chars p W) as [_ FP].
  rewrite Forall_forall in *. rewrite !in_app_iff. intros [H|[[H|[]]|[H|[[H|[]]|[H|[[H|[]]|H]]]]]]; try lia;
    [specialize (SI _ H)|specialize (SA _ H)|specialize (FP _ H)|specialize (FX _ H)]; unfold pfx_char, addr_char, hex, digit in *; lia.
Qed.
(** C113: a DDT root file written from a list of entries loads as these entries *)
Theorem C113_written : forall es, Forall entry_ok es ->
  load_file (address_of octal) (network_of octal dotted) (written (print_int 10) text_of net_text es) = load_ddt_root (map entry_line es).
Proof.
  intros es F. assert (lines_of (written (print_int 10) text_of net_text es) (map (written_line (print_int 10) text_of net_text) es)) as L.
  { unfold written. induction F as [|e es E F IH]; [constructor|]. cbn [map concat]. destruct (written_newline e E) as (l & -> & N). rewrite <- app_assoc. cbn [app]. apply lo_line; assumption. }
  apply lines_unique in L. unfold load_file, load_ddt_root. rewrite <- L.
  assert (forall s, load_raw (address_of octal) (network_of octal dotted) s (map (written_line (print_int 10) text_of net_text) es) = load_lines s (map entry_line es)) as H; [|rewrite H; reflexivity].
  clear L. induction F as [|e es E F IH]; intros s; [reflexivity|]. cbn [map load_raw load_lines]. rewrite (written_says e E). destruct (load_line s (entry_line e)) as [s' [u|x]]; [apply IH|reflexivity].
Qed.
(** C113: which DDT root files are accepted (C105 with the texts of networks and addresses) *)
Theorem C113_file_accepted : forall t ls, lines_of t ls ->
  ((exists cfg, load_file (address_of octal) (network_of octal dotted) t = Ok cfg) <->
   (exists es, file_says (address_of octal) (network_of octal dotted) ls es /\ Forall sensible es /\ no_overlap es)).
Proof. intros t ls. apply C105_accepted. exact (C113_network_wf octal dotted masks). Qed.
End Root.

(** ** Examples *)
Definition strict (t : text) : bool := false.
Definition no_mask (t : text) : option Z := None.
Example no_mask_ok : forall m n, no_mask m = Some n -> 0 <= n <= 32 /\ Forall (fun c => digit c \/ c = 46) m.
Proof. discriminate. Qed.
(* "2001:db8::1", "::ffff:1.2.3.4", "1::2::3" *)
Definition t_db8 : text := [50; 48; 48; 49; 58; 100; 98; 56; 58; 58; 49].
Definition t_map : text := [58; 58; 70; 102; 102; 102; 58; 49; 46; 50; 46; 51; 46; 52].
Definition t_two : text := [49; 58; 58; 50; 58; 58; 51].
Definition a_db8 : Z := 0x20010db8 * 2 ^ 96 + 1.
Example ex_db8 : address_of strict t_db8 = Some (V6, a_db8) /\ text_of (V6, a_db8) = t_db8 /\ denotes6 strict t_db8 a_db8 /\ real_address (V6, a_db8).
Proof. split; [vm_compute; reflexivity|]. split; [vm_compute; reflexivity|]. split; [apply C113_ipv6; vm_compute; reflexivity|]. vm_compute. split; congruence. Qed.
Example ex_map : address_of strict t_map = Some (V6, 0xffff01020304) /\ denotes6 strict t_map 0xffff01020304.
Proof. split; [vm_compute; reflexivity|apply C113_ipv6; vm_compute; reflexivity]. Qed.
Example ex_two : address_of strict t_two = None /\ forall z, ~ denotes6 strict t_two z.
Proof. split; [vm_compute; reflexivity|]. intros z D. apply C113_ipv6 in D. vm_compute in D. discriminate. Qed.
(* "010.0.0.1": an octet with a leading zero *)
Example ex_octal : address_of strict [48; 49; 48; 46; 48; 46; 48; 46; 49] = None /\ address_of (fun _ => true) [48; 49; 48; 46; 48; 46; 48; 46; 49] = Some (V4, 167772161).
Proof. split; vm_compute; reflexivity. Qed.
(* "10.0.0.0/8", "10.0.0.1/8", "10.0.0.1", "10.0.0.0/33" *)
Example ex_p8 : network_of strict no_mask ex_p = Some p8 /\ net_text p8 = ex_p /\ network_of strict no_mask [49; 48; 46; 48; 46; 48; 46; 49; 47; 56] = None /\
  network_of strict no_mask [49; 48; 46; 48; 46; 48; 46; 49] = Some (Pfx V4 167772161 32) /\ network_of strict no_mask [49; 48; 46; 48; 46; 48; 46; 48; 47; 51; 51] = None.
Proof. repeat split; vm_compute; reflexivity. Qed.
Example ex_written : exists cfg, load_file (address_of strict) (network_of strict no_mask) (written (print_int 10) text_of net_text [(7, 1, p8, (V4, 16909060)); (7, 1, p8, (V6, a_db8))]) = Ok cfg /\
  Forall entry_ok [(7, 1, p8, (V4, 16909060)); (7, 1, p8, (V6, a_db8))].
Proof.
  assert (Forall entry_ok [(7, 1, p8, (V4, 16909060)); (7, 1, p8, (V6, a_db8))]) as F.
  { repeat constructor; try lia; try (vm_compute; congruence); try apply p8_wf. }
  destruct (load_file (address_of strict) (network_of strict no_mask) (written (print_int 10) text_of net_text [(7, 1, p8, (V4, 16909060)); (7, 1, p8, (V6, a_db8))])) as [cfg|e] eqn:E; [exists cfg; auto|].
  exfalso. vm_compute in E. discriminate.
Qed.

Print Assumptions C113_ipv4.
Print Assumptions C113_ipv6.
Print Assumptions C113_address.
Print Assumptions C113_one_address.
Print Assumptions C113_printed.
Print Assumptions C113_printed_differently.
Print Assumptions C113_network.
Print Assumptions C113_network_wf.
Print Assumptions C113_network_printed.
Print Assumptions C113_networks_printed_differently.
Print Assumptions C113_xtr_names.
Print Assumptions C113_xtr_no_address.
Print Assumptions C113_line.
Print Assumptions C113_written.
Print Assumptions C113_file_accepted.
