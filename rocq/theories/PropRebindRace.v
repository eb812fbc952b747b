(** * Property C131: the reported source is where the datagram left from *)
From Verif Require Import Base Afi Net SpecNet PropNet RebindRace SpecRebindRace.

Lemma nth_put_same {X} n (x : X) l : (n < length l)%nat -> nth_error (put_nth n x l) n = Some x.
Proof. revert l. induction n as [|n IH]; intros [|y l] H; cbn in *; try lia; [reflexivity|apply IH; lia]. Qed.
Lemma nth_put_other {X} n (x : X) l m : m <> n -> nth_error (put_nth n x l) m = nth_error l m.
Proof. revert l m. induction n as [|n IH]; intros [|y l] [|m] H; cbn; try reflexivity; try congruence. apply IH. congruence. Qed.
Lemma put_len {X} n (x : X) l : length (put_nth n x l) = length l.
Proof. revert l. induction n as [|n IH]; intros [|y l]; cbn; auto. Qed.
Lemma nth_put {X} n (x : X) l m y : nth_error (put_nth n x l) m = Some y -> (m = n /\ y = x) \/ (m <> n /\ nth_error l m = Some y).
Proof.
  intros H. destruct (Nat.eq_dec m n) as [->|N]; [left|right; rewrite nth_put_other in H by exact N; auto]. split; [reflexivity|].
  rewrite nth_put_same in H; [congruence|]. rewrite <- (put_len n x l). apply nth_error_Some. congruence.
Qed.
Lemma nth_snoc {X} (l : list X) x m y : nth_error (l ++ [x]) m = Some y -> (m = length l /\ y = x) \/ ((m < length l)%nat /\ nth_error l m = Some y).
Proof.
  intros H. destruct (Nat.lt_ge_cases m (length l)) as [L|L]; [right; rewrite nth_error_app1 in H by exact L; auto|left].
  rewrite nth_error_app2 in H by exact L. destruct (m - length l)%nat as [|[|d]] eqn:E; cbn in H; try discriminate. injection H as <-. split; [lia|reflexivity].
Qed.

Section P.
Variable v : fam.
Notation race := (rb_race v).
Definition cur_ok (w : rbrace) : Prop :=
  match rb_main w with
  | RIdle | RClosing _ => match rb_sock w with Some o => nth_error (rb_objs w) o = Some (BoundTo (rb_addr w)) | None => True end
  | RForgetting _ | RFailForgetting => forall o, rb_sock w = Some o -> nth_error (rb_objs w) o = Some Closed
  | REmptying _ | ROpening _ | RFailEmptying => rb_sock w = None
  | RBinding _ => exists o, rb_sock w = Some o /\ (nth_error (rb_objs w) o = Some Fresh \/ nth_error (rb_objs w) o = Some Elsewhere)
  | RNaming z => exists o, rb_sock w = Some o /\ nth_error (rb_objs w) o = Some (BoundTo z)
  | RFailClosing => forall o, rb_sock w = Some o -> nth_error (rb_objs w) o = Some Fresh \/ nth_error (rb_objs w) o = Some Elsewhere
  end.
Definition target (a : rb_at) : option Z :=
  match a with RClosing z | RForgetting z | REmptying z | ROpening z | RBinding z | RNaming z => Some z | _ => None end.
Record inv (h : list rb_move) (w : rbrace) : Prop := {
  b_cur : cur_ok w;
  b_old : forall o x, nth_error (rb_objs w) o = Some x -> rb_sock w <> Some o -> x = Closed;
  b_target : forall z, target (rb_main w) = Some z -> was_address h z;
  b_usable : forall z, rb_main w = ROpening z \/ rb_main w = RBinding z -> usable v z = true;
  b_bound : forall o z, nth_error (rb_objs w) o = Some (BoundTo z) -> was_address h z /\ usable v z = true }.

Lemma was_mono h m z : was_address h z -> was_address (h ++ [m]) z. Proof. intros H. apply in_or_app. left. exact H. Qed.
(** every object that is not closed is the current one *)
Lemma alive_cur h w o x : inv h w -> nth_error (rb_objs w) o = Some x -> x <> Closed -> rb_sock w = Some o.
Proof. intros I E N. destruct (rb_sock w) as [c|] eqn:S; [destruct (Nat.eq_dec c o) as [->|D]; [reflexivity|]|]; exfalso; apply N, (b_old h w I o x E); congruence. Qed.
Lemma send_inv h w m k a : inv h w -> inv (h ++ [m]) (send_to w k a).
Proof. intros [A B C D E]. constructor; auto; [intros z H; apply was_mono, C, H|intros o z H; destruct (E o z H) as [X Y]; split; [apply was_mono, X|exact Y]]. Qed.
Lemma same_inv h w m : inv h w -> inv (h ++ [m]) w.
Proof. intros [A B C D E]. constructor; auto; [intros z H; apply was_mono, C, H|intros o z H; destruct (E o z H) as [X Y]; split; [apply was_mono, X|exact Y]]. Qed.

Lemma close_nth w o x : nth_error (close_cur w) o = Some x -> (rb_sock w = Some o /\ x = Closed) \/ (rb_sock w <> Some o /\ nth_error (rb_objs w) o = Some x).
Proof.
  unfold close_cur. destruct (rb_sock w) as [c|]; [|right; split; [discriminate|assumption]]. intros H.
  destruct (nth_put _ _ _ _ _ H) as [[-> ->]|[N E]]; [left; auto|right; split; [congruence|exact E]].
Qed.
Lemma inv_step h w m : inv h w -> inv (h ++ [m]) (rb_step v w m).
Proof.
  intros I. pose proof I as [A B C D E]. destruct m as [z|ok|k|k ok]; cbn [rb_step].
  - destruct (rb_main w) eqn:P; try (apply same_inv; exact I). destruct (z =? rb_addr w); [apply same_inv; exact I|].
    assert (In (RbStart z) (h ++ [RbStart z])) as Iz by (apply in_or_app; right; left; reflexivity).
    constructor; cbn [main_to rb_main rb_objs rb_sock rb_addr].
    + unfold cur_ok in *. cbn. rewrite P in A. exact A.
    + exact B.
    + intros y [= <-]. exact Iz.
    + intros y [X|X]; discriminate.
    + intros o y H. destruct (E o y H) as [X Y]. split; [apply was_mono, X|exact Y].
  - assert (forall o z, nth_error (rb_objs w) o = Some (BoundTo z) -> was_address (h ++ [RbGo ok]) z /\ usable v z = true) as E'.
    { intros o y H. destruct (E o y H) as [X Y]. split; [apply was_mono, X|exact Y]. }
    assert (forall o z, nth_error (close_cur w) o = Some (BoundTo z) -> was_address (h ++ [RbGo ok]) z /\ usable v z = true) as Ec.
    { intros o y H. destruct (close_nth w o _ H) as [[_ X]|[_ X]]; [discriminate|apply (E' o y X)]. }
    assert (forall z, target (rb_main w) = Some z -> was_address (h ++ [RbGo ok]) z) as C' by (intros y H; apply was_mono, C, H).
    unfold rb_goes. unfold cur_ok in A. destruct (rb_main w) as [|z|z|z|z|z|z| | |] eqn:P; cbn [target] in C'.
    + apply same_inv. exact I.
    + constructor; cbn [rb_main rb_objs rb_sock rb_addr target]; auto.
      * unfold cur_ok. cbn. intros o S. unfold close_cur. rewrite S in *. apply nth_put_same. apply nth_error_Some. rewrite A. discriminate.
      * intros o x H N. destruct (close_nth w o x H) as [[X _]|[_ X]]; [contradiction|exact (B o x X N)].
      * intros y [X|X]; discriminate.
    + constructor; cbn [rb_main rb_objs rb_sock rb_addr target]; auto.
      * reflexivity.
      * intros o x H _. destruct (rb_sock w) as [c|] eqn:S; [|apply (B o x H); discriminate]. destruct (Nat.eq_dec c o) as [->|N]; [specialize (A o eq_refl); congruence|apply (B o x H); congruence].
      * intros y [X|X]; discriminate.
    + constructor; cbn [rb_main rb_objs rb_sock rb_addr target]; auto.
      * unfold cur_ok. cbn [rb_main rb_objs rb_sock rb_addr]. destruct (usable v z); [exact A|]. intros o X. congruence.
      * intros y. destruct (usable v z); [cbn; exact (C' y)|discriminate].
      * intros y. destruct (usable v z) eqn:U; intros [X|X]; congruence.
    + destruct ok.
      * constructor; cbn [rb_main rb_objs rb_sock rb_addr target]; auto.
        -- unfold cur_ok. cbn. exists (length (rb_objs w)). split; [reflexivity|left]. rewrite nth_error_app2 by lia. rewrite Nat.sub_diag. reflexivity.
        -- intros o x H N. destruct (nth_snoc _ _ _ _ H) as [[-> _]|[_ X]]; [congruence|apply (B o x X); congruence].
        -- intros y [X|X]; [discriminate|]. apply D. left. congruence.
        -- intros o y H. destruct (nth_snoc _ _ _ _ H) as [[_ X]|[_ X]]; [discriminate|exact (E' o y X)].
      * constructor; cbn [main_to rb_main rb_objs rb_sock rb_addr target]; auto; try discriminate.
        -- unfold cur_ok. cbn. intros o X. congruence.
        -- intros y [X|X]; discriminate.
    + destruct A as (o & S & F). rewrite S.
      assert (inv (h ++ [RbGo ok]) (main_to w RFailClosing)) as IF.
      { constructor; cbn [main_to rb_main rb_objs rb_sock rb_addr target]; auto; try discriminate.
        - unfold cur_ok. cbn. intros o' X. congruence.
        - intros y [X|X]; discriminate. }
      destruct F as [F|F]; rewrite F; [destruct ok; [|exact IF]|exact IF].
      assert ((o < length (rb_objs w))%nat) as Lo by (apply nth_error_Some; congruence).
      constructor; cbn [rb_main rb_objs rb_sock rb_addr target]; auto.
      * unfold cur_ok. cbn. exists o. split; [first [reflexivity|exact S]|apply nth_put_same; exact Lo].
      * intros o' x H N. destruct (nth_put _ _ _ _ _ H) as [[-> _]|[_ X]]; [congruence|apply (B o' x X); congruence].
      * intros y [X|X]; discriminate.
      * intros o' y H. destruct (nth_put _ _ _ _ _ H) as [[_ X]|[_ X]]; [injection X as <-; split; [apply C'; reflexivity|apply D; auto]|exact (E' o' y X)].
    + destruct A as (o & S & F). constructor; cbn [rb_main rb_objs rb_sock rb_addr target]; auto; try discriminate.
      * unfold cur_ok. cbn. rewrite S. exact F.
      * intros y [X|X]; discriminate.
    + constructor; cbn [rb_main rb_objs rb_sock rb_addr target]; auto; try discriminate.
      * unfold cur_ok. cbn. intros o S. unfold close_cur. rewrite S in *. apply nth_put_same. apply nth_error_Some. destruct (A o eq_refl) as [X|X]; congruence.
      * intros o x H N. destruct (close_nth w o x H) as [[X _]|[_ X]]; [contradiction|exact (B o x X N)].
      * intros y [X|X]; discriminate.
    + constructor; cbn [rb_main rb_objs rb_sock rb_addr target]; auto; try discriminate.
      * reflexivity.
      * intros o x H _. destruct (rb_sock w) as [c|] eqn:S; [|apply (B o x H); discriminate]. destruct (Nat.eq_dec c o) as [->|N]; [specialize (A o eq_refl); congruence|apply (B o x H); congruence].
      * intros y [X|X]; discriminate.
    + constructor; cbn [rb_main rb_objs rb_sock rb_addr target]; auto; try discriminate.
      * unfold cur_ok. cbn. rewrite A. exact Logic.I.
      * intros y [X|X]; discriminate.
  - destruct (rb_send w k); try (apply same_inv; exact I); apply send_inv; exact I.
  - unfold sd_goes. destruct (rb_send w k) as [| | |o|f| | |a f]; try (apply same_inv; exact I); try (apply send_inv; exact I).
    destruct (nth_error (rb_objs w) o) as [[|z| |]|] eqn:F; try (apply send_inv; exact I); (destruct ok; [|apply send_inv; exact I]); try (apply send_inv; exact I).
    pose proof (alive_cur h w o _ I F ltac:(discriminate)) as S. assert ((o < length (rb_objs w))%nat) as Lo by (apply nth_error_Some; congruence).
    apply send_inv. constructor; cbn [rb_main rb_objs rb_sock rb_addr]; auto.
    + unfold cur_ok in *. cbn [rb_main rb_objs rb_sock rb_addr]. rewrite S in *. destruct (rb_main w); try (intros o' [= <-]); try congruence.
      * specialize (A o eq_refl). congruence.
      * exists o. split; [reflexivity|right; apply nth_put_same; exact Lo].
      * destruct A as (o' & [= <-] & X). congruence.
      * right. apply nth_put_same. exact Lo.
      * specialize (A o eq_refl). congruence.
    + intros o' x H N. destruct (nth_put _ _ _ _ _ H) as [[-> _]|[_ X]]; [congruence|apply (B o' x X); congruence].
    + intros o' y H. destruct (nth_put _ _ _ _ _ H) as [[_ X]|[_ X]]; [discriminate|exact (E o' y X)].
Qed.
Lemma race_snoc h m : race (h ++ [m]) = rb_step v (race h) m. Proof. unfold rb_race. apply fold_left_app. Qed.
Lemma inv_race h : inv h (race h).
Proof.
  induction h as [|m h IH] using rev_ind; [|rewrite race_snoc; apply inv_step, IH]. constructor; cbn; try discriminate; auto.
  - intros [|o] x; discriminate.
  - intros z [X|X]; discriminate.
  - intros [|o] z; discriminate.
Qed.

Lemma addr_was h : rb_addr (race h) = 0 \/ was_address h (rb_addr (race h)).
Proof.
  induction h as [|m h IH] using rev_ind; [left; reflexivity|]. pose proof (inv_race h) as [_ _ C _ _]. rewrite race_snoc.
  assert (rb_addr (race h) = 0 \/ was_address (h ++ [m]) (rb_addr (race h))) as Same by (destruct IH as [X|X]; [left; exact X|right; apply was_mono, X]).
  destruct m as [z|ok|k|k ok]; cbn [rb_step].
  - destruct (rb_main (race h)); try exact Same. destruct (z =? rb_addr (race h)); exact Same.
  - unfold rb_goes. destruct (rb_main (race h)) eqn:P; cbn [rb_addr main_to]; try exact Same; try (left; reflexivity).
    + destruct ok; exact Same.
    + destruct (rb_sock (race h)) as [o|]; [|exact Same]. destruct (nth_error (rb_objs (race h)) o) as [[]|], ok; exact Same.
    + right. apply was_mono, C. reflexivity.
  - destruct (rb_send (race h) k); exact Same.
  - unfold sd_goes. destruct (rb_send (race h) k) as [| | |o|f| | |a f]; try exact Same. destruct (nth_error (rb_objs (race h)) o) as [[]|]; try exact Same; destruct ok; exact Same.
Qed.
Lemma window_mono h m : unbound_window v h -> unbound_window v (h ++ [m]).
Proof. intros (h1 & h2 & j & o & -> & R). exists h1, (h2 ++ [m]), j, o. rewrite app_assoc. auto. Qed.
Definition source_ok (h : list rb_move) (f : left_from) : Prop :=
  (exists z, f = FromAddr z /\ was_address h z /\ usable v z = true) \/ (f = FromAnywhere /\ unbound_window v h).
Lemma source_mono h m f : source_ok h f -> source_ok (h ++ [m]) f.
Proof. intros [(z & -> & A & B)|[-> A]]; [left; exists z; auto using was_mono|right; auto using window_mono]. Qed.
(** an object that is not bound, though alive: the main thread is creating it, or closing it because the binding failed *)
Definition window_open (w : rbrace) : Prop := rb_main w = RFailClosing \/ exists z, rb_main w = RBinding z.
Lemma unbound_open h w o x : inv h w -> nth_error (rb_objs w) o = Some x -> x = Fresh \/ x = Elsewhere -> window_open w.
Proof.
  intros I F X. assert (x <> Closed) as N by (destruct X; subst; discriminate). pose proof (alive_cur h w o x I F N) as S. pose proof (b_cur h w I) as A. unfold cur_ok in A. rewrite S in A.
  unfold window_open. destruct (rb_main w); try solve [right; eauto|left; reflexivity]; exfalso;
    first [rewrite F in A; destruct X; subst; discriminate|specialize (A o eq_refl); destruct X; congruence|discriminate|idtac].
  destruct A as (o' & [= <-] & Y). rewrite F in Y. destruct X; subst; discriminate.
Qed.
(** A datagram leaves from an address the socket had (one that may be bound), or, if it was handed over while the main thread
    was creating the socket and had not bound it yet, from wherever the system chose; and what is reported is an address the
    socket had, or none. *)
Lemma sources h k : match rb_send (race h) k with SdNaming f => source_ok h f | SdReported a f => (a = 0 \/ was_address h a) /\ source_ok h f | _ => True end.
Proof.
  revert k. induction h as [|m h IH] using rev_ind; intros k; [exact Logic.I|]. pose proof (inv_race h) as Iv. rewrite race_snoc.
  assert (forall w, (forall j, rb_send w j = rb_send (race h) j) -> match rb_send w k with SdNaming f => source_ok (h ++ [m]) f | SdReported a f => (a = 0 \/ was_address (h ++ [m]) a) /\ source_ok (h ++ [m]) f | _ => True end) as Same.
  { intros w E. rewrite E. specialize (IH k). destruct (rb_send (race h) k); auto; [apply source_mono, IH|]. destruct IH as [[X|X] Y]; (split; [|apply source_mono, Y]); [left; exact X|right; apply was_mono, X]. }
  assert (forall w j a, (forall j, rb_send w j = rb_send (race h) j) -> match a with SdNaming f => source_ok (h ++ [m]) f | SdReported z f => (z = 0 \/ was_address (h ++ [m]) z) /\ source_ok (h ++ [m]) f | _ => True end ->
    match rb_send (send_to w j a) k with SdNaming f => source_ok (h ++ [m]) f | SdReported z f => (z = 0 \/ was_address (h ++ [m]) z) /\ source_ok (h ++ [m]) f | _ => True end) as Put.
  { intros w j a E H. cbn [send_to rb_send]. destruct (Nat.eqb_spec k j) as [->|N]; [exact H|apply Same; exact E]. }
  destruct m as [z|ok|j|j ok]; cbn [rb_step].
  - apply Same. intros j. destruct (rb_main (race h)); try reflexivity. destruct (z =? rb_addr (race h)); reflexivity.
  - apply Same. intros j. unfold rb_goes. destruct (rb_main (race h)); try reflexivity; [destruct ok; reflexivity|]. destruct (rb_sock (race h)) as [o|]; [|reflexivity].
    destruct (nth_error (rb_objs (race h)) o) as [[]|], ok; reflexivity.
  - destruct (rb_send (race h) j); try (apply Same; reflexivity); apply Put; auto.
  - unfold sd_goes. pose proof (IH j) as Ij. destruct (rb_send (race h) j) as [| | |o|f| | |a f] eqn:P; try (apply Same; reflexivity).
    + apply Put; [reflexivity|]. destruct (rb_sock (race h)); exact Logic.I.
    + apply Put; [reflexivity|]. destruct (rb_sock (race h)); exact Logic.I.
    + assert (forall x, nth_error (rb_objs (race h)) o = Some x -> x = Fresh \/ x = Elsewhere -> source_ok (h ++ [SdGo j ok]) FromAnywhere) as W.
      { intros x F X. right. split; [reflexivity|]. apply window_mono. exists h, [], j, o. rewrite app_nil_r. split; [reflexivity|]. split; [exact (unbound_open h (race h) o x Iv F X)|exact P]. }
      destruct (nth_error (rb_objs (race h)) o) as [[|z| |]|] eqn:F; [destruct ok..| |]; try (apply Put; [reflexivity|exact Logic.I]); apply Put; try reflexivity.
      * eapply W; eauto.
      * left. exists z. destruct (b_bound _ _ Iv o z F) as [X Y]. auto using was_mono.
      * eapply W; eauto.
    + apply Put; [reflexivity|]. split; [|apply source_mono, Ij]. destruct (addr_was h) as [X|X]; [left; exact X|right; apply was_mono, X].
Qed.
Theorem C131_source : forall h k a f, rb_send (race h) k = SdReported a f -> (a = 0 \/ was_address h a) /\
  ((exists z, f = FromAddr z /\ was_address h z /\ bindable v z) \/ (f = FromAnywhere /\ unbound_window v h)).
Proof.
  intros h k a f P. pose proof (sources h k) as S. rewrite P in S. destruct S as [A [(z & B & C & D)|B]]; (split; [exact A|]); [left|right; exact B].
  exists z. split; [exact B|]. split; [exact C|]. apply usable_spec, D.
Qed.

(** ** Undisturbed *)
Lemma undisturbed_pre h m k : undisturbed v (h ++ [m]) k -> undisturbed v h k.
Proof. intros U h1 h2 E. apply (U h1 (h2 ++ [m])). rewrite E, app_assoc. reflexivity. Qed.
Lemma idle_bound h w o z : inv h w -> rb_main w = RIdle -> rb_sock w = Some o -> nth_error (rb_objs w) o = Some z -> z = BoundTo (rb_addr w).
Proof. intros I M S F. pose proof (b_cur h w I) as A. unfold cur_ok in A. rewrite M, S in A. congruence. Qed.
Definition settled (acc : Prop) (w : rbrace) (k : nat) : Prop :=
  match rb_send w k with
  | SdLoading => rb_sock w <> None
  | SdCalling o => rb_sock w = Some o
  | SdNaming f => f = FromAddr (rb_addr w)
  | SdReported a f => f = FromAddr a
  | SdRaised => ~ acc
  | _ => True
  end.
(** a step of the main thread that begins and ends outside [rebind] changes nothing *)
Lemma main_step h w m : inv h w -> (forall k, m <> SdStart k) -> (forall k ok, m <> SdGo k ok) -> rb_main w = RIdle -> rb_main (rb_step v w m) = RIdle -> rb_step v w m = w.
Proof.
  intros I N1 N2 M M'. destruct m as [z|ok|k|k ok]; [| |destruct (N1 k eq_refl)|destruct (N2 k ok eq_refl)]; cbn [rb_step] in *.
  - rewrite M in *. destruct (z =? rb_addr w); [reflexivity|discriminate].
  - unfold rb_goes in *. rewrite M in *. reflexivity.
Qed.
Lemma settled_run h k : undisturbed v h k -> settled (accepted_all v h k) (race h) k.
Proof.
  induction h as [|m h IH] using rev_ind; intros U; [exact Logic.I|]. specialize (IH (undisturbed_pre _ _ _ U)).
  pose proof (inv_race h) as Iv. pose proof (U h [m] eq_refl) as U1. pose proof (U (h ++ [m]) []) as U2. rewrite app_nil_r in U2. specialize (U2 eq_refl). rewrite race_snoc in *.
  assert (accepted_all v (h ++ [m]) k -> accepted_all v h k) as Acc.
  { intros A h1 h2 o E. apply (A h1 (h2 ++ [m]) o). rewrite E, <- app_assoc. reflexivity. }
  assert (forall w, rb_send w k = rb_send (race h) k -> rb_sock w = rb_sock (race h) -> rb_addr w = rb_addr (race h) -> settled (accepted_all v (h ++ [m]) k) w k) as Same.
  { intros w E1 E2 E3. unfold settled in *. rewrite E1, E2, E3. destruct (rb_send (race h) k); auto. }
  destruct m as [z|ok|j|j ok].
  - assert (rb_send (rb_step v (race h) (RbStart z)) k = rb_send (race h) k) as Es.
    { cbn [rb_step]. destruct (rb_main (race h)); try reflexivity. destruct (z =? rb_addr (race h)); reflexivity. }
    apply Same; [exact Es|..]; cbn [rb_step]; (destruct (rb_main (race h)); try reflexivity; destruct (z =? rb_addr (race h)); reflexivity).
  - assert (rb_send (rb_step v (race h) (RbGo ok)) k = rb_send (race h) k) as Es.
    { cbn [rb_step]. unfold rb_goes. destruct (rb_main (race h)); try reflexivity; [destruct ok; reflexivity|]. destruct (rb_sock (race h)) as [o|]; [|reflexivity].
      destruct (nth_error (rb_objs (race h)) o) as [[]|], ok; reflexivity. }
    rewrite Es in U2. assert (rb_main (race h) = RIdle -> rb_main (rb_step v (race h) (RbGo ok)) = RIdle -> rb_step v (race h) (RbGo ok) = race h) as St
      by (intros X Y; apply (main_step h); auto; discriminate).
    unfold settled in *. rewrite Es. destruct (rb_send (race h) k) eqn:P; auto; rewrite (St U1 U2); exact IH.
  - cbn [rb_step]. assert (forall a, a = SdTesting \/ a = rb_send (race h) j -> settled (accepted_all v (h ++ [SdStart j]) k) (send_to (race h) j a) k) as G.
    { intros a Ha. destruct (Nat.eq_dec k j) as [->|N].
      - destruct Ha as [->| ->].
        + unfold settled. cbn [send_to rb_send]. rewrite Nat.eqb_refl. exact Logic.I.
        + apply Same; try reflexivity. cbn [send_to rb_send]. rewrite Nat.eqb_refl. reflexivity.
      - apply Same; try reflexivity. cbn [send_to rb_send]. destruct (Nat.eqb_spec k j); [contradiction|reflexivity]. }
    destruct (rb_send (race h) j) eqn:P; try (apply Same; reflexivity); apply G; left; reflexivity.
  - cbn [rb_step]. destruct (Nat.eq_dec k j) as [<-|N].
    + unfold sd_goes. unfold settled in *. destruct (rb_send (race h) k) as [| | |o|f| | |a f] eqn:P; cbn [send_to rb_send rb_sock rb_addr]; try (rewrite Nat.eqb_refl).
      * rewrite P. exact Logic.I.
      * destruct (rb_sock (race h)); [discriminate|exact Logic.I].
      * destruct (rb_sock (race h)) as [o|]; [reflexivity|congruence].
      * destruct (nth_error (rb_objs (race h)) o) as [x|] eqn:F.
        2: { exfalso. pose proof (b_cur _ _ Iv) as A. unfold cur_ok in A. rewrite U1, IH in A. congruence. }
        pose proof (idle_bound h (race h) o x Iv U1 IH F) as ->. destruct ok; cbn [send_to rb_send rb_addr]; rewrite Nat.eqb_refl; [reflexivity|].
        intros A. apply (A h [] o eq_refl). exact P.
      * rewrite IH. reflexivity.
      * rewrite P. exact Logic.I.
      * rewrite P. intros A. apply IH, Acc, A.
      * rewrite P. exact IH.
    + assert (forall a, k <> j -> rb_send (send_to (race h) j a) k = rb_send (race h) k) as Oth by (intros a _; cbn [send_to rb_send]; destruct (Nat.eqb_spec k j); [contradiction|reflexivity]).
      unfold sd_goes. destruct (rb_send (race h) j) as [| | |o|f| | |a f]; try (apply Same; reflexivity); try (apply Same; [apply Oth, N|reflexivity..]).
      destruct (nth_error (rb_objs (race h)) o) as [[]|]; try destruct ok; (apply Same; [|reflexivity..]); cbn [send_to rb_send]; (destruct (Nat.eqb_spec k j); [contradiction|reflexivity]).
Qed.
(** If the main thread is not in [rebind] while a thread is in [sendto], or about to report: what is reported is where the
    datagram left from, *)
Theorem C131_partial : forall h k a f, undisturbed v h k -> rb_send (race h) k = SdReported a f -> f = FromAddr a.
Proof. intros h k a f U P. pose proof (settled_run h k U) as S. unfold settled in S. rewrite P in S. exact S. Qed.
(** and sending raises no exception of its own. *)
Theorem C131_no_exception : forall h k, undisturbed v h k -> accepted_all v h k -> rb_send (race h) k <> SdRaised.
Proof. intros h k U A P. pose proof (settled_run h k U) as S. unfold settled in S. rewrite P in S. exact (S A). Qed.
End P.

(** ** Not so in general *)
Definition go_main : list rb_move := repeat (RbGo true) 6.
(** the socket is bound to 10, a thread has sent, and the address changes to 20 before it reports *)
Definition rb_moved : list rb_move := RbStart 167772161 :: go_main ++ [SdStart 0; SdGo 0 true; SdGo 0 true; SdGo 0 true; RbStart 167772162] ++ go_main ++ [SdGo 0 true].
(** it sends between the creation of the socket and its binding, which then fails: the datagram leaves from some other port, and
    the socket remains closed *)
Definition rb_early : list rb_move := RbStart 167772161 :: repeat (RbGo true) 4 ++ [SdStart 0; SdGo 0 true; SdGo 0 true; SdGo 0 true; RbGo true; RbGo true; RbGo true; RbGo true; SdGo 0 true].
(** it is told that there is a socket, which is gone *)
Definition rb_gone : list rb_move := RbStart 167772161 :: go_main ++ [SdStart 0; SdGo 0 true; RbStart 0; RbGo true; RbGo true; SdGo 0 true].
Theorem C131_refuted :
  rb_send (rb_race V4 rb_moved) 0 = SdReported 167772162 (FromAddr 167772161) /\
  (rb_send (rb_race V4 rb_early) 0 = SdReported 0 FromAnywhere /\ rb_main (rb_race V4 rb_early) = RIdle /\ rb_sock (rb_race V4 rb_early) = None) /\
  rb_send (rb_race V4 rb_gone) 0 = SdRaised.
Proof. vm_compute. repeat split. Qed.
(** the hypotheses of the theorems *)
Definition rb_fine : list rb_move := RbStart 167772161 :: go_main ++ [SdStart 0; SdGo 0 true; SdStart 1; SdGo 0 true; SdGo 1 true; SdGo 0 true; RbStart 167772161; SdGo 0 true].
Fixpoint fine_from (done todo : list rb_move) : bool :=
  match rb_send (rb_race V4 done) 0 with SdLoading | SdCalling _ | SdNaming _ => match rb_main (rb_race V4 done) with RIdle => true | _ => false end | _ => true end &&
  match todo with
  | [] => true
  | m :: todo => match m with SdGo 0 false => false | _ => true end && fine_from (done ++ [m]) todo
  end.
Lemma fine_spec todo : forall done, fine_from done todo = true -> forall h1 h2, todo = h1 ++ h2 ->
  match rb_send (rb_race V4 (done ++ h1)) 0 with SdLoading | SdCalling _ | SdNaming _ => rb_main (rb_race V4 (done ++ h1)) = RIdle | _ => True end.
Proof.
  induction todo as [|m todo IH]; intros done H h1 h2 E; cbn [fine_from] in H; apply andb_prop in H; destruct H as [H1 H2].
  - destruct h1; [|discriminate]. rewrite app_nil_r. destruct (rb_send (rb_race V4 done) 0); auto; destruct (rb_main (rb_race V4 done)); congruence.
  - destruct h1 as [|m' h1].
    + rewrite app_nil_r. destruct (rb_send (rb_race V4 done) 0); auto; destruct (rb_main (rb_race V4 done)); congruence.
    + injection E as <- ->. apply andb_prop in H2. destruct H2 as [_ H2]. specialize (IH _ H2 h1 h2 eq_refl). rewrite <- app_assoc in IH. exact IH.
Qed.
Example C131_witness : undisturbed V4 rb_fine 0 /\ accepted_all V4 rb_fine 0 /\ rb_send (rb_race V4 rb_fine) 0 = SdReported 167772161 (FromAddr 167772161).
Proof.
  split; [|split; [|vm_compute; reflexivity]].
  - intros h1 h2 E. apply (fine_spec rb_fine [] ltac:(vm_compute; reflexivity) h1 h2 E).
  - intros h1 h2 o E _. assert (In (SdGo 0 false) rb_fine) as I by (rewrite E; apply in_or_app; right; left; reflexivity). vm_compute in I. intuition discriminate.
Qed.
Print Assumptions C131_source.
Print Assumptions C131_partial.
Print Assumptions C131_no_exception.
Print Assumptions C131_refuted.
