(** * Property C127: the Map-Notify that confirms a registration *)
From Verif Require Import Base BaseLemmas Afi AfiProofs Spec Records RecordsProofs Control ControlProofs SpecRec PropControl Auth SpecAuth PropAuth Tree MapServer Etr SpecEtr PropEtr PropEtr2 Packet Daemon Exchange SpecExch PropExch Race SpecRace.

Section P.
Variable hm : Z -> bytes -> bytes -> bytes.
Variable r : etrr.
Variable reg : mreg.
Notation step := (move_step hm r reg).
Notation good := (set_notify_if_matches r reg).
Definition go (w : pair) (h : list move) : pair := fold_left step h w.

(** ** The checks, undisturbed and with one replacement *)
Fixpoint runp (p : prog) (n : mnot) (sw : option (nat * mnot)) : res bool :=
  match p with
  | Ret v => v
  | Look upd next =>
      match sw with
      | Some (O, m) => runp (next m) (upd m) None
      | Some (S k, m) => runp (next n) (upd n) (Some (k, m))
      | None => runp (next n) (upd n) None
      end
  end.
Lemma records_alone n l : runp (records_prog l) n None = Ok (forallb (fun x => existsb (rec_match x) (n_records n)) l).
Proof. induction l as [|x l IH]; [reflexivity|]. cbn [records_prog read runp forallb]. destruct (existsb (rec_match x) (n_records n)); [exact IH|reflexivity]. Qed.
Lemma content_alone key n n' : verify hm (ANot n) key = (ANot n', snd (verify hm (ANot n) key)) ->
  runp (content_prog hm key reg) n None = notify_content_ok hm key reg (Some n).
Proof.
  intros V. unfold notify_content_ok, content_prog. cbn [runp read]. remember (snd (verify hm (ANot n) key)) as v eqn:EV. rewrite V. cbn [fst].
  destruct v as [[|]|e]; cbn [runp bind negb read]; try reflexivity.
  destruct (bytes_eqb (n_nonce n') (g_nonce reg)); cbn [runp negb read]; [|reflexivity].
  destruct (n_key n' =? g_key reg); cbn [runp negb read]; [|reflexivity].
  unfold xtr_prog. cbn [runp read].
  assert (runp (site_prog reg) n' None = (if negb (n_site n' =? 0) && negb (n_site n' =? g_site reg) then Err EKey
               else if negb (Nat.eqb (length (n_records n')) (length (g_records reg))) then Ok false
               else Ok (forallb (fun x => existsb (rec_match x) (n_records n')) (g_records reg)))) as S.
  { assert (runp (count_prog reg) n' None = (if negb (Nat.eqb (length (n_records n')) (length (g_records reg))) then Ok false
               else Ok (forallb (fun x => existsb (rec_match x) (n_records n')) (g_records reg)))) as C.
    { unfold count_prog. cbn [runp read]. destruct (Nat.eqb (length (n_records n')) (length (g_records reg))); cbn [negb runp read]; [apply records_alone|reflexivity]. }
    unfold site_prog. cbn [runp read]. destruct (n_site n' =? 0); cbn [negb andb runp read]; [exact C|]. cbn [runp read]. destruct (n_site n' =? g_site reg); cbn [negb runp read]; [exact C|reflexivity]. }
  destruct (n_xtr n' =? 0); cbn [negb andb runp read]; [exact S|]. cbn [runp read]. destruct (n_xtr n' =? g_xtr reg); cbn [negb runp read]; [exact S|reflexivity].
Qed.

(** ** The threads *)
Definition pend (w : pair) (m : mnot) : Prop := (exists src, p_main w = Testing src m /\ good src m = true) \/ p_main w = Storing m.
Lemma done_stays h : forall w v, p_reg w = Done v -> p_reg (go w h) = Done v /\ p_listed (go w h) = p_listed w.
Proof.
  induction h as [|m h IH]; intros w v D; [auto|]. cbn [go fold_left]. fold (go (step w m) h).
  assert (p_reg (step w m) = Done v /\ p_listed (step w m) = p_listed w) as [D' L'].
  { destruct m; cbn [move_step].
    - destruct (p_main w); auto. destruct (p_listed w) eqn:E; cbn; auto.
    - unfold main_goes. destruct (p_main w); cbn; auto.
    - cbn. auto.
    - unfold reg_goes. rewrite D. auto. }
  destruct (IH _ v D') as [A B]. split; [exact A|congruence].
Qed.

Ltac the_next := match goal with D : p_reg (go ?w ?h) = Done _ |- _ => exact w end.
Lemma checking h : forall w p n v, p_reg w = Checking p -> p_listed w = false -> p_notify w = Some n -> p_reg (go w h) = Done v ->
  p_listed (go w h) = false /\
  exists sw, (sw = None \/ exists k m, sw = Some (k, m) /\ pend w m) /\ v = (let* b := runp p n sw in Ok (Some b)).
Proof.
  induction h as [|m h IH]; intros w p n v C L N D; [cbn [go fold_left] in D; congruence|].
  cbn [go fold_left] in *. fold (go (step w m) h) in *. destruct m as [src x| | |sent]; cbn [move_step] in *.
  - destruct (p_main w) eqn:M; [rewrite L in *|..]; exact (IH w p n v C L N D).
  - unfold main_goes in *. destruct (p_main w) as [|src x|x|] eqn:M.
    + exact (IH w p n v C L N D).
    + destruct (good src x) eqn:G.
      * destruct (IH (ltac:(the_next)) p n v C L N D) as (A & sw & S & E). split; [exact A|]. exists sw. split; [|exact E].
        destruct S as [S|(k & m & S & [(s & X & _)|X])]; [left; exact S|cbn in X; discriminate|]. cbn in X. injection X as ->.
        right. exists k, m. split; [exact S|]. left. exists src. auto.
      * destruct (IH (ltac:(the_next)) p n v C L N D) as (A & sw & S & E). split; [exact A|]. exists sw. split; [|exact E].
        destruct S as [S|(k & m & S & [(s & X & _)|X])]; [left; exact S|cbn in X; discriminate..].
    + destruct (IH (ltac:(the_next)) p x v C L eq_refl D) as (A & sw & S & E). split; [exact A|].
      destruct S as [->|(k & m & S & [(s & X & _)|X])]; [|cbn in X; discriminate..].
      exists (Some (0%nat, x)). split; [right; exists 0%nat, x; split; [reflexivity|right; exact M]|]. rewrite E. destruct p; reflexivity.
    + destruct (IH (ltac:(the_next)) p n v C L N D) as (A & sw & S & E). split; [exact A|]. exists sw. split; [|exact E].
      destruct S as [S|(k & m & S & [(s & X & _)|X])]; [left; exact S|cbn in X; discriminate..].
  - destruct (IH (ltac:(the_next)) p n v C L N D) as (A & sw & S & E). split; [exact A|]. exists sw. split; [exact S|exact E].
  - unfold reg_goes in *. rewrite C in *. destruct p as [b|upd next].
    + destruct (done_stays h (at_reg w (Done (let* b := b in Ok (Some b)))) _ eq_refl) as [X Y]. split; [rewrite Y; exact L|].
      exists None. split; [left; reflexivity|]. rewrite D in X. injection X as ->. reflexivity.
    + rewrite N in *. destruct (IH (ltac:(the_next)) (next n) (upd n) v eq_refl L eq_refl D) as (A & sw & S & E). split; [exact A|].
      destruct S as [->|(k & m & -> & Q)].
      * exists None. split; [left; reflexivity|exact E].
      * exists (Some (S k, m)). split; [right; exists (S k), m; split; [reflexivity|exact Q]|exact E].
Qed.
Fixpoint calm (w : pair) (h : list move) : Prop :=
  match h with
  | [] => True
  | m :: h => (m = MainGoes -> forall n p, p_main w = Storing n -> p_reg w <> Checking p) /\ calm (step w m) h
  end.
Lemma checking_calm h : forall w p n v, calm w h -> p_reg w = Checking p -> p_listed w = false -> p_notify w = Some n -> p_reg (go w h) = Done v ->
  v = (let* b := runp p n None in Ok (Some b)).
Proof.
  induction h as [|m h IH]; intros w p n v K C L N D; [cbn [go fold_left] in D; congruence|].
  cbn [go fold_left] in *. fold (go (step w m) h) in *. destruct K as [K1 K]. destruct m as [src x| | |sent]; cbn [move_step] in *.
  - destruct (p_main w) eqn:M; [rewrite L in *|..]; exact (IH w p n v K C L N D).
  - unfold main_goes in *. destruct (p_main w) as [|src x|x|] eqn:M.
    + exact (IH w p n v K C L N D).
    + exact (IH (ltac:(the_next)) p n v K C L N D).
    + destruct (K1 eq_refl x p eq_refl C).
    + exact (IH (ltac:(the_next)) p n v K C L N D).
  - exact (IH (ltac:(the_next)) p n v K C L N D).
  - unfold reg_goes in *. rewrite C in *. destruct p as [b|upd next].
    + destruct (done_stays h (at_reg w (Done (let* b := b in Ok (Some b)))) _ eq_refl) as [X Y]. rewrite D in X. injection X as ->. reflexivity.
    + rewrite N in *. exact (IH (ltac:(the_next)) (next n) (upd n) v K eq_refl L eq_refl D).
Qed.

(** ** Up to the checks *)
Section Inv.
Variable P : fam * Z -> mnot -> Prop.                      (* heard *)
Definition ok (n : mnot) : Prop := exists src, P src n /\ good src n = true.
Record inv (w : pair) : Prop := {
  i_slot : forall n, p_notify w = Some n -> ok n;
  i_main : match p_main w with Testing src n => P src n | Storing n => ok n | Setting => exists n, p_notify w = Some n | Elsewhere => True end;
  i_event : p_event w = true -> exists n, p_notify w = Some n }.
Definition early (a : reg_at) : bool := match a with Checking _ | Done _ => false | _ => true end.
Lemma inv_step w m : inv w -> early (p_reg w) = true -> (forall src n, m = Hear src n -> P src n) -> inv (step w m).
Proof.
  intros [A B C] E H. destruct m as [src x| | |sent]; cbn [move_step].
  - destruct (p_main w) eqn:M; [destruct (p_listed w)|..]; try (constructor; rewrite ?M; auto; fail).
    constructor; cbn; auto.
  - unfold main_goes. destruct (p_main w) as [|src x|x|] eqn:M.
    + constructor; rewrite ?M; auto.
    + destruct (good src x) eqn:G; constructor; cbn; auto. exists src. auto.
    + constructor; cbn; eauto. intros n [= <-]. exact B.
    + constructor; cbn; auto.
  - constructor; cbn; auto.
  - unfold reg_goes. destruct (p_reg w) as [k|k|k|k| | |p|v]; try discriminate; try (constructor; cbn; auto; fail).
    + destruct sent; constructor; cbn; auto.
    + destruct (p_stop w); constructor; cbn; auto.
    + destruct (p_event w) eqn:V; [|destruct k]; constructor; cbn; auto; rewrite V; auto.
    + destruct (p_event w) eqn:V; constructor; cbn; auto; rewrite V; auto.
Qed.
Definition heard_msgs (l : list ((fam * Z) * mnot)) : Prop := Forall (fun x => P (fst x) (snd x) /\ good (fst x) (snd x) = true) l.

Hypothesis received : forall src n, P src n -> exists d, mnot_from_bytes d = Ok n.
Definition o0 : outreg := OutReg r reg None.
Definition got (o : outreg) : bool := match o_notify o with Some _ => true | None => false end.
Definition decide (o : outreg) : res (option bool) :=
  match o_notify o with
  | Some n => let* b := notify_content_ok hm (tr_key r) reg (Some n) in Ok (Some b)
  | None => Ok (Some false)
  end.
Definition body (l : list (attempt mnot)) (late : list ((fam * Z) * mnot)) (o : outreg) : res (option bool) * list (attempt mnot) * bool :=
  let '(o, out, used) := attempts (fun _ o => o) reg_arrives got l o in
  match out with
  | Stopped => (Ok None, used, true)
  | Raised e => (Err e, used, true)
  | Through => (decide (arrive reg_arrives late o), used, false)
  end.
Lemma arrives_good src n o : good src n = true -> o_etrr o = r -> o_reg o = reg -> reg_arrives (src, n) o = OutReg r reg (Some n).
Proof. intros G A B. unfold reg_arrives. cbn [fst snd]. rewrite A, B, G. reflexivity. Qed.
Lemma event_stays w m : p_event w = true -> p_event (step w m) = true.
Proof.
  intros E. destruct m as [src x| | |sent]; cbn [move_step].
  - destruct (p_main w); [destruct (p_listed w)|..]; assumption.
  - unfold main_goes. destruct (p_main w); cbn; auto.
  - exact E.
  - unfold reg_goes. destruct (p_reg w) as [k|k|k|k| | |[b|upd next]|v]; cbn; auto.
    + destruct sent; exact E.
    + destruct (p_stop w); exact E.
    + rewrite E. exact E.
    + rewrite E. exact E.
    + destruct (p_notify w); exact E.
Qed.
Lemma reg_stays w m : (forall x, m <> RegGoes x) -> p_reg (step w m) = p_reg w /\ p_listed (step w m) = p_listed w.
Proof.
  intros N. destruct m as [src x| | |sent]; cbn [move_step].
  - destruct (p_main w); auto. destruct (p_listed w) eqn:L; auto.
  - unfold main_goes. destruct (p_main w); auto.
  - auto.
  - destruct (N sent eq_refl).
Qed.
Definition hears_only (h : list move) : Prop := forall src n, In (Hear src n) h -> P src n.
Lemma hears_cons m h : hears_only (m :: h) -> hears_only h /\ forall src n, m = Hear src n -> P src n.
Proof. intros H. split; [intros src n I; apply H; right; exact I|intros src n ->; apply H; left; reflexivity]. Qed.

Lemma deciding h : forall w v, inv w -> hears_only h -> calm w h -> p_reg w = Removing \/ p_reg w = Deciding /\ p_listed w = false ->
  p_reg (go w h) = Done v ->
  p_listed (go w h) = false /\ exists late, heard_msgs late /\
    forall o, o_etrr o = r -> o_reg o = reg -> o_notify o = None \/ p_event w = true -> v = decide (arrive reg_arrives late o).
Proof.
  induction h as [|m h IH]; intros w v I H K R D; [cbn [go fold_left] in D; destruct R as [R|[R _]]; congruence|].
  cbn [go fold_left] in *. fold (go (step w m) h) in *. destruct (hears_cons _ _ H) as [H1 H2]. destruct K as [_ K].
  assert (early (p_reg w) = true) as EE by (destruct R as [-> |[-> _]]; reflexivity).
  assert (I' : inv (step w m)) by (apply inv_step; assumption).
  assert (REC : (p_reg (step w m) = Removing \/ p_reg (step w m) = Deciding /\ p_listed (step w m) = false) ->
    p_listed (go (step w m) h) = false /\ exists late, heard_msgs late /\
    forall o, o_etrr o = r -> o_reg o = reg -> o_notify o = None \/ p_event w = true -> v = decide (arrive reg_arrives late o)).
  { intros R'. destruct (IH _ v I' H1 K R' D) as (A & late & B & C). split; [exact A|]. exists late. split; [exact B|].
    intros o O1 O2 [O|O]; apply C; auto. right. apply event_stays, O. }
  assert (STAY : (forall x, m <> RegGoes x) -> p_listed (go (step w m) h) = false /\ exists late, heard_msgs late /\
    forall o, o_etrr o = r -> o_reg o = reg -> o_notify o = None \/ p_event w = true -> v = decide (arrive reg_arrives late o)).
  { intros N. apply REC. destruct (reg_stays w m N) as [X Y]. rewrite X, Y. exact R. }
  destruct m as [src x| | |sent]; try (apply STAY; discriminate). clear STAY.
  destruct R as [R|[R L]].
  - apply REC. right. cbn [move_step]. unfold reg_goes. rewrite R. auto.
  - cbn [move_step] in *. unfold reg_goes in *. rewrite R in *. destruct (p_event w) eqn:E.
    + destruct (i_event w I E) as [n N]. destruct (i_slot w I n N) as (src & Hs & G). destruct (received src n Hs) as [d Hd].
      set (w' := at_reg w (Checking (content_prog hm (tr_key r) reg))) in *.
      destruct (checking h w' (content_prog hm (tr_key r) reg) n v eq_refl L N D) as (A & _).
      pose proof (checking_calm h w' (content_prog hm (tr_key r) reg) n v K eq_refl L N D) as V.
      split; [exact A|]. exists [(src, n)]. split; [constructor; [auto|constructor]|]. intros o O1 O2 _.
      cbn [arrive fold_left]. rewrite arrives_good by assumption. unfold decide. cbn [o_notify]. rewrite V.
      destruct (verify_parsed hm d n (tr_key r) Hd) as (b & Vb). rewrite (content_alone (tr_key r) n n); [reflexivity|]. rewrite Vb. reflexivity.
    + destruct (done_stays h (at_reg w (Done (Ok (Some false)))) _ eq_refl) as [X Y]. split; [rewrite Y; exact L|].
      exists []. split; [constructor|]. intros o O1 O2 [O|O]; [|discriminate]. cbn [arrive fold_left]. unfold decide. rewrite O. rewrite D in X. injection X as ->. reflexivity.
Qed.

Definition heard_att (l : list (attempt mnot)) : Prop := Forall (fun t => heard_msgs (a_before t) /\ heard_msgs (a_in t)) l.
Definition blank : attempt mnot := Att [] (Ok None) [] false.
Lemma heard_blank k : heard_att (repeat blank k).
Proof. induction k; cbn [repeat]; constructor; auto. split; constructor. Qed.
Definition claim (a : reg_at) (v : res (option bool)) (listed : bool) : Prop :=
  match a with
  | Sending k => exists l late used, length l = S k /\ heard_att l /\ heard_msgs late /\ body l late o0 = (v, used, listed)
  | Waiting k | Stopping k | Looking k =>
      forall f, exists t l late used, a_send t = Ok f /\ length l = k /\ heard_att (t :: l) /\ heard_msgs late /\ body (t :: l) late o0 = (v, used, listed)
  | _ => True
  end.
Definition trying (a : reg_at) : bool := match a with Sending _ | Waiting _ | Stopping _ | Looking _ => true | _ => false end.
Lemma trying_run h : forall w v, inv w -> hears_only h -> calm w h -> trying (p_reg w) = true -> p_listed w = true ->
  p_reg (go w h) = Done v -> claim (p_reg w) v (p_listed (go w h)).
Proof.
  induction h as [|m h IH]; intros w v I H K R L D; [cbn [go fold_left] in D; rewrite D in R; discriminate|].
  cbn [go fold_left] in *. fold (go (step w m) h) in *. destruct (hears_cons _ _ H) as [H1 H2]. destruct K as [_ K].
  assert (early (p_reg w) = true) as EE by (destruct (p_reg w); auto).
  assert (I' : inv (step w m)) by (apply inv_step; assumption).
  assert (STAY : (forall x, m <> RegGoes x) -> claim (p_reg w) v (p_listed (go (step w m) h))).
  { intros N. destruct (reg_stays w m N) as [X Y]. rewrite <- X. apply IH; auto; congruence. }
  destruct m as [src x| | |sent]; try (apply STAY; discriminate). clear STAY.
  specialize (IH _ v I' H1 K). cbn [move_step] in *. unfold reg_goes in *. destruct (p_reg w) as [k|k|k|k| | |p|b] eqn:ER; try discriminate.
  - destruct sent as [f|e].
    + specialize (IH eq_refl L D). cbn [claim p_reg at_reg] in IH |- *. destruct (IH f) as (t & l & late & used & _ & Hl & Ha & Hm & E).
      exists (t :: l), late, used. split; [cbn [length]; congruence|]. auto.
    + destruct (done_stays h (at_reg w (Done (Err e))) _ eq_refl) as [X Y]. rewrite D in X. injection X as ->. rewrite Y. cbn [claim at_reg p_listed]. rewrite L.
      exists (Att [] (Err e) [] false :: repeat blank k), [], [Att [] (Err e) [] false]. split; [cbn [length]; rewrite repeat_length; reflexivity|].
      split; [constructor; [split; constructor|apply heard_blank]|]. split; [constructor|]. reflexivity.
  - specialize (IH eq_refl L D). exact IH.
  - destruct (p_stop w).
    + destruct (done_stays h (at_reg w (Done (Ok None))) _ eq_refl) as [X Y]. rewrite D in X. injection X as ->. rewrite Y. cbn [claim at_reg p_listed]. rewrite L.
      intros f. exists (Att [] (Ok f) [] true), (repeat blank k), [], [Att [] (Ok f) [] true]. split; [reflexivity|]. split; [apply repeat_length|].
      split; [constructor; [split; constructor|apply heard_blank]|]. split; [constructor|]. reflexivity.
    + specialize (IH eq_refl L D). exact IH.
  - clear ER. destruct (p_event w) eqn:E.
    + destruct (deciding h _ v I' H1 K (or_introl eq_refl) D) as (A & late & B & C). rewrite A. cbn [claim]. intros f.
      destruct (i_event w I E) as [n N]. destruct (i_slot w I n N) as (src & Hs & G).
      exists (Att [] (Ok f) [(src, n)] false), (repeat blank k), late, [Att [] (Ok f) [(src, n)] false]. split; [reflexivity|]. split; [apply repeat_length|].
      split; [constructor; [split; [constructor|constructor; [auto|constructor]]|apply heard_blank]|]. split; [exact B|].
      unfold body. cbn [attempts a_before a_send a_in a_stop arrive fold_left]. rewrite arrives_good by (assumption || reflexivity). cbn [got o_notify].
      rewrite (C (OutReg r reg (Some n))) by (reflexivity || (right; exact E)). reflexivity.
    + destruct k as [|k].
      * destruct (deciding h _ v I' H1 K (or_introl eq_refl) D) as (A & late & B & C). rewrite A. cbn [claim]. intros f.
        exists (Att [] (Ok f) [] false), [], late, [Att [] (Ok f) [] false]. split; [reflexivity|]. split; [reflexivity|].
        split; [constructor; [split; constructor|constructor]|]. split; [exact B|].
        unfold body. cbn [attempts a_before a_send a_in a_stop arrive fold_left got o0 o_notify].
        rewrite (C o0) by (reflexivity || (left; reflexivity)). reflexivity.
      * specialize (IH eq_refl L D). cbn [claim p_reg at_reg] in IH |- *. destruct IH as (l & late & used & Hl & Ha & Hm & EB). intros f.
        exists (Att [] (Ok f) [] false), l, late, (Att [] (Ok f) [] false :: used). split; [reflexivity|]. split; [exact Hl|].
        split; [constructor; [split; constructor|exact Ha]|]. split; [exact Hm|].
        unfold body in EB |- *. cbn [attempts a_before a_send a_in a_stop arrive fold_left got o0 o_notify].
        fold o0. destruct (attempts (fun _ o => o) reg_arrives got l o0) as [[o out] u]. destruct out; injection EB as <- <- <-; reflexivity.
Qed.

Lemma early_run h : forall w v, inv w -> hears_only h -> early (p_reg w) = true -> (p_reg w = Deciding -> p_listed w = false) ->
  p_reg (go w h) = Done v ->
  v <> Ok (Some true) \/ exists n sw, ok n /\ (sw = None \/ exists k m, sw = Some (k, m) /\ ok m) /\
    v = (let* b := runp (content_prog hm (tr_key r) reg) n sw in Ok (Some b)).
Proof.
  induction h as [|m h IH]; intros w v I H EE L D; [cbn [go fold_left] in D; rewrite D in EE; discriminate|].
  cbn [go fold_left] in *. fold (go (step w m) h) in *. destruct (hears_cons _ _ H) as [H1 H2].
  assert (I' : inv (step w m)) by (apply inv_step; assumption).
  assert (STAY : (forall x, m <> RegGoes x) -> v <> Ok (Some true) \/ exists n sw, ok n /\ (sw = None \/ exists k m, sw = Some (k, m) /\ ok m) /\
    v = (let* b := runp (content_prog hm (tr_key r) reg) n sw in Ok (Some b))).
  { intros N. destruct (reg_stays w m N) as [X Y]. apply (IH (step w m)); auto; rewrite X; [exact EE|]. rewrite Y. exact L. }
  destruct m as [src x| | |sent]; try (apply STAY; discriminate). clear STAY.
  specialize (IH _ v I' H1). cbn [move_step] in *. unfold reg_goes in *. destruct (p_reg w) as [k|k|k|k| | |p|b] eqn:ER; try discriminate.
  - destruct sent as [f|e].
    + apply IH; auto. discriminate.
    + destruct (done_stays h (at_reg w (Done (Err e))) _ eq_refl) as [X _]. rewrite D in X. injection X as ->. left. discriminate.
  - apply IH; auto. discriminate.
  - destruct (p_stop w).
    + destruct (done_stays h (at_reg w (Done (Ok None))) _ eq_refl) as [X _]. rewrite D in X. injection X as ->. left. discriminate.
    + apply IH; auto. discriminate.
  - destruct (p_event w); [|destruct k]; apply IH; auto; discriminate.
  - apply IH; auto.
  - specialize (L eq_refl). destruct (p_event w) eqn:E.
    + right. destruct (i_event w I E) as [n N].
      set (w' := at_reg w (Checking (content_prog hm (tr_key r) reg))) in *.
      destruct (checking h w' (content_prog hm (tr_key r) reg) n v eq_refl L N D) as (_ & sw & S & V).
      exists n, sw. split; [exact (i_slot w I n N)|]. split; [|exact V]. destruct S as [S|(k & m & S & Q)]; [left; exact S|].
      right. exists k, m. split; [exact S|]. pose proof (i_main w I) as M. destruct Q as [(src & Q & G)|Q]; unfold w' in Q; cbn [at_reg p_main] in Q; rewrite Q in M.
      * exists src. auto.
      * exact M.
    + destruct (done_stays h (at_reg w (Done (Ok (Some false)))) _ eq_refl) as [X _]. rewrite D in X. injection X as ->. left. discriminate.
Qed.
End Inv.

(** ** The checks on two Map-Notifies *)
Section Two.
Variables n m : mnot.
Definition st (c : mnot) (sw : option (nat * mnot)) : Prop := (c = n \/ c = m) /\ (sw = None \/ exists k, sw = Some (k, m)).
Lemma read_one next c sw v : st c sw -> runp (read next) c sw = v -> exists c' sw', st c' sw' /\ runp (next c') c' sw' = v.
Proof.
  intros [C [-> |[[|k] ->]]] E; cbn [read runp] in E.
  - exists c, None. repeat split; auto.
  - exists m, None. repeat split; auto.
  - exists c, (Some (k, m)). repeat split; eauto.
Qed.
Lemma records_two l : forall c sw, st c sw -> runp (records_prog l) c sw = Ok true ->
  forall x, In x l -> exists y, (In y (n_records n) \/ In y (n_records m)) /\ rec_match x y = true.
Proof.
  induction l as [|x l IH]; intros c sw S H y Hy; [destruct Hy|]. cbn [records_prog] in H.
  destruct (read_one _ _ _ _ S H) as (c' & sw' & S' & H'). destruct (existsb (rec_match x) (n_records c')) eqn:E; [|discriminate].
  destruct Hy as [<- |Hy]; [|exact (IH c' sw' S' H' y Hy)]. apply existsb_exists in E. destruct E as (z & Z1 & Z2). exists z. split; [|exact Z2].
  destruct S' as [[-> | ->] _]; auto.
Qed.
Lemma content_two key : (exists d, mnot_from_bytes d = Ok n) -> (exists d, mnot_from_bytes d = Ok m) -> n_nonce n = g_nonce reg -> n_nonce m = g_nonce reg ->
  forall k, runp (content_prog hm key reg) n (Some (S k, m)) = Ok true -> pieced_together hm key reg n m.
Proof.
  intros [dn Dn] [dm Dm] Nn Nm k H. destruct (verify_parsed hm dn n key Dn) as (b & V). unfold content_prog in H. cbn [runp] in H. rewrite V in H. cbn [fst snd] in H.
  unfold pieced_together. rewrite V. cbn [snd]. destruct b; [|discriminate]. split; [reflexivity|]. split; [exact Nn|]. split; [exact Nm|].
  assert (S0 : st n (Some (k, m))) by (split; eauto).
  destruct (read_one _ _ _ _ S0 H) as (c1 & w1 & S1 & H1). clear H S0. destruct (bytes_eqb (n_nonce c1) (g_nonce reg)); [|discriminate]. cbn [negb] in H1.
  destruct (read_one _ _ _ _ S1 H1) as (c2 & w2 & S2 & H2). clear H1 S1. destruct (Z.eqb_spec (n_key c2) (g_key reg)) as [EK|]; [|discriminate]. cbn [negb] in H2.
  split; [destruct S2 as [[-> | ->] _]; auto|].
  assert (exists c3 w3, st c3 w3 /\ runp (site_prog reg) c3 w3 = Ok true /\ (n_xtr c3 = 0 \/ n_xtr c3 = g_xtr reg)) as (c3 & w3 & S3 & H3 & EX).
  { unfold xtr_prog in H2. destruct (read_one _ _ _ _ S2 H2) as (c3 & w3 & S3 & H3). destruct (Z.eqb_spec (n_xtr c3) 0); [eauto 6|].
    destruct (read_one _ _ _ _ S3 H3) as (c4 & w4 & S4 & H4). destruct (Z.eqb_spec (n_xtr c4) (g_xtr reg)); [eauto 6|discriminate]. }
  split; [destruct S3 as [[-> | ->] _]; auto|]. clear H2 S2.
  assert (exists c4 w4, st c4 w4 /\ runp (count_prog reg) c4 w4 = Ok true /\ (n_site c4 = 0 \/ n_site c4 = g_site reg)) as (c4 & w4 & S4 & H4 & ES).
  { unfold site_prog in H3. destruct (read_one _ _ _ _ S3 H3) as (c4 & w4 & S4 & H4). destruct (Z.eqb_spec (n_site c4) 0); [eauto 6|].
    destruct (read_one _ _ _ _ S4 H4) as (c5 & w5 & S5 & H5). destruct (Z.eqb_spec (n_site c5) (g_site reg)); [eauto 6|discriminate]. }
  split; [destruct S4 as [[-> | ->] _]; auto|]. unfold count_prog in H4.
  destruct (read_one _ _ _ _ S4 H4) as (c5 & w5 & S5 & H5). destruct (Nat.eqb_spec (length (n_records c5)) (length (g_records reg))) as [EL|]; [|discriminate]. cbn [negb] in H5.
  split; [destruct S5 as [[-> | ->] _]; auto|].
  intros x Hx. destruct (records_two _ _ _ S5 H5 x Hx) as (y & Hy & E). exists y. split; [exact Hy|]. apply rec_match_spec; [|exact E].
  destruct (parsed_notify dn n Dn) as (_ & HSn & _). destruct (parsed_notify dm m Dm) as (_ & HSm & _). rewrite Forall_forall in HSn, HSm.
  destruct Hy as [Hy|Hy]; [apply HSn in Hy|apply HSm in Hy]; apply sanitize_mrec_inv in Hy; tauto.
Qed.
End Two.
End P.

Lemma good_for r g src n : set_notify_if_matches r g src n = true <-> notify_for r g src n.
Proof.
  unfold set_notify_if_matches, notify_for. rewrite andb_true_iff, bytes_eqb_spec. destruct src as [v z], (tr_ms r) as [v' z']. cbn [fst snd].
  split; intros [A B]; (split; [|exact B]).
  - apply addr_same_eq in A. injection A as -> ->. reflexivity.
  - injection A as -> ->. cbn. rewrite Z.eqb_refl, andb_true_r. apply fam_eqb_spec. reflexivity.
Qed.
Lemma inv_fresh r g P : inv r g P fresh.
Proof. constructor; cbn; auto; discriminate. Qed.
Lemma calm_of hm r g h : undisturbed hm r g h -> calm hm r g fresh h.
Proof.
  intros U. assert (forall h2 h1, h = h1 ++ h2 -> calm hm r g (race hm r g h1) h2) as G; [|exact (G h [] eq_refl)].
  induction h2 as [|m h2 IH]; intros h1 E; [exact I|]. cbn [calm]. split.
  - intros -> n p M. exact (U h1 h2 n p E M).
  - specialize (IH (h1 ++ [m])). rewrite <- app_assoc in IH. specialize (IH E). unfold race in IH. rewrite fold_left_app in IH. exact IH.
Qed.

(** ** C127 *)
(** a registration is only confirmed by an authentic Map-Notify for it *)
Theorem C127_pieces hm r g h : received_in h -> p_reg (race hm r g h) = Done (Ok (Some true)) ->
  exists n1 n2, heard_for r g h n1 /\ heard_for r g h n2 /\ pieced_together hm (tr_key r) g n1 n2.
Proof.
  intros R D. set (P := fun src n => In (Hear src n) h).
  assert (RP : forall src n, P src n -> exists d, mnot_from_bytes d = Ok n) by exact R.
  destruct (early_run hm r g P h fresh _ (inv_fresh r g P) (fun s n H => H) eq_refl ltac:(discriminate) D) as [C|(n & sw & (src & Hs & G) & S & V)]; [destruct (C eq_refl)|].
  destruct (runp (content_prog hm (tr_key r) g) n sw) as [b|e] eqn:E; [|discriminate]. cbn [bind] in V. injection V as <-.
  pose proof (proj1 (good_for _ _ _ _) G) as [Gs Gn].
  assert (W : forall x, (exists d, mnot_from_bytes d = Ok x) -> runp (content_prog hm (tr_key r) g) x None = Ok true -> pieced_together hm (tr_key r) g x x).
  { intros x [d Hd] Hx. destruct (verify_parsed hm d x (tr_key r) Hd) as (b & Vb). rewrite (content_alone hm g (tr_key r) x x) in Hx by (rewrite Vb; reflexivity).
    apply (C59_accepts_partial hm _ _ d x Hd) in Hx. destruct Hx as (A1 & A2 & A3 & A4 & A5 & A6 & A7). repeat (split; [auto; fail|]).
    intros y Hy. destruct (A7 y Hy) as (z & Z1 & Z2). exists z. auto. }
  destruct S as [-> |([|k] & m & -> & (src2 & Hs2 & G2))].
  - exists n, n. assert (heard_for r g h n) by (exists src; split; [exact Hs|split; assumption]). eauto 6.
  - exists m, m. assert (heard_for r g h m) by (exists src2; split; [exact Hs2|apply good_for; exact G2]). assert (runp (content_prog hm (tr_key r) g) m None = Ok true) by exact E. eauto 6.
  - pose proof (proj1 (good_for _ _ _ _) G2) as [Gs2 Gn2]. exists n, m. split; [exists src; split; [exact Hs|split; assumption]|]. split; [exists src2; split; [exact Hs2|split; assumption]|].
    eapply content_two; eauto.
Qed.
Lemma pieced_one hm key g n : pieced_together hm key g n n <-> accepted_notify hm key g n.
Proof.
  unfold pieced_together, accepted_notify. split.
  - intros (A1 & A2 & _ & A3 & A4 & A5 & A6 & A7). split; [exact A1|]. split; [exact A2|]. split; [tauto|]. split; [tauto|]. split; [tauto|]. split; [tauto|].
    intros x Hx. destruct (A7 x Hx) as (y & [Hy|Hy] & S); eauto.
  - intros (A1 & A2 & A3 & A4 & A5 & A6 & A7). repeat (split; [auto; fail|]). intros x Hx. destruct (A7 x Hx) as (y & Hy & S). eauto.
Qed.
Theorem C127_authentic hm r g h : received_in h -> p_reg (race hm r g h) = Done (Ok (Some true)) ->
  exists n, heard_for r g h n /\ snd (verify hm (ANot n) (tr_key r)) = Ok true.
Proof. intros R D. destruct (C127_pieces hm r g h R D) as (n1 & n2 & H1 & _ & A & _). eauto. Qed.
Theorem C127_single_partial hm r g h : received_in h -> (forall n1 n2, heard_for r g h n1 -> heard_for r g h n2 -> n1 = n2) ->
  p_reg (race hm r g h) = Done (Ok (Some true)) -> exists n, heard_for r g h n /\ accepted_notify hm (tr_key r) g n.
Proof. intros R U D. destruct (C127_pieces hm r g h R D) as (n1 & n2 & H1 & H2 & A). rewrite <- (U n1 n2 H1 H2) in A. exists n1. split; [exact H1|apply pieced_one; exact A]. Qed.
Theorem C127_as_if_atomic hm r g h v : g_notify g = true -> received_in h -> undisturbed hm r g h -> p_reg (race hm r g h) = Done v ->
  exists l late used, length l = 3%nat /\ register hm r g l late = (v, used, p_listed (race hm r g h)) /\
    forall src n, In (Hears src n) (happened l ++ hears late) -> In (Hear src n) h /\ notify_for r g src n.
Proof.
  intros N R U D. set (P := fun src n => In (Hear src n) h).
  destruct (trying_run hm r g P R h fresh v (inv_fresh r g P) (fun s n H => H) (calm_of hm r g h U) eq_refl eq_refl D) as (l & late & used & Hl & Ha & Hm & E).
  exists l, late, used. split; [exact Hl|]. split.
  - unfold register. rewrite N. cbn [negb]. rewrite firstn_all2 by (rewrite Hl; auto). exact E.
  - assert (M : forall x src n, heard_msgs r g P x -> In (Hears src n) (hears x) -> In (Hear src n) h /\ notify_for r g src n).
    { intros x src n F I. unfold hears in I. apply in_map_iff in I. destruct I as ([s k] & [= <- <-] & I). unfold heard_msgs in F. rewrite Forall_forall in F.
      destruct (F _ I) as [F1 F2]. split; [exact F1|apply good_for; exact F2]. }
    intros src n I. apply in_app_or in I. destruct I as [I|I]; [|exact (M late src n Hm I)]. unfold happened in I. apply in_flat_map in I. destruct I as (t & T & I).
    unfold heard_att in Ha. rewrite Forall_forall in Ha. destruct (Ha t T) as [F1 F2]. unfold during in I. apply in_app_or in I. destruct I as [I|I]; [exact (M _ src n F1 I)|].
    apply in_app_or in I. destruct I as [I|I]; [|exact (M _ src n F2 I)]. destruct (a_send t); [destruct I as [I|[]]; discriminate|destruct I].
Qed.

(** ** Not so in general: an authentic Map-Notify that does not confirm the registration, and one that does but is forged *)
Definition rc_r : etrr := Etrr (V4, 1) 1 (B [9]) false None.
Definition rc_no (a : bytes) : mnot := MNot (repeat false 19) (B [1;2;3;4;5;6;7;8]) 1 a [new_mrec 0 (Pfx V4 (11 * 2 ^ 24) 8) [new_loc (ex_l V4 10 1) true (AIP V4 10)]] 0 0.
Definition decoded (n : mnot) : option mnot := match mnot_to_bytes n with Ok d => match mnot_from_bytes d with Ok n => Some n | Err _ => None end | Err _ => None end.
Definition signed (n : mnot) : option mnot := match fst (insert toy_hm (ANot n) (B [9])) with ANot n => decoded n | _ => None end.
Definition rc_signed : option mnot := signed (rc_no []).
Definition rc_forged : option mnot := decoded (ex_other (repeat zero_byte 20)).
Definition rc_go : move := RegGoes (Ok (Some (V4, 10))).
Definition rc_history (n1 n2 : mnot) : list move :=
  ([rc_go; Hear (V4, 1) n1; MainGoes; MainGoes; MainGoes; rc_go; rc_go; rc_go; Hear (V4, 1) n2; rc_go; rc_go; rc_go; MainGoes; MainGoes] ++ repeat rc_go 8)%list.
Definition rc_orderly (n1 n2 : mnot) : list move :=
  ([rc_go; Hear (V4, 1) n1; MainGoes; MainGoes; MainGoes; Hear (V4, 1) n2; MainGoes; MainGoes; MainGoes] ++ repeat rc_go 14)%list.
Lemma decoded_received n m : decoded n = Some m -> exists d, mnot_from_bytes d = Ok m.
Proof. unfold decoded. destruct (mnot_to_bytes n) as [d|]; [|discriminate]. destruct (mnot_from_bytes d) as [x|] eqn:E; [|discriminate]. intros [= <-]. eauto. Qed.
Lemma signed_received n m : signed n = Some m -> exists d, mnot_from_bytes d = Ok m.
Proof. unfold signed. destruct (fst (insert toy_hm (ANot n) (B [9]))); try discriminate. apply decoded_received. Qed.
Definition said (m : move) : list mnot := match m with Hear _ n => [n] | _ => [] end.
Lemma said_in h src n : In (Hear src n) h -> In n (flat_map said h).
Proof. intros I. apply in_flat_map. exists (Hear src n). split; [exact I|left; reflexivity]. Qed.
Lemma rc_history_said n1 n2 src n : In (Hear src n) (rc_history n1 n2) -> n1 = n \/ n2 = n.
Proof. intros I. apply said_in in I. change (In n [n1; n2]) in I. destruct I as [I|[I|[]]]; auto. Qed.
Lemma rc_orderly_said n1 n2 src n : In (Hear src n) (rc_orderly n1 n2) -> n1 = n \/ n2 = n.
Proof. intros I. apply said_in in I. change (In n [n1; n2]) in I. destruct I as [I|[I|[]]]; auto. Qed.
Definition rc_values : option (reg_at * reg_at * reg_at * bool * res bool * res bool) :=
  match rc_signed, rc_forged with
  | Some n1, Some n2 =>
      Some (p_reg (race toy_hm rc_r ex_reg (rc_history n1 n2)), p_reg (race toy_hm rc_r ex_reg (rc_orderly n1 n2)),
            p_reg (race toy_hm rc_r ex_reg (rc_orderly n2 n1)), p_listed (race toy_hm rc_r ex_reg (rc_orderly n1 n2)),
            notify_content_ok toy_hm (B [9]) ex_reg (Some n1), notify_content_ok toy_hm (B [9]) ex_reg (Some n2))
  | _, _ => None
  end.
Lemma rc_values_are : rc_values = Some (Done (Ok (Some true)), Done (Ok (Some false)), Done (Ok (Some false)), false, Ok false, Ok false).
Proof. vm_compute. reflexivity. Qed.
Lemma rc_is n1 n2 : rc_signed = Some n1 -> rc_forged = Some n2 ->
  p_reg (race toy_hm rc_r ex_reg (rc_history n1 n2)) = Done (Ok (Some true)) /\ p_reg (race toy_hm rc_r ex_reg (rc_orderly n1 n2)) = Done (Ok (Some false)) /\
  p_reg (race toy_hm rc_r ex_reg (rc_orderly n2 n1)) = Done (Ok (Some false)) /\ p_listed (race toy_hm rc_r ex_reg (rc_orderly n1 n2)) = false /\
  notify_content_ok toy_hm (B [9]) ex_reg (Some n1) = Ok false /\ notify_content_ok toy_hm (B [9]) ex_reg (Some n2) = Ok false.
Proof.
  intros E1 E2. pose proof rc_values_are as V. unfold rc_values in V. rewrite E1, E2 in V.
  set (a := p_reg (race toy_hm rc_r ex_reg (rc_history n1 n2))) in *. set (b := p_reg (race toy_hm rc_r ex_reg (rc_orderly n1 n2))) in *.
  set (c := p_reg (race toy_hm rc_r ex_reg (rc_orderly n2 n1))) in *. set (d := p_listed (race toy_hm rc_r ex_reg (rc_orderly n1 n2))) in *.
  set (e := notify_content_ok toy_hm (B [9]) ex_reg (Some n1)) in *. set (f := notify_content_ok toy_hm (B [9]) ex_reg (Some n2)) in *.
  clearbody a b c d e f. inversion V; subst. repeat split; reflexivity.
Qed.
Lemma rc_both : exists n1 n2, rc_signed = Some n1 /\ rc_forged = Some n2.
Proof.
  pose proof rc_values_are as V. unfold rc_values in V.
  destruct rc_signed as [n1|]; [|discriminate]. destruct rc_forged as [n2|]; [|discriminate]. exists n1, n2. split; reflexivity.
Qed.
Theorem C127_refuted : ~ (forall hm r g h, received_in h -> p_reg (race hm r g h) = Done (Ok (Some true)) ->
  exists n, heard_for r g h n /\ accepted_notify hm (tr_key r) g n).
Proof.
  intros C. destruct rc_both as (n1 & n2 & E1 & E2). destruct (rc_is n1 n2 E1 E2) as (D & _ & _ & _ & X1 & X2).
  destruct (signed_received _ _ E1) as [d1 D1]. destruct (decoded_received _ _ E2) as [d2 D2]. clear E1 E2.
  destruct (C toy_hm rc_r ex_reg (rc_history n1 n2)) as (n & (src & I & _) & A); [|exact D|].
  - intros src n I. apply rc_history_said in I. destruct I as [<- | <-]; eauto.
  - apply rc_history_said in I. change (tr_key rc_r) with (B [9]) in A. destruct I as [<- | <-].
    + apply (C59_accepts_partial toy_hm _ _ d1 n1 D1) in A. rewrite X1 in A. discriminate.
    + apply (C59_accepts_partial toy_hm _ _ d2 n2 D2) in A. rewrite X2 in A. discriminate.
Qed.
(** the same two, one after the other: refused as a whole *)
Example C127_orderly : exists n1 n2, rc_signed = Some n1 /\ rc_forged = Some n2 /\ received_in (rc_orderly n1 n2) /\
  p_reg (race toy_hm rc_r ex_reg (rc_orderly n1 n2)) = Done (Ok (Some false)) /\
  p_reg (race toy_hm rc_r ex_reg (rc_orderly n2 n1)) = Done (Ok (Some false)) /\ p_listed (race toy_hm rc_r ex_reg (rc_orderly n1 n2)) = false.
Proof.
  destruct rc_both as (n1 & n2 & E1 & E2). exists n1, n2. destruct (rc_is n1 n2 E1 E2) as (_ & D1 & D2 & L & _).
  split; [exact E1|]. split; [exact E2|]. split; [|split; [exact D1|split; [exact D2|exact L]]].
  intros src n I. apply rc_orderly_said in I. destruct I as [<- | <-]; [eapply signed_received; exact E1|eapply decoded_received; exact E2].
Qed.
(** one that confirms, recorded while the thread waits *)
Definition rc_yes : option mnot := signed (ex_other []).
Definition rc_plain (n : mnot) : list move := ([rc_go; Hear (V4, 1) n; MainGoes; MainGoes; MainGoes] ++ repeat rc_go 14)%list.
Lemma rc_plain_said n1 src n : In (Hear src n) (rc_plain n1) -> n1 = n.
Proof. intros I. apply said_in in I. change (In n [n1]) in I. destruct I as [I|[]]; auto. Qed.
Definition rc_yes_value : option (reg_at * bool) :=
  match rc_yes with Some n => Some (p_reg (race toy_hm rc_r ex_reg (rc_plain n)), set_notify_if_matches rc_r ex_reg (V4, 1) n) | None => None end.
Lemma rc_yes_is : rc_yes_value = Some (Done (Ok (Some true)), true).
Proof. vm_compute. reflexivity. Qed.
(** the main thread is about to record only where it has just been given a Map-Notify and has tested it *)
Lemma rc_plain_calm n : set_notify_if_matches rc_r ex_reg (V4, 1) n = true -> undisturbed toy_hm rc_r ex_reg (rc_plain n).
Proof.
  intros S h1 h2 x p Eh M. unfold rc_plain in Eh.
  destruct h1 as [|m h1]; [discriminate|]. injection Eh as <- Eh.
  destruct h1 as [|m h1]; [discriminate|]. injection Eh as <- Eh.
  destruct h1 as [|m h1]; [discriminate|]. injection Eh as <- Eh.
  destruct h1 as [|m h1].
  { unfold race. cbn [fold_left move_step reg_goes fresh p_reg at_reg rc_go p_main p_listed main_goes]. discriminate. }
  injection Eh as <- Eh. destruct h1 as [|m h1].
  { exfalso. unfold race in M. cbn [fold_left move_step reg_goes fresh p_reg at_reg rc_go p_main p_listed main_goes] in M. rewrite S in M. cbn [p_main] in M. discriminate. }
  injection Eh as <- Eh.
  exfalso. assert (In MainGoes (repeat rc_go 14)) as I. { change (repeat rc_go 14 = (h1 ++ MainGoes :: h2)%list) in Eh. rewrite Eh. apply in_or_app. right. left. reflexivity. }
  apply repeat_spec in I. discriminate.
Qed.
Example C127_confirmed : exists n, rc_yes = Some n /\ g_notify ex_reg = true /\ received_in (rc_plain n) /\ undisturbed toy_hm rc_r ex_reg (rc_plain n) /\
  p_reg (race toy_hm rc_r ex_reg (rc_plain n)) = Done (Ok (Some true)).
Proof.
  pose proof rc_yes_is as V. unfold rc_yes_value in V. destruct rc_yes as [n|] eqn:E; [|discriminate].
  set (a := p_reg (race toy_hm rc_r ex_reg (rc_plain n))) in *. set (b := set_notify_if_matches rc_r ex_reg (V4, 1) n) in *.
  assert (V' : a = Done (Ok (Some true)) /\ b = true). { clearbody a b. inversion V. split; reflexivity. } destruct V' as [VA VB].
  exists n. split; [reflexivity|]. split; [reflexivity|]. split; [|split; [apply rc_plain_calm; exact VB|exact VA]].
  intros src x I. apply rc_plain_said in I. subst x. eapply signed_received. exact E.
Qed.

Print Assumptions C127_pieces.
Print Assumptions C127_authentic.
Print Assumptions C127_single_partial.
Print Assumptions C127_as_if_atomic.
Print Assumptions C127_refuted.
