(** * Specification: two Map-Notifies for one Map-Register *)
From Verif Require Import Base Afi Records Control Auth SpecAuth Tree MapServer Etr SpecEtr PropEtr2 SpecExch Race.

(** the Map-Notifies the main thread had at hand, in the history [h] of both threads, that are for the Map-Register *)
Definition heard_for (r : etrr) (g : mreg) (h : list move) (n : mnot) : Prop :=
  exists src, In (Hear src n) h /\ notify_for r g src n.
(** a Map-Notify as it comes out of the decoder *)
Definition received_in (h : list move) : Prop := forall src n, In (Hear src n) h -> exists d, mnot_from_bytes d = Ok n.
(** no Map-Notify is recorded between the thread's decision to check the one it has and the end of the check *)
Definition undisturbed (hm : Z -> bytes -> bytes -> bytes) (r : etrr) (g : mreg) (h : list move) : Prop :=
  forall h1 h2 n p, h = h1 ++ MainGoes :: h2 -> p_main (race hm r g h1) = Storing n -> p_reg (race hm r g h1) <> Checking p.
(** every condition of acceptance (see [accepted_notify]) is met, but some by the one and some by the other; the
    authentication data are those of the first *)
Definition pieced_together (hm : Z -> bytes -> bytes -> bytes) (key : bytes) (g : mreg) (n1 n2 : mnot) : Prop :=
  snd (verify hm (ANot n1) key) = Ok true /\ n_nonce n1 = g_nonce g /\ n_nonce n2 = g_nonce g /\
  (n_key n1 = g_key g \/ n_key n2 = g_key g) /\
  ((n_xtr n1 = 0 \/ n_xtr n1 = g_xtr g) \/ (n_xtr n2 = 0 \/ n_xtr n2 = g_xtr g)) /\
  ((n_site n1 = 0 \/ n_site n1 = g_site g) \/ (n_site n2 = 0 \/ n_site n2 = g_site g)) /\
  (length (n_records n1) = length (g_records g) \/ length (n_records n2) = length (g_records g)) /\
  forall x, In x (g_records g) -> exists y, (In y (n_records n1) \/ In y (n_records n2)) /\ same_header y x.
