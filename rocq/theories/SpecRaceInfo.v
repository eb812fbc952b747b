(** * Specification: two Info-Replies for one Info-Request *)
From Verif Require Import Base Afi Records Control Auth Tree MapServer Etr Packet Daemon Exchange SpecExch RaceInfo.

(** the Info-Replies the main thread had at hand, in the history [h] of both threads, that answer the request *)
Definition ireplied (r : etrr) (nonce : bytes) (h : list imove) (m : info) : Prop :=
  exists src, In (IHear src m) h /\ reply_for r nonce src m.
(** the request was sent from [f] *)
Definition isent (r : etrr) (nonce : bytes) (h : list imove) (f : fam * Z) : Prop :=
  exists h1 h2 k, h = h1 ++ IRegGoes (Ok (Some f)) :: h2 /\ ip_reg (irace r nonce h1) = ISending k.
(** whenever the thread sends, some socket can send *)
Definition can_send (r : etrr) (nonce : bytes) (h : list imove) : Prop :=
  forall h1 h2 k, h = h1 ++ IRegGoes (Ok None) :: h2 -> ip_reg (irace r nonce h1) <> ISending k.
(** no Info-Reply is half recorded (stored, its private address not assigned) when the thread compares addresses *)
Definition settled (r : etrr) (nonce : bytes) (h : list imove) : Prop :=
  forall h1 h2 x i, h = h1 ++ IRegGoes x :: h2 -> ip_reg (irace r nonce h1) = IComparing i ->
    ip_main (irace r nonce h1) <> IReading /\ forall f, ip_main (irace r nonce h1) <> IPatching f.
(** two answers were at hand *)
Definition two_replies (r : etrr) (nonce : bytes) (h : list imove) : Prop :=
  exists a s1 m1 b s2 m2 c, h = a ++ IHear s1 m1 :: b ++ IHear s2 m2 :: c /\ reply_for r nonce s1 m1 /\ reply_for r nonce s2 m2.
(** the reply that is returned has number [i]; it tells [d] *)
Definition returned (w : ipair) (i : nat) (d : addr) : Prop := exists x, nth_error (ip_replies w) i = Some x /\ d = looks x.
(** the thread decided while the event was not set *)
Definition undecided (r : etrr) (nonce : bytes) (h : list imove) : Prop :=
  exists h1 h2 x, h = h1 ++ IRegGoes x :: h2 /\ ip_reg (irace r nonce h1) = IDeciding /\ ip_event (irace r nonce h1) = false.
