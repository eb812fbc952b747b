(** * Specification of the Map-Server's registrations, on histories *)
From Coq Require Import Sorted.
From Verif Require Import Base Afi Spec SpecEid Records Control SpecRec Auth SpecAuth Tree SpecTree MapServer.

(** what happens to one Map-Server node: record [i] of a Map-Register from [src] is handled at time
    [now], or the cleanup thread makes a pass for which it read the time [now] *)
Inductive ms_ev := EvReg (m : mreg) (i : nat) (src : fam * Z) (now : Z) | EvClean (now : Z).

(** the message authenticates under the key (what that means: C42) *)
Definition authentic (hm : Z -> bytes -> bytes -> bytes) (key : bytes) (m : mreg) : Prop :=
  snd (verify hm (AReg m) key) = Ok true.

(** the record a verified message carries: normalised when the message is hashed *)
Definition normal_record (m : mreg) (r r' : mrec) : Prop :=
  (g_key m = 0 /\ r' = r) \/ (g_key m <> 0 /\ sanitize_mrec r = Ok r').

(** who sent it: the xTR if it gives its id, otherwise the address *)
Definition sender (m : mreg) (src : fam * Z) (s : source) : Prop :=
  (g_xtr m <> 0 /\ s = SXtr (g_site m) (g_xtr m)) \/ (g_xtr m = 0 /\ s = SAddr (fst src) (snd src)).

(** the record's EID prefix *)
Definition eid_prefix (r : mrec) (q : pfx) : Prop :=
  exists iid afi, eid_named (mr_eid r) iid afi (ANet (x_fam q) (x_net q) (x_len q)).

(** a Map-Server for prefix [p] with [key] must accept: registration [rg] of prefix [q] by [s] *)
Definition acceptable hm (key : bytes) (more : bool) (p : pfx) (m : mreg) (i : nat) (src : fam * Z) (now : Z)
  (q : pfx) (s : source) (rg : reg) : Prop :=
  exists r r', authentic hm key m /\ nth_error (g_records m) i = Some r /\ eid_prefix r q /\
    inside q p /\ (q = p \/ more = true) /\ sender m src s /\ normal_record m r r' /\
    rg = Reg r' (g_proxy m) (now + 180 * sec).

(** the registration of (q, s) in force after history [h]: the last accepted one, unless a cleanup pass
    came after its deadline *)
Definition in_force hm key more p (h : list ms_ev) (q : pfx) (s : source) (rg : reg) : Prop :=
  exists h1 m i src now h2, h = h1 ++ EvReg m i src now :: h2 /\
    acceptable hm key more p m i src now q s rg /\
    (forall m' i' src' now', In (EvReg m' i' src' now') h2 ->
       forall rg', ~ acceptable hm key more p m' i' src' now' q s rg') /\
    (forall t, In (EvClean t) h2 -> t <= now + 180 * sec).

(** the code, on one node *)
Definition ms_step hm (p : pfx) (s : ms) (e : ms_ev) : ms :=
  match e with
  | EvReg m i src now => fst (fst (handle_record hm p s m i src now))
  | EvClean now => set_regs s (cleanup now (ms_regs s))
  end.
Definition ms_run hm p (s : ms) (h : list ms_ev) : ms := fold_left (ms_step hm p) h s.
(** a new MapServerNode *)
Definition new_ms (key : bytes) (more : bool) : ms := MS key more [].
(** [registrations[q][s]] *)
Definition registered (s : ms) (q : pfx) (src : source) : option reg :=
  match Dict.dget pfx_eqb q (ms_regs s) with Some d => Dict.dget source_eqb src d | None => None end.

(** messages are Python objects *)
Definition objects (h : list ms_ev) : Prop :=
  forall m i src now, In (EvReg m i src now) h -> obj_mreg m.

(** ** The whole daemon: Map-Registers arrive, cleanup threads run *)
Inductive d_ev := DReg (m : mreg) (src : fam * Z) (clock : nat -> Z) | DClean (id : nat) (now : Z).
Definition d_step hm (cfg : instances) (w : mss) (e : d_ev) : mss :=
  match e with
  | DReg m src clock => fst (fst (handle_map_register hm cfg w m src clock))
  | DClean id now => set_ms w id (set_regs (w id) (cleanup now (ms_regs (w id))))
  end.
Definition d_run hm cfg (w : mss) (h : list d_ev) : mss := fold_left (d_step hm cfg) h w.

(** record [i] is for the Map-Server node [nd] *)
Definition lands (cfg : instances) (m : mreg) (i : nat) (nd : node) : Prop :=
  exists r iid afi a q, nth_error (g_records m) i = Some r /\ eid_named (mr_eid r) iid afi a /\
    pfx_of a = Some q /\ g_resolve cfg iid afi q = Ok (Some nd) /\ n_cls nd = NMapServer.
(** and is accepted by it *)
Definition accepted hm cfg (w : mss) (m : mreg) (src : fam * Z) (clock : nat -> Z) (i : nat) (nd : node) : Prop :=
  lands cfg m i nd /\
  exists q s rg, acceptable hm (ms_key (w (n_id nd))) (ms_more (w (n_id nd))) (n_pfx nd) m i src (clock i) q s rg.
