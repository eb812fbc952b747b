(** * Locator, Map-Reply/Map-Register and Map-Referral records.
    pylisp/packet/lisp/control/{locator_record,map_reply_record,map_register_record,map_referral_record}.py *)
From Verif Require Import Base Afi.

(** [for dummy in range(n): l.append(read(bitstream))] *)
Section RdN.
  Context {A : Type}.
  Variable rd : bits -> res (A * bits).
  Fixpoint rd_n (n : nat) (s : bits) : res (list A * bits) :=
    match n with
    | O => Ok ([], s)
    | S m => let* '(a, s) := rd s in
             let* '(l, s) := rd_n m s in Ok (a :: l, s)
    end.
End RdN.

(** [for x in l: x.sanitize()] for checks that change nothing *)
Definition checkM {A} (f : A -> res unit) (l : list A) : res unit :=
  let* _ := mapM f l in Ok tt.

Definition lenZ {A} (l : list A) : Z := Z.of_nat (length l).
Definition nonempty {A} (l : list A) : bool := match l with [] => false | _ => true end.

(** application/lispd/utils/prefix.py:15-41 [determine_instance_id_and_afi]; [None] is the
    triple (None, None, None). *)
Definition determine (p : addr) : option (Z * Z * addr) :=
  let iid := match p with LInst i _ _ => i | _ => 0 end in
  let inner := if is_lcaf p then
                 match get_addresses p with [x] => Some x | _ => None end
               else Some p in
  match inner with
  | Some (AIP V4 z) => Some (iid, 1, AIP V4 z)
  | Some (ANet V4 z n) => Some (iid, 1, ANet V4 z n)
  | Some (AIP V6 z) => Some (iid, 2, AIP V6 z)
  | Some (ANet V6 z n) => Some (iid, 2, ANet V6 z n)
  | _ => None
  end.

(** locator_record.py:26-50 (attributes; [_notify_targets] is modelled in Net.v) *)
Record loc := Loc {
  l_prio : Z; l_weight : Z; l_mprio : Z; l_mweight : Z;
  l_rsv : bits; l_local : bool; l_probed : bool; l_reach : bool; l_addr : addr }.

(** locator_record.py:195-206: 255.255.255.255, 224.0.0.0/24; ff02::/16, ff12::/16 *)
Definition forbidden4 (z : Z) : bool :=
  (z =? 4294967295) || ((3758096384 <=? z) && (z <=? 3758096639)).
Definition forbidden6 (z : Z) : bool :=
  let top := z / 2 ^ 112 in (top =? 65282) || (top =? 65298).

(** locator_record.py:97-210.  The per-address loop (193-210) tests [self.address] instead of
    [address], so an LCAF locator with at least one inner address is always refused. *)
Definition sanitize_loc (l : loc) : res unit :=
  let* _ := guard ((0 <=? l_prio l) && (l_prio l <=? 255)) EValue in
  let* _ := guard ((0 <=? l_weight l) && (l_weight l <=? 255)) EValue in
  let* _ := guard ((0 <=? l_mprio l) && (l_mprio l <=? 255)) EValue in
  let* _ := guard ((0 <=? l_mweight l) && (l_mweight l <=? 255)) EValue in
  match l_addr l with
  | AIP V4 z => guard (negb (forbidden4 z)) EValue
  | AIP V6 z => guard (negb (forbidden6 z)) EValue
  | a => if is_lcaf a then guard (negb (nonempty (get_addresses a))) EValue
         else Err EValue
  end.

(** locator_record.py:88-91: [int(address)] of the determined address; int(None) and
    int(network) are TypeErrors. *)
Definition sort_key (l : loc) : res Z :=
  match determine (l_addr l) with
  | Some (_, _, AIP _ z) => Ok z
  | _ => Err EType
  end.

(** locator_record.py:252-278 *)
Definition w_loc (l : loc) : res bits :=
  let* _ := sanitize_loc l in
  let* a := w_uint 8 (l_prio l) in
  let* b := w_uint 8 (l_weight l) in
  let* c := w_uint 8 (l_mprio l) in
  let* d := w_uint 8 (l_mweight l) in
  let* e := w_afi (l_addr l) in
  Ok (a ++ b ++ c ++ d ++ l_rsv l ++ (l_local l :: l_probed l :: l_reach l :: e)).

(** locator_record.py:212-244 *)
Definition rd_loc (s : bits) : res (loc * bits) :=
  let* '(p, s) := rd_uint 8 s in
  let* '(w, s) := rd_uint 8 s in
  let* '(mp, s) := rd_uint 8 s in
  let* '(mw, s) := rd_uint 8 s in
  let* '(rsv, s) := rd_bits 13 s in
  let* '(lo, s) := rd_bool s in
  let* '(pr, s) := rd_bool s in
  let* '(re, s) := rd_bool s in
  let* '(a, s) := read_afi None s in
  let l := Loc p w mp mw rsv lo pr re a in
  let* _ := sanitize_loc l in
  Ok (l, s).

(** [locator_records.sort(key=LocatorRecord.sort_key)]: Python's sort is stable; a stable
    insertion sort gives the same list (map_reply_record.py:139, map_referral_record.py:273). *)
Fixpoint ins (x : Z * loc) (l : list (Z * loc)) : list (Z * loc) :=
  match l with
  | [] => [x]
  | y :: r => if fst x <=? fst y then x :: y :: r else y :: ins x r
  end.
Definition isort (l : list (Z * loc)) : list (Z * loc) := fold_right ins [] l.
Definition sort_locs (l : list loc) : res (list loc) :=
  let* kl := mapM (fun x => let* k := sort_key x in Ok (k, x)) l in
  Ok (map snd (isort kl)).

(** ** Map-Reply / Map-Register records: map_reply_record.py:40-54, map_register_record.py:12-13 *)
Record mrec := MRec {
  mr_ttl : Z; mr_action : Z; mr_auth : bool; mr_rsv : bits; mr_ver : Z;
  mr_eid : addr; mr_locs : list loc }.

(** map_reply_record.py:59-139 *)
Definition sanitize_mrec (r : mrec) : res mrec :=
  let* _ := guard ((0 <=? mr_ttl r) && (mr_ttl r <=? 4294967295)) EValue in
  let action := if nonempty (mr_locs r) then 0 else mr_action r in
  let* _ := guard ((0 <=? action) && (action <=? 3)) EValue in
  let* _ := guard ((0 <=? mr_ver r) && (mr_ver r <? 4096)) EValue in
  let* _ := guard (is_net (mr_eid r)) EValue in
  let* _ := checkM sanitize_loc (mr_locs r) in
  let* locs := sort_locs (mr_locs r) in
  Ok (MRec (mr_ttl r) action (mr_auth r) (mr_rsv r) (mr_ver r) (mr_eid r) locs).

(** map_reply_record.py:196-231 (after sanitize) *)
Definition enc_mrec (r : mrec) : res bits :=
  let* a := w_uint 32 (mr_ttl r) in
  let* b := w_uint 8 (lenZ (mr_locs r)) in
  let* n := prefixlen (mr_eid r) in
  let* c := w_uint 8 n in
  let* d := w_uint 3 (mr_action r) in
  let* e := w_uint 12 (mr_ver r) in
  let* f := w_afi (mr_eid r) in
  let* g := concatM w_loc (mr_locs r) in
  Ok (a ++ b ++ c ++ d ++ (mr_auth r :: mr_rsv r) ++ e ++ f ++ g).

Definition w_mrec (r : mrec) : res bits :=
  let* r := sanitize_mrec r in enc_mrec r.

(** map_reply_record.py:141-188 *)
Definition rd_mrec (s : bits) : res (mrec * bits) :=
  let* '(ttl, s) := rd_uint 32 s in
  let* '(n, s) := rd_uint 8 s in
  let* '(plen, s) := rd_uint 8 s in
  let* '(action, s) := rd_uint 3 s in
  let* '(auth, s) := rd_bool s in
  let* '(rsv, s) := rd_bits 16 s in
  let* '(ver, s) := rd_uint 12 s in
  let* '(eid, s) := read_afi (Some plen) s in
  let* '(locs, s) := rd_n rd_loc (Z.to_nat n) s in
  let* r := sanitize_mrec (MRec ttl action auth rsv ver eid locs) in
  Ok (r, s).

(** ** Map-Referral records: map_referral_record.py:62-79.  [signatures] is only counted. *)
Record rrec := RRec {
  rr_ttl : Z; rr_action : Z; rr_auth : bool; rr_incomplete : bool; rr_rsv : bits;
  rr_sigs : Z; rr_ver : Z; rr_eid : addr; rr_locs : list loc }.

(** map_referral_record.py:179-230 *)
Definition referral_table (action : Z) (incomplete has_locs : bool) (ttl : Z) : bool :=
  if action =? 0 then negb incomplete && has_locs && (ttl =? 1440)
  else if action =? 1 then negb incomplete && has_locs && (ttl =? 1440)
  else if action =? 2 then ttl =? 1440
  else if action =? 3 then ttl =? 1
  else if action =? 4 then negb incomplete && negb has_locs && (ttl =? 15)
  else if action =? 5 then incomplete && negb has_locs && (ttl =? 0)
  else true.

(** map_referral_record.py:84-278 *)
Definition sanitize_rrec (r : rrec) : res rrec :=
  let* _ := guard ((0 <=? rr_ttl r) && (rr_ttl r <=? 4294967295)) EValue in
  let* _ := guard ((0 <=? rr_action r) && (rr_action r <=? 5)) EValue in
  let* _ := guard (referral_table (rr_action r) (rr_incomplete r) (nonempty (rr_locs r)) (rr_ttl r)) EValue in
  let* _ := guard ((0 <=? rr_ver r) && (rr_ver r <? 4096)) EValue in
  let* eid := match rr_eid r with
              | LInst i a m => Ok (LInst i a m)
              | ANet v z n => Ok (LInst 0 (ANet v z n) 32)
              | _ => Err EValue
              end in
  let* _ := checkM (fun l => let* _ := guard (negb (l_probed l)) EValue in sanitize_loc l) (rr_locs r) in
  let* locs := sort_locs (rr_locs r) in
  Ok (RRec (rr_ttl r) (rr_action r) (rr_auth r) (rr_incomplete r) (rr_rsv r) (rr_sigs r)
           (rr_ver r) eid locs).

(** map_referral_record.py:343-386 (after sanitize) *)
Definition enc_rrec (r : rrec) : res bits :=
  let* a := w_uint 32 (rr_ttl r) in
  let* b := w_uint 8 (lenZ (rr_locs r)) in
  let* n := prefixlen (rr_eid r) in
  let* c := w_uint 8 n in
  let* d := w_uint 3 (rr_action r) in
  let* s := w_uint 4 (rr_sigs r) in
  let* e := w_uint 12 (rr_ver r) in
  let* f := w_afi (rr_eid r) in
  let* g := concatM w_loc (rr_locs r) in
  let* _ := guard (rr_sigs r =? 0) ENotImpl in
  Ok (a ++ b ++ c ++ d ++ (rr_auth r :: rr_incomplete r :: rr_rsv r) ++ s ++ e ++ f ++ g).

Definition w_rrec (r : rrec) : res bits :=
  let* r := sanitize_rrec r in enc_rrec r.

(** map_referral_record.py:280-335 *)
Definition rd_rrec (s : bits) : res (rrec * bits) :=
  let* '(ttl, s) := rd_uint 32 s in
  let* '(n, s) := rd_uint 8 s in
  let* '(plen, s) := rd_uint 8 s in
  let* '(action, s) := rd_uint 3 s in
  let* '(auth, s) := rd_bool s in
  let* '(inc, s) := rd_bool s in
  let* '(rsv, s) := rd_bits 11 s in
  let* '(sigs, s) := rd_uint 4 s in
  let* '(ver, s) := rd_uint 12 s in
  let* '(eid, s) := read_afi (Some plen) s in
  let* '(locs, s) := rd_n rd_loc (Z.to_nat n) s in
  let* _ := guard (sigs =? 0) ENotImpl in
  let* r := sanitize_rrec (RRec ttl action auth inc rsv 0 ver eid locs) in
  Ok (r, s).
