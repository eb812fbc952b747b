(** * The passes of a registration thread with what NAT detection found (etr_node.py:412-459).

    Etr.v models the same loop without the variable [nat_info] and without what the node records ([set_rtrs], 546-552);
    Signals.v models the threads of all registrations of a node, without time. *)
From Verif Require Import Base Afi Records Control Auth Tree MapServer Etr.

(** [t_info]: the local variable [nat_info], unbound at first; [t_rtrs]: [_rtrs[etrr]] of the node, missing at first *)
Record tstate := TState { t_rs : rs; t_info : option (option addr); t_rtrs : option (list addr) }.
(** what a pass meets: the time, whether another thread signalled a change before the flag is reset, what [get_nat_info]
    and [register] come to when they are called ([Ok None]: told to stop), whether a change is signalled after that *)
Record tinp := TInp { ti_now : Z; ti_sig : bool; ti_nat : res (option addr); ti_reg : res (option bool); ti_sig2 : bool }.
(** calls of [get_nat_info]; of [register(nat_info, force_map_notify)]; of [set_rtrs] *)
Inductive tev := TDetect | TRegister (force : bool) (nat : option addr) | TRecord (rtrs : list addr).
Definition t0 : tstate := TState rs0 None None.
(** [nat_info.rtr_rlocs], or [[]] if there is no [nat_info] (446-451) *)
Definition rtr_rlocs (d : option addr) : list addr := match d with Some (LNat _ _ _ _ _ l) => l | _ => [] end.

(** etr_node.py:424-453.  The value of [register] counts as false if it is None (412, 429). *)
Definition pass (s : tstate) (i : tinp) : tstate * list tev :=
  let r := t_rs s in
  let need := r_need r || ti_sig i in
  let detect := negb (r_ok r) || (r_nat r + 15 * 60 * second <? ti_now i) in
  let e1 := if detect then [TDetect] else [] in
  match (if detect then match ti_nat i with Ok d => Some (Some d, ti_now i, false) | Err _ => None end
         else Some (t_info s, r_nat r, r_ok r)) with
  | None => (TState (RS (r_nat r) (r_reg r) (r_ok r) need) (t_info s) (t_rtrs s), e1)        (* caught at 452 *)
  | Some (info, nat_t, ok) =>
      if negb ok || need || (r_reg r + 60 * second <? ti_now i) then
        match info with
        | None => (TState (RS nat_t (r_reg r) ok (ti_sig2 i)) None (t_rtrs s), e1)            (* 441: UnboundLocalError *)
        | Some d =>
            match ti_reg i with
            | Err _ => (TState (RS nat_t (r_reg r) ok (ti_sig2 i)) info (t_rtrs s), e1 ++ [TRegister (negb ok) d])
            | Ok v =>
                let new := fold_left (fun s x => set_add addr_same x s) (rtr_rlocs d) [] in
                let changed := match t_rtrs s with None => true | Some old => negb (same_set old new) end in
                (TState (RS nat_t (ti_now i) (match v with Some b => b | None => false end) (ti_sig2 i || changed)) info (Some new),
                 e1 ++ [TRegister (negb ok) d; TRecord (rtr_rlocs d)])
            end
        end
      else (TState (RS nat_t (r_reg r) ok need) info (t_rtrs s), e1)
  end.
Fixpoint passes (s : tstate) (l : list tinp) : tstate * list (tinp * list tev) :=
  match l with
  | [] => (s, [])
  | i :: l => let '(s, e) := pass s i in let '(s, h) := passes s l in (s, (i, e) :: h)
  end.
