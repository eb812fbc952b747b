(** * A Map-Notify is recorded while its request is being looked at: the main thread (message_handler.py:127-146,
    etr_node.py:179-190, 606-616) against the registration thread (etr_node.py:356-410 and 192-270).

    As in Sched.v a step is what one Python bytecode does to a shared object.  What the threads share about one outstanding
    Map-Register is the attribute [notify], the event [notify_received], and whether the request is in
    [outstanding_map_registrations]; [stop] is the stop event of the thread. *)
From Verif Require Import Base Afi Records Control Auth Tree MapServer Etr.

(** ** notify_content_ok, etr_node.py:192-270, as a program that reads [self.notify] again and again; [Look upd next]: the
    object that is read is changed by [upd] and the program goes on with [next] of it *)
Inductive prog := Ret (v : res bool) | Look (upd : mnot -> mnot) (next : mnot -> prog).
Definition read (next : mnot -> prog) : prog := Look (fun n => n) next.

Section Hm.
Variable hm : Z -> bytes -> bytes -> bytes.

(** etr_node.py:227-270: the records, one after the other *)
Fixpoint records_prog (l : list mrec) : prog :=
  match l with
  | [] => Ret (Ok true)
  | r :: l => read (fun n => if existsb (rec_match r) (n_records n) then records_prog l else Ret (Ok false))
  end.
(** etr_node.py:222-225 *)
Definition count_prog (reg : mreg) : prog :=
  read (fun n => if negb (Nat.eqb (length (n_records n)) (length (g_records reg))) then Ret (Ok false) else records_prog (g_records reg)).
(** etr_node.py:216-219: two reads *)
Definition site_prog (reg : mreg) : prog :=
  read (fun n => if n_site n =? 0 then count_prog reg
                 else read (fun n => if n_site n =? g_site reg then count_prog reg else Ret (Err EKey))).
(** etr_node.py:211-214: two reads *)
Definition xtr_prog (reg : mreg) : prog :=
  read (fun n => if n_xtr n =? 0 then site_prog reg
                 else read (fun n => if n_xtr n =? g_xtr reg then site_prog reg else Ret (Err EKey))).
(** etr_node.py:197-209 *)
Definition content_prog (key : bytes) (reg : mreg) : prog :=
  Look (fun n => match fst (verify hm (ANot n) key) with ANot n' => n' | _ => n end)
       (fun n => match snd (verify hm (ANot n) key) with
                 | Err e => Ret (Err e)
                 | Ok false => Ret (Ok false)
                 | Ok true =>
                     read (fun n => if negb (bytes_eqb (n_nonce n) (g_nonce reg)) then Ret (Err EKey) else
                     read (fun n => if negb (n_key n =? g_key reg) then Ret (Ok false) else xtr_prog reg))
                 end).

(** ** The threads *)
(** the main thread: elsewhere; with this request and a Map-Notify from [src] at hand (etr_node.py:179-184); about to
    assign [self.notify] (188); about to set the event (189) *)
Inductive main_at := Elsewhere | Testing (src : fam * Z) (n : mnot) | Storing (n : mnot) | Setting.
(** the registration thread in [register] after 377: about to send with [k] attempts remaining after this one (379-381);
    waiting (384); looking at the stop event (386); at [notify_received] (389); taking the request off the list (396);
    looking at the event again (398); in notify_content_ok; and done, with the value of [register] *)
Inductive reg_at := Sending (k : nat) | Waiting (k : nat) | Stopping (k : nat) | Looking (k : nat) | Removing | Deciding
| Checking (p : prog) | Done (v : res (option bool)).
Record pair := Pair { p_notify : option mnot; p_event : bool; p_listed : bool; p_stop : bool; p_main : main_at; p_reg : reg_at }.
(** who runs: the main thread comes to this request with a Map-Notify; it goes on; the stop event is set; the registration
    thread goes on ([sent] is what send_message does, if it is about to send).  wait(1.0) can end at any time. *)
Inductive move := Hear (src : fam * Z) (n : mnot) | MainGoes | AskStop | RegGoes (sent : res (option (fam * Z))).

Variable r : etrr.
Variable reg : mreg.
Definition main_goes (w : pair) : pair :=
  match p_main w with
  | Elsewhere => w
  | Testing src n =>
      Pair (p_notify w) (p_event w) (p_listed w) (p_stop w)
           (if set_notify_if_matches r reg src n then Storing n else Elsewhere) (p_reg w)
  | Storing n => Pair (Some n) (p_event w) (p_listed w) (p_stop w) Setting (p_reg w)
  | Setting => Pair (p_notify w) true (p_listed w) (p_stop w) Elsewhere (p_reg w)
  end.
Definition at_reg (w : pair) (a : reg_at) : pair := Pair (p_notify w) (p_event w) (p_listed w) (p_stop w) (p_main w) a.
Definition reg_goes (sent : res (option (fam * Z))) (w : pair) : pair :=
  match p_reg w with
  | Sending k => match sent with Ok _ => at_reg w (Waiting k) | Err e => at_reg w (Done (Err e)) end
  | Waiting k => at_reg w (Stopping k)
  | Stopping k => if p_stop w then at_reg w (Done (Ok None)) else at_reg w (Looking k)
  | Looking k => if p_event w then at_reg w Removing else match k with O => at_reg w Removing | S k => at_reg w (Sending k) end
  | Removing => Pair (p_notify w) (p_event w) false (p_stop w) (p_main w) Deciding
  | Deciding => if p_event w then at_reg w (Checking (content_prog (tr_key r) reg)) else at_reg w (Done (Ok (Some false)))
  | Checking (Ret v) => at_reg w (Done (let* b := v in Ok (Some b)))
  | Checking (Look upd next) =>
      match p_notify w with
      | Some n => Pair (Some (upd n)) (p_event w) (p_listed w) (p_stop w) (p_main w) (Checking (next n))
      | None => at_reg w (Done (Err EAttr))
      end
  | Done _ => w
  end.
Definition move_step (w : pair) (m : move) : pair :=
  match m with
  | Hear src n => match p_main w with
                  | Elsewhere => if p_listed w then Pair (p_notify w) (p_event w) (p_listed w) (p_stop w) (Testing src n) (p_reg w) else w
                  | _ => w
                  end
  | MainGoes => main_goes w
  | AskStop => Pair (p_notify w) (p_event w) (p_listed w) true (p_main w) (p_reg w)
  | RegGoes sent => reg_goes sent w
  end.
(** the request is in the list; the thread is about to send it for the first time *)
Definition fresh : pair := Pair None false true false Elsewhere (Sending 2).
Definition race (h : list move) : pair := fold_left move_step h fresh.
End Hm.
