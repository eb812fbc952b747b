(** * An Info-Reply is recorded while the one before is looked at: the main thread (message_handler.py:145-164,
    etr_node.py:82-92, 659-670) against the registration thread (etr_node.py:76-80 and 296-354), as in Race.v.

    What the threads share about one outstanding Info-Request: the attributes [sent_from] and [info_reply], the event
    [reply_received], whether the request is in [outstanding_info_requests], and the reply objects themselves: an
    Info-Reply is stored first and its [private_etr_rloc] assigned afterwards. *)
From Verif Require Import Base Afi Records Control Auth Tree MapServer Etr Packet Daemon.

(** an Info-Reply, and the address that was assigned to its [private_etr_rloc] *)
Record stored := Stored { st_msg : info; st_priv : option (fam * Z) }.
(** what its [reply] looks like (etr_node.py:90 on [set_private]) *)
Definition looks (x : stored) : addr := i_data match st_priv x with Some f => set_private (st_msg x) f | None => st_msg x end.

(** the main thread: elsewhere; with this request and an Info-Reply at hand (etr_node.py:83-86); about to assign
    [info_reply] (89); about to read [sent_from] (90); about to assign [private_etr_rloc] (90); about to set the event (91) *)
Inductive imain_at := IElsewhere | ITesting (src : fam * Z) (m : info) | IStoring (m : info) | IReading | IPatching (f : fam * Z) | ISetting.
(** the registration thread in [get_nat_info] after 304: about to send with [k] attempts remaining after this one (308);
    about to assign [sent_from] (77); waiting (311); looking at the stop event (313); at [reply_received] (316); taking the
    request off the list (323); looking at the event again (325); reading [info_reply] (332); comparing the addresses of the
    reply with this number (333-334); done, with the value: the number of the reply that is returned *)
Inductive ireg_at := ISending (k : nat) | IAssigning (k : nat) (f : option (fam * Z)) | IWaiting (k : nat) | IStopping (k : nat) | ILooking (k : nat)
| IRemoving | IDeciding | IFetching | IComparing (i : nat) | IDone (v : res (option nat)).
(** [ip_replies]: the Info-Replies that were stored, in order; [info_reply] is the last one *)
Record ipair := IPair { ip_from : option (fam * Z); ip_replies : list stored; ip_event : bool; ip_listed : bool; ip_stop : bool;
  ip_main : imain_at; ip_reg : ireg_at }.
(** who runs: the main thread comes to this request with an Info-Reply; it goes on; the stop event is set; the registration
    thread goes on ([sent] is what send_message does, if it is about to send).  wait(1.0) can end at any time. *)
Inductive imove := IHear (src : fam * Z) (m : info) | IMainGoes | IAskStop | IRegGoes (sent : res (option (fam * Z))).

Section Request.
Variable r : etrr.
Variable nonce : bytes.
(** etr_node.py:83-84 *)
Definition reply_matches (src : fam * Z) (m : info) : bool :=
  addr_same (AIP (fst src) (snd src)) (AIP (fst (tr_ms r)) (snd (tr_ms r))) && bytes_eqb (i_nonce m) nonce.
Fixpoint patch_last (f : fam * Z) (l : list stored) : list stored :=
  match l with
  | [] => []
  | [x] => [Stored (st_msg x) (Some f)]
  | x :: l => x :: patch_last f l
  end.
Definition main_at (w : ipair) (a : imain_at) : ipair := IPair (ip_from w) (ip_replies w) (ip_event w) (ip_listed w) (ip_stop w) a (ip_reg w).
Definition imain_goes (w : ipair) : ipair :=
  match ip_main w with
  | IElsewhere => w
  | ITesting src m => main_at w (if reply_matches src m then IStoring m else IElsewhere)
  | IStoring m => IPair (ip_from w) (ip_replies w ++ [Stored m None]) (ip_event w) (ip_listed w) (ip_stop w) IReading (ip_reg w)
  | IReading => main_at w (match ip_from w with Some f => IPatching f | None => IElsewhere end)      (* TypeError in the main loop *)
  | IPatching f => IPair (ip_from w) (patch_last f (ip_replies w)) (ip_event w) (ip_listed w) (ip_stop w) ISetting (ip_reg w)
  | ISetting => IPair (ip_from w) (ip_replies w) true (ip_listed w) (ip_stop w) IElsewhere (ip_reg w)
  end.
Definition ireg_to (w : ipair) (a : ireg_at) : ipair := IPair (ip_from w) (ip_replies w) (ip_event w) (ip_listed w) (ip_stop w) (ip_main w) a.
(** etr_node.py:336-352 without a NAT: [sent_from[0]] is logged; [reply]: the number of the reply *)
Definition without_nat (w : ipair) (reply : option nat) : res (option nat) :=
  match ip_from w with
  | None => Err EType
  | Some _ => match tr_use_rtr r, reply with Some true, Some i => Ok (Some i) | _, _ => Ok None end
  end.
(** etr_node.py:333-352 *)
Definition compare_addrs (w : ipair) (i : nat) : res (option nat) :=
  match nth_error (ip_replies w) i with
  | Some x => match looks x with
              | LNat _ ep g _ pr _ => if negb (addr_same g pr) || negb (ep =? 4342) then Ok (Some i) else without_nat w (Some i)
              | _ => Err EAttr
              end
  | None => Err EAttr
  end.
Definition ireg_goes (sent : res (option (fam * Z))) (w : ipair) : ipair :=
  match ip_reg w with
  | ISending k => match sent with Ok f => ireg_to w (IAssigning k f) | Err e => ireg_to w (IDone (Err e)) end
  | IAssigning k f => IPair f (ip_replies w) (ip_event w) (ip_listed w) (ip_stop w) (ip_main w) (IWaiting k)
  | IWaiting k => ireg_to w (IStopping k)
  | IStopping k => if ip_stop w then ireg_to w (IDone (Ok None)) else ireg_to w (ILooking k)
  | ILooking k => if ip_event w then ireg_to w IRemoving else match k with O => ireg_to w IRemoving | S k => ireg_to w (ISending k) end
  | IRemoving => IPair (ip_from w) (ip_replies w) (ip_event w) false (ip_stop w) (ip_main w) IDeciding
  | IDeciding => if ip_event w then ireg_to w IFetching else ireg_to w (IDone (without_nat w None))
  | IFetching => match ip_replies w with [] => ireg_to w (IDone (Err EAttr)) | l => ireg_to w (IComparing (length l - 1)) end
  | IComparing i => ireg_to w (IDone (compare_addrs w i))
  | IDone _ => w
  end.
Definition imove_step (w : ipair) (m : imove) : ipair :=
  match m with
  | IHear src n => match ip_main w with IElsewhere => if ip_listed w then main_at w (ITesting src n) else w | _ => w end
  | IMainGoes => imain_goes w
  | IAskStop => IPair (ip_from w) (ip_replies w) (ip_event w) (ip_listed w) true (ip_main w) (ip_reg w)
  | IRegGoes sent => ireg_goes sent w
  end.
(** RTRs are not switched off; the request is in the list; the thread is about to send it for the first time *)
Definition ifresh : ipair := IPair None [] false true false IElsewhere (ISending 2).
Definition irace (h : list imove) : ipair := fold_left imove_step h ifresh.
End Request.
