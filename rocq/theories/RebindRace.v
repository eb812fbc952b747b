(** * A socket is bound again while threads send from it: [rebind] (auto_socket.py:37-89) in the main thread, [sendto] and
    [getsockname] (auto_socket.py:112-127, send_message.py:44-46) in any number of registration threads; one access to [_sock]
    or [_sock_address], or one system call, at a time.

    [sendto] sends the datagram completely or raises an error.  Sending from a socket that is not bound binds it to a port
    the system chooses, and then [bind] fails (EINVAL). *)
From Verif Require Import Base Afi Net.

(** what the system has for a socket object *)
Inductive sobj := Fresh | BoundTo (z : Z) | Elsewhere | Closed.
(** where a datagram left from: an address and the port of the socket, or whatever the system chose *)
Inductive left_from := FromAddr (z : Z) | FromAnywhere.
(** the main thread: not in [rebind]; there with new address [z] before 52; 54; 56-57; 59-66; 69; 72; and after a failure
    before 82; 84; 86-87 *)
Inductive rb_at := RIdle | RClosing (z : Z) | RForgetting (z : Z) | REmptying (z : Z) | ROpening (z : Z) | RBinding (z : Z) | RNaming (z : Z)
| RFailClosing | RFailForgetting | RFailEmptying.
(** a thread: not sending; before 119 ([sendto]); before it reads [_sock] again in 124; before the system call on object [o];
    before getsockname (send_message.py:46), the datagram having left; and done: nothing sent (0), an exception, or reported *)
Inductive sd_at := SdIdle | SdTesting | SdLoading | SdCalling (o : nat) | SdNaming (f : left_from) | SdNothing | SdRaised
| SdReported (a : Z) (f : left_from).
Record rbrace := RbRace { rb_objs : list sobj; rb_sock : option nat; rb_addr : Z; rb_main : rb_at; rb_send : nat -> sd_at }.
(** [rebind] is called, the address being [z] now; the main thread goes on, system calls succeeding or not; thread [k] calls
    sendto; it goes on *)
Inductive rb_move := RbStart (z : Z) | RbGo (ok : bool) | SdStart (k : nat) | SdGo (k : nat) (ok : bool).

Fixpoint put_nth {X} (n : nat) (x : X) (l : list X) : list X :=
  match l, n with [], _ => [] | _ :: l, O => x :: l | y :: l, S n => y :: put_nth n x l end.
Definition close_cur (w : rbrace) : list sobj := match rb_sock w with Some o => put_nth o Closed (rb_objs w) | None => rb_objs w end.
Definition main_to (w : rbrace) (a : rb_at) : rbrace := RbRace (rb_objs w) (rb_sock w) (rb_addr w) a (rb_send w).
Definition send_to (w : rbrace) (k : nat) (a : sd_at) : rbrace :=
  RbRace (rb_objs w) (rb_sock w) (rb_addr w) (rb_main w) (fun j => if Nat.eqb j k then a else rb_send w j).

Section Sock.
(** the family of the socket's address *)
Variable v : fam.
Definition rb_goes (ok : bool) (w : rbrace) : rbrace :=
  match rb_main w with
  | RIdle => w
  | RClosing z => RbRace (close_cur w) (rb_sock w) (rb_addr w) (RForgetting z) (rb_send w)
  | RForgetting z => RbRace (rb_objs w) None (rb_addr w) (REmptying z) (rb_send w)
  | REmptying z => RbRace (rb_objs w) (rb_sock w) 0 (if usable v z then ROpening z else RFailClosing) (rb_send w)
  | ROpening z =>
      if ok then RbRace (rb_objs w ++ [Fresh]) (Some (length (rb_objs w))) (rb_addr w) (RBinding z) (rb_send w)
      else main_to w RFailClosing
  | RBinding z =>
      match rb_sock w with
      | Some o =>
          match nth_error (rb_objs w) o, ok with
          | Some Fresh, true => RbRace (put_nth o (BoundTo z) (rb_objs w)) (rb_sock w) (rb_addr w) (RNaming z) (rb_send w)
          | _, _ => main_to w RFailClosing
          end
      | None => w                                    (* not reached *)
      end
  | RNaming z => RbRace (rb_objs w) (rb_sock w) z RIdle (rb_send w)
  | RFailClosing => RbRace (close_cur w) (rb_sock w) (rb_addr w) RFailForgetting (rb_send w)
  | RFailForgetting => RbRace (rb_objs w) None (rb_addr w) RFailEmptying (rb_send w)
  | RFailEmptying => RbRace (rb_objs w) (rb_sock w) 0 RIdle (rb_send w)
  end.
Definition sd_goes (k : nat) (ok : bool) (w : rbrace) : rbrace :=
  match rb_send w k with
  | SdTesting => send_to w k (match rb_sock w with None => SdNothing | Some _ => SdLoading end)
  | SdLoading => send_to w k (match rb_sock w with None => SdRaised | Some o => SdCalling o end)     (* AttributeError *)
  | SdCalling o =>
      match nth_error (rb_objs w) o, ok with
      | Some (BoundTo z), true => send_to w k (SdNaming (FromAddr z))
      | Some Fresh, true =>
          let w := RbRace (put_nth o Elsewhere (rb_objs w)) (rb_sock w) (rb_addr w) (rb_main w) (rb_send w) in send_to w k (SdNaming FromAnywhere)
      | Some Elsewhere, true => send_to w k (SdNaming FromAnywhere)
      | _, _ => send_to w k SdRaised                  (* closed, or the system refuses *)
      end
  | SdNaming f => send_to w k (SdReported (rb_addr w) f)
  | _ => w
  end.
Definition rb_step (w : rbrace) (m : rb_move) : rbrace :=
  match m with
  | RbStart z => match rb_main w with RIdle => if z =? rb_addr w then w else main_to w (RClosing z) | _ => w end
  | RbGo ok => rb_goes ok w
  | SdStart k => match rb_send w k with SdIdle | SdNothing | SdRaised | SdReported _ _ => send_to w k SdTesting | _ => w end
  | SdGo k ok => sd_goes k ok w
  end.
(** auto_socket.py:22-23 *)
Definition rb0 : rbrace := RbRace [] None 0 RIdle (fun _ => SdIdle).
Definition rb_race (h : list rb_move) : rbrace := fold_left rb_step h rb0.
End Sock.
