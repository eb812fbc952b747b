(** * From the configuration files to the sockets: Settings() (application/lispd/settings.py) and what scripts/lispd main() does with
    it.  The loading of files is in Conf.v, [fix_config] in Net.v, main() in Main.v; here are the values of the settings. *)
From Coq Require Import Ascii String.
From Verif Require Import Base Afi Records Control Auth Tree Net Ddt Etr RootFile IpText Conf Main.
Open Scope string_scope. Open Scope list_scope. Open Scope Z_scope.

(** ** Values of settings, as far as settings.py and main() look at them *)
Inductive sval :=
| VAddr (v : fam) (z : Z)                              (* IPv4Address, IPv6Address *)
| VText (t : text)                                     (* str, unicode *)
| VInt (z : Z) | VLong (z : Z) | VBool (b : bool) | VNone
| VSeq (l : list sval)                                 (* list, tuple, set *)
| VDict (d : list (sval * sval))
| VNode (n : node)                                     (* an object of a subclass of AbstractNode *)
| VOther (shown : option text) (truth : bool).         (* not iterable; unicode() of it (or an exception), and bool() *)

(** unicode(x), settings.py:119.  The texts of lists, dictionaries and nodes begin with a bracket, a brace or a name: no address,
    and ip_address raises as unicode() does here *)
Definition unicode_of (x : sval) : option text :=
  match x with
  | VText t => Some t
  | VInt z | VLong z => Some (if z <? 0 then (45 :: print_int 10 (- z))%Z else print_int 10 z)
  | VBool true => Some [84; 114; 117; 101]%Z
  | VBool false => Some [70; 97; 108; 115; 101]%Z
  | VNone => Some [78; 111; 110; 101]%Z
  | VOther t _ => t
  | VAddr v z => Some (text_of (v, z))
  | VSeq _ | VDict _ | VNode _ => None
  end.
(** for ... in x *)
Definition iterate (x : sval) : option (list sval) :=
  match x with
  | VSeq l => Some l
  | VDict d => Some (map fst d)
  | VText t => Some (map (fun c => VText [c]) t)
  | _ => None
  end.
(** bool(x) *)
Definition truthy (x : sval) : bool :=
  match x with
  | VAddr _ _ | VNode _ => true
  | VText t => negb (empty t)
  | VInt z | VLong z => negb (z =? 0)%Z
  | VBool b => b
  | VNone => false
  | VSeq l => match l with [] => false | _ => true end
  | VDict d => match d with [] => false | _ => true end
  | VOther _ b => b
  end.
(** the integer that x is equal to as a key of a dictionary (floats are left out) *)
Definition num_of (x : sval) : option Z :=
  match x with VInt z | VLong z => Some z | VBool b => Some (Z.b2z b) | _ => None end.
(** isinstance(x, int): bool is a subclass, long is not *)
Definition is_int (x : sval) : bool := match x with VInt _ | VBool _ => true | _ => false end.
Definition is_none (x : sval) : bool := match x with VNone => true | _ => false end.

Section Start.
Variable octal : text -> bool.

(** ** The defaults, settings.py:24-57, 59-64.  [names]: what getaddrinfo gives for the host name; [xtr]: get_xtr_id() (Net.v).
    None: an exception, here already when the module is imported (163) *)
Fixpoint mapO {A B} (f : A -> option B) (l : list A) : option (list B) :=
  match l with
  | [] => Some []
  | a :: l => match f a, mapO f l with Some b, Some bs => Some (b :: bs) | _, _ => None end
  end.
Definition default_listen_on (names : list text) : option (list (fam * Z)) :=
  mapO (fun t => address_of octal (hd [] (split 37 t))) names.
Definition defaults (names : list text) (xtr : Z) : option (attrs sval) :=
  match default_listen_on names with
  | None => None
  | Some l => Some [("LISTEN_ON", VSeq (map (fun a => VAddr (fst a) (snd a)) l)); ("INSTANCES", VDict []); ("PETR", VNone);
                    ("NATT", VBool true); ("NFQUEUE_IPV4", VNone); ("NFQUEUE_IPV6", VNone); ("XTR_ID", VLong xtr);
                    ("SITE_ID", VInt 0); ("PROCESS_DATA", VBool true)]
  end.

(** ** What [fix_config] (settings.py:117-159, Net.v) is given *)
Definition value_of (n : string) (a : attrs sval) : sval := match getattr n a with Some x => x | None => VNone end.
Definition listen_of (x : sval) : clisten :=
  match x with
  | VAddr v z => LAddr v z
  | _ => LText (match unicode_of x with Some t => address_of octal t | None => None end)
  end.
Definition key_of (x : sval) : ckey := match x with VInt z => KInt z | VBool b => KInt (Z.b2z b) | _ => KOther end.
Definition cval_of (x : sval) : cval := match x with VNode n => CNode n | _ => COther end.
(** settings.py:130-145 looks for the keys 1 and 2 only.  Simplification: a list in place of this dictionary is refused (Python takes one
    of at least five elements that contains 1 and 2 and has the containers in these positions) *)
Definition inst_of (x : sval) : cinst :=
  match x with
  | VDict d => CDict (flat_map (fun e => match num_of (fst e) with Some k => [(k, cval_of (snd e))] | None => [] end) d)
  | _ => CNoDict
  end.
(** settings.py:125: an empty list or text has no elements to look at; elements of others are not integers that are also indices of
    dictionaries, which raises ConfigurationError, TypeError or IndexError *)
Definition instances_of (x : sval) : option (list (ckey * cinst)) :=
  match x with
  | VDict d => Some (map (fun e => (key_of (fst e), inst_of (snd e))) d)
  | VSeq [] | VText [] => Some []
  | _ => None
  end.
Definition settings_of (a : attrs sval) : settings :=
  let get n := value_of n a in
  Settings (option_map (map listen_of) (iterate (get "LISTEN_ON"))) (instances_of (get "INSTANCES"))
    (match get "PETR" with VAddr _ _ | VNone => true | _ => false end)
    (match get "NATT" with VBool _ => true | _ => false end)
    (is_int (get "NFQUEUE_IPV4") || is_none (get "NFQUEUE_IPV4"))
    (is_int (get "NFQUEUE_IPV6") || is_none (get "NFQUEUE_IPV6")).

(** ** main() *)
(** scripts/lispd:261-265: the trees that are given the sockets; None: an entry is no node (AttributeError).  A key that is no number gets
    number -1, which is no address family *)
Definition trees1 (e : sval * sval) : option (Z * list (Z * node)) :=
  match snd e with
  | VDict d =>
      match mapO (fun f => match snd f with VNode n => Some (match num_of (fst f) with Some k => k | None => -1 end, n)%Z | _ => None end) d with
      | Some l => Some (match num_of (fst e) with Some k => k | None => -1 end, l)%Z
      | None => None
      end
  | _ => None
  end.
Definition trees (x : sval) : option instances := match x with VDict d => mapO trees1 d | _ => Some [] end.
Definition queue_of (x : sval) : option Z := num_of x.
(** scripts/lispd:205-212: the configuration main() works with, [listen] being what fix_config made of LISTEN_ON *)
Definition conf_of (listen : list clisten) (i : instances) (a : attrs sval) : conf :=
  Cf (flat_map (fun l => match l with LAddr v z => [(v, z)] | LText _ => [] end) listen) (truthy (value_of "PROCESS_DATA" a))
     (match value_of "PETR" a with VAddr v z => Some (v, z) | _ => None end)
     (queue_of (value_of "NFQUEUE_IPV4" a)) (queue_of (value_of "NFQUEUE_IPV6" a)) i.

(** the program: it dies when its modules are imported, or main() ends or serves *)
Inductive outcome := Dies | Ran (s : started).
(** scripts/lispd:205-265 and 338-348.  [resolver]: None: getaddrinfo raises.  An entry that is no node is met after the sockets have been
    made: main() returns 2 like in the other cases that are found before *)
Definition lispd (show_config have_nfqueue : bool) (resolver : option (list text)) (xtr : Z) (files : list (cfile sval)) (w : holds) : outcome :=
  match (match resolver with Some names => defaults names xtr | None => None end) with
  | None => Dies
  | Some a =>
      match apply_files files a with
      | Err _ => Ran (start show_config have_nfqueue None w)
      | Ok a =>
          match fix_config (fun _ => (0, 0)%nat) (settings_of a) with
          | Err _ => Ran (start show_config have_nfqueue None w)
          | Ok s =>
              match trees (value_of "INSTANCES" a) with
              | None => Ran (Exit 2)
              | Some i => Ran (start show_config have_nfqueue
                                 (Some (conf_of (match st_listen s with Some l => l | None => [] end) i a)) w)
              end
          end
      end
  end.
End Start.

(** ** Map-Registers with the identifiers that are configured: etr_node.py:110-122 (MapRegister.__init__), map_register.py:85-107 for values
    that are no integers, and the serialisation in send_message.py:40 *)
Definition register_bytes (hm : Z -> bytes -> bytes -> bytes) (xtr site : sval) (p : pfx) (r : etrr) (locs : list loc) (rtrs : list addr)
  (want : bool) (nonce : bytes) : res bytes :=
  match num_of xtr, num_of site with
  | Some x, Some s =>
      let '(m, e) := insert hm (AReg (new_register p r locs rtrs want nonce x s)) (tr_key r) in
      let* _ := e in a_to_bytes m
  | _, _ => Err EValue
  end.
