(** * The text of the DDT root file: application/lispd/utils/ddt_root_loader.py:14-17 and 55-84.
    What the text says is in Ddt.v.  A character is its code.  [ip_address] and [ip_network] (py2-ipaddress) are arguments: what they make
    of a text, [None] for ValueError. *)
From Verif Require Import Base Afi Records Tree Ddt.

Definition text := list Z.
(** iteration over a file: every line with its newline *)
Fixpoint file_lines (t : text) : list text :=
  match t with
  | [] => []
  | c :: t => if c =? 10 then [c] :: file_lines t
              else match file_lines t with [] => [[c]] | l :: ls => (c :: l) :: ls end
  end.
(** [line.split('#')[0]] *)
Fixpoint before_hash (l : text) : text :=
  match l with [] => [] | c :: l => if c =? 35 then [] else c :: before_hash l end.
(** white space of str.strip() and of \s: blank, \t, \n, \v, \f, \r *)
Definition is_space (c : Z) : bool := (c =? 32) || ((9 <=? c) && (c <=? 13)).
Fixpoint drop_spaces (l : text) : text :=
  match l with [] => [] | c :: l' => if is_space c then drop_spaces l' else l end.
(** str.strip() *)
Definition strip (l : text) : text := rev (drop_spaces (rev (drop_spaces l))).
(** [0-9], [0-9a-fA-F.:], [0-9a-fA-F.:/] *)
Definition is_digit (c : Z) : bool := (48 <=? c) && (c <=? 57).
Definition is_addr_char (c : Z) : bool :=
  is_digit c || ((97 <=? c) && (c <=? 102)) || ((65 <=? c) && (c <=? 70)) || (c =? 46) || (c =? 58).
Definition is_pfx_char (c : Z) : bool := is_addr_char c || (c =? 47).

(** a character class with +, greedy, as the re module matches it: the longest run first, then shorter ones until what follows
    matches.  Gives the run and what follows gave *)
Fixpoint plus {A} (c : Z -> bool) (k : text -> option A) (done l : text) : option (text * A) :=
  match l with
  | [] => None
  | x :: l =>
      if c x then
        match plus c k (done ++ [x]) l with
        | Some r => Some r
        | None => match k l with Some r => Some (done ++ [x], r) | None => None end
        end
      else None
  end.
(** $: at the end, or before a newline at the end *)
Definition at_end (l : text) : option unit :=
  match l with [] => Some tt | [c] => if c =? 10 then Some tt else None | _ => None end.
(** the four groups; ddt_root_loader.py:14-17 *)
Record groups := Groups { gr_instance : text; gr_afi : text; gr_prefix : text; gr_address : text }.
Definition ddt_line (l : text) : option groups :=
  match plus is_digit (plus is_space (plus is_digit (plus is_space (plus is_pfx_char (plus is_space (plus is_addr_char at_end []) []) []) []) []) []) [] l with
  | Some (i, (_, (a, (_, (p, (_, (x, tt))))))) => Some (Groups i a p x)
  | None => None
  end.
(** int() of digits *)
Fixpoint int_of (acc : Z) (l : text) : Z := match l with [] => acc | c :: l => int_of (10 * acc + (c - 48)) l end.

Section File.
Variable ip_address : text -> option (fam * Z).
Variable ip_network : text -> option pfx.

(** ddt_root_loader.py:60-71 and 79: nothing for blank lines *)
Definition read_line (raw : text) : res (option line) :=
  match strip (before_hash raw) with
  | [] => Ok None
  | l =>
      match ddt_line l with
      | None => Err EValue
      | Some g =>
          match ip_address (gr_address g) with
          | None => Err EValue
          | Some x => Ok (Some (Line (int_of 0 (gr_instance g)) (int_of 0 (gr_afi g)) (ip_network (gr_prefix g)) x))
          end
      end
  end.
(** ddt_root_loader.py:59-82 *)
Fixpoint load_raw (s : ld) (ls : list text) : ld * res unit :=
  match ls with
  | [] => (s, Ok tt)
  | raw :: ls =>
      match read_line raw with
      | Err e => (s, Err e)
      | Ok None => load_raw s ls
      | Ok (Some l) => let '(s, r) := load_line s l in
                       match r with Ok _ => load_raw s ls | Err e => (s, Err e) end
      end
  end.
(** ddt_root_loader.py:55-84 *)
Definition load_file (t : text) : res instances :=
  let '((cfg, _), r) := load_raw ([], O) (file_lines t) in
  match r with Ok _ => Ok cfg | Err e => Err e end.
End File.
