(** * Specification: DDT root files *)
From Verif Require Import Base Afi Records Tree SpecTree Ddt SpecDdt RootFile.

(** non-empty text of characters with [c] *)
Definition some_of (c : Z -> Prop) (l : text) : Prop := l <> [] /\ Forall c l.
Definition white (c : Z) : Prop := c = 32 \/ 9 <= c <= 13.
Definition digit (c : Z) : Prop := 48 <= c <= 57.
Definition hex (c : Z) : Prop := digit c \/ 97 <= c <= 102 \/ 65 <= c <= 70.
(** characters of addresses: hexadecimal digits, '.', ':' and of prefixes: also '/' *)
Definition addr_char (c : Z) : Prop := hex c \/ c = 46 \/ c = 58.
Definition pfx_char (c : Z) : Prop := addr_char c \/ c = 47.
(** nothing, or anything after a '#' *)
Definition comment (l : text) : Prop := l = [] \/ exists l', l = 35 :: l'.
(** white space and a comment *)
Definition ignorable (raw : text) : Prop := exists w c, raw = w ++ c /\ Forall white w /\ comment c.
(** four fields with white space between them, perhaps white space around them, perhaps a comment *)
Definition fields (raw i a p x : text) : Prop :=
  exists w0 w1 w2 w3 w4 c, raw = w0 ++ i ++ w1 ++ a ++ w2 ++ p ++ w3 ++ x ++ w4 ++ c /\
    Forall white w0 /\ some_of white w1 /\ some_of white w2 /\ some_of white w3 /\ Forall white w4 /\ comment c /\
    some_of digit i /\ some_of digit a /\ some_of pfx_char p /\ some_of addr_char x.
(** decimal numbers *)
Definition decimal (l : text) : Z := fold_left (fun n c => 10 * n + (c - 48)) l 0.

(** the lines of a file: all but the last end with the only newline in them *)
Inductive lines_of : text -> list text -> Prop :=
| lo_nil : lines_of [] []
| lo_last l : l <> [] -> ~ In 10 l -> lines_of l [l]
| lo_line l t ls : ~ In 10 l -> lines_of t ls -> lines_of (l ++ 10 :: t) ((l ++ [10]) :: ls).

Section S.
Variable ip_address : text -> option (fam * Z).
Variable ip_network : text -> option pfx.
(** the line [raw] says [l] *)
Definition says (raw : text) (l : line) : Prop :=
  exists i a p x z, fields raw i a p x /\ ip_address x = Some z /\ l = Line (decimal i) (decimal a) (ip_network p) z.
(** the lines of the file that say something say [es], in this order; no line is wrong *)
Inductive file_says : list text -> list line -> Prop :=
| fs_nil : file_says [] []
| fs_skip raw ls es : ignorable raw -> file_says ls es -> file_says (raw :: ls) es
| fs_line raw e ls es : says raw e -> file_says ls es -> file_says (raw :: ls) (e :: es).
End S.
