(** * Loading of the settings, application/lispd/settings.py:88-115, and the configuration the daemon runs with *)
From Coq Require Import Ascii String.
From Verif Require Import Base Afi Tree Net.

Section Conf.
Variable V : Type.                                         (* values of settings *)

(** [str.upper] of Python 2 in the C locale *)
Definition upper1 (c : ascii) : ascii :=
  let n := nat_of_ascii c in if (Nat.leb 97 n && Nat.leb n 122)%bool then ascii_of_nat (n - 32) else c.
Fixpoint upper (s : string) : string := match s with EmptyString => EmptyString | String c s => String (upper1 c) (upper s) end.

(** attributes of the Settings object *)
Definition attrs := list (string * V).
Fixpoint getattr (n : string) (a : attrs) : option V :=
  match a with [] => None | (k, x) :: a => if String.eqb k n then Some x else getattr n a end.
Fixpoint setattr (n : string) (x : V) (a : attrs) : attrs :=
  match a with [] => [(n, x)] | (k, y) :: a => if String.eqb k n then (n, x) :: a else (k, y) :: setattr n x a end.

(** what executing a configuration file gives: IOError (also: there is no such file), another exception, or a module with
    these attributes *)
Inductive cfile := FIOError | FRaises | FModule (defs : attrs).
(** settings.py:98-102; [dir] lists names, the values are read with getattr *)
Definition load_module (defs : attrs) (a : attrs) : attrs :=
  fold_left (fun a d => if String.eqb (fst d) (upper (fst d)) then
                          match getattr (fst d) defs with Some x => setattr (fst d) x a | None => a end
                        else a) defs a.
(** settings.py:88-115, before [fix_config] *)
Fixpoint apply_files (files : list cfile) (a : attrs) : res attrs :=
  match files with
  | [] => Ok a
  | FIOError :: files => apply_files files a
  | FRaises :: _ => Err EConfig
  | FModule defs :: files => apply_files files (load_module defs a)
  end.
End Conf.
Arguments FIOError {V}. Arguments FRaises {V}. Arguments FModule {V} _. Arguments getattr {V} _ _. Arguments setattr {V} _ _ _.
Arguments apply_files {V} _ _. Arguments load_module {V} _ _.
