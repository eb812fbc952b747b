(** * Where lispd looks for its configuration (settings.py:66-87), with the functions of posixpath it uses *)
From Coq Require Import Ascii String.
From Verif Require Import Base RootFile Conf.
Open Scope list_scope. Open Scope Z_scope.

Fixpoint txt (s : string) : text :=
  match s with EmptyString => [] | String c s => Z.of_nat (nat_of_ascii c) :: txt s end.
Definition slash : Z := 47.
Definition tilde : Z := 126.
(** posixpath.isabs *)
Definition isabs (p : text) : bool := match p with c :: _ => c =? slash | [] => false end.
(** posixpath.join of two *)
Definition join2 (a b : text) : text :=
  if isabs b then b
  else match a with
       | [] => b
       | _ => if last a 0 =? slash then a ++ b else a ++ slash :: b
       end.
(** posixpath.join *)
Definition os_join (a : text) (l : list text) : text := fold_left join2 l a.
(** [rstrip('/')] *)
Fixpoint lstrip_slash (t : text) : text := match t with c :: r => if c =? slash then lstrip_slash r else t | [] => [] end.
Definition rstrip_slash (t : text) : text := rev (lstrip_slash (rev t)).
(** posixpath.expanduser for '~' and '~/...', [home] being $HOME or the home directory of the user; [others] is what it does
    with '~user' *)
Definition expanduser (home : text) (others : text -> text) (p : text) : text :=
  match p with
  | c :: r =>
      if c =? tilde then
        match r with
        | [] => match rstrip_slash home with [] => [slash] | h => h end
        | d :: _ => if d =? slash then rstrip_slash home ++ r else others p
        end
      else p
  | [] => []
  end.

(** what a Python function gives here: a text or a list of texts; a loop over a text takes its characters one by one *)
Inductive paths := OneText (t : text) | ListOf (l : list text).
Definition looped (p : paths) : list text := match p with OneText t => map (fun c => [c]) t | ListOf l => l end.

Section Paths.
(** os.path.realpath, [$HOME], '~user', and [os.path.dirname(os.path.realpath(sys.argv[0]))] *)
Variable real : text -> text.
Variable home : text.
Variable others : text -> text.
Variable exe_dir : text.
(** settings.py:66-83 *)
Definition get_config_paths (name : text) : paths :=
  if isabs name then OneText name
  else
    let config_dir := os_join exe_dir [txt ".."; txt "etc"] in
    let l := [os_join [slash] [txt "etc"; txt "lispd"; name];
              os_join config_dir [txt "lispd"; name];
              os_join (txt "~") [txt ".pylisp"; txt "lispd"; name]] in
    ListOf (map real (map (expanduser home others) l)).
(** settings.py:85-87 *)
Definition get_potential_config_files : paths := get_config_paths (txt "settings.py").
(** settings.py:89-92: the files apply_config_files loads, [fs] being what loading the file of that name comes to *)
Definition config_files {V} (fs : text -> cfile V) : list (cfile V) := map fs (looped get_potential_config_files).
End Paths.
