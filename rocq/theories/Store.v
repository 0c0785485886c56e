(** Store: the names under which files are stored in an SRR (rescene/main.py). *)
From Verif Require Import Base Path.

(** posixpath.abspath; [cwd] is os.getcwd() *)
Definition abspath (cwd p : text) : text := normpath (pjoin cwd p).
(** [x for x in p.split(sep) if x] *)
Definition path_list (p : text) : list text :=
  filter (fun x => negb (teqb x [])) (split SLASH p).
(** len(commonprefix([a, b])) *)
Fixpoint common (a b : list text) : nat :=
  match a, b with
  | x :: a', y :: b' => if teqb x y then S (common a' b') else O
  | _, _ => O
  end.
(** posixpath.relpath *)
Definition relpath (cwd path start : text) : result text :=
  match path with
  | [] => Err ValueError
  | _ =>
    let sl := path_list (abspath cwd start) in
    let pl := path_list (abspath cwd path) in
    let i := common sl pl in
    let rel := repeat DOTDOT (List.length sl - i) ++ skipn i pl in
    match rel with [] => Ok DOT | _ => Ok (join SLASH rel) end
  end.

(** main.py:1569-1589, the name chosen by _store on a POSIX system under Python 3: the str
    [file_name[:2]] never equals the bytes of two dots, so the fallback to the base name is not taken.
    fsunicode leaves a str alone. *)
Definition dotdot_check (file_name : text) : bool := false.
Definition stored_name (cwd : text) (save_paths : bool) (in_folder sfile : text) : result text :=
  if save_paths then
    do n <- relpath cwd sfile in_folder;
    Ok (if dotdot_check n then basename sfile else n)
  else Ok (basename sfile).
(** main.py:532-533, the name of a volume in create_srr *)
Definition volume_name (cwd : text) (save_paths : bool) (in_folder rarfile : text) : result text :=
  if save_paths then relpath cwd rarfile in_folder else Ok (basename rarfile).
