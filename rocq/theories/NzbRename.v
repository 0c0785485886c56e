(** NzbRename: giving NZB files the name of their release (usenet/nzb_rename.py).  The folder processed can be made if it is not there. *)
From Verif Require Import Base.

(** nzb_rename.py:63 the endings of music files *)
Definition ends (e t : text) : bool := (lenN e <=? lenN t) && teqb (dropN (lenN t - lenN e) t) e.
Definition music_name (n : text) : bool := ends (str ".mp3") n || ends (str ".flac") n || ends (str ".mp2") n.
(** a file of the NZB file: its name (parse_name) and the longest name in its subject (nzb_split.longest_name) *)
Record nfile := mkFile { f_name : text; f_long : text }.
(** nzb_rename.py:54-68 process_nzb for the files of the NZB file *)
Fixpoint process (l : list nfile) (new_name : text) : text * bool :=
  match l with
  | [] => (new_name, false)
  | f :: l =>
    let new_name := match new_name with [] => f_long f | _ => new_name end in
    if music_name (f_name f) then (new_name, true) else process l new_name
  end.
(** what a file holds: an NZB file that can be read, or anything else; [Stuff n] keeps these apart *)
Inductive content := Files (l : list nfile) | Stuff (n : N).
Definition folder : Type := text -> option content.
Definition put (k : text) (c : content) (d : folder) : folder := fun q => if teqb k q then Some c else d q.
Definition del (k : text) (d : folder) : folder := fun q => if teqb k q then None else d q.
(** what is at processed/music and processed/other *)
Inductive out := NotThere | IsFile (c : content) | IsDir (d : folder).
(** [s_out true] is music *)
Record state := mkState { s_in : folder; s_out : bool -> out }.
Definition set_out (g : bool) (o : out) (f : bool -> out) : bool -> out := fun h => if Bool.eqb g h then o else f h.
(** nzb_rename.py:30-35: the folders are just made if there is no folder processed *)
Definition make_dirs (processed : option (bool -> out)) : bool -> out :=
  match processed with Some f => f | None => fun _ => IsDir (fun _ => None) end.
(** nzb_rename.py:37-52 one name of the folder.  shutil.move is an error if the name is in the folder, and renames to the folder's path if that is no folder;
    os.rename overwrites, and is an error for a name in a folder that is not there *)
Definition step (s : state) (n : text) : state :=
  if ends (str ".nzb") n then
    match s_in s n with
    | Some (Files l) =>
      let '(new, g) := process l [] in
      match s_out s g with
      | IsDir d =>
        match d n with
        | Some _ => s
        | None => mkState (del n (s_in s)) (set_out g (IsDir (put (if existsb (N.eqb 47) new then n else new ++ str ".nzb") (Files l) d)) (s_out s))
        end
      | _ => mkState (del n (s_in s)) (set_out g (IsFile (Files l)) (s_out s))
      end
    | _ => s
    end
  else s.
(** nzb_rename.py:25-52 main, [names] as listed *)
Definition main (processed : option (bool -> out)) (names : list text) (d : folder) : state := fold_left step names (mkState d (make_dirs processed)).
