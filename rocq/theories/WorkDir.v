(** WorkDir: copying the files to store to the working directory (bin/pyrescene.py work_dir_file, copy_to_working_dir)
    and the .srs files of the release (pyrescene.py:1105-1112). *)
From Verif Require Import Base Path Store Capital.

(** the files on disk *)
Definition files := text -> option bytes.
Definition put (p : text) (c : bytes) (d : files) : files := fun q => if teqb q p then Some c else d q.

Section Os.
(** str.lower; os.getcwd; os.listdir of the folders of the release, into which nothing is copied *)
Variables (lowf : text -> text) (cwd : text) (listdir : text -> option (list text)).
Definition isfile (d : files) (p : text) : bool := match d p with Some _ => true | None => false end.
(** pyrescene.py:594-598 *)
Definition work_dir_file (relfile release_dir working_dir : text) : result text :=
  do path <- relpath cwd relfile release_dir;
  Ok (pjoin working_dir path).
(** pyrescene.py:600-644: the files then, and the path of the copy.  Folders can always be made and files that are there
    can always be read and written; a file that is not there is reported and not copied (the second attempt is for
    Windows only). *)
Definition copy_to_working_dir (working_dir release_dir : text) (d : files) (copy_file : text) : result (files * text) :=
  do x <- capitalized_fn lowf listdir (isfile d) copy_file;
  let '(copy_file, capitals) := x in
  do dest_file <- work_dir_file copy_file release_dir working_dir;
  let dest_file := pjoin (dirname dest_file) (basename capitals) in
  Ok (match d copy_file with Some c => put dest_file c d | None => d end, dest_file).
(** pyrescene.py:946-965: all files of a list, copied_files.append(copy_to_working_dir(...)) *)
Fixpoint copy_all (working_dir release_dir : text) (d : files) (l : list text) : result (files * list text) :=
  match l with
  | [] => Ok (d, [])
  | f :: l =>
    do x <- copy_to_working_dir working_dir release_dir d f;
    do r <- copy_all working_dir release_dir (fst x) l;
    Ok (fst r, snd x :: snd r)
  end.
(** pyrescene.py:1105-1112: .srs files of the release, [srss], are copied if none has been made of a sample *)
Fixpoint copy_srs (working_dir release_dir : text) (d : files) (copied_files srss : list text) : result (files * list text) :=
  match srss with
  | [] => Ok (d, copied_files)
  | srs :: srss =>
    do dest_file <- work_dir_file srs release_dir working_dir;
    if mem_text dest_file copied_files then copy_srs working_dir release_dir d copied_files srss
    else
      do x <- copy_to_working_dir working_dir release_dir d srs;
      copy_srs working_dir release_dir (fst x) (copied_files ++ [snd x]) srss
  end.
End Os.
