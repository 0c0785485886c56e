(** Verify: checking extracted files against an SRR file (rescene/srr.py verify_extracted_files, option -q). *)
From Verif Require Import Base Path Crc Glob Info.

(** posixpath.splitext(p)[1]: the last dot after the last slash and what follows it, if there is some other
    character than a dot between that slash and that dot. *)
Definition extension (p : text) : text :=
  match cut_at 46 (rev (basename p)) with
  | Some (c, r) => if forallb (N.eqb 46) r then [] else 46 :: rev c
  | None => []
  end.

(** What is on the disk at a path, and os.walk(in_folder): the folders with the names of the files in them. *)
Inductive entry := EFile (d : bytes) | EDir.
Section Disk.
Variables (disk : text -> option entry) (walk : list (text * list text)).
(** utility.py:517-529 calculate_crc32 of a path: opening a folder fails. *)
Definition crc_of_path (p : text) : result N :=
  match disk p with
  | Some (EFile d) => calculate_crc32 d
  | Some EDir => Err OSError
  | None => Err Base.FileNotFound
  end.
(** os.path.getsize; the size of what is no file is not modelled *)
Definition getsize (p : text) : result N :=
  match disk p with
  | Some (EFile d) => Ok (lenN d)
  | Some EDir => Err NotModelled
  | None => Err Base.FileNotFound
  end.
(** srr.py:176-182: the files below the folder with the extension and the size *)
Fixpoint same_sizes (size : N) (root : text) (names : list text) : result (list text) :=
  match names with
  | [] => Ok []
  | fn :: names =>
    let f := pjoin root fn in
    do s <- getsize f;
    do l <- same_sizes size root names;
    Ok (if s =? size then f :: l else l)
  end.
Fixpoint same_size_list (size : N) (pat : text) (w : list (text * list text)) : result (list text) :=
  match w with
  | [] => Ok []
  | (root, names) :: w =>
    do a <- same_sizes size root (filter (fun fn => fnmatch fn pat) names);
    do b <- same_size_list size pat w;
    Ok (a ++ b)
  end.
(** srr.py:185-194: the first of them with the CRC ends the search *)
Fixpoint any_crc (crc : N) (fs : list text) : result bool :=
  match fs with
  | [] => Ok false
  | f :: fs => do c <- crc_of_path f; if crc =? c then Ok true else any_crc crc fs
  end.
(** srr.py:163-204: one archived file.  CRCs are compared as numbers here, as text of 8 hexadecimal digits
    there; messages are left out.  os.sep is a slash. *)
Definition verify_one (auto : bool) (folder : text) (status : N) (a : arch_info) : result N :=
  let fname := replace1 BACKSLASH SLASH (ai_name a) in
  if ai_crc a =? 0 then Ok status
  else
    let name := pjoin folder fname in
    match disk name with
    | None =>
      if negb auto then Ok 2
      else
        do l <- same_size_list (ai_size a) (42 :: extension name) walk;
        do found <- any_crc (ai_crc a) l;
        Ok (if found then status else 2)
    | Some _ =>
      do crc <- crc_of_path name;
      Ok (if ai_crc a =? crc then status else 1)
    end.
(** srr.py:153-205 verify_extracted_files *)
Definition verify (lowf upf : text -> text) (srr : bytes) (folder : text) (auto : bool) : result N :=
  do i <- info lowf upf srr;
  let files := map snd (i_files i) in
  foldR (verify_one auto folder) files (match files with [] => 10 | _ => 0 end).
End Disk.
