(** Locate: where the files of an archive are on the disk: hints and renamed files (rescene/main.py, rescene/srr.py). *)
From Verif Require Import Base Path Glob Rar Srr Verify.

(** srr.py:300-307 the hints of option -H; None: the program ends with status 1.  A dictionary is the list of its pairs,
    of which the last one with a key counts. *)
Fixpoint parse_hints (l : list text) : option (list (text * text)) :=
  match l with
  | [] => Some []
  | hint :: l =>
    match split 58 hint with
    | [a; b] => match parse_hints l with Some h => Some ((a, b) :: h) | None => None end
    | _ => None
    end
  end.
Definition hints_of (option_H : text) : option (list (text * text)) :=
  match option_H with
  | [] => Some []
  | _ => parse_hints (split 59 option_H)
  end.
(** hints.get(name) *)
Fixpoint get_hint (hints : list (text * text)) (name : text) : option text :=
  match hints with
  | [] => None
  | (k, v) :: hints =>
    match get_hint hints name with
    | Some w => Some w
    | None => if teqb k name then Some v else None
    end
  end.

Section Disk.
Variables (disk : text -> option entry) (walk : list (text * list text)).
Definition isfile (p : text) : bool := match disk p with Some (EFile _) => true | _ => false end.
(** main.py:1500-1505 the first file of the folder with the size *)
Fixpoint first_size (size : N) (root : text) (names : list text) : result text :=
  match names with
  | [] => Ok []
  | fn :: names =>
    let f := pjoin root fn in
    do s <- getsize disk f;
    if s =? size then Ok f else first_size size root names
  end.
(** main.py:1493-1506 _auto_locate_renamed; [walk] is os.walk(in_folder) *)
Fixpoint auto_loop (size : N) (pat : text) (w : list (text * list text)) : result text :=
  match w with
  | [] => Ok []
  | (root, names) :: w =>
    do f <- first_size size root (filter (fun fn => fnmatch fn pat) names);
    match f with [] => auto_loop size pat w | _ => Ok f end
  end.
Definition auto_locate_renamed (name : text) (size : N) : result text := auto_loop size (42 :: extension name) walk.
(** main.py:1453-1491 _locate_file: the path of the file.  The folder is absolute, so abspath is normpath; messages are left out. *)
Definition locate_path (hints : list (text * text)) (auto : bool) (in_folder : text) (name : text) (size : N) : result text :=
  do src <- match get_hint hints name with Some s => Ok s | None => rar_os_file_name name end;
  let src := normpath (pjoin in_folder src) in
  do src <- (if isfile src then Ok src
             else do src <- (if auto then
                               do n <- rar_os_file_name name;
                               do f <- auto_locate_renamed n size;
                               Ok (match f with [] => src | _ => f end)
                             else Ok src);
                  if isfile src then Ok src else Err Base.FileNotFound);
  do candidate <- getsize disk src;
  if negb (candidate =? size) && negb (size =? 4294967295) && negb (size =? 18446744073709551615) then Err InvalidFileSize
  else Ok src.
End Disk.
