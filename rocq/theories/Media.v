(** Media: bin/pyrescene.py, the files of a release for which .srs files are made, and the names of these.
    A release is a tree of files (Dirs.v).  Case is that of ASCII. *)
From Verif Require Import Base Path Dirs Select.

(** rescene/utility.py:139-142 FileType.VideoExtensions *)
Definition VIDEO : list text :=
  [str ".mp4"; str ".m4v"; str ".avi"; str ".mkv"; str ".wmv"; str ".vob"; str ".m2ts"; str ".ts"; str ".mpeg"; str ".mpg"; str ".m2v"; str ".m2p"].
(** bin/pyrescene.py:163-177 get_files_list: a file is given once for each extension that it has *)
Fixpoint get_files_list (exts : list text) (path : text) (t : tree) : list text :=
  let '(Dir files dirs) := t in
  concat (map (fun n => map (fun _ => pjoin path n) (filter (fun e => ends_in e (lower n)) exts)) files)
  ++ concat (map (fun d => get_files_list exts (pjoin path (fst d)) (snd d)) dirs).

Section Sfv.
(** the names in the SFV file with this path, parse_sfv_file(sfv)[0] *)
Variable listed : text -> list text.
(** os.path.exists for a path in the release; a directory with such a name is left out *)
Definition there_is (root : text) (t : tree) (p : text) : bool := mem_text p (get_files [] root t).
(** bin/pyrescene.py:184-192 *)
Definition by_name (root : text) (t : tree) (p : text) : bool :=
  part_of (str "sample") (lower p) || there_is root t (takeN (lenN p - 4) p ++ str ".sfv").
(** bin/pyrescene.py:179-205 get_sample_files *)
Definition get_sample_files (root : text) (t : tree) : list text :=
  let l := get_files_list VIDEO root t in
  let names := concat (map listed (get_files (str ".sfv") root t)) in
  filter (by_name root t) l ++ filter (fun p => mem_text (basename p) names) (filter (fun p => negb (by_name root t p)) l).
(** bin/pyrescene.py:207-210 get_music_files *)
Definition get_music_files (root : text) (t : tree) : list text :=
  get_files (str ".mp3") root t ++ get_files (str ".mp2") root t ++ get_files (str ".flac") root t.
(** bin/pyrescene.py:970-974 *)
Definition media_files (root : text) (t : tree) : list text := get_sample_files root t ++ get_music_files root t.
End Sfv.

(** os.path.relpath(p, root) for a path of os.walk(root) *)
Definition rel (root p : text) : text := dropN (lenN root + 1) p.
(** x.rsplit(".", 1)[0]; [r] is reversed *)
Fixpoint after_dot (r : text) : option text :=
  match r with [] => None | c :: r => if c =? 46 then Some r else after_dot r end.
Definition base (p : text) : text := match after_dot (rev p) with Some r => rev r | None => p end.
(** bin/pyrescene.py:977-981, itertools.groupby: neighbours with one key *)
Fixpoint runs (l : list text) : list (text * N) :=
  match l with
  | [] => []
  | k :: l =>
    match runs l with
    | (k', c) :: r => if teqb k k' then (k', c + 1) :: r else (k, 1) :: (k', c) :: r
    | [] => [(k, 1)]
    end
  end.
Definition same_srs_name (media : list text) : list text := map fst (filter (fun kc => 1 <? snd kc) (runs (map base media))).
(** bin/pyrescene.py:998-1003: the path of the .srs file in the working directory, for paths from [rel] *)
Definition srs_result (same : list text) (p : text) : text := (if mem_text (base p) same then p else base p) ++ str ".srs".
Definition srs_names (media : list text) : list text := map (srs_result (same_srs_name media)) media.
