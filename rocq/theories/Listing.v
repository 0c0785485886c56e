(** Listing: bin/pyrescene.py main, the options that only list releases.  Ignoring the case is that of ASCII. *)
From Verif Require Import Base Path Sfv Dirs.

(** utility.py:139-142; the dots are not escaped in pyrescene.py:1575 *)
Definition ext (s : string) : re := Then dot (word s).
Definition video_exts : re :=
  Or (ext "mp4") (Or (ext "m4v") (Or (ext "avi") (Or (ext "mkv") (Or (ext "wmv") (Or (ext "vob") (Or (ext "m2ts") (Or (ext "ts") (Or (ext "mpeg") (Or (ext "mpg") (Or (ext "m2v") (ext "m2p"))))))))))).
(** pyrescene.py:1575-1576 *)
Definition vidext (n : text) : bool := icase (Then (Many dot) (Then video_exts eol)) n.

Section Os.
(** os.listdir *)
Variable listdir : text -> result (list text).
(** pyrescene.py:1584-1587 *)
Definition no_nfo (r : text) : result bool :=
  do l <- listdir r;
  Ok (negb (existsb (fun f => teqb (lower (last4 f)) (str ".nfo")) l)).
(** pyrescene.py:1588-1601 *)
Definition no_sample (r : text) : result bool :=
  do l <- listdir r;
  match find (fun d => teqb (lower d) (str "sample")) l with
  | None => Ok true
  | Some sdir => do fs <- listdir (pjoin r sdir); Ok (negb (existsb vidext fs))
  end.
Record list_opts := mkList { o_list : bool; o_nfo : bool; o_sample : bool; o_paths : bool }.
(** pyrescene.py:1568-1573 print_release *)
Definition shown (o : list_opts) (r : text) : text := if o_paths o then r else basename r.
(** pyrescene.py:1580-1601 what is printed for a release *)
Definition list_one (o : list_opts) (r : text) : result (list text) :=
  do n <- (if o_nfo o then no_nfo r else Ok false);
  do s <- (if o_sample o then no_sample r else Ok false);
  Ok ((if o_list o then [shown o r] else []) ++ (if n then [shown o r] else []) ++ (if s then [shown o r] else [])).
(** pyrescene.py:1578-1602; what has been printed before an error is left out *)
Fixpoint list_all (o : list_opts) (rs : list text) : result (list text) :=
  match rs with
  | [] => Ok []
  | r :: rs => do a <- list_one o r; do b <- list_all o rs; Ok (a ++ b)
  end.
End Os.
