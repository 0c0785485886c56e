(** NzbSplit: one NZB file for each release of an NZB file (usenet/nzb_split.py). *)
From Verif Require Import VolName Base Path.

(** str.replace of a character *)
Definition repl (a b : N) (t : text) : text := map (fun c => if c =? a then b else c) t.
(** str.split(" ") *)
Fixpoint groups (t : text) : list text :=
  match t with
  | [] => [[]]
  | c :: t => if c =? 32 then [] :: groups t else match groups t with g :: gs => (c :: g) :: gs | [] => [[c]] end
  end.
Definition contains (a b : text) : bool := match find_sub N.eqb a b with Some _ => true | None => false end.
(** nzb_split.py:244-263 longest_name *)
Definition spaced (s : text) : text :=
  repl 92 32 (repl 47 32 (repl 124 32 (repl 34 32 (repl 58 32 (repl 42 32 (repl 63 32 (repl 62 32 (repl 60 32 (repl 93 32 (repl 91 32 s)))))))))).
Definition longer (file_name : text) (relname group : text) : text :=
  if (lenN relname <? lenN group) && negb (contains file_name group) then group else relname.
Definition longest_name (subject file_name : text) : text := fold_left (longer file_name) (groups (spaced subject)) [].
(** nzb_split.py:176-187: the characters that are replaced, and str.strip("_") *)
Fixpoint lstrip_us (t : text) : text := match t with c :: r => if c =? 95 then lstrip_us r else t | [] => [] end.
Definition rel_name (base : text) : text :=
  rev (lstrip_us (rev (lstrip_us
    (repl 92 95 (repl 47 95 (repl 124 95 (repl 62 95 (repl 60 95 (repl 34 95 (repl 58 95 (repl 42 95 (repl 63 95 base)))))))))))).

Section Split.
(** the files of an NZB file *)
Variable A : Type.
Variable subject : A -> text.
(** nzb_utils.py parse_name; nzb_split.py:230-242 grab_base_name, [None]: it raises an exception; nzb_split.py:143-146,
    the group relname of the first expression that matches *)
Variable parse_name : text -> text.
Variable grab_base_name : text -> option text.
Variable relname : text -> option text.
(** the option --substring *)
Variable substring : bool.
(** nzb_split.py:143-187: the release of a file, [None]: only a message *)
Definition release_of (f : A) : option text :=
  let s := subject f in
  let file_name := parse_name s in
  let ln := longest_name s file_name in
  if lenN file_name =? 0 then None
  else match grab_base_name file_name with
  | None => None
  | Some base =>
    Some (rel_name (match relname s with
                    | Some r => if substring then ln else if negb (contains [45] (last_part 10 r)) then ln else r
                    | None => if (lenN base <? lenN ln) && negb (contains [34] ln) then ln else base
                    end))
  end.

(** A file of the output folder: the files in an NZB file, or [None] for one of no bytes, which cannot be parsed.
    Reading an NZB file that was written gives the files written. *)
Definition disk : Type := text -> option (option (list A)).
Definition upd (d : disk) (p : text) (v : option (list A)) : disk := fun q => if teqb q p then Some v else d q.
(** dict *)
Fixpoint dpop (k : text) (d : list (text * list A)) : option (list A * list (text * list A)) :=
  match d with
  | [] => None
  | (n, v) :: d => if teqb n k then Some (v, d) else match dpop k d with Some (w, d) => Some (w, (n, v) :: d) | None => None end
  end.
Fixpoint dadd (k : text) (f : A) (d : list (text * list A)) : list (text * list A) :=
  match d with
  | [] => [(k, [f])]
  | (n, v) :: d => if teqb n k then (n, v ++ [f]) :: d else (n, v) :: dadd k f d
  end.
Variable output_dir : text.
(** nzb_split.py:191-192, 220-221 *)
Definition nzb_path (rel : text) : text := pjoin output_dir (filter (fun c => negb (c =? 34)) rel ++ str ".nzb").
(** open(new, "w") and what is written; the KeyError of pop comes when the file is open *)
Definition write_rel (rel : text) (old : list A) (s : list (text * list A) * disk) : list (text * list A) * disk :=
  match dpop rel (fst s) with
  | Some (fs, d) => (d, upd (snd s) (nzb_path rel) (Some (old ++ fs)))
  | None => (fst s, upd (snd s) (nzb_path rel) None)
  end.
(** nzb_split.py:190-209 *)
Definition change_rel (rel : text) (s : list (text * list A) * disk) : result (list (text * list A) * disk) :=
  match snd s (nzb_path rel) with
  | None => Ok (if lenN rel =? 0 then s else write_rel rel [] s)
  | Some None => Err ValueError
  | Some (Some old) => Ok (write_rel rel old s)
  end.
(** nzb_split.py:142-216 the loop over the files *)
Fixpoint split_loop (fs : list A) (cur : text) (s : list (text * list A) * disk) : result (text * (list (text * list A) * disk)) :=
  match fs with
  | [] => Ok (cur, s)
  | f :: fs =>
    match release_of f with
    | None => split_loop fs cur s
    | Some rel =>
      do s <- (if teqb rel cur then Ok s else change_rel cur s);
      split_loop fs rel (dadd rel f (fst s), snd s)
    end
  end.
(** nzb_split.py:136-228 main *)
Definition nzb_split (fs : list A) (d : disk) : result disk :=
  do s <- split_loop fs [] ([], d);
  Ok (snd (write_rel (fst s) [] (snd s))).
End Split.
