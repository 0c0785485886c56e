(** Dirs: bin/pyrescene.py, the directories that are releases.
    A directory is a tree; links are left out, and so are the names of Windows and the wait for a drive.  Ignoring the case
    and \d are those of ASCII. *)
From Verif Require Import Base Path Sfv.

(** ** Patterns *)
(** re.match with a pattern without groups that are asked for: is there a match or not *)
Inductive re := Nothing | Empty | One (p : N -> bool) | Then (a b : re) | Or (a b : re) | Many (a : re).
Fixpoint can_end (r : re) : bool :=
  match r with
  | Nothing | One _ => false
  | Empty | Many _ => true
  | Then a b => can_end a && can_end b
  | Or a b => can_end a || can_end b
  end.
Fixpoint after (c : N) (r : re) : re :=
  match r with
  | Nothing | Empty => Nothing
  | One p => if p c then Empty else Nothing
  | Then a b => if can_end a then Or (Then (after c a) b) (after c b) else Then (after c a) b
  | Or a b => Or (after c a) (after c b)
  | Many a => Then (after c a) (Many a)
  end.
Fixpoint matches (r : re) (t : text) : bool :=
  match t with [] => can_end r | c :: t => matches (after c r) t end.
Definition maybe (r : re) : re := Or Empty r.
Definition word (s : string) : re := fold_right (fun c r => Then (One (N.eqb c)) r) Empty (str s).
Definition digit : re := One (fun c => (48 <=? c) && (c <=? 57)).
(** letters are lower case here, see [icase] *)
Definition alnum (c : N) : bool := ((48 <=? c) && (c <=? 57)) || ((97 <=? c) && (c <=? 122)).
Definition dot : re := One (fun c => negb (c =? 10)).
(** $ also matches before a last newline *)
Definition eol : re := maybe (One (N.eqb 10)).
(** re.IGNORECASE, the patterns are written in lower case *)
Definition icase (r : re) (t : text) : bool := matches r (lower t).

(** rescene/utility.py:68 diskfolder *)
Definition diskfolder : re :=
  Then (Or (word "cd") (Or (word "disk") (Or (word "dvd") (Or (word "disc") (word "part")))))
    (Then (maybe (One (fun c => (c =? 46) || (c =? 95))))
      (Then digit (Then (maybe digit)
        (maybe (Then (maybe (One (fun c => (c =? 95) || (c =? 46) || (c =? 45))))
          (let p := One (fun c => alnum c || (c =? 46) || (c =? 95)) in Then p (Many p))))))).
(** rescene/utility.py:69 *)
Definition DISK_FOLDERS (n : text) : bool := icase (Then diskfolder eol) n.
(** rescene/utility.py:70-71 *)
Definition RELEASE_FOLDERS (n : text) : bool :=
  let s := maybe (word "s") in
  icase (Then (Or diskfolder (Or (Then (maybe (word "vob")) (Then (word "sample") s)) (Or (Then (word "cover") s) (Or (Then (word "proof") s)
    (Or (Then (word "sub") (Then s (maybe (word "pack")))) (Then (maybe (word "vob")) (Then (word "sub") s))))))) eol) n.
(** bin/pyrescene.py:1336 *)
Definition NO_HYPHEN (n : text) : bool := icase (Then (let p := One (fun c => alnum c || (c =? 95)) in Then p (Many p)) eol) n.
(** bin/pyrescene.py:1354; {1-2} is no number of times for re, but these characters *)
Definition custom_cd (n : text) : bool :=
  icase (Then (word "cd") (Then (Or (maybe dot) (word "_-_")) (Then digit (Then (word "{1-2}") (Then dot (Many (One (fun _ => true)))))))) n.

(** ** is_release *)
Inductive tree := Dir (files : list text) (dirs : list (text * tree)).
Definition listdir (t : tree) : list text := let '(Dir files dirs) := t in files ++ map fst dirs.
Definition last4 (n : text) : text := dropN (lenN n - 4) n.
Definition ends4 (e n : text) : bool := teqb (last4 (lower n)) e.
(** bin/pyrescene.py:1313-1314 *)
Definition NOT_SCENE : list text := [str "motechnetfiles.nfo"; str "movie.nfo"; str "scc.nfo"; str "imdb.nfo"; str "tvmaze.nfo"].
Definition scene_file (n : text) : bool := (ends4 (str ".nfo") n || ends4 (str ".sfv") n) && negb (mem_text n NOT_SCENE).
Definition has_sfv (t : tree) : bool := existsb (ends4 (str ".sfv")) (listdir t).
Definition OLD_MP3_LIMIT : N := 10.
(** the number of directories that have one, and at least two do *)
Definition all_sfv (dirs custom : list (text * tree)) : bool :=
  let n := lenN (filter (fun d => has_sfv (snd d)) custom) in (lenN dirs =? n) && (2 <=? n).
(** bin/pyrescene.py:1316-1446 is_release; [name] is the last part of dirpath *)
Fixpoint is_release (name : text) (t : tree) : bool :=
  let '(Dir files dirs) := t in
  let release := existsb scene_file files in
  let custom := if release then [] else filter (fun d => negb (DISK_FOLDERS (fst d)) && (NO_HYPHEN (fst d) || custom_cd (fst d))) dirs in
  let release :=
    if release then true
    else if existsb (fun d => DISK_FOLDERS (fst d) && has_sfv (snd d)) dirs then true
    else if lenN dirs <=? OLD_MP3_LIMIT then all_sfv dirs custom else false in
  if release && negb (RELEASE_FOLDERS name) then
    let release :=
      if match files with [f] => ends4 (str ".nfo") f | _ => false end then
        let is_pack := forallb (fun d => is_release (fst d) (snd d) || match listdir (snd d) with [] => true | _ => false end) dirs in
        let is_pack := match dirs with [] => false | _ => is_pack end in
        if is_pack && match custom with [] => true | _ => false end && (lenN dirs <=? OLD_MP3_LIMIT) then
          all_sfv dirs (filter (fun d => NO_HYPHEN (fst d)) dirs)
        else negb is_pack
      else true in
    if existsb (N.eqb 32) name then false else release
  else false.

(** ** get_release_directories *)
(** sorted by name *)
Fixpoint put {A} (d : text * A) (l : list (text * A)) : list (text * A) :=
  match l with [] => [d] | e :: l' => if text_lt (fst d) (fst e) then d :: l else e :: put d l' end.
Definition by_name {A} (l : list (text * A)) : list (text * A) := fold_right put [] l.
(** os.walk, with dirnames.sort() *)
Fixpoint walk (path : text) (t : tree) : list (text * tree) :=
  let '(Dir files dirs) := t in
  (path, t) :: concat (map snd (by_name (map (fun d => (fst d, walk (pjoin path (fst d)) (snd d))) dirs))).
(** str.rfind(os.sep), plus 1 *)
Definition last_sep (p : text) : N := lenN (snd (split_tail (rev p))).
Definition part_of (a b : text) : bool := match find_sub N.eqb a b with Some _ => true | None => false end.
(** bin/pyrescene.py:1288-1311 the loop; the result has last_release as well *)
Fixpoint found (last : text) (l : list (text * tree)) : list text * text :=
  match l with
  | [] => ([], last)
  | (p, t) :: l =>
    if part_of last p && negb (lenN last =? 0) && negb (last_sep p =? last_sep last) then found last l
    else if is_release (basename p) t then let '(r, last) := found p l in (p :: r, last)
    else found last l
  end.
(** bin/pyrescene.py:1265-1311 get_release_directories *)
Definition get_release_directories (path : text) (t : tree) : list text := fst (found [] (walk path t)).
