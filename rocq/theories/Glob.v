(** Glob: searching the files to store (rescene/main.py escape_glob and _search), with Python's glob and
    fnmatch modules (Lib/glob.py, Lib/fnmatch.py of Python 3, not recursive) on a POSIX system. *)
From Verif Require Import Base Path.

(** main.py:1643-1652 escape_glob *)
Definition escape1 (c : N) : text :=
  if c =? 91 then str "[[]" else if c =? 93 then str "[]]" else if c =? 42 then str "[*]" else if c =? 63 then str "[?]" else [c].
Definition escape_glob (path : text) : text := flat_map escape1 path.

(** ** fnmatch.translate and the match of the regular expression it makes.  In classes with hyphens, empty
    ranges match nothing (some Python versions raise re.error for them). *)
Inductive item := IStar | IAny | ILit (c : N) | IClass (stuff : text).
Fixpoint cut_at (c : N) (t : text) : option (text * text) :=
  match t with
  | [] => None
  | x :: t' => if x =? c then Some ([], t') else match cut_at c t' with Some (a, b) => Some (x :: a, b) | None => None end
  end.
Definition take_if (c : N) (t : text) : text * text :=
  match t with x :: t' => if x =? c then ([x], t') else ([], t) | [] => ([], []) end.
(** [t] is what follows the opening bracket: the text of the class and what follows it *)
Definition class_end (t : text) : option (text * text) :=
  let '(a, t1) := take_if 33 t in
  let '(b, t2) := take_if 93 t1 in
  match cut_at 93 t2 with Some (m, r) => Some (a ++ b ++ m, r) | None => None end.
Fixpoint translate (fuel : nat) (pat : text) : list item :=
  match fuel with
  | O => []
  | S fuel =>
    match pat with
    | [] => []
    | c :: r =>
      if c =? 42 then IStar :: translate fuel r
      else if c =? 63 then IAny :: translate fuel r
      else if c =? 91 then
        match class_end r with
        | None => ILit c :: translate fuel r
        | Some (stuff, r') => IClass stuff :: translate fuel r'
        end
      else ILit c :: translate fuel r
    end
  end.
Fixpoint in_set (n : nat) (s : text) (c : N) : bool :=
  match n, s with
  | O, _ | _, [] => false
  | S n, a :: r =>
    match r with
    | h :: b :: r' => if h =? 45 then ((a <=? c) && (c <=? b)) || in_set n r' c else (a =? c) || in_set n r c
    | _ => (a =? c) || in_set n r c
    end
  end.
Definition in_class (stuff : text) (c : N) : bool :=
  match stuff with
  | x :: s => if x =? 33 then negb (in_set (length s) s c) else in_set (length stuff) stuff c
  | [] => false
  end.
Fixpoint imatch (ps : list item) (x : text) : bool :=
  match ps with
  | [] => match x with [] => true | _ => false end
  | p :: ps =>
    match p with
    | IStar => (fix star (x : text) : bool := imatch ps x || match x with [] => false | _ :: x' => star x' end) x
    | IAny => match x with [] => false | _ :: x' => imatch ps x' end
    | ILit c => match x with [] => false | y :: x' => (y =? c) && imatch ps x' end
    | IClass s => match x with [] => false | y :: x' => in_class s y && imatch ps x' end
    end
  end.
Definition fnmatch (name pat : text) : bool := imatch (translate (length pat) pat) name.

(** ** The file system: what a path of some components leads to, from the root (true) or from the current
    directory (false), and the names in a directory. *)
Inductive node := NFile | NDir | NOther.
Section Os.
Variables (look : bool -> list text -> option node) (entries : bool -> list text -> list text).
Definition comps (p : text) : list text := filter (fun c => negb (teqb c [])) (split SLASH p).
(** the empty path is no file; a path that ends in a slash has to be a directory *)
Definition lookup (p : text) : option node :=
  match p with
  | [] => None
  | _ =>
    match look (first_is SLASH p) (comps p) with
    | Some NDir => Some NDir
    | k => if last_is SLASH p then None else k
    end
  end.
Definition lexists (p : text) : bool := match lookup p with Some _ => true | None => false end.
Definition isdir (p : text) : bool := match lookup p with Some NDir => true | _ => false end.
Definition isfile (p : text) : bool := match lookup p with Some NFile => true | _ => false end.
(** glob._iterdir: no error if the directory cannot be read *)
Definition iterdir (d : text) (dironly : bool) : list text :=
  let names := match d with
    | [] => entries false []
    | _ => if isdir d then entries (first_is SLASH d) (comps d) else [] end in
  if dironly then filter (fun x => match look (first_is SLASH d) (comps d ++ [x]) with Some NDir => true | _ => false end) names
  else names.

(** ** glob *)
Definition has_magic (p : text) : bool := existsb (fun c => (c =? 42) || (c =? 63) || (c =? 91)) p.
Definition ishidden (p : text) : bool := first_is 46 p.
Definition glob1 (d pat : text) (dironly : bool) : list text :=
  let names := iterdir d dironly in
  let names := if ishidden pat then names else filter (fun x => negb (ishidden x)) names in
  filter (fun x => fnmatch x pat) names.
Definition glob0 (d b : text) : list text :=
  match b with
  | [] => if isdir d then [b] else []
  | _ => if lexists (pjoin d b) then [b] else []
  end.
Fixpoint iglob (fuel : nat) (p : text) (dironly : bool) : result (list text) :=
  match fuel with
  | O => Err OutOfFuel
  | S fuel =>
    let d := dirname p in
    let b := basename p in
    if negb (has_magic p) then
      Ok (match b with
          | [] => if isdir d then [p] else []
          | _ => if lexists p then [p] else []
          end)
    else match d with
    | [] => Ok (glob1 d b dironly)
    | _ =>
      do dirs <- (if negb (teqb d p) && has_magic d then iglob fuel d true else Ok [d]);
      Ok (flat_map (fun d => map (pjoin d) (if has_magic b then glob1 d b dironly else glob0 d b)) dirs)
    end
  end.
Definition glob (p : text) : result (list text) := iglob (S (length p)) p false.

(** main.py:1615-1641 _search *)
Inductive found := Found (p : text) | FileNotFound (p : text).
Definition search_name (folder name : text) : text :=
  if first_is SLASH name || starts_with N.eqb DOTDOT name then name else pjoin folder name.
Definition search1 (folder name : text) : result (list found) :=
  let sn := search_name folder (escape_glob name) in
  do fs <- glob sn;
  Ok (match filter isfile fs with [] => [FileNotFound sn] | l => map Found l end).
Fixpoint search_all (folder : text) (files : list text) : result (list found) :=
  match files with
  | [] => Ok []
  | f :: files => do a <- search1 folder f; do b <- search_all folder files; Ok (a ++ b)
  end.
Definition search (files : list text) (folder : text) : result (list found) := search_all (escape_glob folder) files.
End Os.
