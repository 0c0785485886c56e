(** DirsSpec: directories, names of directories of disks, and releases in a directory. *)
From Verif Require Import Base Dirs.

(** no two entries with one name; "/" and the character 0 are in no name *)
Inductive tree_ok : tree -> Prop :=
  tree_ok_ files dirs : NoDup (map fst dirs) -> (forall n s, In (n, s) dirs -> n <> [] /\ ~ In 47 n /\ ~ In 0 n /\ tree_ok s) -> tree_ok (Dir files dirs).
(** the directory [t] with the path [p] has the directory [u] with the path [q] *)
Inductive at_path : text -> tree -> text -> tree -> Prop :=
| at_here p t : at_path p t p t
| at_sub p files dirs n s q u : In (n, s) dirs -> at_path (p ++ 47 :: n) s q u -> at_path p (Dir files dirs) q u.
Definition below (p q : text) : Prop := exists s, q = p ++ 47 :: s.
Definition inside (a b : text) : Prop := exists x y, b = x ++ a ++ y.
Definition siblings (a b : text) : Prop := exists p m n, a = p ++ 47 :: m /\ b = p ++ 47 :: n /\ ~ In 47 m /\ ~ In 47 n.

(** [p] is a release, and no directory above it is one *)
Definition topmost (is : text -> tree -> Prop) (root : text) (t : tree) (p : text) : Prop :=
  exists u, at_path root t p u /\ is p u /\ forall q v, at_path root t q v -> below q p -> ~ is q v.

(** the order of directories: "/" is before all other characters *)
Fixpoint before (a b : text) : Prop :=
  match a, b with
  | _, [] => False
  | [], _ :: _ => True
  | x :: a, y :: b => (x = y /\ before a b) \/ (x <> y /\ (x = 47 \/ (y <> 47 /\ x < y)))
  end.

(** the name of a directory with one disk of more: a word, a number and something more *)
Definition is_digit (c : N) : Prop := 48 <= c <= 57.
Definition name_char (c : N) : Prop := is_digit c \/ 97 <= c <= 122 \/ c = 46 \/ c = 95.
Definition disk_name (n : text) : Prop := exists kind sep d more rest nl,
  lower n = kind ++ sep ++ d :: more ++ rest ++ nl /\
  In kind [str "cd"; str "disk"; str "dvd"; str "disc"; str "part"] /\ In sep [[]; str "."; str "_"] /\ is_digit d /\
  (more = [] \/ exists e, more = [e] /\ is_digit e) /\
  (rest = [] \/ exists s r, rest = s ++ r /\ In s [[]; str "_"; str "."; str "-"] /\ r <> [] /\ Forall name_char r) /\
  (nl = [] \/ nl = [10]).
(** files that show that a directory is a release *)
Definition named (ext : string) (n : text) : Prop := exists b, lower n = b ++ str ext.
(** directories that are part of a release *)
Definition part_name (n : text) : Prop := disk_name n \/ exists w nl, lower n = w ++ nl /\ (nl = [] \/ nl = [10]) /\
  In w [str "sample"; str "samples"; str "vobsample"; str "vobsamples"; str "cover"; str "covers"; str "proof"; str "proofs";
        str "sub"; str "subs"; str "subpack"; str "subspack"; str "vobsub"; str "vobsubs"].
Definition release_name (n : text) : Prop := ~ part_name n /\ ~ In 32 n.
(** files that sites add *)
Definition site_nfo (n : text) : Prop := In n [str "motechnetfiles.nfo"; str "movie.nfo"; str "scc.nfo"; str "imdb.nfo"; str "tvmaze.nfo"].
(** an entry of that name *)
Definition holds (ext : string) (t : tree) : Prop := let '(Dir files dirs) := t in exists n, In n (files ++ map fst dirs) /\ named ext n.
(** the path of a directory, not the root *)
Definition dir_path (p : text) : Prop := p <> [] /\ forall s, p <> s ++ [47].
(** no path of a directory has the path of a release in it, but those of the directories in the release and beside it *)
Definition clear (is : text -> tree -> Prop) (root : text) (t : tree) : Prop :=
  forall r u q v, at_path root t r u -> is r u -> at_path root t q v -> inside r q -> r = q \/ below r q \/ siblings r q.
