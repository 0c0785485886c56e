(** CountGroups: counting groups and series (scripts/count_groups.py, scripts/group_series.py).  The lines printed are pairs of a name and its count;
    the regular expressions of group_series.py are not modelled, the names of the series are given in the order of the list. *)
From Verif Require Import Base MoveScene.

(** comparison of strings by code points *)
Fixpoint tle (a b : text) : bool :=
  match a, b with
  | [], _ => true
  | _ :: _, [] => false
  | x :: a, y :: b => if x =? y then tle a b else x <? y
  end.
(** sorted() is stable *)
Fixpoint insert {A} (le : A -> A -> bool) (x : A) (l : list A) : list A :=
  match l with
  | [] => [x]
  | y :: r => if le x y then x :: l else y :: insert le x r
  end.
Definition sorted {A} (le : A -> A -> bool) (l : list A) : list A := fold_right (insert le) [] l.
(** itertools.groupby with the sum of ones for each run *)
Fixpoint runs (l : list text) : list (text * N) :=
  match l with
  | [] => []
  | x :: r =>
    match runs r with
    | (y, n) :: t => if teqb x y then (y, n + 1) :: t else (x, 1) :: (y, n) :: t
    | [] => [(x, 1)]
    end
  end.
(** grouped[key] = n: a key that is there keeps its place *)
Fixpoint set_key (k : text) (n : N) (d : list (text * N)) : list (text * N) :=
  match d with
  | [] => [(k, n)]
  | (j, m) :: r => if teqb j k then (k, n) :: r else (j, m) :: set_key k n r
  end.
(** count_groups.py:39-40, group_series.py:56-57 the dictionary *)
Definition grouped (l : list text) : list (text * N) := fold_left (fun d x => set_key (fst x) (snd x) d) (runs l) [].
(** order by count; equal counts keep their order also if reversed *)
Definition cle (reverse : bool) (a b : text * N) : bool := if reverse then snd b <=? snd a else snd a <=? snd b.
(** count_groups.py:35-44 start_count *)
Definition start_count (rellist : list text) (reverse : bool) : list (text * N) := sorted (cle reverse) (grouped (sorted tle (map last_part rellist))).
(** group_series.py:56-62 main for one file: [cleaned] is not sorted *)
Definition series (cleaned : list text) : list (text * N) := sorted (cle true) (grouped cleaned).
