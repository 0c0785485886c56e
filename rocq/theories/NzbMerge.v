(** NzbMerge: merging the NZB files of a release (usenet/nzb_merge.py).  Names in lower case are those of ASCII. *)
From Verif Require Import Base.

Section Merge.
(** the files in NZB files *)
Variable A : Type.
(** what is in a folder; empty and other files cannot be read as NZB files *)
Inductive entry := Nzb (l : list A) | Empty | Junk | Dir.
Definition folder : Type := list (text * entry).
(** os.path.isdir of a bare name: it is looked up in the current folder *)
Variable cwd_dir : text -> bool.
(** nzb_merge.py:32-33 *)
Definition cand (n : text) : bool := negb (cwd_dir n) && teqb (lower (dropN (lenN n - 4) n)) (str ".nzb").
(** nzb_merge.py:35 sort by the length of the path, which is that of the name and the same for all *)
Fixpoint insert (x : text * entry) (l : folder) : folder :=
  match l with
  | [] => [x]
  | y :: r => if lenN (fst x) <=? lenN (fst y) then x :: l else y :: insert x r
  end.
Definition sorted (l : folder) : folder := fold_right insert [] l.
(** nzb_merge.py:37-44 *)
Fixpoint read_all (l : folder) : result (list A) :=
  match l with
  | [] => Ok []
  | (_, Nzb a) :: r => do b <- read_all r; Ok (a ++ b)
  | (_, Dir) :: _ => Err OSError
  | _ :: _ => Err ValueError
  end.
Definition set (k : text) (e : entry) (f : folder) : folder := map (fun x => if teqb (fst x) k then (fst x, e) else x) f.
Definition remove (ks : list text) (f : folder) : folder := filter (fun x => negb (existsb (teqb (fst x)) ks)) f.
(** nzb_merge.py:31-53 merge_nzbs and nzb_utils.py:170-171 get_xml, that gives bytes: in Python 3 these cannot be written to the file, which is empty by then *)
Definition merge_nzbs (py3 : bool) (f : folder) : folder * option exn :=
  match sorted (filter (fun x => cand (fst x)) f) with
  | (k, e) :: r :: rs =>
    match read_all ((k, e) :: r :: rs) with
    | Err x => (f, Some x)
    | Ok all => if py3 then (set k Empty f, Some TypeError) else (remove (map fst (r :: rs)) (set k (Nzb all) f), None)
    end
  | _ => (f, None)
  end.
(** nzb_merge.py:55-59 main: what is in the folder given, None for a file *)
Fixpoint main (py3 : bool) (l : list (text * option folder)) : list (text * option folder) * option exn :=
  match l with
  | [] => ([], None)
  | (n, o) :: r =>
    if cwd_dir n then
      match o with
      | None => (l, Some OSError)
      | Some f =>
        match merge_nzbs py3 f with
        | (f', Some x) => ((n, Some f') :: r, Some x)
        | (f', None) => let '(r', x) := main py3 r in ((n, Some f') :: r', x)
        end
      end
    else let '(r', x) := main py3 r in ((n, o) :: r', x)
  end.
End Merge.
Arguments Nzb {A}. Arguments Empty {A}. Arguments Junk {A}. Arguments Dir {A}.
