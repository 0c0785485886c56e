(** MoveScene: moving the releases of known groups (scripts/move_scene.py).  Lower case is that of ASCII.  Folders are not empty; that os.renames
    removes the folder when nothing is left in it is not modelled, nor what is in the folders that are moved, nor a folder moved into itself. *)
From Verif Require Import Base Path.

(** str.replace(s, ""): [skip] characters of an occurrence are still to pass *)
Fixpoint cut (s : text) (skip : nat) (t : text) : text :=
  match t with
  | [] => []
  | c :: r =>
    match skip with
    | S k => cut s k r
    | O => if starts_with N.eqb s t then cut s (length s - 1) r else c :: cut s O r
    end
  end.
(** (release.split('-'))[-1] *)
Definition last_part (t : text) : text := fold_left (fun (x : text) c => if c =? 45 then [] else x ++ [c]) t [].
(** move_scene.py:56-58 get_groupname *)
Definition get_groupname (release : text) : text := last_part (cut (str ".srr") O (cut (str ".nzb") O release)).
(** move_scene.py:60-63 get_groups: what counts is which names are in it, so they are not sorted and stay more than once *)
Definition get_groups (lines : list text) : list text := map (fun l => filter (fun c => negb (c =? 10) && negb (c =? 13)) (get_groupname l)) lines.
(** move_scene.py:39-48 the names before the test of the group *)
Definition tested (elem : text) : bool :=
  negb (existsb (N.eqb 32) elem) && negb (teqb (lower elem) elem) && negb (teqb elem (get_groupname elem)) && negb (teqb (lower (get_groupname elem)) (get_groupname elem)).
(** files and folders by path; [i_id] keeps them apart *)
Record item := mkItem { i_dir : bool; i_id : N }.
Definition disk : Type := text -> option item.
Definition put (k : text) (i : item) (d : disk) : disk := fun q => if teqb k q then Some i else d q.
Definition del (k : text) (d : disk) : disk := fun q => if teqb k q then None else d q.
(** os.renames: a file overwrites a file *)
Definition renames (src dest : text) (d : disk) : result disk :=
  match d src with
  | None => Err FileNotFound
  | Some i =>
    if teqb src dest then Ok d
    else
      match d dest with
      | None => Ok (put dest i (del src d))
      | Some j => if i_dir i || i_dir j then Err OSError else Ok (put dest i (del src d))
      end
  end.
(** move_scene.py:35-54 for the names of all folders: name, path and destination.  [groups]: None if the list is no file *)
Fixpoint loop (groups : option (list text)) (l : list (text * (text * text))) (d : disk) : disk * option exn :=
  match l with
  | [] => (d, None)
  | (elem, (src, dest)) :: r =>
    if tested elem then
      match groups with
      | None => (d, Some UnboundLocal)
      | Some g =>
        if mem_text (get_groupname elem) g then
          match renames src dest d with Ok d => loop groups r d | Err e => (d, Some e) end
        else loop groups r d
      end
    else loop groups r d
  end.
(** move_scene.py:49-54 the destination; [out] is empty if not given *)
Definition todo (out : text) (x : text * option (list text)) : list (text * (text * text)) :=
  match snd x with
  | None => []
  | Some names => map (fun e => (e, (pjoin (fst x) e, match out with [] => pjoin_all (fst x) [str "scene"; e] | _ => pjoin out e end))) names
  end.
(** move_scene.py:24-54 main: folders given with their names (those when the program starts, so none of them is a destination), None for what is no folder *)
Definition main (list_ : option (list text)) (out : text) (dirs : list (text * option (list text))) (d : disk) : disk * option exn :=
  loop (option_map get_groups list_) (flat_map (todo out) dirs) d.
