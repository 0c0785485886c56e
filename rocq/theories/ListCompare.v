(** ListCompare: comparing two lists of releases (scripts/list_compare.py).  Python before 3.11, where open has the mode "U"; texts are already decoded.
    The order of the elements of a set is not modelled: what is printed is in the order of the file. *)
From Verif Require Import Base.

(** file.readlines() with universal newlines; [acc] is the line so far, reversed *)
Fixpoint readlines (acc t : text) : list text :=
  match t with
  | [] => match acc with [] => [] | _ => [rev acc] end
  | c :: r =>
    if c =? 10 then rev (10 :: acc) :: readlines [] r
    else if c =? 13 then
      match r with
      | d :: r' => if d =? 10 then rev (10 :: acc) :: readlines [] r' else rev (10 :: acc) :: readlines [] r
      | [] => [rev (10 :: acc)]
      end
    else readlines (c :: acc) r
  end.
(** set(): each line once *)
Fixpoint once (l : list text) : list text :=
  match l with
  | [] => []
  | x :: r => if mem_text x r then once r else x :: once r
  end.
(** list_compare.py:33-35 read_txt *)
Definition read_txt (t : text) : list text := once (readlines [] t).
(** list_compare.py:37-39 print_releases: the lines printed *)
Definition print_releases (l : list text) : list text := map (filter (fun c => negb (c =? 10))) l.
(** list_compare.py:41-51 main with -d and with -u *)
Definition dupes (main_ new : text) : list text := print_releases (filter (fun x => mem_text x (read_txt new)) (read_txt main_)).
Definition uniques (main_ new : text) : list text := print_releases (filter (fun x => negb (mem_text x (read_txt main_))) (read_txt new)).
