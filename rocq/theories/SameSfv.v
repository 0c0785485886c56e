(** SameSfv: comparing SFV files (rescene/utility.py). *)
From Verif Require Import Base Sfv.

(** list.__eq__ of entries *)
Fixpoint entries_eq (a b : list sfv) : bool :=
  match a, b with
  | [], [] => true
  | x :: a, y :: b => sfv_eq x y && entries_eq a b
  | _, _ => false
  end.
(** utility.py:276-282 same_sfv, on the bytes of the files.  utility.py:248-263 parse_sfv_file only adds
    opening the file (and the long paths of Windows). *)
Definition same_sfv (one two : bytes) : result bool :=
  do x <- parse_sfv_data one;
  do y <- parse_sfv_data two;
  Ok (entries_eq (sort_sfv (fst (fst x))) (sort_sfv (fst (fst y)))).
