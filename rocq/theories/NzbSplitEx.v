(** NzbSplitEx: files for the examples of NzbSplit. *)
From Verif Require Import Base NzbSplit.
(** a file is its subject with a number; the name is the whole subject *)
Definition item : Type := text * N.
Definition run (fs : list item) (d : disk item) : result (disk item) := nzb_split item fst (fun s => s) Some (fun _ => None) false (str "o") fs d.
Definition rel_of : item -> option text := release_of item fst (fun s => s) Some (fun _ => None) false.
Definition none : disk item := fun _ => None.
