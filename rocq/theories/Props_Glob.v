(** Props_Glob: file names with glob characters (C42), and wildcards (C51). *)
From Verif Require Import Base Path PathSpec Glob GlobSpec GlobFacts.

(** Each file to store gives one result: the file at that very path if there is one, whatever characters
    are in the name and in the folder, and else a message that it is missing.  No other file of the
    directory tree is found. *)
Theorem C42 : forall look entries files folder, tree_ok look entries ->
  exists os, search look entries files folder = Ok os /\
  Forall2 (fun name o => forall p, wanted folder name p ->
     (file_at look p -> exists q, o = Found q /\ (forall a cs, stands_for q a cs <-> stands_for p a cs)) /\
     (~ file_at look p -> exists m, o = FileNotFound m)) files os.
Proof. exact search_exact. Qed.
Print Assumptions C42.
(** the pattern for one name matches that name only *)
Theorem C42_name : forall b x : text, fnmatch x (escape_glob b) = true <-> x = b.
Proof. exact name_only. Qed.
Print Assumptions C42_name.

(** directory "d[1]" with the files "f*.nfo" and "fx.nfo" *)
Example C42_example_tree : tree_ok ex_look ex_entries. Proof. exact ex_tree. Qed.
Example C42_example : search ex_look ex_entries [ex_a; str "*.nfo"; str "fy.nfo"] ex_dir =
  Ok [Found (str "d[1]/f*.nfo"); FileNotFound (str "d[[]1[]]/[*].nfo"); FileNotFound (str "d[[]1[]]/fy.nfo")].
Proof. exact ex_search. Qed.

(** A name that starts with a star is not a wildcard: a file that ends as asked for is there, and it is
    reported as missing (that is C42 for the literal name). *)
Theorem C51_refuted : exists look entries folder ending name m,
  tree_ok look entries /\ file_at look (in_folder folder (name ++ ending)) /\
  search look entries [42 :: ending] folder = Ok [FileNotFound m].
Proof. exact wildcard_missing. Qed.
Print Assumptions C51_refuted.
