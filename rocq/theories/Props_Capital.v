(** C59: names of files as they are on disk *)
From Verif Require Import Base PathSpec Info Capital CapitalSpec CapitalFacts.

(** [p] is the file [b] in the folder [d] with the entries [names].  The first result is the first entry that is a file
    and equal to [b] but for case, or [p] when there is none.  The second is equal to [b] but for case, too; it is one of
    the two names, and all lower case only if both are.  Not for all folders: see below. *)
Theorem C59_partial : forall lowf listdir isfile p d b names, split_path p d b -> plain b -> listdir d = Some names -> Forall plain names ->
  exists exact capitals e k, capitalized_fn lowf listdir isfile p = Ok (exact, capitals) /\
    ((exists pre post, names = pre ++ e :: post /\ same_but_case lowf isfile d b e /\ Forall (fun c => ~ same_but_case lowf isfile d b c) pre /\
        exact = in_folder d e) \/
     Forall (fun c => ~ same_but_case lowf isfile d b c) names /\ e = b /\ exact = p) /\
    (capitals = in_folder d k \/ k = b /\ capitals = p) /\ (k = b \/ k = e) /\ lowf k = lowf b /\
    (lower_case lowf k -> lower_case lowf b /\ lower_case lowf e).
Proof. exact capitalized_ok. Qed.
Print Assumptions C59_partial.
Example C59_example : let names := ["b.rar"; "Group-A.rar"; "x"]%string in
  split_path (str "in//group-a.rar") (str "in") (str "group-a.rar") /\ plain (str "group-a.rar") /\ cdir names (str "in") = Some (map str names) /\ Forall plain (map str names) /\
  capitalized_fn lower (cdir names) (fun _ => true) (str "in//group-a.rar") = Ok (str "in/Group-A.rar", str "in/Group-A.rar") /\
  capitalized_fn lower (cdir names) (fun _ => true) (str "in/B.RAR") = Ok (str "in/b.rar", str "in/B.RAR") /\
  capitalized_fn lower (cdir names) (fun _ => true) (str "in/C.RAR") = Ok (str "in/C.RAR", str "in/C.RAR").
Proof. exact ex_capital. Qed.

(** With two files whose names are equal but for case, the name of a file on disk is changed to the other. *)
Theorem C59_refuted : exists listdir isfile p d b names exact capitals, split_path p d b /\ plain b /\ listdir d = Some names /\ Forall plain names /\
  In b names /\ isfile (in_folder d b) = true /\ p = in_folder d b /\ capitalized_fn lower listdir isfile p = Ok (exact, capitals) /\ exact <> p.
Proof. exact other_file. Qed.
Print Assumptions C59_refuted.
