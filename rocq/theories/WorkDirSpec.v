(** WorkDirSpec: places in a folder, and folders in which names differ in more than case. *)
From Verif Require Import Base PathSpec.

(** the place of the components [cs] in the folder [r] *)
Fixpoint place (r : text) (cs : list text) : text :=
  match cs with [] => r | c :: cs => place (r ++ 47 :: c) cs end.
(** the file with the given folders and name in the folder [r] *)
Definition file_in (r : text) (x : list text * text) : text := place r (fst x ++ [snd x]).
(** a folder written without a slash at the end *)
Definition folder (r : text) : Prop := exists a x, r = a ++ [x] /\ x <> 47.

Section Os.
Variables (lowf : text -> text) (listdir : text -> option (list text)) (d : text -> option bytes).
(** the file [b] in the folder [ds] of the release [r], whose only file it is with this name in some case *)
Definition alone (r : text) (ds : list text) (b : text) : Prop :=
  Forall plain ds /\ plain b /\ d (place r (ds ++ [b])) <> None /\
  exists names, listdir (place r ds) = Some names /\ Forall plain names /\ In b names /\
  forall e, In e names -> lowf e = lowf b -> d (place r (ds ++ [e])) <> None -> e = b.
(** the same for a name [b] that is written with other capitals than that of the file [e] *)
Definition stands_for (r : text) (ds : list text) (b e : text) : Prop :=
  Forall plain ds /\ plain b /\ d (place r (ds ++ [e])) <> None /\ lowf e = lowf b /\
  exists names, listdir (place r ds) = Some names /\ Forall plain names /\ In e names /\
  forall e', In e' names -> lowf e' = lowf b -> d (place r (ds ++ [e'])) <> None -> e' = e.
(** no file has this name in any case *)
Definition nowhere (r : text) (ds : list text) (b : text) : Prop :=
  Forall plain ds /\ plain b /\ d (place r (ds ++ [b])) = None /\
  exists names, listdir (place r ds) = Some names /\ Forall plain names /\
  forall e, In e names -> lowf e = lowf b -> d (place r (ds ++ [e])) = None.
End Os.
(** two folders that hold no file in common *)
Definition apart (r w : text) : Prop := forall cs cs', place r cs <> place w cs'.
