(** GlobSpec: the file a path stands for. *)
From Verif Require Import Base Path PathSpec Glob.

(** [stands_for p a cs]: path [p] leads over the components [cs], from the root if [a].  A slash more or
    less between components makes no difference. *)
Definition stands_for (p : text) (a : bool) (cs : list text) : Prop :=
  (a = true <-> exists r, p = 47 :: r) /\
  exists l, joined [47] l p /\ cs = filter (fun c : text => match c with [] => false | _ => true end) l.
(** A directory tree: the names in a directory are those that lead somewhere, each once, and only
    directories have something in them. *)
Definition tree_ok (look : bool -> list text -> option node) (entries : bool -> list text -> list text) : Prop :=
  forall a d, NoDup (entries a d) /\
  (forall x, In x (entries a d) <-> plain x /\ look a (d ++ [x]) <> None) /\
  (forall x, look a (d ++ [x]) <> None -> look a d = Some NDir).
(** there is a file at path [p] *)
Definition file_at (look : bool -> list text -> option node) (p : text) : Prop :=
  p <> [] /\ exists a cs, stands_for p a cs /\ look a cs = Some NFile /\ ~ exists q, p = q ++ [47].
(** where a file to store is looked for *)
Definition wanted (folder name p : text) : Prop :=
  ((exists r, name = 47 :: r) \/ (exists r, name = str ".." ++ r)) /\ p = name \/
  (~ (exists r, name = 47 :: r)) /\ (~ exists r, name = str ".." ++ r) /\ p = in_folder folder name.
