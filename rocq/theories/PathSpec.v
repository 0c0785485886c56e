(** PathSpec: names made of components, independent of posixpath. *)
From Verif Require Import Base.

(** an ordinary path component *)
Definition plain (c : text) : Prop :=
  c <> [] /\ c <> str "." /\ c <> str ".." /\ ~ In 47 c.

(** [joined seps cs t]: [t] is the components [cs] (holding no separator) with one separator between
    each two; the separators used are among [seps] *)
Inductive joined (seps : list N) : list text -> text -> Prop :=
| joined_one c : (forall s, In s seps -> ~ In s c) -> joined seps [c] c
| joined_more c s cs t :
    (forall s, In s seps -> ~ In s c) -> In s seps -> joined seps cs t ->
    joined seps (c :: cs) (c ++ s :: t).

(** a path relative to some folder, below it *)
Definition below (cs : list text) (p : text) : Prop := cs <> [] /\ Forall plain cs /\ joined [47] cs p.

(** the file that the name of an SRR block stands for; both slashes separate *)
Definition srr_path (name path : text) : Prop :=
  exists cs, joined [47; 92] cs name /\ below cs path.
(** the same for a name in a RAR block: only the backslash separates *)
Definition rar_path (name path : text) : Prop :=
  exists cs, joined [92] cs name /\ below cs path.

(** folder [out] followed by [p] *)
Definition in_folder (out p : text) : text :=
  match rev out with
  | [] => p
  | c :: _ => if c =? 47 then out ++ p else out ++ 47 :: p
  end.
