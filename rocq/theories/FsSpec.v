(** FsSpec: where extracted files go and what happens to the files on disk. *)
From Verif Require Import Base RarSpec PathSpec SrrSpec.

(** lexical meaning of a list of path components, starting in the folder with the given components
    (innermost first): "." and empty ones stay, ".." goes up *)
Definition step (cwd : list text) (c : text) : list text :=
  if text_dec c [] then cwd else if text_dec c (str ".") then cwd
  else if text_dec c (str "..") then tl cwd else c :: cwd.
Definition walk (cwd cs : list text) : list text := fold_left step cs cwd.
(** the folder or file a path denotes *)
Definition denotes (cwd : list text) (p : text) (r : list text) : Prop :=
  exists cs, joined [47] cs p /\
    r = walk (match p with c :: _ => if c =? 47 then [] else cwd | [] => cwd end) cs.

(** the last component *)
Definition base_of (p b : text) : Prop := exists cs, below (cs ++ [b]) p.

(** the place of a stored file called [name] below [folder] *)
Definition target (paths : bool) (folder name out : text) : Prop :=
  exists p, srr_path name p /\
    if paths then out = in_folder folder p
    else exists b, base_of p b /\ out = in_folder folder b.

(** [l]: stored files in order with their contents; [o]: those selected, with their places *)
Inductive extracted (paths : bool) (folder : text) (sel : text -> text -> Prop)
  : list (text * bytes) -> list (text * bytes) -> Prop :=
| ext_nil : extracted paths folder sel [] []
| ext_take n d out l o :
    target paths folder n out -> sel n out -> extracted paths folder sel l o ->
    extracted paths folder sel ((n, d) :: l) ((out, d) :: o)
| ext_skip n d out l o :
    target paths folder n out -> ~ sel n out -> extracted paths folder sel l o ->
    extracted paths folder sel ((n, d) :: l) o.

Fixpoint first_for (q : text) (o : list (text * bytes)) : option bytes :=
  match o with
  | [] => None
  | (p, d) :: o' => if text_dec p q then Some d else first_for q o'
  end.

(** both paths mean the same, whatever the current folder *)
Definition same_path (p q : text) : Prop := forall cwd r, denotes cwd p r <-> denotes cwd q r.

(** which stored files a request asks for: all of them, those with a given base name, or the one
    with a given path *)
Definition asked (packed : text) (name out : text) : Prop :=
  exists p, srr_path name p /\
    (packed = [] \/ base_of p packed \/ (packed <> [] /\ same_path packed p)).

(** [f'] is [f] plus new files; nothing that was there is changed *)
Definition kept {A} (get : A -> text -> option bytes) (f f' : A) : Prop :=
  forall q d, get f q = Some d -> get f' q = Some d.
(** every changed path is a place below the folder *)
Definition inside {A} (get : A -> text -> option bytes) (folder : text) (f f' : A) : Prop :=
  forall q, get f' q <> get f q -> exists cs p, below cs p /\ q = in_folder folder p.
