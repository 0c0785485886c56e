(** SubsSpec: archives in archives, and their languages. *)
From Verif Require Import VolName Base Path NzbFixSpec DirsSpec Subs.

(** [r]: the files that are there after extracting along the path of first volumes *)
Inductive at_archive : node -> list text -> list (text * node) -> Prop :=
| aa_here d items : at_archive (Node d (Some items)) [] items
| aa_in d items f k path r : In f (first_rars (map fst items)) -> In (f, k) items -> at_archive k path r ->
    at_archive (Node d (Some items)) (f :: path) r.
(** the name of the SRR file for a first volume *)
Definition srr_for (fr s : text) : Prop := exists d stem e, fr = d ++ stem ++ e /\ (d = [] \/ exists d', d = d' ++ [47]) /\ ~ In 47 stem /\ ~ In 47 e /\ length e = 4%nat /\
  s = stem ++ str ".srr".
Definition different_names (firsts : list text) : Prop := forall f g s, In f firsts -> In g firsts -> srr_for f s -> srr_for g s -> f = g.
(** where it is for a first volume of the SFV file: with the name of the SFV file, if there is only one of them *)
Definition srr_at (srr_out : text) (firsts : list text) (fr p : text) : Prop :=
  match firsts with
  | [_] => p = srr_out
  | _ => exists dir f s, srr_out = dir ++ 47 :: f /\ ~ In 47 f /\ srr_for fr s /\ p = dir ++ 47 :: s
  end.
(** the SRR files in an SRR file, by their first volumes *)
Inductive in_tree : srrt -> list text -> Prop :=
| it_here t : in_tree t []
| it_in f st p g st' path : In (p, Srr g st') st -> srr_for g p -> in_tree (Srr g st') path -> in_tree (Srr f st) (g :: path).
(** names of files in one folder are different, and no two first volumes have the same name but for the last four letters *)
Inductive tidy : node -> Prop :=
| td d inside : (forall items, inside = Some items -> NoDup (map fst items) /\
    different_names (first_rars (map fst items)) /\
    (forall n k, In (n, k) items -> tidy k)) -> tidy (Node d inside).
Definition extractable (n : node) : Prop := exists d items, n = Node d (Some items).
(** the lines of an .idx file that name languages, under the name of the file *)
Definition lang_section (enc : text -> bytes) (name : text) (data s : bytes) : Prop :=
  exists ls, file_lines data ls /\ s = enc (str "# " ++ name ++ [10]) ++ concat (filter (fun l => beqb (firstn 4 l) (bstr "id: ")) ls).
(** an .idx file in the archive at the end of the path *)
Definition idx_at (n : node) (path : list text) (name : text) (data : bytes) : Prop :=
  exists r k, at_archive n path r /\ In (name, Node data k) r /\ DirsSpec.named ".idx" name.
(** an .idx file in one of the archives [firsts] *)
Definition idx_from (world : list (text * node)) (firsts path : list text) (name : text) (data : bytes) : Prop :=
  exists fr k p, path = fr :: p /\ In fr firsts /\ In (fr, k) world /\ idx_at k p name data.
(** each .idx file of [P] has one section in [diz], and there is nothing else in it *)
Definition all_languages (enc : text -> bytes) (P : list text -> text -> bytes -> Prop) (diz : bytes) : Prop :=
  exists (l : list (list text * text * bytes)) ss, NoDup l /\ (forall path name data, In (path, name, data) l <-> P path name data) /\
    Forall2 (fun x s => lang_section enc (snd (fst x)) (snd x) s) l ss /\ diz = concat ss.
(** the SRR file has those of the archives in the archive, at every depth *)
Definition same_archives (n : node) (t : srrt) : Prop := forall path, in_tree t path <-> exists r, at_archive n path r.
(** what an archive is called that has the name of its SFV file *)
Definition START : list text := map str [".rar"; ".part1.rar"; ".part01.rar"; ".001"]%string.
Definition first_that (ok : text -> bool) (l : list text) (c : text) : Prop :=
  exists a b, l = a ++ c :: b /\ ok c = true /\ forall x, In x a -> ok x = false.
