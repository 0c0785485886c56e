(** LocateSpec: the place of a file of an archive, and the text of hints. *)
From Verif Require Import Base Path PathSpec Verify VerifySpec.

(** old names and new names with a colon between them, semicolons between the pairs *)
Fixpoint hint_text (l : list (text * text)) : text :=
  match l with
  | [] => []
  | [(a, b)] => a ++ 58 :: b
  | (a, b) :: l => a ++ 58 :: b ++ 59 :: hint_text l
  end.
Definition clean (t : text) : Prop := ~ In 58 t /\ ~ In 59 t.
(** the last hint for a name *)
Definition hinted (l : list (text * text)) (n h : text) : Prop :=
  exists a b, l = a ++ (n, h) :: b /\ Forall (fun x => fst x <> n) b.
(** an absolute folder in normal form *)
Definition folder_ok (folder : text) : Prop := exists cs f, folder = 47 :: f /\ below cs f.
(** the path below the folder: that of the hint, or else the name of the file *)
Definition target (hints : list (text * text)) (n p : text) : Prop :=
  hinted hints n p /\ (exists cs, below cs p) \/ (forall h, ~ In (n, h) hints) /\ rar_path n p.
Definition unknown (size : N) : Prop := size = 0xFFFFFFFF \/ size = 0xFFFFFFFFFFFFFFFF.

Section Disk.
Variables (disk : text -> option entry) (walk : list (text * list text)).
Definition no_file (p : text) : Prop := forall d, disk p <> Some (EFile d).
(** all files below the folder, in the order in which they are listed *)
Definition listed : list (text * text) := flat_map (fun rn => map (pair (fst rn)) (snd rn)) walk.
Definition fits (e : text) (size : N) (rf : text * text) : Prop :=
  (exists a, snd rf = a ++ e) /\ exists d, disk (in_folder (fst rf) (snd rf)) = Some (EFile d) /\ lenN d = size.
(** what the search for a file gives; [place] is where it is to be, [e] its extension *)
Inductive outcome (auto : bool) (place e : text) (size : N) : result text -> Prop :=
| o_there d : disk place = Some (EFile d) -> lenN d = size \/ unknown size -> outcome auto place e size (Ok place)
| o_size d : disk place = Some (EFile d) -> lenN d <> size -> ~ unknown size -> outcome auto place e size (Err InvalidFileSize)
| o_moved a root fn b : no_file place -> auto = true -> listed = a ++ (root, fn) :: b -> Forall (fun x => ~ fits e size x) a ->
    fits e size (root, fn) -> outcome auto place e size (Ok (in_folder root fn))
| o_gone : no_file place -> (auto = true -> Forall (fun x => ~ fits e size x) listed) -> outcome auto place e size (Err Base.FileNotFound).
End Disk.
