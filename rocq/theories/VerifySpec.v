(** VerifySpec: what checking extracted files is to say. *)
From Verif Require Import Base Path PathSpec CrcSpec RarSpec SrrSpec ListSpec Verify.

(** The extension of a path: the last dot of the last component and what follows, with something else than dots
    in front of it. *)
Definition dotted (p a b c : text) : Prop :=
  p = a ++ b ++ 46 :: c /\ (a = [] \/ exists a', a = a' ++ [47]) /\ ~ In 47 b /\ ~ In 47 c /\ ~ In 46 c /\ Exists (fun x => x <> 46) b.
Inductive ext_of (p : text) : text -> Prop :=
| ext_dot a b c : dotted p a b c -> ext_of p (46 :: c)
| ext_none : (forall a b c, ~ dotted p a b c) -> ext_of p [].
(** no character with a meaning in patterns *)
Definition literal (e : text) : Prop := Forall (fun c => ~ In c (str "[]*?")) e.

Section Disk.
Variables (disk : text -> option entry) (walk : list (text * list text)) (auto : bool) (folder : text) (l : list sitem).
(** the CRC that the SRR file has for a packed file *)
Definition recorded (n : text) (c : N) : Prop :=
  exists p q, of_name n (parts l) = p :: q /\ c = h_fcrc (fst (last (p :: q) p)).
(** a file below the folder with the extension, the size and the CRC *)
Definition renamed (path : text) (size c : N) : Prop :=
  exists root names fn d e, In (root, names) walk /\ In fn names /\ ext_of path e /\ (exists a, fn = a ++ e) /\
  disk (in_folder root fn) = Some (EFile d) /\ lenN d = size /\ is_crc32 d c.
(** 0: good, 1: corrupt, 2: missing *)
Inductive verdict (n : text) : N -> Prop :=
| vd_none : recorded n 0 -> verdict n 0
| vd_intact c p d : recorded n c -> srr_path n p -> disk (in_folder folder p) = Some (EFile d) -> is_crc32 d c -> verdict n 0
| vd_moved c p size : recorded n c -> srr_path n p -> disk (in_folder folder p) = None -> auto = true ->
    says (of_name n (parts l)) size -> renamed p size c -> verdict n 0
| vd_corrupt c p d : recorded n c -> c <> 0 -> srr_path n p -> disk (in_folder folder p) = Some (EFile d) -> ~ is_crc32 d c -> verdict n 1
| vd_missing c p : recorded n c -> c <> 0 -> srr_path n p -> disk (in_folder folder p) = None ->
    (auto = true -> forall size, says (of_name n (parts l)) size -> ~ renamed p size c) -> verdict n 2.
(** names that stay below the folder, with files there and known sizes when files are searched *)
Definition checkable (n : text) : Prop :=
  exists p, srr_path n p /\ disk (in_folder folder p) <> Some EDir /\
  (auto = true -> (exists size, says (of_name n (parts l)) size) /\ forall e, ext_of p e -> literal e).
(** the walk finds files *)
Definition walk_ok : Prop :=
  Forall (fun rn => Forall (fun fn => plain fn /\ exists d, disk (in_folder (fst rn) fn) = Some (EFile d)) (snd rn)) walk.
End Disk.
