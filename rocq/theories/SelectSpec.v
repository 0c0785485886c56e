(** SelectSpec: which images of a release are stored. *)
From Verif Require Import Base VerifySpec Dirs DirsSpec.

(** names of files in all directories of a tree *)
Definition files_ok (root : text) (t : tree) : Prop := forall d fs ds, at_path root t d (Dir fs ds) -> NoDup fs /\ forall n, In n fs -> n <> [] /\ ~ In 47 n.
(** the file with the path [p], which has the name [n] in the directory [d] *)
Definition file_at (root : text) (t : tree) (d n p : text) : Prop := exists fs ds, at_path root t d (Dir fs ds) /\ In n fs /\ p = d ++ 47 :: n.
(** without regard to case *)
Definition within (s : string) (t : text) : Prop := inside (str s) (lower t).
Definition image (n : text) : Prop := exists e, In e [".jpg"; "jpeg"; ".png"; ".bmp"; ".gif"]%string /\ named e n.
(** directories and names whose images belong to a release *)
Definition shown (p : text) : Prop := exists s, In s ["proof"; "sample"; "/cover"; "/screenshots"; "/compare"]%string /\ within s p.
(** images that players make *)
Definition folder_image (n : text) : Prop := exists b x, lower n = b ++ str "folder." ++ x /\ ~ In 46 x.
Definition player (n : text) : Prop := In 32 n \/ folder_image n \/ within "albumartsmall" n \/ exists r, lower n = str "albumart_{" ++ r.
(** names of the first files of music *)
Definition first_name (n : text) : Prop := exists r, n = str "00" ++ r \/ n = str "01" ++ r.
(** files that tell the names of a release *)
Definition tells (root : text) (t : tree) (g : text) : Prop := exists d p e, file_at root t d g p /\ In e [".sfv"; ".nfo"; ".m3u"; ".rar"]%string /\ named e g.
(** the name without the number in front *)
Definition NUMBERS : list string := ["00-"; "00_"; "01-"; "01_"; "000-"; "000_"; "001-"; "001_"; "0000-"; "0000_"; "0001-"; "0001_"]%string.
Definition unnumbered (n r : text) : Prop := (exists z, In z NUMBERS /\ n = str z ++ r) \/ (r = n /\ forall z x, In z NUMBERS -> n <> str z ++ x).
(** the group: what follows the last dash *)
Definition group_of (n g : text) : Prop := ~ In 45 g /\ (n = g \/ exists b, n = b ++ 45 :: g).
(** the name is like that of a file that tells names, which is [b] and four letters *)
Definition alike (root : text) (t : tree) (p n : text) : Prop := exists b x, tells root t (b ++ x) /\ lenN x = 4 /\
  (lower (takeN 10 b) = takeN 10 n \/
   (exists r r', unnumbered b r /\ unnumbered n r' /\ lower (takeN 10 r) = takeN 10 r') \/
   (exists s e k, p = s ++ e /\ ext_of p e /\ group_of (lower b) k /\ group_of s k)).
