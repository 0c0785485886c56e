(** MediaSpec: which files get an .srs file, and under which name. *)
From Verif Require Import Base Dirs DirsSpec SelectSpec.

Definition video (n : text) : Prop :=
  exists e, In e [".mp4"; ".m4v"; ".avi"; ".mkv"; ".wmv"; ".vob"; ".m2ts"; ".ts"; ".mpeg"; ".mpg"; ".m2v"; ".m2p"]%string /\ named e n.
Definition music (n : text) : Prop := exists e, In e [".mp3"; ".mp2"; ".flac"]%string /\ named e n.
(** the SFV file of a music video: the same name but for the last four letters *)
Definition beside (root : text) (t : tree) (p : text) : Prop := exists b x d n, p = b ++ x /\ lenN x = 4 /\ file_at root t d n (b ++ str ".sfv").
(** an SFV file of the release has the name *)
Definition in_sfv (listed : text -> list text) (root : text) (t : tree) (n : text) : Prop :=
  exists d s q, file_at root t d s q /\ named ".sfv" s /\ In n (listed q).
(** the path without its extension *)
Definition stem (p b : text) : Prop := (exists e, p = b ++ 46 :: e /\ ~ In 46 e) \/ (p = b /\ ~ In 46 p).
(** files whose stems are equal follow each other *)
Definition together (l : list text) : Prop := forall a p b q c r s, l = a ++ p :: b ++ q :: c -> stem p s -> stem q s -> In r b -> stem r s.
(** no file is the stem of another *)
Definition no_stem (l : list text) : Prop := forall p q, In p l -> In q l -> ~ stem q p \/ p = q.
