(** NzbRenameSpec: where renamed NZB files belong. *)
From Verif Require Import Base NzbRename.

Definition is_music (f : nfile) : Prop := exists b, f_name f = b ++ str ".mp3" \/ f_name f = b ++ str ".flac" \/ f_name f = b ++ str ".mp2".
(** the first name that is not empty *)
Definition first_name (l : list nfile) (x : text) : Prop :=
  (x = [] /\ forall f, In f l -> f_long f = []) \/ exists a f b, l = a ++ f :: b /\ f_long f = x /\ x <> [] /\ forall h, In h a -> f_long h = [].
(** the name of the release and if it is music: names after the first music file do not count *)
Definition about (l : list nfile) (x : text) (g : bool) : Prop :=
  (g = false /\ (forall f, In f l -> ~ is_music f) /\ first_name l x) \/
  (g = true /\ exists a f b, l = a ++ f :: b /\ is_music f /\ (forall h, In h a -> ~ is_music h) /\ first_name (a ++ [f]) x).
(** the NZB file [n] belongs into the folder [g] as [t] *)
Definition goes (d : folder) (n : text) (g : bool) (t : text) (c : content) : Prop :=
  (exists b, n = b ++ str ".nzb") /\ exists l x, d n = Some c /\ c = Files l /\ about l x g /\ ~ In 47 x /\ t = x ++ str ".nzb".
(** nothing is in the way *)
Definition free (names : list text) (d : folder) (o : bool -> folder) : Prop :=
  NoDup names /\ (forall n l x g, In n names -> (exists b, n = b ++ str ".nzb") -> d n = Some (Files l) -> about l x g -> ~ In 47 x) /\
  (forall n g t c, In n names -> goes d n g t c -> o g t = None /\ o g n = None) /\
  (forall n m g t t' c c', In n names -> In m names -> n <> m -> goes d n g t c -> goes d m g t' c' -> t <> t' /\ t <> m).
