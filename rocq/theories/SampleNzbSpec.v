(** SampleNzbSpec: the NZB files of samples. *)
From Verif Require Import Base Path SampleNzb.

Definition asked (o : options) (e : text) : Prop :=
  (o_avi o = true /\ e = str ".avi") \/ (o_mkv o = true /\ e = str ".mkv") \/ (o_mp4 o = true /\ e = str ".mp4") \/ (o_wmv o = true /\ e = str ".wmv")
  \/ (o_vob o = true /\ e = str ".vob") \/ (o_m2ts o = true /\ e = str ".m2ts")
  \/ (o_avi o = false /\ o_mkv o = false /\ o_mp4 o = false /\ o_wmv o = false /\ o_vob o = false /\ o_m2ts o = false /\ (e = str ".avi" \/ e = str ".mkv")).
Definition number (t : text) : Prop := t <> [] /\ forall c, In c t -> 48 <= c <= 57.
(** what may come after the extension *)
Inductive repair : text -> Prop :=
| re_none : repair []
| re_par c : repair (c :: str "par2")
| re_vol a b c : number a -> number b -> repair (str ".vol" ++ a ++ str "+" ++ b ++ c :: str "par2").
Definition sample_name (o : options) (n : text) : Prop := exists pre e tail, lower n = pre ++ e ++ tail /\ asked o e /\ repair tail.
Definition total (f : nfile) (n : Z) : Prop := n = fold_right Z.add 0%Z (f_sizes f).
(** a sample that is not too large *)
Definition wanted (o : options) (f : nfile) : Prop :=
  sample_name o (f_name f) /\ exists max, o_max o = Ok max /\ ((max <= 0)%Z \/ exists n, total f n /\ (n <= max)%Z).
(** the files of the second list are those of the first that are wanted, in their order *)
Inductive kept (o : options) : list nfile -> list nfile -> Prop :=
| k_nil : kept o [] []
| k_take f l r : wanted o f -> kept o l r -> kept o (f :: l) (f :: r)
| k_skip f l r : ~ wanted o f -> kept o l r -> kept o (f :: l) r.
(** where the NZB file of the samples of an NZB file belongs *)
Definition place (o : options) (p q : text) : Prop :=
  (o_out o = [] /\ q = pjoin (pjoin (dirname p) (str "samples")) (basename p)) \/ (o_out o <> [] /\ q = pjoin (o_out o) (basename p)).
Definition nzb_name (p : text) : Prop := exists b e, p = b ++ e /\ lower e = str ".nzb".
(** the paths given, or in the folders given *)
Definition given (args : list arg) (p : text) : Prop := In (File p) args \/ exists f names n, In (Folder f names) args /\ In n names /\ p = pjoin f n.
(** the samples of [p] give an NZB file with [r] at [q] *)
Definition makes (o : options) (args : list arg) (d : disk) (p q : text) (r : list nfile) : Prop :=
  given args p /\ nzb_name p /\ place o p q /\ exists l, d p = Some (Files l) /\ kept o l r /\ r <> [].
(** no NZB file of samples has the path of an NZB file given or of that of another one *)
Definition apart (o : options) (args : list arg) : Prop :=
  forall p q p', given args p -> given args p' -> nzb_name p -> nzb_name p' -> place o p q -> q <> p' /\ (place o p' q -> p = p').
