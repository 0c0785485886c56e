(** ListingSpec: releases without NFO file or sample. *)
From Verif Require Import Base Path PathSpec Sfv Dirs.

(** a name that ends in a character and one of the extensions of video files, without their dots and in any case *)
Definition video_name (n : text) : Prop :=
  exists a c e, lower n = a ++ [c] ++ str e /\ In e ["mp4"; "m4v"; "avi"; "mkv"; "wmv"; "vob"; "m2ts"; "ts"; "mpeg"; "mpg"; "m2v"; "m2p"]%string.
(** how a release is shown: with its path, or just what follows the last separator *)
Definition title (paths : bool) (r x : text) : Prop := if paths then x = r else ~ In 47 x /\ (r = x \/ exists a, r = a ++ 47 :: x).
Section Os.
Variable listdir : text -> result (list text).
Definition lacks_nfo (r : text) : Prop := exists l, listdir r = Ok l /\ forall f a, In f l -> lower f <> a ++ str ".nfo".
(** no folder for the sample, or no video file in the first one *)
Definition lacks_sample (r : text) : Prop := exists l, listdir r = Ok l /\
  ((forall d, In d l -> lower d <> str "sample") \/
   exists a d b fs, l = a ++ d :: b /\ (forall x, In x a -> lower x <> str "sample") /\ lower d = str "sample" /\ listdir (in_folder r d) = Ok fs /\ forall f, In f fs -> ~ video_name f).
(** per release a line each for the list, a missing NFO file and a missing sample *)
Definition line_if (P : Prop) (x : text) (l : list text) : Prop := P /\ l = [x] \/ ~ P /\ l = [].
Inductive printed (lst nfo sample paths : bool) : list text -> list text -> Prop :=
| pr_nil : printed lst nfo sample paths [] []
| pr_cons r rs x a b c out : title paths r x -> line_if (lst = true) x a -> line_if (nfo = true /\ lacks_nfo r) x b -> line_if (sample = true /\ lacks_sample r) x c ->
    printed lst nfo sample paths rs out -> printed lst nfo sample paths (r :: rs) (a ++ b ++ c ++ out).
End Os.
