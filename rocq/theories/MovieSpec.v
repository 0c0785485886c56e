(** MovieSpec: movies on disk, as they are or inside RAR volumes, and how media files begin. *)
From Verif Require Import Base RarSpec VolSpec SetSpec Srr StreamSpec ProgSpec Mp3Spec.

(** ** Which file inside RAR volumes *)
(** names of media files *)
Definition media_name (t : text) : Prop :=
  exists p e, In e [".avi"; ".mkv"; ".mp4"; ".m4v"; ".wmv"; ".vob"; ".mpg"; ".mpeg"; ".ts"; ".m2ts"; ".m2v"; ".m2p"; ".flac"; ".mp3"]%string /\ t = p ++ str e.
(** the names of the blocks of a volume that have one *)
Definition item_names (i : item) : list text :=
  match fst i with HFile h _ => [h_text h] | HRecov h _ _ _ _ => [h_text h] | HSub h _ => [h_text h] | _ => [] end.
Definition names_in (v : volume) : list text := concat (map item_names (v_items v)).
(** the first name of a media file, nothing if there is none *)
Definition picked (names : list text) (archived : text) : Prop :=
  (exists a b, names = a ++ archived :: b /\ media_name archived /\ Forall (fun n => ~ media_name n) a) \/
  (Forall (fun n => ~ media_name n) names /\ archived = []).
(** The movie [main] is inside the volumes from [path] on, and is the file that is picked. *)
Definition movie_in (f : fs) (path archived : text) (main : bytes) : Prop :=
  in_volumes f path archived main /\ exists v, volume_ok v /\ fs_get f path = Some (ser_volume v) /\ picked (names_in v) archived.
(** the movie is at [path] *)
Definition movie_at (f : fs) (path : text) (main : bytes) : Prop :=
  (~ rar_ending path /\ fs_get f path = Some main) \/ exists archived, movie_in f path archived main.

(** ** How media files begin *)
Definition starts_list : list bytes :=
  [bstr "RIFF"; [x1a; x45; xdf; xa3]; bstr "3gp5"; [x30; x26; xb2; x75]; bstr "fLaC"; bstr "SRSF"; bstr "STRM" ++ [x08; x00; x00; x00]; bstr "M2TS" ++ [x08; x00; x00; x00]].
Definition id3_start (m : bytes) : Prop := starts (bstr "ID3") m.
(** what the beginning of a file tells, other than that it has an ID3 tag *)
Definition marked (m : bytes) : Prop :=
  (exists s, In s starts_list /\ starts s m) \/
  (exists a, lenN a = 4 /\ starts (a ++ bstr "ftyp") m) \/
  (exists a b r, m = a :: b :: r /\ b2n a = 0xFF /\ 0xE0 <= b2n b).
Definition mp3_ending (t : text) : Prop := exists p, t = p ++ str ".mp3".
(** a file with an ID3v1 tag at its end *)
Definition tag_at_end (d : bytes) : Prop := exists a b, d = a ++ bstr "TAG" ++ b /\ lenN b = 125.
