(** FlacSpec: what a FLAC file looks like: the mark "fLaC", metadata blocks, audio frames; with ID3v2 tags in front
    and an ID3v1 tag at the end in some files. *)
From Verif Require Import Base Mp3Spec.

(** a metadata block: a byte with the type, three bytes of size *)
Definition meta (ty : N) (d : bytes) : bytes := n2b ty :: be 3 (lenN d) ++ d.
(** what is in front of the audio; the types I, T and f could be taken for tags and the mark *)
Inductive piece : bytes -> Prop :=
| piece_mark : piece (bstr "fLaC")
| piece_id3 t : id3v2 t -> piece t
| piece_meta ty d : ty < 255 -> ~ In ty [73; 84; 102] -> lenN d < 2 ^ 24 -> piece (meta ty d).
Definition flac_file (pieces : list bytes) (frames : bytes) (tag : option bytes) : bytes := concat pieces ++ frames ++ opt tag.
(** audio begins with a byte 255; an ID3v1 tag must not seem to be at the end if it is not *)
Definition flac_ok (pieces : list bytes) (frames : bytes) (tag : option bytes) : Prop :=
  Forall piece pieces /\ starts [xff] frames /\ 128 <= lenN (flac_file pieces frames tag) /\
  match tag with Some t => id3v1 t | None => ~ before_end (bstr "TAG") (flac_file pieces frames tag) 128 end.
(** A sample: the mark, metadata blocks, the last of them marked as the last.  The types s, t and u are those of the
    blocks in an SRS file. *)
Definition own_type (ty : N) : Prop := ty < 127 /\ ~ In ty [73; 84; 102; 115; 116; 117].
Definition own_block (b : N * bytes) : Prop := own_type (fst b) /\ lenN (snd b) < 2 ^ 24.
Definition last_block (b : N * bytes) : Prop := fst b < 127 /\ lenN (snd b) < 2 ^ 24.
Definition sample_pieces (blocks : list (N * bytes)) (last : N * bytes) : list bytes :=
  bstr "fLaC" :: map (fun b => meta (fst b) (snd b)) blocks ++ [meta (128 + fst last) (snd last)].
Definition flac_sample (blocks : list (N * bytes)) (last : N * bytes) (frames : bytes) : bytes :=
  flac_file (sample_pieces blocks last) frames None.
Definition sample_ok (blocks : list (N * bytes)) (last : N * bytes) (frames : bytes) : Prop :=
  Forall own_block blocks /\ last_block last /\ flac_ok (sample_pieces blocks last) frames None.
(** the fingerprint fits in its block *)
Definition print_ok (fp : option (N * bytes)) : Prop := match fp with None => True | Some (_, t) => lenN t + 8 < 2 ^ 24 end.
(** the size of the block of a fingerprint *)
Definition fprint_size (fp : option (N * bytes)) (n : N) : Prop :=
  match fp with
  | None => n = 0
  | Some (d, t) => (d < 2 ^ 32 -> n = 12 + lenN t) /\ (2 ^ 32 <= d -> n = 0)
  end.
(** the same with tags *)
Definition tagged_sample (ids : list bytes) (blocks : list (N * bytes)) (last : N * bytes) (frames : bytes) (tag : option bytes) : bytes :=
  flac_file (ids ++ sample_pieces blocks last) frames tag.
Definition tagged_ok (ids : list bytes) (blocks : list (N * bytes)) (last : N * bytes) (frames : bytes) (tag : option bytes) : Prop :=
  Forall id3v2 ids /\ Forall own_block blocks /\ last_block last /\ flac_ok (ids ++ sample_pieces blocks last) frames tag.
