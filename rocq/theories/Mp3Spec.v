(** Mp3Spec: what an MP3 file looks like, from the descriptions of the tags: ID3v2 tags, audio, then an APE tag,
    a Lyrics3v1 tag, a Lyrics3v2 tag and an ID3v1 tag, each of which can be absent. *)
From Verif Require Import Base SrsRecSpec StrmSpec.

Definition starts (s l : bytes) : Prop := exists r, l = s ++ r.
Definition ends (s l : bytes) : Prop := exists r, l = r ++ s.
(** [s] is [n] bytes before the end *)
Definition before_end (s l : bytes) (n : N) : Prop := exists a b, l = a ++ s ++ b /\ lenN (s ++ b) = n.
Definition opt (o : option bytes) : bytes := match o with Some t => t | None => [] end.

(** version, flags; the size in base 128 *)
Definition id3v2 (t : bytes) : Prop :=
  exists v sz body, t = bstr "ID3" ++ v ++ sz ++ body /\ lenN v = 3 /\ base128 sz (lenN body).
Definition id3v1 (t : bytes) : Prop := exists r, t = bstr "TAG" ++ r /\ lenN r = 125.
(** six decimal digits *)
Definition six (d : bytes) (n : N) : Prop :=
  lenN d = 6 /\ Forall (fun c => 48 <= b2n c <= 57) d /\ n = fold_left (fun a c => 10 * a + (b2n c - 48)) d 0.
Definition lyrics2 (t : bytes) : Prop := exists b d, t = b ++ d ++ bstr "LYRICS200" /\ six d (lenN b).
Definition lyrics1 (t : bytes) : Prop := lenN t <= 5100 /\ exists b, t = bstr "LYRICSBEGIN" ++ b ++ bstr "LYRICSEND".
(** version 2 has a header of 32 bytes that its size does not count *)
Definition ape_tag (t : bytes) : Prop := exists h items v r,
  t = h ++ items ++ bstr "APETAGEX" ++ le 4 v ++ le 4 (lenN items + 32) ++ r /\
  v < 2 ^ 32 /\ lenN items + 32 < 2 ^ 32 /\ lenN r = 16 /\ lenN h = if v =? 2000 then 32 else 0.

Record trailer := mkTrailer { tl_ape : option bytes; tl_lyrics1 : option bytes; tl_lyrics2 : option bytes; tl_tag : option bytes }.
Definition trail (tl : trailer) : bytes := opt (tl_ape tl) ++ opt (tl_lyrics1 tl) ++ opt (tl_lyrics2 tl) ++ opt (tl_tag tl).
(** The tags at the end of [p ++ trail tl] can be told from [p]: those that are absent do not seem to be there,
    and no Lyrics3v1 tag seems to begin earlier. *)
Record fits (p : bytes) (tl : trailer) : Prop := {
  fit_size : 128 <= lenN (p ++ trail tl);
  fit_tag : match tl_tag tl with Some t => id3v1 t | None => ~ before_end (bstr "TAG") (p ++ trail tl) 128 end;
  fit_lyrics2 : match tl_lyrics2 tl with
    | Some t => lyrics2 t
    | None => ~ ends (bstr "LYRICS200") (p ++ opt (tl_ape tl) ++ opt (tl_lyrics1 tl))
    end;
  fit_lyrics1 : match tl_lyrics1 tl with
    | Some t => lyrics1 t /\ 5100 <= lenN (p ++ opt (tl_ape tl) ++ t) /\
        forall n, n <= 5100 -> before_end (bstr "LYRICSBEGIN") (p ++ opt (tl_ape tl) ++ t) n -> n <= lenN t
    | None => ~ ends (bstr "LYRICSEND") (p ++ opt (tl_ape tl))
    end;
  fit_ape : match tl_ape tl with Some t => ape_tag t | None => ~ before_end (bstr "APETAGEX") p 32 end
}.
(** a frame of audio begins with eleven bits that are set *)
Definition sync (l : bytes) : Prop := exists b r, l = xff :: b :: r /\ 224 <= b2n b.
(** The audio does not look like a tag; behind an ID3v2 tag it must look like audio. *)
Definition audio_ok (front : list bytes) (audio : bytes) : Prop :=
  4 <= lenN audio /\ ~ starts (bstr "ID3") audio /\ ~ starts (bstr "SRS") audio /\
  (front <> [] -> sync audio \/ starts (bstr "RIFF") audio).
Definition mp3_file (front : list bytes) (audio : bytes) (tl : trailer) : bytes := concat front ++ audio ++ trail tl.
Definition well_formed (front : list bytes) (audio : bytes) (tl : trailer) : Prop :=
  Forall id3v2 front /\ audio_ok front audio /\ fits (concat front ++ audio) tl.
(** int() of six digits *)
Definition reads_digits (py_int : bytes -> result Z) : Prop := forall d n, six d n -> py_int d = Ok (Z.of_N n).
(** What an SRS ends in, before the tags: the first bytes of the audio, or the fingerprint if there is one that
    fits in its block *)
Definition srs_ending (audio : bytes) (fp : option (N * bytes)) (e : bytes) : Prop :=
  match fp with
  | None => signature_of audio e
  | Some (d, t) => d < 2 ^ 32 /\ lenN t + 16 < 2 ^ 32 /\ e = t
  end.
(** the size of the block of a fingerprint *)
Definition print_size (fp : option (N * bytes)) (n : N) : Prop :=
  match fp with
  | None => n = 0
  | Some (d, t) => (d < 2 ^ 32 /\ lenN t + 16 < 2 ^ 32 -> n = 16 + lenN t) /\ (~ (d < 2 ^ 32 /\ lenN t + 16 < 2 ^ 32) -> n = 0)
  end.
