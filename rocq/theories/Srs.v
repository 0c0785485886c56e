(** Srs: what the formats of pyReSample have in common: blocks around the records of an SRS file, tracks
    while a sample is rebuilt, and the steps of rebuilding (resample/srs.py). *)
From Verif Require Import Base Crc SrsRec.

(** resample/main.py:97 *)
Definition SIG_SIZE : N := 256.

(** main.py:364-418 TrackData: the stored fields, match_offset (an int; -1: not found), match_length and the
    bytes written to track_file, None when there is no such file.  check_bytes, codec and compression are not
    used by the formats with one track. *)
Record track := mkTrack { t_td : track_data; t_offset : Z; t_match : N; t_file : option bytes; t_print : option (N * bytes) }.
(** main.py:383-409, a track read from a buffer *)
Definition track_of (d : track_data) : track := mkTrack d (Z.of_N (td_offset d)) 0 None None.
(** a dictionary track number -> track, in order of insertion *)
Definition tracks := list (N * track).
Fixpoint set_track (k : N) (v : track) (d : tracks) : tracks :=
  match d with
  | [] => [(k, v)]
  | (q, w) :: d' => if q =? k then (q, v) :: d' else (q, w) :: set_track k v d'
  end.
Fixpoint get_track (k : N) (d : tracks) : result track :=
  match d with
  | [] => Err KeyError
  | (q, w) :: d' => if q =? k then Ok w else get_track k d'
  end.

(** main.py:346-351 and 494-499, 510-515: a marker, the size with the 8 bytes of the header, the data *)
Definition mp3_block (marker data : bytes) : result bytes :=
  do size <- pack 4 (8 + lenN data); Ok (marker ++ size ++ data).
(** FileData.serialize_as_mp3, serialize_as_stream and TrackData.serialize_as_stream *)
Definition file_block (app : text) (d : file_data) : result bytes :=
  do data <- serialize_file app d; mp3_block (bstr "SRSF") data.
Definition track_block (t : track_data) : result bytes :=
  do data <- serialize_track t; mp3_block (bstr "SRST") data.
(** main.py:500-508 and 516-524 the fingerprint of a track, a duration and text made by another program, in a
    block; nothing is stored if it is missing or cannot be packed *)
Definition print_data (p : N * bytes) : result bytes :=
  do d <- pack 4 (fst p); do n <- pack 4 (lenN (snd p)); Ok (d ++ n ++ snd p).
Definition stored_print (block : bytes -> result bytes) (p : option (N * bytes)) : bytes :=
  match p with
  | None => []
  | Some p => match (do x <- print_data p; block x) with Ok b => b | Err _ => [] end
  end.
(** main.py:537-541 read_fingerprint_data *)
Definition read_print (t : track) (data : bytes) : result track :=
  do d <- unpack 4 data 0;
  do n <- unpack 4 data 4;
  Ok (mkTrack (t_td t) (t_offset t) (t_match t) (t_file t) (Some (d, sub 8 n data))).
(** the flags for new features, main.py:259-266 *)
Definition NEW_FLAGS : N := 3.

(** srs.py:331-366: what is stored with a track: BIG_FILE for the option --big-file, the offset the option -c has
    found *)
Definition with_stored (big : bool) (offset : N) (t : track_data) : track_data :=
  {| td_flags := if big then N.lor (td_flags t) BIG_FILE else td_flags t; td_number := td_number t; td_length := td_length t;
     td_offset := offset; td_signature := td_signature t |}.
(** match_offset and match_length are set *)
Definition located (t : track) (o : Z) (n : N) : track := mkTrack (t_td t) o n (t_file t) (t_print t).
(** stream.read(n): all that is left if n is negative.  So it is for files in Python 2 and for a RarStream; files in
    Python 3 raise a ValueError if n is less than -1, which can only be the length of a frame of a damaged MKV block. *)
Definition read_at (f : bytes) (pos : N) (n : Z) : bytes :=
  if (n <? 0)%Z then dropN pos f else sub pos (Z.to_N n) f.

(** ** srs.py:427-600 rebuilding *)
Inductive outcome := Rebuilt (out : bytes) | Mismatch (out : bytes) | Abort (code : N).
Section Rebuild.
(** the functions of the class for the format *)
Variables (load : bytes -> result (file_data * tracks)) (find extract : tracks -> bytes -> result tracks)
  (rebuild : tracks -> bytes -> result (bytes * bytes)).
(** is_music; the type is MP3 or STREAM; options.no_stored_match_offset *)
Variables (is_music zero_is_legal no_stored : bool).
(** srs.py:461-468 *)
Definition not_located (t : track) : bool :=
  negb (beqb (td_signature (t_td t)) []) && (t_offset t =? 0)%Z && negb zero_is_legal ||
  (t_offset t =? -1)%Z && zero_is_legal.
(** srs.py:482-487; the position in the file is its length *)
Definition not_extracted (t : track) : bool :=
  negb (beqb (td_signature (t_td t)) []) &&
  match t_file t with None => true | Some d => lenN d <? td_length (t_td t) end.
(** Without tracks that have too short signatures (cut_data).  [rebuild] gives the bytes written and the
    bytes the CRC is of. *)
Definition srs_rebuild (srs main : bytes) : result outcome :=
  do l <- load srs;
  let '(fd, ts) := l in
  let skip := forallb (fun t => negb (t_offset (snd t) =? 0)%Z) ts in
  let search := is_music || negb skip || no_stored in
  do ts <- (if search then find ts main else Ok ts);
  if search && existsb (fun t => not_located (snd t)) ts then Ok (Abort 3)
  else
    do ts <- extract ts main;
    if existsb (fun t => not_extracted (snd t)) ts then Ok (Abort 4)
    else
      do r <- rebuild ts srs;
      Ok (if crc32 (snd r) =? fd_crc32 fd then Rebuilt (fst r) else Mismatch (fst r)).
End Rebuild.
