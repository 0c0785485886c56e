(** SrsRec: the records pyReSample stores in an SRS file, and ID3 sizes.

    Models resample/main.py FileData and TrackData, resample/mp3.py decode_id3_size and encode_id3_size. *)
From Verif Require Import Base Path.

(** struct.pack(">...") *)
Definition pack_be (k : nat) (n : N) : result bytes :=
  if n <? 2 ^ (8 * N.of_nat k) then Ok (be k n) else Err StructError.
Definition unpack_be (k : nat) (buf : bytes) (off : N) : result N :=
  let s := sub off (N.of_nat k) buf in
  if lenN s =? N.of_nat k then Ok (unbe s) else Err StructError.

(** resample/main.py:256-298 FileData; [name] and the constructor for a file on disk are not modelled *)
Record file_data := { fd_flags : N; fd_appname : text; fd_sample_name : text; fd_size : N; fd_crc32 : N }.

(** resample/main.py:284-298 FileData.__init__ for a buffer *)
Definition parse_file_data (buff : bytes) : result file_data :=
  match buff with
  | [] => Err AttributeError
  | _ =>
    do flags <- unpack 2 buff 0;
    do applength <- unpack 2 buff 2;
    do appname <- decode_utf8 (sub 4 applength buff);
    do namelength <- unpack 2 buff (4 + applength);
    do name <- decode_utf8 (sub (4 + applength + 2) namelength buff);
    let offset := 4 + applength + 2 + namelength in
    do size <- unpack 8 buff offset;
    do crc <- unpack 4 buff (offset + 8);
    Ok {| fd_flags := flags; fd_appname := appname; fd_sample_name := name; fd_size := size; fd_crc32 := crc |}
  end.
(** resample/main.py:301-319 FileData.serialize; [app] is resample.APPNAME *)
Definition serialize_file (app : text) (d : file_data) : result bytes :=
  do app_name <- encode_utf8 app;
  do file_name <- encode_utf8 (basename (fd_sample_name d));
  do flags <- pack 2 (fd_flags d);
  do la <- pack 2 (lenN app_name);
  do ln <- pack 2 (lenN file_name);
  do size <- pack 8 (fd_size d);
  do crc <- pack 4 (N.land (fd_crc32 d) 0xFFFFFFFF);
  let buff := flags ++ la ++ app_name ++ ln ++ file_name ++ size ++ crc in
  if 18 + lenN app_name + lenN file_name =? lenN buff then Ok buff else Err AssertionError.

(** resample/main.py:364-418 TrackData, without the fields that are not stored *)
Record track_data := { td_flags : N; td_number : N; td_length : N; td_offset : N; td_signature : bytes }.
Definition BIG_FILE : N := 0x4.
Definition BIG_TACK_NUMBER : N := 0x8.

(** resample/main.py:383-409 TrackData.__init__ *)
Definition parse_track (buff : bytes) : result track_data :=
  match buff with
  | [] => Ok {| td_flags := 0; td_number := 0; td_length := 0; td_offset := 0; td_signature := [] |}
  | _ =>
    do flags <- unpack 2 buff 0;
    let wide := has flags BIG_TACK_NUMBER in
    do number <- (if wide then unpack 4 buff 2 else unpack 2 buff 2);
    let e := if wide then 2 else 0 in
    let add := if has flags BIG_FILE then 8 else 4 in
    do length <- unpack (if has flags BIG_FILE then 8 else 4) buff (e + 4);
    do offset <- unpack 8 buff (e + 4 + add);
    do sig_length <- unpack 2 buff (e + 4 + add + 8);
    Ok {| td_flags := flags; td_number := number; td_length := length; td_offset := offset;
          td_signature := sub (e + 14 + add) sig_length buff |}
  end.
(** resample/main.py:439-463 TrackData.serialize *)
Definition serialize_track (t : track_data) : result bytes :=
  let big_file := has (td_flags t) BIG_FILE in
  do flags <- pack 2 (td_flags t);
  do number <- (if 2 ^ 16 <=? td_number t then pack 4 (td_number t) else pack 2 (td_number t));
  do length <- (if big_file then pack 8 (td_length t) else pack 4 (td_length t));
  do offset <- pack 8 (td_offset t);
  do siglen <- pack 2 (lenN (td_signature t));
  let buff := flags ++ number ++ length ++ offset ++ siglen ++ td_signature t in
  let data_length := 14 + lenN (td_signature t) + (if big_file then 8 else 4)
                     + (if 2 ^ 16 <=? td_number t then 2 else 0) in
  if data_length =? lenN buff then Ok buff else Err AssertionError.

(** resample/mp3.py:38-49 decode_id3_size: ord of an empty slice is a TypeError *)
Definition decode_id3_size (sbytes : bytes) : result N :=
  match sbytes with
  | a :: b :: c :: d :: _ => Ok (((b2n a * 128 + b2n b) * 128 + b2n c) * 128 + b2n d)
  | _ => Err TypeError
  end.
(** resample/mp3.py:51-58 encode_id3_size: [result[-1 - i]] for i = 0..3 *)
Definition encode_id3_size (size : N) : bytes :=
  rev (map (fun i => n2b (N.land (N.shiftr size (i * 7)) 0x7F)) [0; 1; 2; 3]).
