(** MovieType: what kind of media file it is, and which file inside RAR volumes (resample/main.py:110-245), and rebuilding
    a sample with the movie at a path (resample/srs.py:427-600).
    Messages are not modelled. *)
From Verif Require Import Base Path VolName Rar Srr Stream SrsRec Srs StrmSrs Prog AviProg StrmProg.
From Verif Require MkvProg WmvProg Mp4Prog FlacProg Mp3Prog.

(** rescene/utility.py:119-123 FileType *)
Inductive ftype := MKV | AVI | MP4 | WMV | FLAC | MP3 | STREAM | M2TS | Unknown.
(** utility.py:138-142; the extensions *)
Definition STREAM_EXTENSIONS : list text := map str [".vob"; ".m2ts"; ".ts"; ".mpeg"; ".mpg"; ".m2v"; ".m2p"]%string.
Definition EXTENSIONS : list text := map str [".mp4"; ".m4v"; ".avi"; ".mkv"; ".wmv"]%string ++ STREAM_EXTENSIONS ++ map str [".mp3"; ".flac"]%string.
(** str.endswith with a tuple *)
Definition ends_any (es : list text) (t : text) : bool := existsb (fun e => Srr.ends_with t e) es.

(** rar.py:1638-1652 list_files of a RAR archive; the blocks of type 0x7A are RarPackedFileBlocks too (1226) *)
Definition block_files (b : block) : list text :=
  match b_kind b with KFile f => [f_name f] | KNewSub f _ => [f_name f] | _ => [] end.
Definition list_files (f : fs) (path : text) : result (list text) :=
  do bs <- read_archive f path; Ok (concat (map block_files bs)).

Definition M_MKV : bytes := [x1a; x45; xdf; xa3].
Definition M_AVI : bytes := bstr "RIFF".
Definition M_RAR : bytes := [x52; x61; x72; x21; x1a; x07; x00].
Definition M_RAR5 : bytes := [x52; x61; x72; x21; x1a; x07; x01; x00].
Definition M_MP4 : bytes := bstr "ftyp".
Definition M_3GP : bytes := bstr "3gp5".
Definition M_WMV : bytes := [x30; x26; xb2; x75].
Definition M_FLAC : bytes := bstr "fLaC".
Definition M_ID3 : bytes := bstr "ID3".
(** main.py:101 *)
Definition MARKER_M2TS_SRS : bytes := bstr "M2TS" ++ [x08; x00; x00; x00].

Definition begins_with (marker m : bytes) : bool := starts_with Byte.eqb m marker.
(** main.py:176-245; [d]: what is in the file [ifile] itself *)
Definition by_marker (ifile : text) (d marker : bytes) : result ftype :=
  if begins_with marker M_MKV then Ok MKV
  else if begins_with marker M_AVI then Ok (if Srr.ends_with ifile (str ".mp3") then MP3 else AVI)
  else if begins_with (dropN 4 marker) M_MP4 || begins_with marker M_3GP then Ok MP4
  else if begins_with marker M_WMV then Ok WMV
  else if begins_with marker M_FLAC then Ok FLAC
  else if begins_with marker MARKER_STREAM_SRS then Ok STREAM
  else if begins_with marker MARKER_M2TS_SRS then Ok M2TS
  else if begins_with marker M_ID3 then
    do size <- decode_id3_size (sub 6 4 marker);
    Ok (if beqb (sub (10 + size) 4 d) M_FLAC then FLAC else MP3)
  else if begins_with marker (bstr "SRSF") then Ok MP3
  else
    do sync <- unpack_be 2 marker 0;
    if N.land sync 0xFFE0 =? 0xFFE0 then Ok MP3
    else if (128 <=? lenN d) && beqb (sub (lenN d - 128) 3 d) (bstr "TAG") then Ok MP3
    else Ok (if ends_any STREAM_EXTENSIONS (lower ifile) then STREAM else Unknown).

(** main.py:110-245 file_type_info: the type and the file inside the RAR volumes.  A file that is not there:
    ValueError. *)
Definition file_type_info (f : fs) (ifile : text) : result (ftype * text) :=
  match fs_get f ifile with
  | None => Err ValueError
  | Some d =>
    let marker := takeN 14 d in
    if lenN marker <? 14 then Ok (Unknown, [])
    else if begins_with marker M_RAR && is_rar ifile then
      match list_files f ifile with
      | Err _ => Ok (Unknown, [])
      | Ok names =>
        let archived := match find (ends_any EXTENSIONS) names with Some n => n | None => [] end in
        match (do t <- rar_stream f ifile (Some archived) false false; do r <- read f t 8; Ok (snd r)) with
        | Err _ => Ok (Unknown, archived)
        | Ok marker => do t <- by_marker ifile d marker; Ok (t, archived)
        end
      end
    else if begins_with marker M_RAR5 then Ok (Unknown, [])
    else do t <- by_marker ifile d marker; Ok (t, [])
  end.

Section Int.
(** int(b"..."), as in Mp3.v *)
Variable py_int : bytes -> result Z.
(** srs.py:233-264 and 427-600: the sample of type [ty] (that of the SRS file) is rebuilt with the movie at [path].
    Only where the movie is of the same type. *)
Definition sample_restore_at (f : fs) (no_stored : bool) (ty : ftype) (srs : bytes) (path : text) : result outcome :=
  do i <- file_type_info f path;
  let '(movie, archived) := i in
  match ty, movie with
  | AVI, AVI => avi_restore_at f no_stored srs path archived
  | MKV, MKV => MkvProg.mkv_restore_at f path archived no_stored srs
  | WMV, WMV => WmvProg.wmv_restore_at f no_stored srs path archived
  | MP4, MP4 => Mp4Prog.mp4_restore_at f path archived no_stored srs
  | FLAC, FLAC => FlacProg.flac_restore_at f srs path archived
  | MP3, MP3 => Mp3Prog.mp3_restore_at py_int f srs path archived
  | STREAM, STREAM => stream_restore_at f no_stored srs path archived
  | STREAM, Unknown => stream_restore_at f no_stored srs path archived
  | _, Unknown => Ok (Abort 1)
  | _, _ => Err NotModelled
  end.
End Int.
