(** StrmSrs: samples in stream formats (resample/stream.py StreamReader; resample/main.py, the functions stream_...).
    The files are given by their contents; a main file in RAR volumes is read as Stream.v says. *)
From Verif Require Import Base Crc SrsRec Srs.

(** main.py:100 *)
Definition MARKER_STREAM_SRS : bytes := bstr "STRM" ++ [x08; x00; x00; x00].

(** main.py:1738-1779 stream_profile_sample: the track; [check]: match_offset and match_length found by
    verify_main (srs.py:120-155), if -c was given *)
Definition profile_track (sample : bytes) : track_data :=
  {| td_flags := 0; td_number := 1; td_length := lenN sample; td_offset := 0; td_signature := takeN SIG_SIZE sample |}.
Definition profile_file (name : text) (sample : bytes) : file_data :=
  {| fd_flags := NEW_FLAGS; fd_appname := []; fd_sample_name := name; fd_size := lenN sample; fd_crc32 := crc32 sample |}.
(** flags |= BIG_FILE, and the offset that has been found *)
Definition with_big (big : bool) (t : track_data) : track_data :=
  {| td_flags := if big then N.lor (td_flags t) BIG_FILE else td_flags t; td_number := td_number t; td_length := td_length t;
     td_offset := td_offset t; td_signature := td_signature t |}.
Definition with_offset (o : N) (t : track_data) : track_data :=
  {| td_flags := td_flags t; td_number := td_number t; td_length := td_length t; td_offset := o; td_signature := td_signature t |}.
(** main.py:2096-2107 stream_create_srs *)
Definition stream_create_srs (app : text) (fd : file_data) (t : track_data) (big : bool) : result bytes :=
  do f <- file_block app fd;
  do b <- track_block (with_big big t);
  Ok (MARKER_STREAM_SRS ++ f ++ b).

(** ** stream.py:53-98 StreamReader *)
Record sblock := mkBlock { sb_type : bytes; sb_size : N; sb_pos : N }.
Fixpoint stream_blocks (fuel : nat) (f : bytes) (pos : N) : result (list sblock) :=
  match fuel with
  | O => Err OutOfFuel
  | S fuel =>
    if pos <? lenN f then
      if lenN f <? pos + 8 then Err ValueError
      else
        let marker := sub pos 4 f in
        if (pos =? 0) && negb (beqb marker (bstr "STRM") || beqb marker (bstr "M2TS")) then Err ValueError
        else
          do size <- unpack 4 f (pos + 4);
          if (size =? 0) && negb (pos =? 0) then Err ValueError
          else if lenN f <? pos + size then Err ValueError
          else do r <- stream_blocks fuel f (pos + size); Ok (mkBlock marker size pos :: r)
    else Ok []
  end.
(** stream.py:105-108 read_contents *)
Definition stream_contents (f : bytes) (b : sblock) : bytes := read_at f (sb_pos b + 8) (Z.of_N (sb_size b) - 8).

(** main.py:874-884 stream_load_srs; an SRS file without SRSF block: UnboundLocalError *)
Definition load_step (f : bytes) (s : option file_data * tracks) (b : sblock) : result (option file_data * tracks) :=
  if beqb (sb_type b) (bstr "SRSF") then do d <- parse_file_data (stream_contents f b); Ok (Some d, snd s)
  else if beqb (sb_type b) (bstr "SRST") then
    do t <- parse_track (stream_contents f b);
    Ok (fst s, set_track (td_number t) (track_of t) (snd s))
  else Ok s.
Definition stream_load_srs (fuel : nat) (f : bytes) : result (file_data * tracks) :=
  do bs <- stream_blocks fuel f 0;
  do s <- foldR (load_step f) bs (None, []);
  match fst s with None => Err UnboundLocal | Some d => Ok (d, snd s) end.

(** ** main.py:2818-2858 stream_find_sample_streams *)
Definition RAMOUNT : N := 0x10000.
(** b.find(sig, start) *)
Definition find_from (sig b : bytes) (start : N) : option N :=
  if lenN b <? start then None else option_map (N.add start) (find_sub Byte.eqb sig (dropN start b)).
(** [p]: previous read; [x]: last read; [rest]: what has not been read; [tell]: position in the file *)
Fixpoint search_loop (fuel : nat) (sig p x rest : bytes) (tell : N) : result Z :=
  match fuel with
  | O => Err OutOfFuel
  | S fuel =>
    match x with
    | [] => Ok (-1)%Z
    | _ =>
      let m := match p with
               | [] => find_from sig x 0
               | _ => find_from sig (p ++ x) (RAMOUNT - lenN sig)
               end in
      match m with
      | Some m => Ok (Z.of_N tell - Z.of_N (lenN x) - Z.of_N (lenN p) + Z.of_N m)%Z
      | None => let y := takeN RAMOUNT rest in search_loop fuel sig x y (dropN RAMOUNT rest) (tell + lenN y)
      end
    end
  end.
Definition search_stream (sig main : bytes) : result Z :=
  let x := takeN RAMOUNT main in search_loop (S (S (length main))) sig [] x (dropN RAMOUNT main) (lenN x).
Definition stream_find (ts : tracks) (main : bytes) : result tracks :=
  do t <- get_track 1 ts;
  do o <- search_stream (td_signature (t_td t)) main;
  Ok (set_track 1 (mkTrack (t_td t) o (if (o =? -1)%Z then t_match t else lenN (td_signature (t_td t))) (t_file t) (t_print t)) ts).

(** main.py:3385-3402 stream_extract_sample_streams; seek to a negative offset: OSError *)
Definition stream_extract (ts : tracks) (main : bytes) : result tracks :=
  do t <- get_track 1 ts;
  if (t_offset t <? 0)%Z then Err OSError
  else
    let o := Z.to_N (t_offset t) in
    if beqb (sub o (lenN (td_signature (t_td t))) main) (td_signature (t_td t)) then
      Ok (set_track 1 (mkTrack (t_td t) (t_offset t) (t_match t) (Some (sub o (td_length (t_td t)) main)) (t_print t)) ts)
    else Err AssertionError.
(** main.py:3824-3835 stream_rebuild_sample; the bytes of the CRC are those written *)
Definition stream_rebuild (ts : tracks) (srs : bytes) : result (bytes * bytes) :=
  do t <- get_track 1 ts;
  match t_file t with None => Err AttributeError | Some d => Ok (d, d) end.

(** srs.py for a stream sample *)
Definition stream_restore (no_stored : bool) (srs main : bytes) : result outcome :=
  srs_rebuild (fun f => stream_load_srs (S (length f)) f) stream_find stream_extract stream_rebuild false true no_stored srs main.
(** srs.py:331-366 creating; with [check], the main file of the option -c, which is not used for a .vob file
    that is a RAR volume: abort 3 if there is no match; the
    track is left out if its signature is empty *)
Definition stream_srs (app name : text) (sample : bytes) (big : bool) (check : option bytes) : result (option bytes) :=
  match check with
  | None => do b <- stream_create_srs app (profile_file name sample) (profile_track sample) big; Ok (Some b)
  | Some main =>
    do o <- search_stream (takeN SIG_SIZE sample) main;
    if (o =? -1)%Z then Ok None
    else match takeN SIG_SIZE sample with
         | [] => do f <- file_block app (profile_file name sample); Ok (Some (MARKER_STREAM_SRS ++ f))
         | _ => do b <- stream_create_srs app (profile_file name sample) (with_offset (Z.to_N o) (profile_track sample)) big; Ok (Some b)
         end
  end.
