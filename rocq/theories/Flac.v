(** Flac: FLAC files and their SRS files (resample/flac.py FlacReader; resample/main.py, the functions flac_...).
    The files are given by their contents; a main file inside RAR volumes is not modelled. *)
From Verif Require Import Base Crc SrsRec Srs.

(** flac.py:45-61 Block: the type is text or the first byte *)
Inductive ftype := Named (s : text) | Num (n : N).
Record fblock := mkF { f_type : ftype; f_size : Z; f_header : bytes; f_start : N }.
Definition is_named (s : text) (b : fblock) : bool := match f_type b with Named t => teqb t s | Num _ => false end.
Definition is_num (n : N) (b : fblock) : bool := match f_type b with Named _ => false | Num m => m =? n end.
(** flac.py:52-60 *)
Definition is_last_block (b : fblock) : bool := match f_type b with Named _ => false | Num n => has n 0x80 end.
Definition is_frame_data (b : fblock) : bool := is_num 0xFF b.

(** flac.py:88-161 read, at [pos]; None: the end of the file *)
Definition flac_next (f : bytes) (pos : N) : result (option fblock) :=
  if pos =? lenN f then Ok None
  else
    let header := sub pos 4 f in
    if beqb header (bstr "fLaC") then Ok (Some (mkF (Named (str "fLaC")) 0 header pos))
    else if beqb (takeN 3 header) (bstr "ID3") then
      let raw := sub pos 10 f in
      do size <- decode_id3_size (sub 6 4 raw);
      Ok (Some (mkF (Named (str "ID3")) (Z.of_N size) raw pos))
    else if beqb (takeN 3 header) (bstr "TAG") then Ok (Some (mkF (Named (str "TAG")) 128 [] pos))
    else
      match header with
      | [] => Err StructError
      | t :: r =>
        do b <- (if b2n t =? 0xFF then
                   if lenN f <? 128 then Err OSError        (* seek to a negative position *)
                   else
                     let n := (Z.of_N (lenN f) - Z.of_N pos)%Z in
                     Ok (mkF (Num (b2n t)) (if beqb (sub (lenN f - 128) 3 f) (bstr "TAG") then (n - 128)%Z else n) [] pos)
                 else
                   do n <- unpack_be 4 (x00 :: r) 0;
                   Ok (mkF (Num (b2n t)) (Z.of_N n) header pos));
        if (Z.of_N (lenN f) <? Z.of_N pos + f_size b)%Z then Err ValueError else Ok (Some b)
      end.

(** flac.py:163-175 read_contents, and 183-192 read_part from the start of the data *)
Definition f_data (b : fblock) : N := f_start b + lenN (f_header b).
Definition f_contents (f : bytes) (b : fblock) : bytes := read_at f (f_data b) (f_size b).

(** Where to read on: behind the block (skip_contents), behind what read_contents has returned, not at all (break).
    The end of a block is never in front of the file. *)
Inductive move := Skip | ReadOn | Stop.
Section Loop.
Context {S : Type}.
(** [while fr.read(): ...] *)
Fixpoint flac_loop (fuel : nat) (act : S -> fblock -> result (S * move)) (f : bytes) (pos : N) (s : S) : result S :=
  match fuel with
  | O => Err OutOfFuel
  | Datatypes.S fuel =>
    do b <- flac_next f pos;
    match b with
    | None => Ok s
    | Some b =>
      do r <- act s b;
      match snd r with
      | Skip => flac_loop fuel act f (Z.to_N (Z.of_N (f_data b) + f_size b)) (fst r)
      | ReadOn => flac_loop fuel act f (f_data b + lenN (f_contents f b)) (fst r)
      | Stop => Ok (fst r)
      end
    end
  end.
Definition flac_read (act : S -> fblock -> result (S * move)) (f : bytes) (s : S) : result S := flac_loop (3 + length f) act f 0 s.
End Loop.

(** ** main.py:1584-1664 flac_profile_sample *)
(** the CRC of a block, read in pieces *)
Fixpoint fcrc_loop (fuel : nat) (f : bytes) (at_ size read to_read crc : N) : result N :=
  match fuel with
  | O => Err OutOfFuel
  | S fuel =>
    if read <? size then
      let to_read := if size <? read + to_read then size - read else to_read in
      fcrc_loop fuel f at_ size (read + to_read) to_read (zcrc32 (sub (at_ + read) to_read f) crc)
    else Ok crc
  end.
(** the CRC, the length of the metadata, the track *)
Definition fprofile_step (f : bytes) (s : N * Z * option track_data) (b : fblock) : result ((N * Z * option track_data) * move) :=
  let '(crc, meta, t) := s in
  let meta := (meta + Z.of_N (lenN (f_header b)))%Z in
  let crc := zcrc32 (f_header b) crc in
  if is_named (str "fLaC") b then Ok ((crc, meta, t), Skip)
  else if (f_size b <? 0)%Z then Err NotModelled
  else
    let size := Z.to_N (f_size b) in
    do crc <- fcrc_loop (S (N.to_nat (size / 65536 + 1))) f (f_data b) size 0 65536 crc;
    if is_frame_data b then
      let sig := if SIG_SIZE <? size then sub (f_data b) SIG_SIZE f else sub (f_data b) size f in
      Ok ((crc, meta, Some {| td_flags := 0; td_number := 1; td_length := size; td_offset := 0; td_signature := sig |}), Skip)
    else Ok ((crc, (meta + f_size b)%Z, t), Skip).
(** without the fingerprint, which is made by another program *)
Definition flac_profile (name : text) (f : bytes) : result (file_data * option track_data) :=
  do s <- flac_read (fprofile_step f) f (0, 0%Z, None);
  let '(crc, meta, t) := s in
  let total := (meta + match t with Some t => Z.of_N (td_length t) | None => 0 end)%Z in
  if (Z.of_N (lenN f) =? total)%Z then
    Ok ({| fd_flags := NEW_FLAGS; fd_appname := []; fd_sample_name := name; fd_size := lenN f; fd_crc32 := crc |}, t)
  else Err ValueError.

(** ** main.py:2050-2075 flac_create_srs *)
(** main.py:349-354 and 495-499: a byte, three bytes of size, the data *)
Definition flac_block (ty : byte) (data : bytes) : result bytes :=
  do size <- pack_be 4 (lenN data); Ok ([ty] ++ dropN 1 size ++ data).
Definition fcreate_step (app : text) (fd : file_data) (t : track_data) (fp : option (N * bytes)) (f : bytes) (s : bytes) (b : fblock) : result (bytes * move) :=
  let s := s ++ f_header b in
  do s <- (if is_named (str "fLaC") b then
             do x <- (do d <- serialize_file app fd; flac_block x73 d);
             do y <- (do d <- serialize_track t; flac_block x74 d);
             Ok (s ++ x ++ y ++ stored_print (flac_block x75) fp)
           else Ok s);
  if is_frame_data b then Ok (s, Skip) else Ok (s ++ f_contents f b, ReadOn).
(** srs.py:331-366: profile and create.  [fp]: what fpcalc gives for the sample. *)
Definition flac_srs (app name : text) (big : bool) (offset : N) (fp : option (N * bytes)) (f : bytes) : result bytes :=
  do p <- flac_profile name f;
  match snd p with
  | None => Err ValueError                      (* srs.py:341 no A/V data *)
  | Some t => flac_read (fcreate_step app (fst p) (with_stored big offset t) fp f) f []
  end.

(** ** main.py:840-858 flac_load_srs *)
Definition fload_step (f : bytes) (s : option file_data * tracks) (b : fblock) : result ((option file_data * tracks) * move) :=
  do r <- (if is_num 0x73 b then do d <- parse_file_data (f_contents f b); Ok ((Some d, snd s), ReadOn)
           else if is_num 0x74 b then
             do t <- parse_track (f_contents f b); Ok ((fst s, set_track (td_number t) (track_of t) (snd s)), ReadOn)
           else if is_num 0x75 b then
             do t <- get_track 1 (snd s);
             do t <- read_print t (f_contents f b);
             Ok ((fst s, set_track 1 t (snd s)), ReadOn)
           else Ok (s, Skip));
  if is_num 0 b || is_last_block b then Ok (fst r, Stop) else Ok r.
Definition flac_load_srs (f : bytes) : result (file_data * tracks) :=
  do s <- flac_read (fload_step f) f (None, []);
  match fst s with None => Err UnboundLocal | Some d => Ok (d, snd s) end.

(** ** main.py:2740-2767 flac_find_sample_streams *)
Definition ffind_step (f : bytes) (ts : tracks) (b : fblock) : result (tracks * move) :=
  if is_frame_data b then
    do t <- get_track 1 ts;
    if (f_size b <? 0)%Z then Err NotModelled
    else
      let sig := td_signature (t_td t) in
      let size := Z.to_N (f_size b) in
      if beqb sig (sub (f_data b) (if size <? lenN sig then size else lenN sig) f) then
        Ok (set_track 1 (located t (Z.of_N (f_start b)) (N.min (td_length (t_td t)) size)) ts, Stop)
      else Ok (ts, Skip)
  else Ok (ts, Skip).
Definition flac_find (ts : tracks) (main : bytes) : result tracks := flac_read (ffind_step main) main ts.
(** main.py:3355-3366 flac_extract_sample_streams *)
Definition fextract_step (f : bytes) (ts : tracks) (b : fblock) : result (tracks * move) :=
  if is_frame_data b then
    do t <- get_track 1 ts;
    Ok (set_track 1 (mkTrack (t_td t) (t_offset t) (t_match t) (Some (f_contents f b)) (t_print t)) ts, ReadOn)
  else Ok (ts, Skip).
Definition flac_extract (ts : tracks) (main : bytes) : result tracks := flac_read (fextract_step main) main ts.
(** main.py:3755-3793 flac_rebuild_sample: what has been written, and the number of SRS blocks.
    [block_type in bytearray(b"stu")] is a TypeError if the type is text (Python 3). *)
Definition frebuild_step (ts : tracks) (srs : bytes) (s : bytes * N) (b : fblock) : result ((bytes * N) * move) :=
  if is_named (str "fLaC") b then Ok ((fst s ++ bstr "fLaC", snd s), Skip)
  else
    match f_type b with
    | Named _ => Err TypeError
    | Num n =>
      if ((n =? 0x73) || (n =? 0x74) || (n =? 0x75)) && (snd s <=? 3) then Ok ((fst s, snd s + 1), Skip)
      else
        let out := fst s ++ f_header b ++ f_contents srs b in
        if is_last_block b then
          do t <- get_track 1 ts;
          match t_file t with None => Err AttributeError | Some d => Ok ((out ++ d, snd s), ReadOn) end
        else Ok ((out, snd s), ReadOn)
    end.
Definition flac_rebuild (ts : tracks) (srs : bytes) : result (bytes * bytes) :=
  if forallb (fun t => match t_file (snd t) with Some _ => true | None => false end) ts then
    do s <- flac_read (frebuild_step ts srs) srs ([], 0);
    Ok (fst s, fst s)
  else Err AttributeError.

Definition flac_restore (srs main : bytes) : result outcome :=
  srs_rebuild flac_load_srs flac_find flac_extract flac_rebuild true false false srs main.
