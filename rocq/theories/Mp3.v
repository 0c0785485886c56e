(** Mp3: MP3 tracks (resample/mp3.py Mp3Reader; resample/main.py, the functions mp3_...).
    The files are given by their contents.  Positions and sizes computed from tags can be negative: Z. *)
From Verif Require Import Base Crc SrsRec Srs.

(** seek(pos) and read(n); n negative: all that is left *)
Definition zread (f : bytes) (pos n : Z) : result bytes :=
  if (pos <? 0)%Z then Err OSError else Ok (read_at f (Z.to_N pos) n).

(** mp3.py:67-75 Block.  The type of an APE block is without its version. *)
Record mblock := mkM { m_size : Z; m_type : text; m_start : Z }.

(** mp3.py:109-122 the ID3v2 tags in front, and where they end *)
Fixpoint id3_loop (fuel : nat) (f : bytes) (pos : N) : result (list mblock * N) :=
  match fuel with
  | O => Err OutOfFuel
  | S fuel =>
    if beqb (sub pos 3 f) (bstr "ID3") then
      do size <- decode_id3_size (sub (pos + 6) 4 f);
      do r <- id3_loop fuel f (pos + (10 + size));
      Ok (mkM (Z.of_N (10 + size)) (str "ID3") (Z.of_N pos) :: fst r, snd r)
    else Ok ([], pos)
  end.

Section Int.
(** int(b"..."), which is only used for the six characters of a Lyrics3v2 size *)
Variable py_int : bytes -> result Z.

(** mp3.py:124-132 ID3v1.  The steps give the block, if there is one, and the end of what is in front of it.
    A file of less than 128 bytes: seek fails. *)
Definition step_tag (f : bytes) : result (list mblock * Z) :=
  let len := Z.of_N (lenN f) in
  do first <- zread f (len - 128) 3;
  Ok (if beqb first (bstr "TAG") then ([mkM 128 (str "TAG") (len - 128)%Z], (len - 128)%Z) else ([], len)).
(** mp3.py:134-151 Lyrics3v2 *)
Definition step_lyrics2 (f : bytes) (e : Z) : result (list mblock * Z) :=
  if (0 <=? e - 15)%Z then
    do foot <- zread f (e - 15) 15;
    if beqb (dropN 6 foot) (bstr "LYRICS200") then
      do n <- py_int (takeN 6 foot);
      Ok ([mkM (n + 15) (str "LYRICS200") (e - (n + 15))], (e - (n + 15))%Z)
    else Ok ([], e)
  else Ok ([], e).
(** mp3.py:153-168 Lyrics3v1 *)
Definition step_lyrics1 (f : bytes) (e : Z) : result (list mblock * Z) :=
  if (0 <=? e - 9)%Z then
    do foot <- zread f (e - 9) 9;
    if beqb foot (bstr "LYRICSEND") then
      do data <- zread f (e - 5100) 5100;
      match find_sub Byte.eqb (bstr "LYRICSBEGIN") data with
      | None => Err ValueError
      | Some i => let start := (e - 5100 + Z.of_N i)%Z in Ok ([mkM (e - start) (str "LYRICS") start], (e - (e - start))%Z)
      end
    else Ok ([], e)
  else Ok ([], e).
(** mp3.py:170-190 APE *)
Definition step_ape (f : bytes) (e : Z) : result (list mblock * Z) :=
  if (0 <=? e - 32)%Z then
    do mark <- zread f (e - 32) 8;
    if beqb mark (bstr "APETAGEX") then
      do version <- unpack 4 f (Z.to_N (e - 24));
      do size <- unpack 4 f (Z.to_N (e - 20));
      let start := (e - Z.of_N size - (if (version =? 2000)%N then 32 else 0))%Z in
      Ok ([mkM (e - start) (str "APE") start], (e - (e - start))%Z)
    else Ok ([], e)
  else Ok ([], e).

(** sync & 0xFFE0 == 0xFFE0 *)
Definition is_sync (a b : byte) : bool := (b2n a =? 0xFF) && (0xE0 <=? b2n b).
Definition starts_sync (l : bytes) : bool := match l with a :: b :: _ => is_sync a b | _ => false end.
(** mp3.py:192-199 *)
Definition marker_has_issues (marker : bytes) : bool :=
  negb (lenN marker =? 4) ||
  negb (starts_sync marker) && negb (beqb marker (bstr "RIFF") || beqb marker (bstr "SRSF")).

(** ** mp3.py:302-354 last_id3v2_before_sync *)
(** the first frame marker in the part *)
Fixpoint find_sync (l : bytes) (i : Z) : Z :=
  match l with
  | a :: (b :: _) as r => if is_sync a b then i else find_sync r (i + 1)
  | _ => (-1)%Z
  end.
(** find and rfind, -1 if there is none *)
Definition zfind (s l : bytes) : Z := match find_sub Byte.eqb s l with Some i => Z.of_N i | None => (-1)%Z end.
Definition zrfind (s l : bytes) : Z :=
  match find_sub Byte.eqb (rev s) (rev l) with Some i => (Z.of_N (lenN l) - Z.of_N (lenN s) - Z.of_N i)%Z | None => (-1)%Z end.
Fixpoint last_id3_loop (fuel : nat) (f : bytes) (current : N) (last_good id3 : Z) : result Z :=
  match fuel with
  | O => Err OutOfFuel
  | S fuel =>
    if current <? lenN f then
      let part := sub current (0x10000 + 3) f in
      let sync := Z.max (find_sync part 0) (Z.max (zfind (bstr "RIFF") part) (zfind (bstr "SRSF") part)) in
      let imatch := zrfind (bstr "ID3") part in
      let imatch := if (0 <? imatch)%Z then (imatch + Z.of_N current)%Z else imatch in
      let id3 := Z.max imatch id3 in
      let last_good := if ((last_good <? id3) && negb (sync =? -1) && (id3 <? Z.of_N current + sync))%Z then id3 else last_good in
      if (sync =? -1)%Z then last_id3_loop fuel f (current + 0x10000) last_good id3 else Ok last_good
    else Ok last_good
  end.
Definition last_id3v2_before_sync (f : bytes) : result Z := last_id3_loop (S (length f)) f 0 0 0.

(** mp3.py:205-239 the tags in front when what comes behind them is not audio; [ids] are not empty *)
Definition repair (f : bytes) (ids : list mblock) (begin : Z) : result (list mblock * Z) :=
  do last_id3 <- last_id3v2_before_sync f;
  let b := List.last ids (mkM 0 [] 0) in
  if (last_id3 =? m_start b)%Z then Ok (ids, begin)
  else if (m_start b + m_size b <=? last_id3)%Z then
    do sbytes <- zread f (last_id3 + 6) 4;
    do size <- decode_id3_size sbytes;
    let begin := (last_id3 + 10 + Z.of_N size)%Z in
    Ok (removelast ids ++ [mkM (begin - m_start b) (m_type b) (m_start b)], begin)
  else if (Z.of_N (lenN f) <? begin)%Z then
    do sbytes <- zread f (last_id3 + 6) 4;
    do size <- decode_id3_size sbytes;
    Ok (ids ++ [mkM (10 + Z.of_N size) (str "ID3") last_id3], (last_id3 + (10 + Z.of_N size))%Z)
  else Ok (ids, begin).

(** mp3.py:251-270 the blocks of an SRS file, up to [stop]; their types are ASCII *)
Fixpoint srs_loop (fuel : nat) (f : bytes) (cur : N) (stop : Z) : result (list mblock) :=
  match fuel with
  | O => Err OutOfFuel
  | S fuel =>
    if (Z.of_N cur <? stop)%Z then
      match unpack 4 f (cur + 4) with
      | Err _ => Err ValueError
      | Ok size =>
        let marker := sub cur 4 f in
        if forallb (fun c => b2n c <? 128) marker then
          if size =? 0 then Err ValueError
          else if (stop <? Z.of_N size)%Z then Err ValueError
          else
            do r <- srs_loop fuel f (cur + size) stop;
            Ok (mkM (Z.of_N size) (map b2n marker) (Z.of_N cur) :: r)
        else Err UnicodeError
      end
    else Ok []
  end.

(** sort(key=start_pos), stable *)
Fixpoint m_insert (b : mblock) (l : list mblock) : list mblock :=
  match l with
  | [] => [b]
  | c :: l' => if (m_start b <=? m_start c)%Z then b :: l else c :: m_insert b l'
  end.
Definition m_sort (l : list mblock) : list mblock := fold_right m_insert [] l.

(** mp3.py:77-284 Mp3Reader.__init__ *)
Definition mp3_blocks (f : bytes) : result (list mblock) :=
  do r <- id3_loop (S (length f)) f 0;
  let '(ids, begin) := r in
  do r <- step_tag f; let '(b1, e) := r in
  do r <- step_lyrics2 f e; let '(b2, e) := r in
  do r <- step_lyrics1 f e; let '(b3, e) := r in
  do r <- step_ape f e; let '(b4, e) := r in
  do r <- (match ids with
           | [] => Ok (ids, Z.of_N begin)
           | _ => if marker_has_issues (sub begin 4 f) then repair f ids (Z.of_N begin) else Ok (ids, Z.of_N begin)
           end);
  let '(ids, begin) := r in
  do marker <- zread f begin 4;
  match marker with
  | [] => Err ValueError
  | [_] => Err StructError
  | _ =>
    do main <- (if beqb (takeN 3 marker) (bstr "SRS") then srs_loop (S (length f)) f (Z.to_N begin) e
                else Ok [mkM (e - begin) (str "MP3") begin]);
    Ok (m_sort (ids ++ b1 ++ b2 ++ b3 ++ b4 ++ main))
  end.

(** mp3.py:292-303 read_contents, read_part *)
Definition m_contents (f : bytes) (b : mblock) : result bytes := zread f (m_start b) (m_size b).
Definition m_part (f : bytes) (b : mblock) (n off : Z) : result bytes :=
  if (m_start b + m_size b <? m_start b + off + n)%Z then Err ValueError else zread f (m_start b + off) n.
Definition is_audio (b : mblock) : bool := teqb (m_type b) (str "MP3") || teqb (m_type b) (str "fLaC").

(** ** main.py:1666-1736 mp3_profile_sample *)
(** the CRC of the audio, read in pieces *)
Fixpoint crc_loop (fuel : nat) (f : bytes) (b : mblock) (read to_read : Z) (crc : N) : result N :=
  match fuel with
  | O => Err OutOfFuel
  | S fuel =>
    if (read <? m_size b)%Z then
      let to_read := if (m_size b <? read + to_read)%Z then (m_size b - read)%Z else to_read in
      do data <- m_part f b to_read read;
      crc_loop fuel f b (read + to_read) to_read (zcrc32 data crc)
    else Ok crc
  end.
(** CRC, size of the other blocks, track.  A block of negative size is not modelled: its size cannot be stored. *)
Definition profile_step (f : bytes) (s : N * Z * option track_data) (b : mblock) : result (N * Z * option track_data) :=
  let '(crc, meta, t) := s in
  if is_audio b then
    if (m_size b <? 0)%Z then Err NotModelled
    else
      do crc <- crc_loop (S (N.to_nat (Z.to_N (m_size b) / 65536 + 1))) f b 0 65536 crc;
      do sig <- (if (Z.of_N SIG_SIZE <? m_size b)%Z then m_part f b (Z.of_N SIG_SIZE) 0 else m_part f b (m_size b) 0);
      Ok (crc, meta, Some {| td_flags := 0; td_number := 1; td_length := Z.to_N (m_size b); td_offset := 0; td_signature := sig |})
  else
    do data <- m_contents f b;
    Ok (zcrc32 data crc, (meta + m_size b)%Z, t).
(** without the fingerprint, which is made by another program *)
Definition mp3_profile (name : text) (f : bytes) : result (file_data * option track_data) :=
  do bs <- mp3_blocks f;
  do s <- foldR (profile_step f) bs (0, 0%Z, None);
  let '(crc, meta, t) := s in
  let total := (meta + match t with Some t => Z.of_N (td_length t) | None => 0 end)%Z in
  if (Z.of_N (lenN f) =? total)%Z then
    Ok ({| fd_flags := NEW_FLAGS; fd_appname := []; fd_sample_name := name; fd_size := lenN f; fd_crc32 := crc |}, t)
  else Err ValueError.

(** main.py:2077-2094 mp3_create_srs; [fp]: the fingerprint of the track *)
Definition create_block (app : text) (fd : file_data) (t : option track_data) (fp : option (N * bytes)) (f : bytes) (b : mblock) : result bytes :=
  if is_audio b then
    do x <- file_block app fd;
    do y <- (match t with Some t => do y <- track_block t; Ok (y ++ stored_print (mp3_block (bstr "SRSP")) fp) | None => Ok [] end);
    Ok (x ++ y)
  else m_contents f b.
Definition mp3_create (app : text) (fd : file_data) (t : option track_data) (fp : option (N * bytes)) (f : bytes) : result bytes :=
  do bs <- mp3_blocks f;
  do parts <- mapR (create_block app fd t fp f) bs;
  Ok (concat parts).
(** srs.py:331-366: profile and create; [big]: the option --big-file.  [offset]: what the option -c has found; it
    is stored, but not used for music.  [fp]: what fpcalc gives for the sample. *)
Definition mp3_srs (app name : text) (big : bool) (offset : N) (fp : option (N * bytes)) (f : bytes) : result bytes :=
  do p <- mp3_profile name f;
  match snd p with
  | None => Err ValueError                      (* srs.py:341 no A/V data *)
  | Some t => mp3_create app (fst p) (Some (with_stored big offset t)) fp f
  end.

(** ** main.py:860-872 mp3_load_srs *)
Definition mload_step (f : bytes) (s : option file_data * tracks) (b : mblock) : result (option file_data * tracks) :=
  if teqb (m_type b) (str "SRSF") then
    do data <- m_contents f b;
    do d <- parse_file_data (dropN 8 data); Ok (Some d, snd s)
  else if teqb (m_type b) (str "SRST") then
    do data <- m_contents f b;
    do t <- parse_track (dropN 8 data);
    Ok (fst s, set_track (td_number t) (track_of t) (snd s))
  else if teqb (m_type b) (str "SRSP") then
    do t <- get_track 1 (snd s);
    do data <- m_contents f b;
    do t <- read_print t (dropN 8 data);
    Ok (fst s, set_track 1 t (snd s))
  else Ok s.
Definition mp3_load_srs (f : bytes) : result (file_data * tracks) :=
  do bs <- mp3_blocks f;
  do s <- foldR (mload_step f) bs (None, []);
  match fst s with None => Err UnboundLocal | Some d => Ok (d, snd s) end.

(** ** main.py:2769-2816 mp3_find_sample_streams, mp3_match_signature *)
(** the offset that is set, if any *)
Fixpoint match_loop (fuel : nat) (f : bytes) (b : mblock) (sig : bytes) (boffset : Z) : result (option Z) :=
  match fuel with
  | O => Err OutOfFuel
  | S fuel =>
    if (boffset <=? m_size b)%Z then
      do data <- m_part f b (Z.min (m_size b - boffset) 0x10000) boffset;
      match find_sub Byte.eqb sig data with
      | Some i => Ok (Some (boffset + Z.of_N i)%Z)
      | None => match_loop fuel f b sig (boffset + (0x10000 - Z.of_N SIG_SIZE + 1))
      end
    else Ok None
  end.
Definition match_signature (f : bytes) (b : mblock) (sig : bytes) : result (option Z) :=
  match_loop (S (S (N.to_nat (Z.to_N (m_size b) / 65281)))) f b sig 0.
Definition mp3_find (ts : tracks) (main : bytes) : result tracks :=
  do bs <- mp3_blocks main;
  match find is_audio bs with
  | None => Ok ts
  | Some b =>
    do t <- get_track 1 ts;
    let sig := td_signature (t_td t) in
    if (m_size b <? 0)%Z then Err NotModelled
    else
      do data <- m_part main b (Z.min (m_size b) (Z.of_N (lenN sig))) 0;
      let n := N.min (td_length (t_td t)) (Z.to_N (m_size b)) in
      do t <- (if beqb sig data then Ok (located t (m_start b) n)
               else if 2 <=? lenN data then
                 if starts_sync data then Ok (located t (-1) (t_match t))
                 else
                   do m <- match_signature main b sig;
                   match m with Some o => Ok (located t o n) | None => Ok (located t (-1) (t_match t)) end
               else Ok (located t (-1) (t_match t)));
      Ok (set_track 1 t ts)
  end.
(** main.py:3368-3383 mp3_extract_sample_streams *)
Definition mp3_extract (ts : tracks) (main : bytes) : result tracks :=
  do bs <- mp3_blocks main;
  match find is_audio bs with
  | None => Ok ts
  | Some b =>
    do t <- get_track 1 ts;
    let offset := (t_offset t - m_start b)%Z in
    if (offset <? 0)%Z then Err AssertionError
    else
      do data <- m_part main b (Z.of_N (t_match t)) offset;
      Ok (set_track 1 (mkTrack (t_td t) (t_offset t) (t_match t) (Some data) (t_print t)) ts)
  end.
(** main.py:3795-3822 mp3_rebuild_sample: what has been written, and is the audio written *)
Definition rebuild_step (ts : tracks) (srs : bytes) (s : bytes * bool) (b : mblock) : result (bytes * bool) :=
  if teqb (m_type b) (str "SRSF") || teqb (m_type b) (str "SRST") || teqb (m_type b) (str "SRSP") then
    if snd s then Ok s
    else
      do t <- get_track 1 ts;
      match t_file t with None => Err AttributeError | Some d => Ok (fst s ++ d, true) end
  else
    do data <- m_contents srs b; Ok (fst s ++ data, snd s).
Definition mp3_rebuild (ts : tracks) (srs : bytes) : result (bytes * bytes) :=
  if forallb (fun t => match t_file (snd t) with Some _ => true | None => false end) ts then
    do bs <- mp3_blocks srs;
    do s <- foldR (rebuild_step ts srs) bs ([], false);
    Ok (fst s, fst s)
  else Err AttributeError.

Definition mp3_restore (srs main : bytes) : result outcome :=
  srs_rebuild mp3_load_srs mp3_find mp3_extract mp3_rebuild true true false srs main.
End Int.
