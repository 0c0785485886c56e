(** Mkv: MKV files and their SRS files (resample/ebml.py EbmlReader; resample/main.py, the functions mkv_...).  The
    files are given by their contents; a main file inside RAR volumes is in MkvProg.v. *)
From Verif Require Import Base Crc SrsRec Srs Ebml.

(** ** ebml.py:206-247 EbmlID, the ones that are looked at *)
Definition ID (l : list N) : bytes := map n2b l.
Definition SEGMENT := ID [0x18; 0x53; 0x80; 0x67].
Definition CLUSTER := ID [0x1F; 0x43; 0xB6; 0x75].
Definition BLOCK_GROUP := ID [0xA0].
Definition BLOCK := ID [0xA1].
Definition SIMPLE_BLOCK := ID [0xA3].
Definition TRACKLIST := ID [0x16; 0x54; 0xAE; 0x6B].
Definition TRACK := ID [0xAE].
Definition TRACKNUMBER := ID [0xD7].
Definition TRACKCODEC := ID [0x86].
Definition CONTENTENCODINGLIST := ID [0x6D; 0x80].
Definition CONTENTENCODING := ID [0x62; 0x40].
Definition COMPRESSION := ID [0x50; 0x34].
Definition COMPRESSIONALGORITHM := ID [0x42; 0x54].
Definition COMPRESSIONSETTINGS := ID [0x42; 0x55].
Definition ATTACHMENT_LIST := ID [0x19; 0x41; 0xA4; 0x69].
Definition ATTACHMENT := ID [0x61; 0xA7].
Definition ATTACHED_FILE_NAME := ID [0x46; 0x6E].
Definition ATTACHED_FILE_DATA := ID [0x46; 0x5C].
Definition RESAMPLE := ID [0x1F; 0x69; 0x75; 0x76].
Definition RESAMPLE_FILE := ID [0x6A; 0x75].
Definition RESAMPLE_TRACK := ID [0x6B; 0x75].

(** ** ebml.py:186-204 EbmlElement and BlockElement *)
(** track_number, frame_lengths, raw_block_header; the timecode is not used.  [b_over]: one byte more was read than is in
    raw_block_header (see read_block). *)
Record block := mkB { b_track : N; b_frames : list Z; b_header : bytes; b_over : bool }.
(** the id stands for element_type *)
Record elem := mkE { e_id : bytes; e_length : Z; e_header : bytes; e_start : N; e_block : option block }.
Definition is_block (e : elem) : bool := match e_block e with Some _ => true | None => false end.
(** where the contents are held to be, and where the reader stands after read() *)
Definition e_data (e : elem) : N := e_start e + lenN (e_header e) + match e_block e with Some b => lenN (b_header b) | None => 0 end.
Definition e_pos (e : elem) : N := match e_block e with Some b => if b_over b then e_data e + 1 else e_data e | None => e_data e end.
(** python's l[a:b] *)
Definition bound (n : N) (i : Z) : N := if (i <? 0)%Z then Z.to_N (i + Z.of_N n) else N.min (Z.to_N i) n.
Definition slice (a b : Z) (l : bytes) : bytes := sub (bound (lenN l) a) (bound (lenN l) b - bound (lenN l) a) l.
(** ebml.py:384-427: a block of [n] bytes at [pos], behind the header of the element *)
Definition read_block (f : bytes) (pos n : N) : result block :=
  do d <- byte_at f pos;
  let d := get_uint_length d in
  let head := sub pos (N.max 1 d) f in
  do trackno <- get_ebml_uint head 0 d;
  let head := head ++ sub (pos + lenN head) 3 f in
  (* struct.unpack_from with an offset of -2; one of -1 is right *)
  if lenN head <? 2 then Err StructError
  else
    do flags <- byte_at head (lenN head - 1);
    let lace := N.land flags LACE_EBML in
    do r <- block_frame_lengths lace (Z.of_N n - Z.of_N (lenN head)) f (pos + lenN head);
    (* a size that begins with the byte 0 is said to have 0 bytes, but that byte was read; the next bytes are then taken
       one byte later *)
    let over := (lace =? LACE_EBML) && match byte_at f (pos + lenN head + 1) with Ok 0 => true | _ => false end in
    Ok (mkB trackno (fst r) (head ++ sub (pos + lenN head + (if over then 1 else 0)) (snd r) f) over).
(** ebml.py:316-437 read, at [pos]; None: False.  [check]: the mode is Sample. *)
Definition ebml_next (check : bool) (f : bytes) (pos : N) : result (option elem) :=
  if lenN f <? pos + 2 then Ok None
  else
    do a <- byte_at f pos;
    let a := get_uint_length a in
    (* read(-1) reads all there is *)
    let id := sub pos 1 f ++ read_at f (pos + 1) (Z.of_N a - 1) in
    match sub (pos + lenN id) 1 f with
    | [] => Ok None
    | c =>
      let d := get_uint_length (unle c) in
      let header := id ++ c ++ read_at f (pos + lenN id + 1) (Z.of_N d - 1) in
      if negb (a + d =? lenN header) then Err AssertionError
      else
        let id := takeN a header in
        do n <- get_ebml_uint header a d;
        if check && negb (beqb id SEGMENT) && (lenN f <? pos + a + d + n) then Err ValueError
        else if beqb id BLOCK || beqb id SIMPLE_BLOCK then
          do b <- read_block f (pos + lenN header) n;
          Ok (Some (mkE id (Z.of_N n - Z.of_N (lenN (b_header b))) header pos (Some b)))
        else Ok (Some (mkE id (Z.of_N n) header pos None))
    end.
(** ebml.py:439-451 read_contents: the contents and where to read on.  [srs]: the mode is SRS, in which blocks have no
    contents. *)
Definition ebml_read (srs : bool) (f : bytes) (e : elem) : bytes * N :=
  if srs && is_block e then ([], e_pos e)
  else let buff := read_at f (e_pos e) (e_length e) in (buff, e_pos e + lenN buff).
(** ebml.py:453-458 skip_contents: where to read on; ebml.py:460-463 move_to_child: [e_data] (never for a block) *)
Definition ebml_skip (srs : bool) (e : elem) : N :=
  if srs && is_block e then e_pos e else Z.to_N (Z.of_N (e_pos e) + e_length e).
Section Loop.
Context {S : Type}.
(** [while er.read() and not done: ...] from [pos] on; [stop]: done.  An action gives where to read on, None: the loop
    ends. *)
Fixpoint ebml_loop (fuel : nat) (check : bool) (stop : S -> bool) (act : S -> elem -> result (S * option N)) (f : bytes) (pos : N) (s : S) : result S :=
  match fuel with
  | O => Err OutOfFuel
  | Datatypes.S fuel =>
    do e <- ebml_next check f pos;
    match e with
    | None => Ok s
    | Some e =>
      if stop s then Ok s
      else
        do r <- act s e;
        match snd r with
        | None => Ok (fst r)
        | Some pos => ebml_loop fuel check stop act f pos (fst r)
        end
    end
  end.
Definition ebml_run (check : bool) (stop : S -> bool) (act : S -> elem -> result (S * option N)) (f : bytes) (s : S) : result S :=
  ebml_loop (1 + length f) check stop act f 0 s.
End Loop.
Definition never {S : Type} (_ : S) : bool := false.
Definition id_is (id : bytes) (e : elem) : bool := beqb (e_id e) id.
Definition id_in (ids : list bytes) (e : elem) : bool := existsb (beqb (e_id e)) ids.

(** ** Tracks *)
(** main.py:370-419 TrackData: the stored fields, match_offset, match_length, check_bytes, the bytes written to
    track_file (None: there is no such file), compression_settings.  The codec and the algorithm are only shown. *)
Record mtrack := mkT { m_td : track_data; m_offset : N; m_match : Z; m_check : bytes; m_file : option bytes; m_strip : bytes }.
Definition mtracks := list (N * mtrack).
Section Dict.
Context {K A : Type} (eqb : K -> K -> bool).
Fixpoint put (k : K) (v : A) (d : list (K * A)) : list (K * A) :=
  match d with
  | [] => [(k, v)]
  | (q, w) :: d' => if eqb q k then (q, v) :: d' else (q, w) :: put k v d'
  end.
Fixpoint get (k : K) (d : list (K * A)) : result A :=
  match d with
  | [] => Err KeyError
  | (q, w) :: d' => if eqb q k then Ok w else get k d'
  end.
(** if k not in d: d[k] = v *)
Definition with_key (k : K) (v : A) (d : list (K * A)) : list (K * A) := match get k d with Ok _ => d | Err _ => put k v d end.
End Dict.
Definition new_mtrack (n : N) : mtrack := mkT {| td_flags := 0; td_number := n; td_length := 0; td_offset := 0; td_signature := [] |} 0 0 [] None [].
Definition isascii (b : bytes) : bool := forallb (fun x => b2n x <? 128) b.
(** main.py:550-556 enough_signature_data *)
Definition STREAM_VS_SUBTITLE : N := 1000000.
Definition enough (t : track_data) : bool :=
  if STREAM_VS_SUBTITLE <? td_length t then negb (isascii (slice (-64) (Z.of_N (lenN (td_signature t))) (td_signature t))) else true.

(** ** main.py:985-1199 mkv_profile_sample *)
(** 1082-1091 minimum_signature_size *)
Fixpoint sig_loops (content : bytes) (already : N) (togo : nat) (loop : N) : N :=
  match togo with
  | O => loop
  | S togo =>
    let offs := (256 * Z.of_N loop - Z.of_N already)%Z in
    if negb (isascii (slice (offs - 64) offs content)) then loop
    else match togo with O => loop | _ => sig_loops content already togo (loop + 1) end
  end.
Definition min_sig (content : bytes) (already : N) : Z :=
  let loop := sig_loops content already 40 1 in
  (Z.of_N (if (loop =? 40)%N then SIG_SIZE else SIG_SIZE * loop) - Z.of_N already)%Z.
(** 1073 and 1094-1099: the length and the signature *)
Definition add_block (t : mtrack) (n : N) (content : bytes) : mtrack :=
  let b := td_signature (m_td t) in
  let sig := if lenN b <? SIG_SIZE then b ++ slice 0 (min_sig content (lenN b)) content else b in
  mkT {| td_flags := td_flags (m_td t); td_number := td_number (m_td t); td_length := td_length (m_td t) + n;
         td_offset := td_offset (m_td t); td_signature := sig |} (m_offset t) (m_match t) (m_check t) (m_file t) (m_strip t).
(** the tracks, other_length, the CRC, current_track_nb, current_flag, the sizes of the attachments (the names they are
    listed with are all different) *)
Record pstate := mkP { p_tracks : mtracks; p_other : N; p_crc : N; p_cur : N; p_flag : bool; p_att : N }.
Definition set_strip (t : mtrack) (s : bytes) : mtrack := mkT (m_td t) (m_offset t) (m_match t) (m_check t) (m_file t) s.
Definition profile_step (f : bytes) (p : pstate) (e : elem) : result (pstate * option N) :=
  let p := mkP (p_tracks p) (p_other p + lenN (e_header e)) (zcrc32 (e_header e) (p_crc p)) (p_cur p) (p_flag p) (p_att p) in
  if id_in [SEGMENT; CLUSTER; BLOCK_GROUP; TRACKLIST; TRACK; CONTENTENCODINGLIST; CONTENTENCODING; ATTACHMENT_LIST; ATTACHMENT] e then Ok (p, Some (e_data e))
  else if id_is COMPRESSION e then do _ <- get N.eqb (p_cur p) (p_tracks p); Ok (p, Some (e_data e))
  else match e_block e with
  | Some b =>
    if (e_length e <? 0)%Z then Err NotModelled
    else
      let ts := with_key N.eqb (b_track b) (new_mtrack (b_track b)) (p_tracks p) in
      do t <- get N.eqb (b_track b) ts;
      let r := ebml_read false f e in
      Ok (mkP (put N.eqb (b_track b) (add_block t (Z.to_N (e_length e)) (fst r)) ts) (p_other p + lenN (b_header b))
              (zcrc32 (fst r) (zcrc32 (b_header b) (p_crc p))) (p_cur p) (p_flag p) (p_att p), Some (snd r))
  | None =>
    let r := ebml_read false f e in
    let content := fst r in
    let other n := mkP (p_tracks p) (p_other p + n) (zcrc32 content (p_crc p)) (p_cur p) (p_flag p) (p_att p) in
    do p <- (if id_is TRACKNUMBER e then
               do n <- get_ebml_uint content 0 (lenN content);
               let p := other (lenN content) in
               Ok (mkP (with_key N.eqb n (new_mtrack n) (p_tracks p)) (p_other p) (p_crc p) n (p_flag p) (p_att p))
             else if id_is TRACKCODEC e then do _ <- get N.eqb (p_cur p) (p_tracks p); Ok (other (lenN content))
             else if id_is COMPRESSIONALGORITHM e then
               do n <- get_ebml_uint content 0 (lenN content);
               do _ <- get N.eqb (p_cur p) (p_tracks p);
               let p := other (lenN content) in
               Ok (mkP (p_tracks p) (p_other p) (p_crc p) (p_cur p) (n =? 3) (p_att p))
             else if id_is COMPRESSIONSETTINGS e then
               let p := other (lenN content) in
               if p_flag p then
                 do t <- get N.eqb (p_cur p) (p_tracks p);
                 Ok (mkP (put N.eqb (p_cur p) (set_strip t content) (p_tracks p)) (p_other p) (p_crc p) (p_cur p) (p_flag p) (p_att p))
               else Ok p
             else if id_is ATTACHED_FILE_NAME e then do _ <- decode_utf8 content; Ok (other (lenN content))
             else if id_is ATTACHED_FILE_DATA e then
               let p := other 0 in
               Ok (mkP (p_tracks p) (p_other p) (p_crc p) (p_cur p) (p_flag p) (p_att p + lenN content))
             else Ok (other (Z.to_N (e_length e))));
    Ok (p, Some (snd r))
  end.
Definition sum_lengths (ts : mtracks) : N := fold_right (fun t n => td_length (m_td (snd t)) + n) 0 ts.
Definition mkv_profile (name : text) (f : bytes) : result (file_data * mtracks) :=
  do p <- ebml_run true never (profile_step f) f (mkP [] 0 0 0 false 0);
  if lenN f =? p_other p + p_att p + sum_lengths (p_tracks p) then
    Ok ({| fd_flags := NEW_FLAGS; fd_appname := []; fd_sample_name := name; fd_size := lenN f; fd_crc32 := p_crc p |}, p_tracks p)
  else Err ValueError.

(** ** main.py:1912-1962 mkv_create_srs *)
(** main.py:320-326 and 466-472 serialize_as_ebml *)
Definition ebml_element (id data : bytes) : result bytes := do n <- make_ebml_uint (lenN data); Ok (id ++ n ++ data).
(** 1920-1938 *)
Definition resample (app : text) (fd : file_data) (ts : list track_data) : result bytes :=
  do x <- (do d <- serialize_file app fd; ebml_element RESAMPLE_FILE d);
  do l <- mapR (fun t => do d <- serialize_track t; ebml_element RESAMPLE_TRACK d) ts;
  ebml_element RESAMPLE (x ++ concat l).
Definition create_step (app : text) (fd : file_data) (ts : list track_data) (f : bytes) (out : bytes) (e : elem) : result (bytes * option N) :=
  let out := out ++ e_header e in
  if id_is SEGMENT e then do x <- resample app fd ts; Ok (out ++ x, Some (e_data e))
  else if id_in [CLUSTER; BLOCK_GROUP; ATTACHMENT_LIST; ATTACHMENT] e then Ok (out, Some (e_data e))
  else if id_is ATTACHED_FILE_DATA e then Ok (out, Some (ebml_skip false e))
  else match e_block e with
       | Some b => Ok (out ++ b_header b, Some (ebml_skip false e))
       | None => let r := ebml_read false f e in Ok (out ++ fst r, Some (snd r))
       end.
(** srs.py:331-366: profile and create.  [offset]: what the option -c has found for each track. *)
Definition stored_track (big : bool) (offset : N -> N) (t : N * mtrack) : track_data := with_stored big (offset (fst t)) (m_td (snd t)).
Definition mkv_srs (app name : text) (big : bool) (offset : N -> N) (f : bytes) : result bytes :=
  do p <- mkv_profile name f;
  match snd p with
  | [] => Err ValueError                        (* srs.py:338 no A/V data *)
  | ts => ebml_run false never (create_step app (fst p) (map (stored_track big offset) ts) f) f []
  end.

(** ** main.py:744-803 mkv_load_srs *)
Definition mtrack_of (d : track_data) : mtrack := mkT d (td_offset d) 0 [] None [].
(** srs_data, the tracks, current_track_nb, header_stripping *)
Record lstate := mkL { l_data : option file_data; l_tracks : mtracks; l_cur : N; l_three : bool }.
Definition load_step (f : bytes) (s : lstate) (e : elem) : result (lstate * option N) :=
  if id_in [SEGMENT; TRACKLIST; TRACK; CONTENTENCODINGLIST; CONTENTENCODING; COMPRESSION; RESAMPLE] e then Ok (s, Some (e_data e))
  else if id_in [CLUSTER; ATTACHMENT_LIST] e then Ok (s, None)
  else
    let r := ebml_read true f e in
    let content := fst r in
    if id_is TRACKNUMBER e then do n <- get_ebml_uint content 0 (lenN content); Ok (mkL (l_data s) (l_tracks s) n (l_three s), Some (snd r))
    else if id_is TRACKCODEC e then Ok (s, Some (snd r))
    else if id_is COMPRESSIONALGORITHM e then do n <- get_ebml_uint content 0 (lenN content); Ok (mkL (l_data s) (l_tracks s) (l_cur s) (n =? 3), Some (snd r))
    else if id_is COMPRESSIONSETTINGS e then
      Ok (match get N.eqb (l_cur s) (l_tracks s) with
          | Ok t => if l_three s then mkL (l_data s) (put N.eqb (l_cur s) (set_strip t content) (l_tracks s)) (l_cur s) (l_three s) else s
          | Err _ => s
          end, Some (snd r))
    else if id_is RESAMPLE_FILE e then do d <- parse_file_data content; Ok (mkL (Some d) (l_tracks s) (l_cur s) (l_three s), Some (snd r))
    else if id_is RESAMPLE_TRACK e then do t <- parse_track content; Ok (mkL (l_data s) (put N.eqb (td_number t) (mtrack_of t) (l_tracks s)) (l_cur s) (l_three s), Some (snd r))
    else Ok (s, Some (ebml_skip true e)).
(** with cut_data: the tracks with too little signature *)
Definition mkv_load_srs (f : bytes) : result (option file_data * mtracks * list N) :=
  do s <- ebml_run false never (load_step f) f (mkL None [] 0 false);
  Ok (l_data s, l_tracks s, map (fun t => td_number (m_td (snd t))) (filter (fun t => negb (enough (m_td (snd t)))) (l_tracks s))).

(** ** The tracks of the main file, main.py:2269-2289 and 3121-3141 *)
(** tracks_main: the compression_settings; current_track_nb; header_stripping *)
Record mains := mkM { mm_strip : list (N * bytes); mm_cur : N; mm_three : bool }.
Definition in_tracks : list bytes := [TRACKNUMBER; COMPRESSIONALGORITHM; COMPRESSIONSETTINGS].
Definition main_track (m : mains) (id content : bytes) : result mains :=
  if beqb id TRACKNUMBER then do n <- get_ebml_uint content 0 (lenN content); Ok (mkM (with_key N.eqb n [] (mm_strip m)) n (mm_three m))
  else if beqb id COMPRESSIONALGORITHM then do n <- get_ebml_uint content 0 (lenN content); Ok (mkM (mm_strip m) (mm_cur m) (n =? 3))
  else if mm_three m then do _ <- get N.eqb (mm_cur m) (mm_strip m); Ok (mkM (put N.eqb (mm_cur m) content (mm_strip m)) (mm_cur m) (mm_three m))
  else Ok m.

(** ** main.py:2241-2393 mkv_find_sample_streams *)
Definition set_match (t : mtrack) (o : N) (n : Z) (check : bytes) : mtrack := mkT (m_td t) o n check (m_file t) (m_strip t).
Definition count_match (t : mtrack) (n : Z) : mtrack :=
  mkT (m_td t) (m_offset t) (m_match t + Z.min (Z.of_N (td_length (m_td t)) - m_match t) n) (m_check t) (m_file t) (m_strip t).
(** 2330-2370, a frame of [n] bytes at [o] of the contents *)
Definition find_frame (e : elem) (buff forsample formain : bytes) (t : mtrack) (o n : Z) : mtrack :=
  let sig := td_signature (m_td t) in
  let lsig := Z.of_N (lenN sig) in
  let from := (o + Z.of_N (lenN formain))%Z in
  let flength := (n + Z.of_N (lenN forsample) - Z.of_N (lenN formain))%Z in
  let t :=
    if (0 <? lenN (m_check t)) && (lenN (m_check t) <? lenN sig) then
      let have := Z.of_N (lenN (m_check t)) in
      let lcb := Z.min lsig (flength + have) in
      let check := m_check t ++ forsample ++ slice from (from + lcb - have - Z.of_N (lenN forsample)) buff in
      if starts_with Byte.eqb check sig then set_match t (m_offset t) (m_match t) check else set_match t 0 0 []
    else t in
  match m_check t with
  | [] =>
    let lcb := Z.min lsig flength in
    let check := forsample ++ slice from (from + lcb - Z.of_N (lenN forsample)) buff in
    if starts_with Byte.eqb check sig then
      set_match t (Z.to_N (Z.of_N (e_data e) + o)) (Z.min (Z.of_N (td_length (m_td t))) flength) check
    else t
  | _ => count_match t flength
  end.
Fixpoint find_frames (e : elem) (buff forsample formain : bytes) (l : list Z) (o : Z) (t : mtrack) : mtrack :=
  match l with
  | [] => t
  | n :: l => find_frames e buff forsample formain l (o + n) (find_frame e buff forsample formain t o n)
  end.
Definition searching (t : mtrack) : bool :=
  negb (lenN (td_signature (m_td t)) =? 0) && ((m_offset t =? 0) || (lenN (m_check t) <? lenN (td_signature (m_td t)))).
Definition counting (t : mtrack) : bool := negb (searching t) && (m_match t <? Z.of_N (td_length (m_td t)))%Z.
Definition all_found (ts : mtracks) : bool := forallb (fun t => negb (m_match (snd t) <? Z.of_N (td_length (m_td (snd t))))%Z) ts.
(** the tracks, the tracks of the main file, done *)
Record fstate := mkF { f_tracks : mtracks; f_main : mains; f_done : bool }.
(** 2298-2393 _mkv_block_find; 2395-2430: a track in cut_data is searched for once more, the places are kept in cut_data
    only *)
Definition find_block (cut : list N) (f : bytes) (s : fstate) (e : elem) (b : block) : result (fstate * option N) :=
  let k := b_track b in
  let ts := with_key N.eqb k (new_mtrack k) (f_tracks s) in
  let m := mkM (with_key N.eqb k [] (mm_strip (f_main s))) (mm_cur (f_main s)) (mm_three (f_main s)) in
  do t <- get N.eqb k ts;
  do strip <- get N.eqb k (mm_strip m);
  let same := beqb (m_strip t) strip in
  let forsample := if same then [] else strip in
  let formain := if same then [] else m_strip t in
  let cutbug := existsb (N.eqb (td_number (m_td t))) cut in
  if searching t then
    let r := ebml_read false f e in
    Ok (mkF (put N.eqb k (find_frames e (fst r) forsample formain (b_frames b) 0 t) ts) m (f_done s), Some (snd r))
  else
    let next := if cutbug then snd (ebml_read false f e) else ebml_skip false e in
    if counting t then
      let ts := put N.eqb k (count_match t (e_length e)) ts in
      Ok (mkF ts m (all_found ts), Some next)
    else Ok (mkF ts m (f_done s), Some next).
Definition find_step (cut : list N) (f : bytes) (s : fstate) (e : elem) : result (fstate * option N) :=
  if id_in [SEGMENT; BLOCK_GROUP; TRACKLIST; TRACK; CONTENTENCODINGLIST; CONTENTENCODING; COMPRESSION; CLUSTER] e then Ok (s, Some (e_data e))
  else match e_block e with
  | Some b => find_block cut f s e b
  | None =>
    if id_in in_tracks e then
      let r := ebml_read false f e in
      do m <- main_track (f_main s) (e_id e) (fst r);
      Ok (mkF (f_tracks s) m (if id_is TRACKNUMBER e then false else f_done s), Some (snd r))
    else if id_is TRACKCODEC e then do _ <- get N.eqb (mm_cur (f_main s)) (mm_strip (f_main s)); Ok (s, Some (snd (ebml_read false f e)))
    else Ok (s, Some (ebml_skip false e))
  end.
Definition no_mains : mains := mkM [] 0 false.
Definition mkv_find (cut : list N) (ts : mtracks) (main : bytes) : result mtracks :=
  do s <- ebml_run false f_done (find_step cut main) main (mkF ts no_mains false);
  Ok (f_tracks s).

(** ** main.py:3071-3231 mkv_extract_sample_streams *)
(** 3076-3079 *)
Definition start_offset (ts : mtracks) : N := fold_right (fun t n => if 0 <? m_offset (snd t) then N.min (m_offset (snd t)) n else n) (2 ^ 63) ts.
Definition with_mfile (t : mtrack) (d : bytes) : mtrack := mkT (m_td t) (m_offset t) (m_match t) (m_check t) (Some d) (m_strip t).
Definition complete (t : mtrack) : bool := match m_file t with None => false | Some d => td_length (m_td t) <=? lenN d end.
(** 3194-3218, what is written for a frame of [n] bytes at [o]; nothing if there are different settings of the same length *)
Definition frame_bytes (buff forsample formain : bytes) (o n : Z) : bytes :=
  if negb (lenN formain =? 0) && negb (lenN forsample =? 0) then
    if beqb forsample formain then slice o (o + n) buff
    else if lenN forsample <? lenN formain then slice (o + Z.of_N (lenN formain - lenN forsample)) (o + n) buff
    else if lenN formain <? lenN forsample then dropN (lenN formain) forsample ++ slice o (o + n) buff
    else []
  else forsample ++ slice (o + Z.of_N (lenN formain)) (o + n) buff.
Fixpoint extract_frames (e : elem) (buff forsample formain : bytes) (l : list Z) (o : Z) (t : mtrack) (d : bytes) : bytes :=
  match l with
  | [] => d
  | n :: l =>
    let d := if (Z.of_N (m_offset t) <=? Z.of_N (e_data e) + o)%Z && (lenN d <? td_length (m_td t)) then d ++ frame_bytes buff forsample formain o n else d in
    extract_frames e buff forsample formain l (o + n) t d
  end.
(** the tracks, the tracks of the main file, the attachments (None: no file yet), current_attachment, done *)
Record xstate := mkX { x_tracks : mtracks; x_main : mains; x_atts : list (bytes * option bytes); x_cur : option bytes; x_done : bool }.
(** 3165-3231 _mkv_block_extract *)
Definition extract_block (f : bytes) (s : xstate) (e : elem) (b : block) : result (xstate * option N) :=
  let k := b_track b in
  match get N.eqb k (x_tracks s) with
  | Err _ => Ok (s, Some (ebml_skip false e))
  | Ok t =>
    do strip <- get N.eqb k (mm_strip (x_main s));
    if (Z.of_N (m_offset t) <? Z.of_N (e_data e) + e_length e)%Z then
      let r := ebml_read false f e in
      let d := match m_file t with Some d => d | None => [] end in
      let d := extract_frames e (fst r) strip (m_strip t) (b_frames b) 0 t d in
      let ts := put N.eqb k (with_mfile t d) (x_tracks s) in
      Ok (mkX ts (x_main s) (x_atts s) (x_cur s) (forallb (fun t => complete (snd t)) ts), Some (snd r))
    else Ok (s, Some (ebml_skip false e))
  end.
Definition extract_step (start : N) (f : bytes) (s : xstate) (e : elem) : result (xstate * option N) :=
  if id_in [SEGMENT; BLOCK_GROUP; TRACKLIST; TRACK; CONTENTENCODINGLIST; CONTENTENCODING; COMPRESSION; ATTACHMENT_LIST; ATTACHMENT] e then Ok (s, Some (e_data e))
  else match e_block e with
  | Some b => extract_block f s e b
  | None =>
    if id_is CLUSTER e then
      Ok (s, Some (if (Z.of_N (e_data e) + e_length e <? Z.of_N start)%Z then ebml_skip false e else e_data e))
    else if id_in in_tracks e then
      let r := ebml_read false f e in
      do m <- main_track (x_main s) (e_id e) (fst r);
      Ok (mkX (x_tracks s) m (x_atts s) (x_cur s) (if id_is TRACKNUMBER e then false else x_done s), Some (snd r))
    else if id_is ATTACHED_FILE_NAME e then
      let r := ebml_read false f e in
      Ok (mkX (x_tracks s) (x_main s) (with_key beqb (fst r) None (x_atts s)) (Some (fst r)) (x_done s), Some (snd r))
    else if id_is ATTACHED_FILE_DATA e then
      match x_cur s with
      | None => Err KeyError
      | Some name =>
        do a <- get beqb name (x_atts s);
        match a with
        (* the contents are neither read nor skipped; that is not allowed when the next element is read *)
        | Some _ => Err AssertionError
        | None =>
          let r := ebml_read false f e in
          Ok (mkX (x_tracks s) (x_main s) (put beqb name (Some (fst r)) (x_atts s)) (x_cur s) (x_done s), Some (snd r))
        end
      end
    else Ok (s, Some (ebml_skip false e))
  end.
Definition mkv_extract (ts : mtracks) (main : bytes) : result (mtracks * list (bytes * option bytes)) :=
  do s <- ebml_run false x_done (extract_step (start_offset ts) main) main (mkX ts no_mains [] None false);
  Ok (x_tracks s, x_atts s).

(** ** main.py:3470-3538 mkv_rebuild_sample *)
Definition ATTACHMENTS_REMOVED : N := 2.
(** the sample, what is left in the files of the tracks and attachments, current_attachment *)
Record rstate := mkR { r_out : bytes; r_files : list (N * option bytes); r_atts : list (bytes * option bytes); r_cur : option bytes }.
Definition rebuild_step (flags : N) (srs : bytes) (s : rstate) (e : elem) : result (rstate * option N) :=
  if id_is RESAMPLE e then Ok (s, Some (ebml_skip true e))
  else
    let out := r_out s ++ e_header e in
    let s := mkR out (r_files s) (r_atts s) (r_cur s) in
    if id_in [SEGMENT; ATTACHMENT_LIST; ATTACHMENT; BLOCK_GROUP; CLUSTER] e then Ok (s, Some (e_data e))
    else match e_block e with
    | Some b =>
      do d <- get N.eqb (b_track b) (r_files s);
      match d with
      | None => Err AttributeError
      | Some d =>
        let x := read_at d 0 (e_length e) in
        Ok (mkR (out ++ b_header b ++ x) (put N.eqb (b_track b) (Some (dropN (lenN x) d)) (r_files s)) (r_atts s) (r_cur s), Some (e_pos e))
      end
    | None =>
      if id_is ATTACHED_FILE_DATA e then
        match r_cur s with
        | None => Err KeyError
        | Some name =>
          do a <- get beqb name (r_atts s);
          match a with
          | None => Err AttributeError
          | Some d => Ok (mkR (out ++ d) (r_files s) (put beqb name (Some []) (r_atts s)) (r_cur s),
                          Some (if has flags ATTACHMENTS_REMOVED then e_data e else ebml_skip true e))
          end
        end
      else
        let r := ebml_read true srs e in
        Ok (mkR (out ++ fst r) (r_files s) (r_atts s) (if id_is ATTACHED_FILE_NAME e then Some (fst r) else r_cur s), Some (snd r))
    end.
Definition mkv_rebuild (flags : N) (ts : mtracks) (atts : list (bytes * option bytes)) (srs : bytes) : result bytes :=
  do s <- ebml_run false never (rebuild_step flags srs) srs (mkR [] (map (fun t => (fst t, m_file (snd t))) ts) atts None);
  Ok (r_out s).

(** ** srs.py:438-516 and 586 *)
(** If the CRC is wrong and there are tracks in cut_data, other places are tried (518-577), which is not modelled. *)
Definition mkv_restore (no_stored : bool) (srs main : bytes) : result outcome :=
  do l <- mkv_load_srs srs;
  let '(fd, ts, cut) := l in
  let skip := forallb (fun t => negb (m_offset (snd t) =? 0)) ts in
  let search := negb skip || no_stored || negb (lenN cut =? 0) in
  do ts <- (if search then mkv_find cut ts main else Ok ts);
  if search && existsb (fun t => negb (lenN (td_signature (m_td (snd t))) =? 0) && (m_offset (snd t) =? 0)) ts then Ok (Abort 3)
  else
    do x <- mkv_extract ts main;
    let '(ts, atts) := x in
    if existsb (fun t => negb (lenN (td_signature (m_td (snd t))) =? 0) && negb (complete (snd t))) ts then Ok (Abort 4)
    else
      match fd with
      | None => Err AttributeError
      | Some fd =>
        do out <- mkv_rebuild (fd_flags fd) ts atts srs;
        if crc32 out =? fd_crc32 fd then Ok (Rebuilt out) else if lenN cut =? 0 then Ok (Mismatch out) else Err NotModelled
      end.
