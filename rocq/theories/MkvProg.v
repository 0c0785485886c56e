(** MkvProg: the same code as in Ebml.v, Mkv.v and MkvRetry.v, with each call on the main file (resample/ebml.py EbmlReader
    in mode MKV; resample/main.py). *)
From Verif Require Import Base Crc SrsRec Srs Ebml Mkv MkvRetry StreamSpec Prog.
From Verif Require Srr.

(** BE_BYTE.unpack(stream.read(1)) *)
Definition p_byte : prog N := ask b <- p_read 1; lift (byte_at b 0).
(** ebml.py:76-87 GetEbmlUIntStream *)
Fixpoint p_uint_loop (n : nat) (size : N) : prog N :=
  match n with
  | O => Ret size
  | S n => ask b <- p_byte; p_uint_loop n (N.shiftl size 8 + b)
  end.
Definition p_uint : prog (N * N) :=
  ask first_byte <- p_byte;
  let consumed := get_uint_length first_byte in
  ask size <- p_uint_loop (N.to_nat (consumed - 1)) (N.land first_byte (N.shiftr 0xFF consumed));
  Ret (size, consumed).
(** ebml.py:125-129: the size and how many bytes it has *)
Fixpoint p_xiph (fuel : nat) (size n : N) : prog (N * N) :=
  match fuel with
  | O => Raise OutOfFuel
  | S fuel =>
    ask b <- p_byte;
    if b =? 0xFF then p_xiph fuel (size + b) (n + 1) else Ret (size + b, n + 1)
  end.
(** ebml.py:118-153; [len]: the size of the file, which is the fuel only *)
Fixpoint p_lace (n : nat) (len lace count : N) (data_length : Z) (i : N) (sizes : list Z) (consumed : N) : prog (list Z * N) :=
  match n with
  | O => Ret (sizes, consumed)
  | S n =>
    let go size k := p_lace n len lace count data_length (i + 1) (sizes ++ [size]) (consumed + k) in
    let remaining := (data_length - Z.of_N consumed - sumZ sizes)%Z in
    if lace =? LACE_NONE then go data_length 0
    else if lace =? LACE_FIXED then go (data_length / Z.of_N count)%Z 0
    else if lace =? LACE_XIPH then
      if i + 1 <? count then
        ask r <- p_xiph (S (N.to_nat len)) 0 0;
        go (Z.of_N (fst r)) (snd r)
      else go remaining 0
    else
      if i =? 0 then
        ask r <- p_uint; go (Z.of_N (fst r)) (snd r)
      else if i + 1 <? count then
        ask r <- p_uint;
        let '(length, bc) := r in
        if bc =? 0 then Raise AssertionError else
        go (last sizes 0 + (Z.of_N length - (2 ^ (Z.of_N bc * 8 - (Z.of_N bc + 1)) - 1)))%Z bc
      else go remaining 0
  end.
(** ebml.py:105-155 GetBlockFrameLengths *)
Definition p_frame_lengths (len lace : N) (data_length : Z) : prog (list Z * N) :=
  if lace =? LACE_NONE then p_lace 1 len lace 1 data_length 0 [] 0
  else
    ask b <- p_byte;
    p_lace (N.to_nat (b + 1)) len lace (b + 1) data_length 0 [] 1.
(** ebml.py:384-427; it stands at [pos].  The last tell is not in the code: it gives [b_over]. *)
Definition p_read_block (len pos n : N) : prog block :=
  ask head <- p_read 1;
  ask d <- lift (byte_at head 0);
  let d := get_uint_length d in
  ask more <- (if 1 <? d then p_read (Z.of_N d - 1) else Ret []);
  let head := head ++ more in
  ask trackno <- lift (get_ebml_uint head 0 d);
  ask more <- p_read 3;
  let head := head ++ more in
  if lenN head <? 2 then Raise StructError
  else
    ask flags <- lift (byte_at head (lenN head - 1));
    ask r <- p_frame_lengths len (N.land flags LACE_EBML) (Z.of_N n - Z.of_N (lenN head));
    ask laces <- (if 0 <? snd r then ask _ <- p_seek (- Z.of_N (snd r)) FromHere; p_read (Z.of_N (snd r)) else Ret []);
    let head := head ++ laces in
    ask t <- p_tell;
    Ret (mkB trackno (fst r) head (pos + lenN head <? t)).
(** ebml.py:316-437 read *)
Definition p_next (len : N) : prog (option elem) :=
  ask pos <- p_tell;
  if len <? pos + 2 then Ret None
  else
    ask x <- p_read 1;
    match x with
    | [] => Ret None
    | _ =>
      ask a <- lift (byte_at x 0);
      let a := get_uint_length a in
      ask y <- p_read (Z.of_N a - 1);
      ask c <- p_read 1;
      match c with
      | [] => Ret None
      | _ =>
        ask d <- lift (byte_at c 0);
        let d := get_uint_length d in
        ask z <- p_read (Z.of_N d - 1);
        let header := (x ++ y) ++ c ++ z in
        if negb (a + d =? lenN header) then Raise AssertionError
        else
          let id := takeN a header in
          ask n <- lift (get_ebml_uint header a d);
          if beqb id BLOCK || beqb id SIMPLE_BLOCK then
            ask b <- p_read_block len (pos + lenN header) n;
            Ret (Some (mkE id (Z.of_N n - Z.of_N (lenN (b_header b))) header pos (Some b)))
          else Ret (Some (mkE id (Z.of_N n) header pos None))
      end
    end.
(** ebml.py:439-451 read_contents and 453-458 skip_contents; move_to_child does nothing here *)
Definition p_contents (e : elem) : prog bytes := p_read (e_length e).
Definition p_skip (e : elem) : prog unit := p_seek (e_length e) FromHere.
Section Loop.
Context {S : Type}.
(** [while er.read() and not done: ...] *)
Fixpoint p_loop (fuel : nat) (len : N) (stop : S -> bool) (act : S -> elem -> prog S) (s : S) : prog S :=
  match fuel with
  | O => Raise OutOfFuel
  | Datatypes.S fuel =>
    ask e <- p_next len;
    match e with
    | None => Ret s
    | Some e =>
      if stop s then Ret s
      else ask s <- act s e; p_loop fuel len stop act s
    end
  end.
(** ebml.py:302-313 the opening, and the loop *)
Definition p_run (stop : S -> bool) (act : S -> elem -> prog S) (s : S) : prog S :=
  ask len <- p_size;
  ask _ <- p_seek 0 FromStart;
  p_loop (1 + N.to_nat len) len stop act s.
End Loop.

(** main.py:2298-2393 _mkv_block_find and 2395-2430 _extra_offsets_x265_bug *)
Definition p_find_block (s : fstate * cuts) (e : elem) (b : block) : prog (fstate * cuts) :=
  let '(s, c) := s in
  let k := b_track b in
  let ts := with_key N.eqb k (new_mtrack k) (f_tracks s) in
  let m := mkM (with_key N.eqb k [] (mm_strip (f_main s))) (mm_cur (f_main s)) (mm_three (f_main s)) in
  ask t <- lift (get N.eqb k ts);
  ask strip <- lift (get N.eqb k (mm_strip m));
  let same := beqb (m_strip t) strip in
  let forsample := if same then [] else strip in
  let formain := if same then [] else m_strip t in
  if searching t then
    ask buff <- p_contents e;
    Ret (mkF (put N.eqb k (find_frames e buff forsample formain (b_frames b) 0 t) ts) m (f_done s), c)
  else
    let num := td_number (m_td t) in
    ask c <- (match get N.eqb num c with
              | Ok l => ask buff <- p_contents e; Ret (put N.eqb num (l ++ extra_frames e buff forsample formain (td_signature (m_td t)) (b_frames b) 0) c)
              | Err _ => ask _ <- p_skip e; Ret c
              end);
    if counting t then
      let ts := put N.eqb k (count_match t (e_length e)) ts in
      Ret (mkF ts m (all_found ts), c)
    else Ret (mkF ts m (f_done s), c).
(** 2241-2296 mkv_find_sample_streams *)
Definition p_find_step (s : fstate * cuts) (e : elem) : prog (fstate * cuts) :=
  if id_in [SEGMENT; BLOCK_GROUP; TRACKLIST; TRACK; CONTENTENCODINGLIST; CONTENTENCODING; COMPRESSION; CLUSTER] e then Ret s
  else match e_block e with
  | Some b => p_find_block s e b
  | None =>
    if id_in in_tracks e then
      ask d <- p_contents e;
      ask m <- lift (main_track (f_main (fst s)) (e_id e) d);
      Ret (mkF (f_tracks (fst s)) m (if id_is TRACKNUMBER e then false else f_done (fst s)), snd s)
    else if id_is TRACKCODEC e then
      ask _ <- p_contents e;
      ask _ <- lift (get N.eqb (mm_cur (f_main (fst s))) (mm_strip (f_main (fst s))));
      Ret s
    else ask _ <- p_skip e; Ret s
  end.
Definition p_mkv_find (c : cuts) (ts : mtracks) : prog (mtracks * cuts) :=
  ask s <- p_run (fun s => f_done (fst s)) p_find_step (mkF ts no_mains false, c);
  Ret (f_tracks (fst s), snd s).

(** main.py:3165-3231 _mkv_block_extract *)
Definition p_extract_block (s : xstate) (e : elem) (b : block) : prog xstate :=
  let k := b_track b in
  match get N.eqb k (x_tracks s) with
  | Err _ => ask _ <- p_skip e; Ret s
  | Ok t =>
    ask strip <- lift (get N.eqb k (mm_strip (x_main s)));
    if (Z.of_N (m_offset t) <? Z.of_N (e_data e) + e_length e)%Z then
      ask buff <- p_contents e;
      let d := match m_file t with Some d => d | None => [] end in
      let d := extract_frames e buff strip (m_strip t) (b_frames b) 0 t d in
      let ts := put N.eqb k (with_mfile t d) (x_tracks s) in
      Ret (mkX ts (x_main s) (x_atts s) (x_cur s) (forallb (fun t => complete (snd t)) ts))
    else ask _ <- p_skip e; Ret s
  end.
(** 3071-3163 mkv_extract_sample_streams *)
Definition p_extract_step (start : N) (s : xstate) (e : elem) : prog xstate :=
  if id_in [SEGMENT; BLOCK_GROUP; TRACKLIST; TRACK; CONTENTENCODINGLIST; CONTENTENCODING; COMPRESSION; ATTACHMENT_LIST; ATTACHMENT] e then Ret s
  else match e_block e with
  | Some b => p_extract_block s e b
  | None =>
    if id_is CLUSTER e then
      if (Z.of_N (e_data e) + e_length e <? Z.of_N start)%Z then ask _ <- p_skip e; Ret s else Ret s
    else if id_in in_tracks e then
      ask d <- p_contents e;
      ask m <- lift (main_track (x_main s) (e_id e) d);
      Ret (mkX (x_tracks s) m (x_atts s) (x_cur s) (if id_is TRACKNUMBER e then false else x_done s))
    else if id_is ATTACHED_FILE_NAME e then
      ask d <- p_contents e;
      Ret (mkX (x_tracks s) (x_main s) (with_key beqb d None (x_atts s)) (Some d) (x_done s))
    else if id_is ATTACHED_FILE_DATA e then
      match x_cur s with
      | None => Raise KeyError
      | Some name =>
        ask a <- lift (get beqb name (x_atts s));
        match a with
        (* the contents are neither read nor skipped; that is not allowed when the next element is read *)
        | Some _ => Raise AssertionError
        | None => ask d <- p_contents e; Ret (mkX (x_tracks s) (x_main s) (put beqb name (Some d) (x_atts s)) (x_cur s) (x_done s))
        end
      end
    else ask _ <- p_skip e; Ret s
  end.
Definition p_mkv_extract (ts : mtracks) : prog (mtracks * list (bytes * option bytes)) :=
  ask s <- p_run x_done (p_extract_step (start_offset ts)) (mkX ts no_mains [] None false);
  Ret (x_tracks s, x_atts s).

(** srs.py:526-533 and 550-558, and 438-577 and 586, as in MkvRetry.v, with a movie at [path] *)
Section At.
Variables (f : Srr.fs) (path archived : text).
Definition attempt_at (fd : file_data) (srs : bytes) (v : vstate) : result (bool * vstate) :=
  do x <- open_run f path archived (p_mkv_extract (v_tracks v));
  do r <- rebuild_files (fd_flags fd) (fst x) (over (fst x) v) (snd x) srs;
  Ok (crc32 (v_out r) =? fd_crc32 fd, r).
Definition mkv_restore_at (no_stored : bool) (srs : bytes) : result outcome :=
  do l <- mkv_load_srs srs;
  let '(fd, ts, cut) := l in
  let skip := forallb (fun t => negb (m_offset (snd t) =? 0)) ts in
  let search := negb skip || no_stored || negb (lenN cut =? 0) in
  let c := map (fun k => (k, [])) cut in
  do tc <- (if search then open_run f path archived (p_mkv_find c ts) else Ok (ts, c));
  let '(ts, c) := tc in
  if search && existsb (fun t => negb (lenN (td_signature (m_td (snd t))) =? 0) && (m_offset (snd t) =? 0)) ts then Ok (Abort 3)
  else
    do x <- open_run f path archived (p_mkv_extract ts);
    let '(ts, atts) := x in
    if existsb (fun t => negb (lenN (td_signature (m_td (snd t))) =? 0) && negb (complete (snd t))) ts then Ok (Abort 4)
    else
      match fd with
      | None => Err AttributeError
      | Some fd =>
        do v <- rebuild_files (fd_flags fd) ts (fun _ => []) atts srs;
        let same v := crc32 (v_out v) =? fd_crc32 fd in
        let result v := if same v then Ok (Rebuilt (v_out v)) else Ok (Mismatch (v_out v)) in
        if negb (same v) && existsb (fun kl => existsb (fun o => negb (o =? 0)) (snd kl)) c then
          do g <- guesses ts c;
          do r <- check_tracks vstate set_offset (attempt_at fd srs) g v;
          result (snd r)
        else result v
      end.
End At.
