(** Mp4: MP4 files and their SRS files (resample/mov.py MovReader; resample/main.py, the functions mp4_..., stsc,
    TrackStream, TrackChunk, order_chunks).  The files are given by their contents; a main file inside RAR volumes is in
    Mp4Prog.v.  Offsets of 2^63 and more, to which Python cannot seek, are not modelled. *)
From Verif Require Import Base Crc SrsRec Srs.

(** ** mov.py *)
(** mov.py:47-56 Atom *)
Record atom := mkAtom { a_type : bytes; a_size : N; a_header : bytes; a_start : N }.
(** mov.py:84-142 read, at [pos]; None: no room for a header.  [check]: the mode is Sample. *)
Definition mov_next (check : bool) (f : bytes) (pos : N) : result (option atom) :=
  if lenN f <? pos + 8 then Ok None
  else
    let header := sub pos 8 f in
    let ty := dropN 4 header in
    do n <- unpack_be 4 header 0;
    do r <- (if n =? 1 then
               let b := sub (pos + 8) 8 f in
               do n <- (if lenN b =? 8 then unpack_be 8 b 0 else Err StructError);
               Ok (n, header ++ b)
             else if n =? 0 then
               Ok (if beqb ty [x00; x00; x00; x00] then 8 else lenN f - pos, header)
             else Ok (n, header));
    if check && negb (beqb ty (bstr "mdat")) && (lenN f <? pos + fst r) then Err ValueError
    else Ok (Some (mkAtom ty (fst r) (snd r) pos)).
(** mov.py:144-165 read_contents, and 167-184 read_contents_chunks for the data of mdat: a negative amount is
    everything up to the end of the file *)
Definition a_data (a : atom) : N := a_start a + lenN (a_header a).
Definition a_contents (f : bytes) (a : atom) : bytes := read_at f (a_data a) (Z.of_N (a_size a) - Z.of_N (lenN (a_header a))).
(** where to read on: move_to_child, skip_contents (of an atom that is not mdat in an SRS), behind what has been read *)
Inductive move := Child | Skip | ReadOn.
Section Loop.
Context {S : Type}.
(** [while mr.read(): ...] *)
Fixpoint mov_loop (fuel : nat) (check : bool) (act : S -> atom -> result (S * move)) (f : bytes) (pos : N) (s : S) : result S :=
  match fuel with
  | O => Err OutOfFuel
  | Datatypes.S fuel =>
    do a <- mov_next check f pos;
    match a with
    | None => Ok s
    | Some a =>
      do r <- act s a;
      match snd r with
      | Child => mov_loop fuel check act f (a_data a) (fst r)
      | Skip => mov_loop fuel check act f (a_start a + a_size a) (fst r)
      | ReadOn => mov_loop fuel check act f (a_data a + lenN (a_contents f a)) (fst r)
      end
    end
  end.
Definition mov_read (check : bool) (act : S -> atom -> result (S * move)) (f : bytes) (s : S) : result S :=
  mov_loop (1 + length f) check act f 0 s.
End Loop.
Definition is_atom (ty : bytes) (a : atom) : bool := beqb (a_type a) ty.
(** main.py:1227 *)
Definition is_container (a : atom) : bool :=
  is_atom (bstr "moov") a || is_atom (bstr "trak") a || is_atom (bstr "mdia") a || is_atom (bstr "minf") a || is_atom (bstr "stbl") a.

(** ** Tables *)
(** main.py:1321-1340 stsc: the number of the chunk and the samples in it (None before the first entry).  The index
    of the description is not used and left out. *)
Fixpoint stsc_fill (n : nat) (index : N) (prev : option N) : list (N * option N) :=
  match n with O => [] | S n => (index, prev) :: stsc_fill n (index + 1) prev end.
Fixpoint stsc_loop (old : list (N * option N)) (index : N) (prev : option N) : list (N * option N) :=
  match old with
  | [] => []
  | (first, samples) :: old =>
    let filled := if index <? first then stsc_fill (N.to_nat (first - index)) index prev else [] in
    let index := if index <? first then first else index in
    filled ++ (first, samples) :: stsc_loop old (index + 1) samples
  end.
Definition stsc (old : list (N * option N)) : list (N * option N) := stsc_loop old 1 None.

(** What profile_mp4 knows of a track.  [m_lengths] and [m_sizes]: chunk_lengths and sample_lengths. *)
Record mtrack := mkM { m_offsets : list N; m_lengths : list (N * option N); m_sizes : list N; m_sig : bytes; m_length : N }.
(** the dictionary of the tracks, in order of insertion *)
Definition mtracks := list (N * mtrack).
Fixpoint set_m (k : N) (v : mtrack) (d : mtracks) : mtracks :=
  match d with
  | [] => [(k, v)]
  | (q, w) :: d' => if q =? k then (q, v) :: d' else (q, w) :: set_m k v d'
  end.
Fixpoint get_m (k : N) (d : mtracks) : option mtrack :=
  match d with
  | [] => None
  | (q, w) :: d' => if q =? k then Some w else get_m k d'
  end.
(** [n] entries of a table in [data] from [j] on, [k] bytes each [step] bytes.  A missing entry is a struct.error,
    whatever has been read before. *)
Fixpoint entries (n : nat) (k : nat) (data : bytes) (j step : N) : list N :=
  match n with O => [] | S n => unbe (sub j (N.of_nat k) data) :: entries n k data (j + step) step end.
Definition table (k : nat) (data : bytes) (count j step : N) : result (list N) :=
  if (count =? 0) || (j + (count - 1) * step + N.of_nat k <=? lenN data) then Ok (entries (N.to_nat count) k data j step) else Err StructError.
(** main.py:1260-1275, 1277-1289 and 1293-1304: what an atom with a table adds to the track; None: no such atom *)
Definition add_table (t : mtrack) (a : atom) (data : bytes) : option (result mtrack) :=
  if is_atom (bstr "stco") a then
    Some (do n <- unpack_be 4 data 4; do l <- table 4 data n 8 4;
          Ok (mkM (m_offsets t ++ l) (m_lengths t) (m_sizes t) (m_sig t) (m_length t)))
  else if is_atom (bstr "co64") a then
    Some (do n <- unpack_be 4 data 4; do l <- table 8 data n 8 8;
          Ok (mkM (m_offsets t ++ l) (m_lengths t) (m_sizes t) (m_sig t) (m_length t)))
  else if is_atom (bstr "stsc") a then
    (* the entries are added to those of an earlier atom stsc, which have been expanded *)
    Some (do n <- unpack_be 4 data 4;
          do _ <- table 12 data n 8 12;
          let l := combine (entries (N.to_nat n) 4 data 8 12) (entries (N.to_nat n) 4 data 12 12) in
          Ok (mkM (m_offsets t) (stsc (m_lengths t ++ map (fun x => (fst x, Some (snd x))) l)) (m_sizes t) (m_sig t) (m_length t)))
  else if is_atom (bstr "stsz") a || is_atom (bstr "stz2") a then
    Some (do size <- unpack_be 4 data 4;
          do n <- unpack_be 4 data 8;
          do l <- (if size =? 0 then table 4 data n 12 4 else Ok (repeat size (N.to_nat n)));
          Ok (mkM (m_offsets t) (m_lengths t) (m_sizes t ++ l) (m_sig t) (m_length t)))
  else None.

(** main.py:1404-1412 and 2466-2472: the samples in each chunk; the last entry of the table for the chunks
    behind its end *)
Definition last_length (l : list (N * option N)) : result (option N) :=
  match rev l with [] => Err IndexError | x :: _ => Ok (snd x) end.
Definition samples_in (l : list (N * option N)) (chnb : nat) : result N :=
  do n <- (match nth_error l chnb with Some x => Ok (snd x) | None => last_length l end);
  match n with None => Err TypeError | Some n => Ok n end.
Definition sumN (l : list N) : N := fold_right N.add 0 l.

(** main.py:1392-1423 mp4_signature_bytes *)
Fixpoint sig_loop (f : bytes) (t : mtrack) (offsets : list N) (chnb : nat) (prev : N) (sig : bytes) : result bytes :=
  match offsets with
  | [] => Ok sig
  | o :: offsets =>
    do n <- samples_in (m_lengths t) chnb;
    let size := sumN (takeN n (dropN prev (m_sizes t))) in
    let content := sub o size f in
    let lsig := N.min SIG_SIZE (lenN sig + size) in
    let sig := sig ++ takeN (lsig - lenN sig) content in
    if lenN sig =? SIG_SIZE then Ok sig else sig_loop f t offsets (S chnb) (prev + n) sig
  end.
Definition mp4_signature (f : bytes) (t : mtrack) : result bytes := sig_loop f t (m_offsets t) 0 0 [].

(** ** main.py:1201-1319 profile_mp4 *)
(** the tracks, the current track and if it has been processed, the length of the metadata, of mdat, the CRC *)
Record pstate := mkP { p_tracks : mtracks; p_cur : option N; p_done : bool; p_meta : N; p_mdat : N; p_crc : N }.
Definition nonempty {A} (l : list A) : bool := match l with [] => false | _ => true end.
(** 1306-1317 *)
Definition process (f : bytes) (p : pstate) : result pstate :=
  match p_cur p with
  | None => Ok p
  | Some k =>
    match get_m k (p_tracks p) with
    | None => Ok p
    | Some t =>
      if negb (p_done p) && nonempty (m_offsets t) && nonempty (m_lengths t) && nonempty (m_sizes t) then
        do sig <- mp4_signature f t;
        Ok (mkP (set_m k (mkM (m_offsets t) (m_lengths t) (m_sizes t) sig (sumN (m_sizes t))) (p_tracks p)) (Some k) true (p_meta p) (p_mdat p) (p_crc p))
      else Ok p
    end
  end.
(** 1239-1304: the atom of a track or a table, with its data.  A table without a track is an AttributeError, a table
    of offsets an AssertionError. *)
Definition track_atom (p : pstate) (a : atom) (data : bytes) : result pstate :=
  if is_atom (bstr "tkhd") a then
    do k <- unpack_be 4 data 12;
    match get_m k (p_tracks p) with
    | Some _ => Err AssertionError
    | None => Ok (mkP (set_m k (mkM [] [] [] [] 0) (p_tracks p)) (Some k) false (p_meta p) (p_mdat p) (p_crc p))
    end
  else
    match p_cur p with
    | None =>
      match add_table (mkM [] [] [] [] 0) a data with
      | None => Ok p
      | Some _ => Err (if is_atom (bstr "stco") a || is_atom (bstr "co64") a then AssertionError else AttributeError)
      end
    | Some k =>
      match get_m k (p_tracks p) with
      | None => Ok p
      | Some t =>
        match add_table t a data with
        | None => Ok p
        | Some r => do t <- r; Ok (mkP (set_m k t (p_tracks p)) (Some k) (p_done p) (p_meta p) (p_mdat p) (p_crc p))
        end
      end
    end.
(** [sums]: calculate_crc32 *)
Definition profile_step (sums : bool) (f : bytes) (p : pstate) (a : atom) : result (pstate * move) :=
  let p := mkP (p_tracks p) (p_cur p) (p_done p) (p_meta p + lenN (a_header a)) (p_mdat p) (zcrc32 (a_header a) (p_crc p)) in
  do r <- (if is_container a then Ok (p, Child)
           else if is_atom (bstr "mdat") a then
             let p := mkP (p_tracks p) (p_cur p) (p_done p) (p_meta p) (p_mdat p + a_size a) (p_crc p) in
             if sums then
               Ok (mkP (p_tracks p) (p_cur p) (p_done p) (p_meta p) (p_mdat p) (zcrc32 (a_contents f a) (p_crc p)), ReadOn)
             else Ok (p, Skip)
           else
             let data := a_contents f a in
             do p <- track_atom (mkP (p_tracks p) (p_cur p) (p_done p) (p_meta p + lenN data) (p_mdat p) (zcrc32 data (p_crc p))) a data;
             Ok (p, ReadOn));
  do p <- process f (fst r);
  Ok (p, snd r).
Definition mp4_profile (sums : bool) (f : bytes) : result pstate :=
  mov_read true (profile_step sums f) f (mkP [] None false 0 0 0).
(** main.py:1342-1390 mp4_profile_sample *)
Definition mp4_profile_sample (name : text) (f : bytes) : result (file_data * mtracks) :=
  do p <- mp4_profile true f;
  let total := p_meta p + sumN (map (fun t => m_length (snd t)) (p_tracks p)) in
  let total := if (total <? lenN f) && (total <? 100) then total + p_mdat p else total in
  if lenN f =? total then
    Ok ({| fd_flags := NEW_FLAGS; fd_appname := []; fd_sample_name := name; fd_size := lenN f; fd_crc32 := p_crc p |}, p_tracks p)
  else Err ValueError.

(** ** main.py:1964-1990 mp4_create_srs *)
(** main.py:335-340 and 482-487 *)
Definition mov_atom (ty data : bytes) : result bytes := do size <- pack_be 4 (lenN data + 8); Ok (size ++ ty ++ data).
Definition stored_track (big : bool) (offset : N -> N) (t : N * mtrack) : track_data :=
  with_stored big (offset (fst t)) {| td_flags := 0; td_number := fst t; td_length := m_length (snd t); td_offset := 0; td_signature := m_sig (snd t) |}.
Definition srs_atoms (app : text) (fd : file_data) (ts : list track_data) : result bytes :=
  do x <- (do d <- serialize_file app fd; mov_atom (bstr "SRSF") d);
  do l <- mapR (fun t => do d <- serialize_track t; mov_atom (bstr "SRST") d) ts;
  Ok (x ++ concat l).
Definition create_step (app : text) (fd : file_data) (ts : list track_data) (f : bytes) (out : bytes) (a : atom) : result (bytes * move) :=
  if is_atom (bstr "mdat") a then
    do x <- srs_atoms app fd ts; Ok (out ++ x ++ a_header a, Skip)
  else Ok (out ++ a_header a ++ a_contents f a, ReadOn).
(** srs.py:331-366: profile and create.  [offset]: what the option -c has found for each track. *)
Definition mp4_srs (app name : text) (big : bool) (offset : N -> N) (f : bytes) : result bytes :=
  do p <- mp4_profile_sample name f;
  match snd p with
  | [] => Err ValueError                        (* srs.py:341 no A/V data *)
  | ts => mov_read false (create_step app (fst p) (map (stored_track big offset) ts) f) f []
  end.

(** ** main.py:805-820 mp4_load_srs *)
Definition load_step (f : bytes) (s : option file_data * tracks) (a : atom) : result ((option file_data * tracks) * move) :=
  if is_atom (bstr "SRSF") a then do d <- parse_file_data (a_contents f a); Ok ((Some d, snd s), ReadOn)
  else if is_atom (bstr "SRST") a then
    do t <- parse_track (a_contents f a); Ok ((fst s, set_track (td_number t) (track_of t) (snd s)), ReadOn)
  else if is_atom (bstr "mdat") a then Ok (s, Child)
  else Ok (s, Skip).
Definition mp4_load_srs (f : bytes) : result (file_data * tracks) :=
  do s <- mov_read false (load_step f) f (None, []);
  match fst s with None => Err UnboundLocal | Some d => Ok (d, snd s) end.

(** ** The chunks of a track *)
(** main.py:2561-2574 TrackChunk: the offset and the sizes of the samples *)
Definition chunk := (N * list N)%type.
(** main.py:2459-2486 mp4_add_track_stream *)
Fixpoint chunks_loop (t : mtrack) (offsets : list N) (chnb : nat) (prev : N) : result (list chunk) :=
  match offsets with
  | [] => Ok []
  | o :: offsets =>
    do n <- samples_in (m_lengths t) chnb;
    do r <- chunks_loop t offsets (S chnb) (prev + n);
    Ok ((o, takeN n (dropN prev (m_sizes t))) :: r)
  end.
Definition mp4_chunks (t : mtrack) : result (list chunk) := chunks_loop t (m_offsets t) 0 0.
(** A TrackStream: the offset, the current sample, the current chunk and those behind it.  main.py:2516-2543 read *)
Fixpoint ts_more (f : bytes) (first : bytes) (amount : N) (rest : list chunk) : bytes :=
  if lenN first <? amount then
    match rest with
    | [] => first
    | (o, ss) :: rest => ts_more f (first ++ sub o (N.min (amount - lenN first) (sumN ss)) f) amount rest
    end
  else first.
Definition ts_read (f : bytes) (offset sample : N) (c : chunk) (rest : list chunk) (amount : N) : bytes :=
  let lb := sumN (dropN sample (snd c)) in
  if amount <? lb then sub offset amount f
  else ts_more f (sub offset lb f) amount rest.
(** main.py:2432-2457 mp4_find_sample_stream: the offset, if the signature is found.  [__next__]: main.py:2545-2558.  At
    the end the first chunk is compared again. *)
Fixpoint find_loop (fuel : nat) (f sig : bytes) (all : chunk) (more : list chunk) (offset sample : N) (c : chunk) (rest : list chunk) : result (option N) :=
  match fuel with
  | O => Err OutOfFuel
  | S fuel =>
    if beqb (ts_read f offset sample c rest (lenN sig)) sig then Ok (Some offset)
    else if sample + 1 <? lenN (snd c) then
      find_loop fuel f sig all more (fst c + sumN (takeN (sample + 1) (snd c))) (sample + 1) c rest
    else
      match rest with
      | c :: rest => find_loop fuel f sig all more (fst c) 0 c rest
      | [] => Ok (if beqb (ts_read f (fst all) 0 all more (lenN sig)) sig then Some (fst all) else None)
      end
  end.
Definition mp4_find_stream (f sig : bytes) (l : list chunk) : result (option N) :=
  match l with
  | [] => Err IndexError
  | c :: rest => find_loop (fold_right (fun c n => (1 + length (snd c) + n)%nat) 1%nat l) f sig c rest (fst c) 0 c rest
  end.
(** main.py:2595-2613 mp4_find_sample_streams *)
Definition find_step (main : bytes) (ts : tracks) (m : N * mtrack) : result tracks :=
  match get_track (fst m) ts with
  | Err _ => Ok ts
  | Ok t =>
    do l <- mp4_chunks (snd m);
    do o <- mp4_find_stream main (td_signature (t_td t)) l;
    Ok (match o with Some o => set_track (fst m) (located t (Z.of_N o) (t_match t)) ts | None => ts end)
  end.
Definition mp4_find (ts : tracks) (main : bytes) : result tracks :=
  do p <- mp4_profile false main;
  foldR (find_step main) (p_tracks p) ts.

(** main.py:2506-2514 seek: the last chunk that does not begin behind the offset *)
Fixpoint seek_chunk (offset : N) (l : list chunk) (found : option (chunk * list chunk)) : option (chunk * list chunk) :=
  match l with
  | [] => found
  | c :: l => seek_chunk offset l (if fst c <=? offset then Some (c, l) else found)
  end.
(** main.py:2582-2593 get_sample_nb *)
Fixpoint sample_nb (offset at_ count : N) (samples : list N) : result N :=
  match samples with
  | [] => Ok count
  | s :: samples =>
    if offset <=? at_ then if offset =? at_ then Ok count else Err ValueError
    else sample_nb offset (at_ + s) (count + 1) samples
  end.
(** main.py:3251-3260 mp4_extract_sample_stream *)
Definition mp4_extract_stream (main : bytes) (t : track) (m : mtrack) : result track :=
  do l <- mp4_chunks m;
  if (t_offset t <? 0)%Z then Err NotModelled
  else
    let offset := Z.to_N (t_offset t) in
    match seek_chunk offset l None with
    | None => Err AssertionError
    | Some (c, rest) =>
      do n <- sample_nb offset (fst c) 0 (snd c);
      Ok (mkTrack (t_td t) (t_offset t) (t_match t) (Some (ts_read main offset n c rest (td_length (t_td t)))) (t_print t))
    end.
(** main.py:3233-3243 mp4_extract_sample_streams *)
Definition mp4_extract (ts : tracks) (main : bytes) : result tracks :=
  do p <- mp4_profile false main;
  mapR (fun t => match get_m (fst t) (p_tracks p) with
                 | None => Err KeyError
                 | Some m => do x <- mp4_extract_stream main (snd t) m; Ok (fst t, x)
                 end) ts.

(** ** Rebuilding *)
(** main.py:3591-3653 profile_mp4_srs: the tables of the tracks [ids] *)
Definition psrs_step (ids : list N) (f : bytes) (s : mtracks * option N) (a : atom) : result ((mtracks * option N) * move) :=
  if is_container a || is_atom (bstr "mdat") a then Ok (s, Child)
  else
    let data := a_contents f a in
    do s <- (if is_atom (bstr "tkhd") a then
               do k <- unpack_be 4 data 12;
               if existsb (N.eqb k) ids then Ok (set_m k (mkM [] [] [] [] 0) (fst s), Some k) else Err KeyError
             else
               match snd s with
               | None =>
                 match add_table (mkM [] [] [] [] 0) a data with
                 | None => Ok s
                 | Some _ => Err (if is_atom (bstr "stco") a || is_atom (bstr "co64") a then AssertionError else AttributeError)
                 end
               | Some k =>
                 match get_m k (fst s) with
                 | None => Ok s
                 | Some t =>
                   match add_table t a data with
                   | None => Ok s
                   | Some r => do t <- r; Ok (set_m k t (fst s), Some k)
                   end
                 end
               end);
    Ok (s, ReadOn).
Definition mp4_profile_srs (ids : list N) (srs : bytes) : result mtracks :=
  do s <- mov_read false (psrs_step ids srs) srs ([], None); Ok (fst s).
(** main.py:3582-3589 order_chunks: sorted by offset; the sort is stable *)
Fixpoint insert_chunk (x : N * chunk) (l : list (N * chunk)) : list (N * chunk) :=
  match l with
  | [] => [x]
  | y :: l' => if fst (snd x) <=? fst (snd y) then x :: l else y :: insert_chunk x l'
  end.
Definition order_chunks (l : list (N * chunk)) : list (N * chunk) := fold_right insert_chunk [] l.
(** main.py:3559-3565: reading on in the files of the tracks; what is left in them *)
Fixpoint write_chunks (l : list (N * chunk)) (files : list (N * bytes)) : result (bytes * list (N * bytes)) :=
  match l with
  | [] => Ok ([], files)
  | (k, c) :: l =>
    match find (fun x => fst x =? k) files with
    | None => Err KeyError
    | Some (_, d) =>
      let n := sumN (snd c) in
      do r <- write_chunks l (map (fun x => if fst x =? k then (k, dropN n d) else x) files);
      Ok (takeN n d ++ fst r, snd r)
    end
  end.
(** 3551-3575: the sample and the files of the tracks *)
Definition rebuild_step (ordered : list (N * chunk)) (srs : bytes) (s : bytes * list (N * bytes)) (a : atom) : result ((bytes * list (N * bytes)) * move) :=
  if is_atom (bstr "SRSF") a || is_atom (bstr "SRST") a then Ok (s, Skip)
  else if is_atom (bstr "mdat") a then
    do r <- write_chunks ordered (snd s); Ok ((fst s ++ a_header a ++ fst r, snd r), Child)
  else Ok ((fst s ++ a_header a ++ a_contents srs a, snd s), ReadOn).
(** main.py:3540-3580 mp4_rebuild_sample.  A track without tables in the SRS has no chunk_offsets: AttributeError. *)
Definition track_chunks (ms : mtracks) (t : N * track) : result (list (N * chunk)) :=
  match t_file (snd t), get_m (fst t) ms with
  | Some _, Some m => do l <- mp4_chunks m; Ok (map (pair (fst t)) l)
  | _, _ => Err AttributeError
  end.
Definition mp4_rebuild (ts : tracks) (srs : bytes) : result (bytes * bytes) :=
  do ms <- mp4_profile_srs (map fst ts) srs;
  do l <- mapR (track_chunks ms) ts;
  do s <- mov_read false (rebuild_step (order_chunks (concat l)) srs) srs
            ([], map (fun t => (fst t, match t_file (snd t) with Some d => d | None => [] end)) ts);
  Ok (fst s, fst s).

Definition mp4_restore (no_stored : bool) (srs main : bytes) : result outcome :=
  srs_rebuild mp4_load_srs mp4_find mp4_extract mp4_rebuild false false no_stored srs main.
