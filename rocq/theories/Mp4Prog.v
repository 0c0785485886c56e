(** Mp4Prog: MP4 samples with a movie that is only used by seek, tell and read (Prog.v).  The same functions as in Mp4.v,
    which are over the contents of the movie.  The movie is opened in three ways: MovReader gets the file inside the RAR
    volumes that has been found, open_main and FileData take the first one, and mp4_signature_bytes opens the volume
    itself. *)
From Verif Require Import Base Crc SrsRec Srs Mp4 StreamSpec Prog.
From Verif Require Srr.

(** mov.py:84-142 read; [len]: the size of the file *)
Definition p_next (check : bool) (len : N) : prog (option atom) :=
  ask pos <- p_tell;
  if len <? pos + 8 then Ret None
  else
    ask header <- p_read 8;
    let ty := dropN 4 header in
    ask n <- lift (unpack_be 4 header 0);
    ask r <- (if n =? 1 then
                ask b <- p_read 8;
                ask n <- lift (if lenN b =? 8 then unpack_be 8 b 0 else Err StructError);
                Ret (n, header ++ b)
              else if n =? 0 then
                Ret (if beqb ty [x00; x00; x00; x00] then 8 else len - pos, header)
              else Ret (n, header));
    if check && negb (beqb ty (bstr "mdat")) && (len <? pos + fst r) then Raise ValueError
    else ask _ <- p_seek (Z.of_N pos) FromStart; Ret (Some (mkAtom ty (fst r) (snd r) pos)).
(** mov.py:144-165 read_contents *)
Definition p_contents (a : atom) : prog bytes :=
  ask _ <- p_seek (Z.of_N (lenN (a_header a))) FromHere;
  p_read (Z.of_N (a_size a) - Z.of_N (lenN (a_header a))).
(** mov.py:186-195 skip_contents *)
Definition p_skip (a : atom) : prog unit := p_seek (Z.of_N (a_start a + a_size a)) FromStart.
(** mov.py:197-201 move_to_child *)
Definition p_child (a : atom) : prog unit := p_seek (Z.of_N (lenN (a_header a))) FromHere.
Section Loop.
Context {S : Type}.
(** [while mr.read(): ...] *)
Fixpoint p_loop (fuel : nat) (check : bool) (len : N) (act : S -> atom -> prog S) (s : S) : prog S :=
  match fuel with
  | O => Raise OutOfFuel
  | Datatypes.S fuel =>
    ask a <- p_next check len;
    match a with
    | None => Ret s
    | Some a => ask s <- act s a; p_loop fuel check len act s
    end
  end.
End Loop.
(** main.py:1201-1319 profile_mp4 without calculate_crc32.  [raw]: what is in the file itself, for
    mp4_signature_bytes. *)
Definition p_profile_step (raw : bytes) (p : pstate) (a : atom) : prog pstate :=
  let p := mkP (p_tracks p) (p_cur p) (p_done p) (p_meta p + lenN (a_header a)) (p_mdat p) (zcrc32 (a_header a) (p_crc p)) in
  ask p <- (if is_container a then ask _ <- p_child a; Ret p
            else if is_atom (bstr "mdat") a then
              ask _ <- p_skip a;
              Ret (mkP (p_tracks p) (p_cur p) (p_done p) (p_meta p) (p_mdat p + a_size a) (p_crc p))
            else
              ask data <- p_contents a;
              lift (track_atom (mkP (p_tracks p) (p_cur p) (p_done p) (p_meta p + lenN data) (p_mdat p) (zcrc32 data (p_crc p))) a data));
  lift (process raw p).
Definition p_profile (raw : bytes) : prog pstate :=
  ask len <- p_size;
  ask _ <- p_seek 0 FromStart;
  p_loop (1 + N.to_nat len) true len (p_profile_step raw) (mkP [] None false 0 0 0).

(** main.py:2516-2543 TrackStream.read *)
Fixpoint p_ts_more (first : bytes) (amount : N) (rest : list chunk) : prog bytes :=
  if lenN first <? amount then
    match rest with
    | [] => Ret first
    | (o, ss) :: rest =>
      ask _ <- p_seek (Z.of_N o) FromStart;
      ask d <- p_read (Z.of_N (N.min (amount - lenN first) (sumN ss)));
      p_ts_more (first ++ d) amount rest
    end
  else Ret first.
Definition p_ts_read (offset sample : N) (c : chunk) (rest : list chunk) (amount : N) : prog bytes :=
  let lb := sumN (dropN sample (snd c)) in
  ask _ <- p_seek (Z.of_N offset) FromStart;
  if amount <? lb then p_read (Z.of_N amount)
  else ask d <- p_read (Z.of_N lb); p_ts_more d amount rest.
(** main.py:2432-2457 mp4_find_sample_stream *)
Fixpoint p_find_loop (fuel : nat) (sig : bytes) (all : chunk) (more : list chunk) (offset sample : N) (c : chunk) (rest : list chunk) : prog (option N) :=
  match fuel with
  | O => Raise OutOfFuel
  | S fuel =>
    ask d <- p_ts_read offset sample c rest (lenN sig);
    if beqb d sig then Ret (Some offset)
    else if sample + 1 <? lenN (snd c) then
      p_find_loop fuel sig all more (fst c + sumN (takeN (sample + 1) (snd c))) (sample + 1) c rest
    else
      match rest with
      | c :: rest => p_find_loop fuel sig all more (fst c) 0 c rest
      | [] => ask d <- p_ts_read (fst all) 0 all more (lenN sig); Ret (if beqb d sig then Some (fst all) else None)
      end
  end.
Definition p_find_stream (sig : bytes) (l : list chunk) : prog (option N) :=
  match l with
  | [] => Raise IndexError
  | c :: rest => p_find_loop (fold_right (fun c n => (1 + length (snd c) + n)%nat) 1%nat l) sig c rest (fst c) 0 c rest
  end.
(** main.py:3251-3260 mp4_extract_sample_stream; the place in the track is found before anything is read *)
Definition p_extract_stream (t : track) (l : list chunk) : prog track :=
  if (t_offset t <? 0)%Z then Raise NotModelled
  else
    let offset := Z.to_N (t_offset t) in
    match seek_chunk offset l None with
    | None => Raise AssertionError
    | Some (c, rest) =>
      ask n <- lift (sample_nb offset (fst c) 0 (snd c));
      ask d <- p_ts_read offset n c rest (td_length (t_td t));
      Ret (mkTrack (t_td t) (t_offset t) (t_match t) (Some d) (t_print t))
    end.

Section At.
Variable f : Srr.fs.
Variable path archived : text.
(** main.py:275-283 FileData of a main file, and profile_mp4; no file: getsize fails *)
Definition profile_at : result mtracks :=
  match Srr.fs_get f path with
  | None => Err FileNotFound
  | Some raw =>
    do _ <- open_run f path [] p_size;
    do p <- open_run f path archived (p_profile raw);
    Ok (p_tracks p)
  end.
(** main.py:2595-2613 mp4_find_sample_streams; 3245-3249 open_main: the first file in the volumes *)
Definition find_step_at (ts : tracks) (m : N * mtrack) : result tracks :=
  match get_track (fst m) ts with
  | Err _ => Ok ts
  | Ok t =>
    do l <- mp4_chunks (snd m);
    do o <- open_run f path [] (p_find_stream (td_signature (t_td t)) l);
    Ok (match o with Some o => set_track (fst m) (located t (Z.of_N o) (t_match t)) ts | None => ts end)
  end.
Definition mp4_find_at (ts : tracks) : result tracks :=
  do ms <- profile_at;
  foldR find_step_at ms ts.
(** main.py:3233-3243 mp4_extract_sample_streams *)
Definition mp4_extract_at (ts : tracks) : result tracks :=
  do ms <- profile_at;
  mapR (fun t => match get_m (fst t) ms with
                 | None => Err KeyError
                 | Some m =>
                   do l <- mp4_chunks m;
                   do x <- open_run f path [] (p_extract_stream (snd t) l); Ok (fst t, x)
                 end) ts.
(** srs.py:427-600 with a movie at [path]; [archived]: the file found by file_type_info *)
Definition mp4_restore_at (no_stored : bool) (srs : bytes) : result outcome :=
  srs_rebuild mp4_load_srs (fun ts _ => mp4_find_at ts) (fun ts _ => mp4_extract_at ts) mp4_rebuild false false no_stored srs [].
End At.
