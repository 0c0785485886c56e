(** MkvRetry: the whole of rebuilding an MKV sample, with the other places that are tried when the CRC is wrong
    (resample/srs.py:518-577; resample/main.py:2395-2430). *)
From Coq Require Import ZArith.
From Verif Require Import Base Crc SrsRec Srs Ebml Mkv.

(** ** main.py:2395-2430 _extra_offsets_x265_bug *)
(** [cut_data]: the tracks with too little signature, with the other offsets of their signature *)
Definition cuts := list (N * list N).
(** 2399-2430, a frame of [n] bytes at [o] of the contents.  track.check_bytes_bug is empty at the start (801) and after
    each match (2429), so that what is done if it is not empty (2402-2415) is never reached. *)
Definition extra_frame (e : elem) (buff forsample formain sig : bytes) (o n : Z) : list N :=
  let from := (o + Z.of_N (lenN formain))%Z in
  let flength := (n + Z.of_N (lenN forsample) - Z.of_N (lenN formain))%Z in
  let lcb := Z.min (Z.of_N (lenN sig)) flength in
  let check := forsample ++ slice from (from + lcb - Z.of_N (lenN forsample)) buff in
  if starts_with Byte.eqb check sig then [Z.to_N (Z.of_N (e_data e) + o)] else [].
Fixpoint extra_frames (e : elem) (buff forsample formain sig : bytes) (l : list Z) (o : Z) : list N :=
  match l with
  | [] => []
  | n :: l => extra_frame e buff forsample formain sig o n ++ extra_frames e buff forsample formain sig l (o + n)
  end.
(** cut_data after the block; when it is called see 2372-2391, in find_block of Mkv.v *)
Definition extra_block (f : bytes) (s : fstate) (c : cuts) (e : elem) (b : block) : cuts :=
  let k := b_track b in
  match get N.eqb k (with_key N.eqb k (new_mtrack k) (f_tracks s)), get N.eqb k (with_key N.eqb k [] (mm_strip (f_main s))) with
  | Ok t, Ok strip =>
    let same := beqb (m_strip t) strip in
    let forsample := if same then [] else strip in
    let formain := if same then [] else m_strip t in
    let num := td_number (m_td t) in
    if searching t then c
    else match get N.eqb num c with
         | Ok l => put N.eqb num (l ++ extra_frames e (fst (ebml_read false f e)) forsample formain (td_signature (m_td t)) (b_frames b) 0) c
         | Err _ => c
         end
  | _, _ => c
  end.
Definition extra_step (f : bytes) (s : fstate) (c : cuts) (e : elem) : cuts :=
  if id_in [SEGMENT; BLOCK_GROUP; TRACKLIST; TRACK; CONTENTENCODINGLIST; CONTENTENCODING; COMPRESSION; CLUSTER] e then c
  else match e_block e with
       | Some b => extra_block f s c e b
       | None => c
       end.
(** main.py:2241-2430 mkv_find_sample_streams with cut_data *)
Definition find_both (f : bytes) (s : fstate * cuts) (e : elem) : result ((fstate * cuts) * option N) :=
  do r <- find_step (map fst (snd s)) f (fst s) e;
  Ok ((fst r, extra_step f (fst s) (snd s) e), snd r).
Definition mkv_find_all (c : cuts) (ts : mtracks) (main : bytes) : result (mtracks * cuts) :=
  do s <- ebml_run false (fun s => f_done (fst s)) (find_both main) main (mkF ts no_mains false, c);
  Ok (f_tracks (fst s), snd s).

(** ** srs.py:157-193 find_best_educated_guesses *)
(** 163-165 *)
Definition good_offsets (ts : mtracks) (c : cuts) : list N :=
  map (fun t => m_offset (snd t))
    (filter (fun t => match get N.eqb (td_number (m_td (snd t))) c with Ok (_ :: _) => false | _ => true end) ts).
(** 166-167 min() and max() *)
Definition least (l : list N) : result N := match l with [] => Err ValueError | x :: l => Ok (fold_left N.min l x) end.
Definition greatest (l : list N) : result N := match l with [] => Err ValueError | x :: l => Ok (fold_left N.max l x) end.
(** 173-185: last_before, first_after (None for -1) and in_range *)
Definition guess (lo hi : N) (g : option N * option N * list N) (o : N) : option N * option N * list N :=
  let '(before, after, range) := g in
  if o <? lo then (match before with Some b => if b <? o then Some o else before | None => Some o end, after, range)
  else if hi <? o then (before, match after with Some a => if o <? a then Some o else after | None => Some o end, range)
  else if (lo <? o) && (o <? hi) then (before, after, range ++ [o])
  else g.
Definition one (o : option N) : list N := match o with Some o => [o] | None => [] end.
(** 187-193, a track with the other offsets [l] *)
Definition olist (lo hi : N) (l : list N) (now : N) : list N :=
  let '(before, after, range) := fold_left (guess lo hi) l (None, None, []) in
  match one before ++ one after ++ rev range with [] => [now] | l => l end.
Definition guesses (ts : mtracks) (c : cuts) : result (list (N * list N)) :=
  let good := good_offsets ts c in
  do lo <- least good;
  do hi <- greatest good;
  (fix all c := match c with
                | [] => Ok []
                | (k, l) :: c => do t <- get N.eqb k ts; do r <- all c; Ok ((k, olist lo hi l (m_offset t)) :: r)
                end) c.

(** ** srs.py:535-561 check_tracks *)
Section Tries.
Variables (V : Type) (set : N -> N -> V -> result V) (attempt : V -> result (bool * V)).
(** [l]: the tracks and their olist; [set]: 537-545; [attempt]: 550-558 *)
Fixpoint check_tracks (l : list (N * list N)) (v : V) : result (bool * V) :=
  match l with
  | [] => attempt v
  | (k, os) :: others =>
    (fix each os v := match os with
                      | [] => Ok (false, v)
                      | o :: os =>
                        do v <- set k o v;
                        do r <- check_tracks others v;
                        if fst r then Ok r else each os (snd r)
                      end) os v
  end.
End Tries.

(** ** The files of the tracks *)
(** The tracks; m_file holds what is before the position of the file, [v_rest] what is behind it.  [v_out]: the file
    that was rebuilt last. *)
Record vstate := mkV { v_tracks : mtracks; v_rest : N -> bytes; v_out : bytes }.
Definition file_len (o : option bytes) : N := match o with Some d => lenN d | None => 0 end.
Definition before_pos (ts : mtracks) (k : N) : N := match get N.eqb k ts with Ok t => file_len (m_file t) | Err _ => 0 end.
Definition set_file (o : option bytes) (t : mtrack) : mtrack := mkT (m_td t) (m_offset t) (m_match t) (m_check t) o (m_strip t).
(** 3071-3231 once more.  What is written goes over what is behind the position: mkv_extract only looks at the position
    and writes there, so that its files are what is before the new position. *)
Definition over (ts : mtracks) (v : vstate) (k : N) : bytes := dropN (before_pos ts k - before_pos (v_tracks v) k) (v_rest v k).
(** 3455-3462 reset_file_positions and 3470-3538 mkv_rebuild_sample: the sample, and the files, which are read up to some
    position *)
Definition rebuild_files (flags : N) (ts : mtracks) (rest : N -> bytes) (atts : list (bytes * option bytes)) (srs : bytes) : result vstate :=
  let whole k t := option_map (fun d => d ++ rest k) (m_file t) in
  let files := map (fun t => (fst t, whole (fst t) (snd t))) ts in
  do s <- ebml_run false never (rebuild_step flags srs) srs (mkR [] files atts None);
  let left k := match get N.eqb k (r_files s) with Ok (Some d) => d | _ => [] end in
  Ok (mkV (map (fun t => (fst t, set_file (option_map (fun d => takeN (lenN d - lenN (left (fst t))) d) (whole (fst t) (snd t))) (snd t))) ts)
       left (r_out s)).
(** srs.py:537-545 *)
Definition set_offset (k o : N) (v : vstate) : result vstate :=
  do t <- get N.eqb k (v_tracks v);
  if m_offset t =? o then Ok v
  else match m_file t with
       | None => Err AttributeError
       | Some _ => Ok (mkV (put N.eqb k (mkT (m_td t) o 0 [] None (m_strip t)) (v_tracks v)) (fun n => if n =? k then [] else v_rest v n) (v_out v))
       end.
(** srs.py:526-533 and 550-558 *)
Definition attempt (fd : file_data) (srs main : bytes) (v : vstate) : result (bool * vstate) :=
  do x <- mkv_extract (v_tracks v) main;
  do r <- rebuild_files (fd_flags fd) (fst x) (over (fst x) v) (snd x) srs;
  Ok (crc32 (v_out r) =? fd_crc32 fd, r).

(** ** srs.py:438-577 and 586 *)
(** from what was loaded; [cut]: the tracks with too little signature *)
Definition mkv_restore_from (no_stored : bool) (fd : option file_data) (ts : mtracks) (cut : list N) (srs main : bytes) : result outcome :=
  let skip := forallb (fun t => negb (m_offset (snd t) =? 0)) ts in
  let search := negb skip || no_stored || negb (lenN cut =? 0) in
  let c := map (fun k => (k, [])) cut in
  do tc <- (if search then mkv_find_all c ts main else Ok (ts, c));
  let '(ts, c) := tc in
  if search && existsb (fun t => negb (lenN (td_signature (m_td (snd t))) =? 0) && (m_offset (snd t) =? 0)) ts then Ok (Abort 3)
  else
    do x <- mkv_extract ts main;
    let '(ts, atts) := x in
    if existsb (fun t => negb (lenN (td_signature (m_td (snd t))) =? 0) && negb (complete (snd t))) ts then Ok (Abort 4)
    else
      match fd with
      | None => Err AttributeError
      | Some fd =>
        do v <- rebuild_files (fd_flags fd) ts (fun _ => []) atts srs;
        let same v := crc32 (v_out v) =? fd_crc32 fd in
        let result v := if same v then Ok (Rebuilt (v_out v)) else Ok (Mismatch (v_out v)) in
        if negb (same v) && existsb (fun kl => existsb (fun o => negb (o =? 0)) (snd kl)) c then
          do g <- guesses ts c;
          do r <- check_tracks vstate set_offset (attempt fd srs main) g v;
          result (snd r)
        else result v
      end.
Definition mkv_restore_all (no_stored : bool) (srs main : bytes) : result outcome :=
  do l <- mkv_load_srs srs;
  let '(fd, ts, cut) := l in mkv_restore_from no_stored fd ts cut srs main.
