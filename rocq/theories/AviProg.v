(** AviProg: the same code as in Avi.v, with each call on the main file (resample/riff.py RiffReader; resample/main.py). *)
From Verif Require Import Base SrsRec Srs Avi StreamSpec Prog.
From Verif Require Srr.

(** riff.py:196-250 read; [len]: _file_length *)
Definition p_next (check : bool) (len : N) : prog (option chunk) :=
  ask pos <- p_tell;
  if len <? pos + 8 then Ret None
  else
    ask header <- p_read 8;
    let cc := takeN 4 header in
    ask n <- lift (unpack 4 header 4);
    if negb (valid_fourcc cc) then Raise ValueError
    else if check && negb (beqb cc (bstr "RIFF")) && (len <? pos + 8 + n) then Raise ValueError
    else if beqb cc (bstr "RIFF") || beqb cc (bstr "LIST") then
      ask more <- p_read 4;
      let header := header ++ more in
      Ret (Some (mkC (List_of cc) (sub 8 4 header) (Z.of_N n - 4) header pos))
    else
      let kind := match cc with
                  | a :: b :: _ => if digit a && digit b then Movi (10 * (b2n a - 48) + (b2n b - 48))
                                   else if beqb cc (bstr "idx1") then Index else Other
                  | _ => Other
                  end in
      Ret (Some (mkC kind cc (Z.of_N n) header pos)).
(** 266-267 and 279-280 *)
Definition p_pad (c : chunk) : prog bytes :=
  if has_padding c then ask p <- p_read 1; match p with [] => Raise StructError | _ => Ret p end else Ret [].
(** 252-270 read_contents; [again]: read_done is set.  The mode is AVI, as for all main files. *)
Definition p_contents (again : bool) (c : chunk) : prog bytes :=
  ask _ <- (if again then p_seek (- c_length c - (if has_padding c then 1 else 0)) FromHere else Ret tt);
  ask buff <- p_read (c_length c);
  ask _ <- p_pad c;
  Ret buff.
(** 272-281 skip_contents, when read_done is not set *)
Definition p_skip (c : chunk) : prog unit :=
  ask _ <- p_seek (c_length c) FromHere;
  ask _ <- p_pad c;
  Ret tt.
Section Loop.
Context {S : Type}.
(** [while rr.read() and not done: ...]; an action ends with read_done set, false: break *)
Fixpoint p_loop (fuel : nat) (check : bool) (len : N) (stop : S -> bool) (act : S -> chunk -> prog (S * bool)) (s : S) : prog S :=
  match fuel with
  | O => Raise OutOfFuel
  | Datatypes.S fuel =>
    ask c <- p_next check len;
    match c with
    | None => Ret s
    | Some c =>
      if stop s then Ret s
      else
        ask r <- act s c;
        if snd r then p_loop fuel check len stop act (fst r) else Ret (fst r)
    end
  end.
End Loop.

(** riff.py:127-132 _is_valid_chunk_location *)
Definition p_valid (offset : N) : prog bool :=
  ask _ <- p_seek (Z.of_N offset) FromStart;
  ask d <- p_read 4;
  Ret (valid_fourcc d).
(** riff.py:134-187 _find_chunk_offset *)
Definition p_index_step (s : bytes * N) (c : chunk) : prog ((bytes * N) * bool) :=
  if cc_is (bstr "AVI ") c then
    match c_kind c with List_of _ => Ret (s, true) | _ => Raise AssertionError end
  else if cc_is (bstr "movi") c then ask _ <- p_skip c; Ret ((fst s, c_start c), true)
  else match c_kind c with
       | Index => ask d <- p_contents false c; Ret ((d, snd s), false)
       | _ => ask _ <- p_skip c; Ret (s, true)
       end.
Definition p_find_chunk_offset (len match_offset : N) : prog N :=
  ask _ <- p_seek 0 FromStart;
  ask s <- p_loop (1 + N.to_nat len) false len never p_index_step ([], 0);
  if (snd s =? 0) || (lenN (fst s) =? 0) then Ret 0
  else
    ask offsets <- lift (index_offsets (1 + length (fst s)) (fst s) match_offset 0 0 []);
    let base := snd s + 8 in
    let second := match find (fun o => o <? match_offset) offsets with
                  | Some o => ask v <- p_valid o; Ret (if v then o else 0)
                  | None => Ret 0
                  end in
    match find (fun o => base + o <? match_offset) offsets with
    | Some o => ask v <- p_valid (base + o); if v then Ret (base + o) else second
    | None => second
    end.
(** riff.py:78-124 __init__, behind the opening: the size *)
Definition p_open (match_offset : N) : prog N :=
  ask len <- p_size;
  ask _ <- (if (8 <=? match_offset) && (match_offset <? len) then
              ask v <- p_valid (match_offset - 8);
              if v then p_seek (Z.of_N match_offset - 8) FromStart
              else
                ask o <- p_find_chunk_offset len match_offset;
                if o <? match_offset then p_seek (Z.of_N o) FromStart else Raise AssertionError
            else if len <=? match_offset then Raise ValueError
            else p_seek 0 FromStart);
  Ret len.

(** main.py:2155-2239 _avi_normal_chunk_find: 2169-2219 *)
Definition p_find_chunk (c : chunk) (t : track) (check : bytes) : prog (track * bytes) :=
  let sig := td_signature (t_td t) in
  let len := td_length (t_td t) in
  if (t_offset t =? 0)%Z || (lenN check <? lenN sig) then
    if negb (lenN sig =? 0) then
      let partial := (0 <? lenN check) && (lenN check <? lenN sig) in
      ask r <- (if partial then
                  ask buff <- p_contents false c;
                  let more := check ++ takeN (N.min (lenN sig) (Z.to_N (c_length c) + lenN check) - lenN check) buff in
                  if starts_with Byte.eqb more sig then Ret (t, more) else Ret (located t 0 0, [])
                else Ret (t, check));
      let '(t, check) := r in
      match check with
      | [] =>
        ask data <- p_contents partial c;
        match find_start sig data 0 with
        | Some (pos, check) => Ret (located t (Z.of_N (c_data c + pos)) (N.min len (lenN data - pos)), check)
        | None => Ret (t, check)
        end
      | _ => ask _ <- (if partial then Ret tt else p_skip c); Ret (t, check)
      end
    else ask _ <- p_skip c; Ret (located t (t_offset t) (N.min (len - t_match t) (Z.to_N (c_length c))), check)
  else
    ask _ <- p_skip c;
    if t_match t <? len then
      Ret (located t (t_offset t) (t_match t + N.min (len - t_match t) (Z.to_N (c_length c))), check)
    else Ret (t, check).
Definition p_find_step (s : fstate) (c : chunk) : prog (fstate * bool) :=
  let '(ts, checks, done) := s in
  match c_kind c with
  | List_of _ => Ret (s, true)
  | Movi n =>
    let ts := with_new n ts in
    ask t <- lift (get_track n ts);
    ask r <- p_find_chunk c t (checks n);
    let ts := set_track n (fst r) ts in
    Ret ((ts, upd checks n (snd r), if counting t (checks n) then all_found ts else done), true)
  | _ => ask _ <- p_skip c; Ret (s, true)
  end.
(** main.py:2138-2153 avi_find_sample_streams *)
Definition p_avi_find (ts : tracks) : prog tracks :=
  ask len <- p_open 0;
  ask s <- p_loop (1 + N.to_nat len) false len fs_done p_find_step (ts, fun _ => [], false);
  Ret (fst (fst s)).

(** main.py:3023-3069 _avi_normal_chunk_extract *)
Definition p_extract_step (s : tracks * bool) (c : chunk) : prog ((tracks * bool) * bool) :=
  let '(ts, done) := s in
  match c_kind c with
  | List_of _ => Ret (s, true)
  | Movi n =>
    let ts := with_new n ts in
    ask t <- lift (get_track n ts);
    if (t_offset t <? Z.of_N (c_data c) + c_length c)%Z then
      let d := match t_file t with Some d => d | None => [] end in
      ask d <- (if lenN d <? td_length (t_td t) then
                  ask data <- p_contents false c;
                  Ret (d ++ (if (t_offset t <=? Z.of_N (c_data c))%Z then data
                             else dropN (Z.to_N (t_offset t) - c_data c) data))
                else ask _ <- p_skip c; Ret d);
      let ts := set_track n (with_file t d) ts in
      Ret ((ts, forallb (fun t => complete (snd t)) ts), true)
    else ask _ <- p_skip c; Ret ((ts, done), true)
  | _ => ask _ <- p_skip c; Ret (s, true)
  end.
(** main.py:2995-3021 avi_extract_sample_streams *)
Definition p_avi_extract (ts : tracks) : prog tracks :=
  ask len <- p_open (min_offset ts);
  ask s <- p_loop (1 + N.to_nat len) false len snd p_extract_step (ts, false);
  Ret (fst s).

(** srs.py:427-600 with a movie at [path]; [archived]: the file found by file_type_info *)
Definition avi_restore_at (f : Srr.fs) (no_stored : bool) (srs : bytes) (path archived : text) : result outcome :=
  srs_rebuild avi_load_srs (fun ts _ => open_run f path archived (p_avi_find ts)) (fun ts _ => open_run f path archived (p_avi_extract ts))
    avi_rebuild false false no_stored srs [].
