(** FlacProg: FLAC files with a main file that is only used by seek, tell and read (Prog.v).  The same functions as in
    Flac.v, which are over the contents of the main file. *)
From Verif Require Import Base SrsRec Srs Flac StreamSpec Prog.
From Verif Require Srr.

(** flac.py:88-161 read; [len]: the size of the file *)
Definition p_next (len : N) : prog (option fblock) :=
  ask pos <- p_tell;
  if pos =? len then Ret None
  else
    ask header <- p_read 4;
    if beqb header (bstr "fLaC") then ask _ <- p_seek (Z.of_N pos) FromStart; Ret (Some (mkF (Named (str "fLaC")) 0 header pos))
    else if beqb (takeN 3 header) (bstr "ID3") then
      ask _ <- p_seek (Z.of_N pos) FromStart;
      ask raw <- p_read 10;
      ask size <- lift (decode_id3_size (sub 6 4 raw));
      ask _ <- p_seek (Z.of_N pos) FromStart;
      Ret (Some (mkF (Named (str "ID3")) (Z.of_N size) raw pos))
    else if beqb (takeN 3 header) (bstr "TAG") then ask _ <- p_seek (Z.of_N pos) FromStart; Ret (Some (mkF (Named (str "TAG")) 128 [] pos))
    else
      match header with
      | [] => Raise StructError
      | t :: r =>
        ask b <- (if b2n t =? 0xFF then
                    ask _ <- p_seek (Z.of_N len - 128) FromStart;
                    ask tag <- p_read 3;
                    let n := (Z.of_N len - Z.of_N pos)%Z in
                    Ret (mkF (Num (b2n t)) (if beqb tag (bstr "TAG") then (n - 128)%Z else n) [] pos)
                  else
                    ask n <- lift (unpack_be 4 (x00 :: r) 0);
                    Ret (mkF (Num (b2n t)) (Z.of_N n) header pos));
        if (Z.of_N len <? Z.of_N pos + f_size b)%Z then Raise ValueError
        else ask _ <- p_seek (Z.of_N pos) FromStart; Ret (Some b)
      end.
(** flac.py:163-175 read_contents *)
Definition p_contents (b : fblock) : prog bytes :=
  ask _ <- p_seek (Z.of_N (lenN (f_header b))) FromHere;
  p_read (f_size b).
(** flac.py:177-182 skip_contents, when the block has not been read *)
Definition p_skip (b : fblock) : prog unit := p_seek (Z.of_N (f_data b) + f_size b) FromStart.
(** flac.py:184-193 read_part from the start of the data *)
Definition p_part (b : fblock) (size : Z) : prog bytes :=
  ask initial <- p_tell;
  ask _ <- (if initial =? f_start b then Ret tt else p_seek (Z.of_N (f_start b)) FromStart);
  ask _ <- p_seek (Z.of_N (lenN (f_header b))) FromHere;
  ask data <- p_read size;
  ask _ <- p_seek (Z.of_N initial) FromStart;
  Ret data.
Section Loop.
Context {S : Type}.
(** [while fr.read(): ...]; [act] also tells to break *)
Fixpoint p_loop (fuel : nat) (len : N) (act : S -> fblock -> prog (S * bool)) (s : S) : prog S :=
  match fuel with
  | O => Raise OutOfFuel
  | Datatypes.S fuel =>
    ask b <- p_next len;
    match b with
    | None => Ret s
    | Some b => ask r <- act s b; if snd r then Ret (fst r) else p_loop fuel len act (fst r)
    end
  end.
(** flac.py:70-86 the opening, and the loop *)
Definition p_run (act : S -> fblock -> prog (S * bool)) (s : S) : prog S :=
  ask len <- p_size;
  ask _ <- p_seek 0 FromStart;
  p_loop (3 + N.to_nat len) len act s.
End Loop.
(** main.py:2740-2767 flac_find_sample_streams *)
Definition p_find_step (ts : tracks) (b : fblock) : prog (tracks * bool) :=
  if is_frame_data b then
    ask t <- lift (get_track 1 ts);
    if (f_size b <? 0)%Z then Raise NotModelled
    else
      let sig := td_signature (t_td t) in
      let size := Z.to_N (f_size b) in
      ask data <- p_part b (Z.of_N (if size <? lenN sig then size else lenN sig));
      if beqb sig data then
        Ret (set_track 1 (located t (Z.of_N (f_start b)) (N.min (td_length (t_td t)) size)) ts, true)
      else ask _ <- p_skip b; Ret (ts, false)
  else ask _ <- p_skip b; Ret (ts, false).
Definition p_flac_find (ts : tracks) : prog tracks := p_run p_find_step ts.
(** main.py:3355-3366 flac_extract_sample_streams *)
Definition p_extract_step (ts : tracks) (b : fblock) : prog (tracks * bool) :=
  if is_frame_data b then
    ask t <- lift (get_track 1 ts);
    ask d <- p_contents b;
    Ret (set_track 1 (mkTrack (t_td t) (t_offset t) (t_match t) (Some d) (t_print t)) ts, false)
  else ask _ <- p_skip b; Ret (ts, false).
Definition p_flac_extract (ts : tracks) : prog tracks := p_run p_extract_step ts.

(** srs.py:427-600 with a main file at [path]; [archived]: the file found by file_type_info *)
Definition flac_restore_at (f : Srr.fs) (srs : bytes) (path archived : text) : result outcome :=
  srs_rebuild flac_load_srs (fun ts _ => open_run f path archived (p_flac_find ts)) (fun ts _ => open_run f path archived (p_flac_extract ts))
    flac_rebuild true false false srs [].
