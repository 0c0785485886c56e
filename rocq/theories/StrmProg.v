(** StrmProg: stream samples with a movie that is only used by seek, tell and read (Prog.v).  The same functions as in
    StrmSrs.v, which are over the contents of the movie. *)
From Verif Require Import Base SrsRec Srs StrmSrs StreamSpec Prog.
From Verif Require Srr.

(** main.py:2818-2858 stream_find_sample_streams *)
Fixpoint p_search_loop (fuel : nat) (sig p x : bytes) : prog Z :=
  match fuel with
  | O => Raise OutOfFuel
  | S fuel =>
    match x with
    | [] => Ret (-1)%Z
    | _ =>
      let m := match p with
               | [] => find_from sig x 0
               | _ => find_from sig (p ++ x) (RAMOUNT - lenN sig)
               end in
      match m with
      | Some m => ask tell <- p_tell; Ret (Z.of_N tell - Z.of_N (lenN x) - Z.of_N (lenN p) + Z.of_N m)%Z
      | None => ask y <- p_read (Z.of_N RAMOUNT); p_search_loop fuel sig x y
      end
    end
  end.
(** The size of the movie is the fuel here; the code does not ask for it. *)
Definition p_stream_find (ts : tracks) : prog tracks :=
  ask len <- p_size;
  ask _ <- p_seek 0 FromStart;
  ask t <- lift (get_track 1 ts);
  ask x <- p_read (Z.of_N RAMOUNT);
  ask o <- p_search_loop (2 + N.to_nat len) (td_signature (t_td t)) [] x;
  Ret (set_track 1 (mkTrack (t_td t) o (if (o =? -1)%Z then t_match t else lenN (td_signature (t_td t))) (t_file t) (t_print t)) ts).
(** main.py:3385-3402 stream_extract_sample_streams *)
Definition p_stream_extract (ts : tracks) : prog tracks :=
  ask t <- lift (get_track 1 ts);
  ask _ <- p_seek (t_offset t) FromStart;
  ask b <- p_read (Z.of_N (lenN (td_signature (t_td t))));
  if beqb b (td_signature (t_td t)) then
    ask _ <- p_seek (t_offset t) FromStart;
    ask d <- p_read (Z.of_N (td_length (t_td t)));
    Ret (set_track 1 (mkTrack (t_td t) (t_offset t) (t_match t) (Some d) (t_print t)) ts)
  else Raise AssertionError.

(** srs.py:427-600 with a movie at [path]; [archived]: the file found by file_type_info *)
Definition stream_restore_at (f : Srr.fs) (no_stored : bool) (srs : bytes) (path archived : text) : result outcome :=
  srs_rebuild (fun f => stream_load_srs (S (length f)) f) (fun ts _ => open_run f path archived (p_stream_find ts)) (fun ts _ => open_run f path archived (p_stream_extract ts))
    stream_rebuild false true no_stored srs [].
