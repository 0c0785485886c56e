(** WmvProg: the same code as in Wmv.v, with each call on the main file (resample/asf.py AsfReader in the modes WMV and
    Sample; resample/main.py). *)
From Verif Require Import Base SrsRec Srs Avi Wmv StreamSpec Prog.
From Verif Require Srr.

(** stream.read(n).  A RarStream reads all that is left for any negative size; then get_packet fails too, as the size of
    packets is below 5. *)
Definition p_read_n (n : Z) : prog bytes := if (n <? -1)%Z then Raise ValueError else p_read n.
(** asf.py:95-168 read; [len]: the size of the file *)
Definition p_next (m : mode) (len : N) : prog (option object) :=
  ask pos <- p_tell;
  if len <? pos + 24 then Ret None
  else
    ask header <- p_read 24;
    let guid := takeN 16 header in
    ask size <- lift (unpack 8 header 16);
    if match m with Sample => negb (beqb guid DATA_OBJECT) && (len <? pos + size) | _ => false end then Raise ValueError
    else
      ask more <- (if beqb guid HEADER_OBJECT then p_read 6 else if beqb guid DATA_OBJECT then p_read 26 else Ret []);
      ask _ <- p_seek (Z.of_N pos) FromStart;
      Ret (Some (mkO guid size size (header ++ more) pos)).
(** asf.py:192-196 skip_contents *)
Definition p_skip (o : object) (read_done : bool) : prog unit :=
  if read_done then Ret tt else p_seek (Z.of_N (o_start o + o_size o)) FromStart.
Section Loop.
Context {S : Type}.
(** [while ar.read() and not done: ...] *)
Fixpoint p_loop (fuel : nat) (m : mode) (len : N) (stop : S -> bool) (act : S -> object -> prog S) (s : S) : prog S :=
  match fuel with
  | O => Raise OutOfFuel
  | Datatypes.S fuel =>
    ask o <- p_next m len;
    match o with
    | None => Ret s
    | Some o =>
      if stop s then Ret s
      else ask s <- act s o; p_loop fuel m len stop act s
    end
  end.
(** asf.py:78-88 the opening, and the loop; [act] gets the size of the file, which is only fuel *)
Definition p_run (m : mode) (stop : S -> bool) (act : N -> S -> object -> prog S) (s : S) : prog S :=
  ask len <- p_size;
  ask _ <- p_seek 0 FromStart;
  p_loop (1 + N.to_nat len) m len stop (act len) s.
(** [n] packets from [off] on; also read_done, see asf.py:185-190 read_data_part *)
Fixpoint p_packets (fuel : nat) (exact : bool) (act : S -> N -> bytes -> parsed -> result (S * bool)) (o : object) (psize : Z) (n off : N) (read_done : bool) (s : S) : prog (S * bool) :=
  match fuel with
  | O => Raise OutOfFuel
  | Datatypes.S fuel =>
    if n =? 0 then Ret (s, read_done)
    else
      let read_done := read_done || (Z.of_N off + psize =? Z.of_N (o_start o + o_size o))%Z in
      ask _ <- p_seek (Z.of_N off) FromStart;
      ask data <- p_read_n psize;
      if exact && negb (Z.of_N (lenN data) =? psize)%Z then Raise AssertionError
      else
        ask k <- lift (get_packet false data psize);
        ask r <- lift (act s off data k);
        if snd r then Ret (fst r, read_done) else p_packets fuel exact act o psize (n - 1) (off + Z.to_N psize) read_done (fst r)
  end.
End Loop.

(** main.py:2615-2733 wmv_find_sample_streams *)
Definition p_find_step (len : N) (s : fstate) (o : object) : prog fstate :=
  if guid_is DATA_OBJECT o then
    ask count <- lift (packet_count (o_header o));
    ask psize <- lift (packet_size (o_header o) (o_size o) count);
    ask r <- p_packets (1 + N.to_nat len) false find_packet o psize count (o_data o) false s;
    ask _ <- p_skip o (snd r);
    Ret (fst (fst r), true)
  else ask _ <- p_skip o false; Ret s.
Definition p_wmv_find (ts : tracks) : prog tracks :=
  ask s <- p_run Main fs_done p_find_step (ts, fun _ => [], false);
  Ret (fst (fst s)).
(** main.py:3263-3350 wmv_extract_sample_streams *)
Definition p_extract_step (first len : N) (s : tracks * bool) (o : object) : prog (tracks * bool) :=
  if guid_is DATA_OBJECT o then
    ask count <- lift (packet_count (o_header o));
    ask psize <- lift (packet_size (o_header o) (o_size o) count);
    let out := left_out (o_data o) psize count first in
    ask r <- p_packets (1 + N.to_nat len) true extract_packet o psize (count - out) (Z.to_N (Z.of_N (o_data o) + Z.of_N out * psize)) false s;
    ask _ <- p_skip o (snd r);
    Ret (fst r)
  else ask _ <- p_skip o false; Ret s.
Definition p_wmv_extract (ts : tracks) : prog tracks :=
  ask s <- p_run Sample snd (p_extract_step (min_offset ts)) (ts, false);
  Ret (fst s).

(** srs.py:427-600 with a movie at [path]; [archived]: the file found by file_type_info *)
Definition wmv_restore_at (f : Srr.fs) (no_stored : bool) (srs : bytes) (path archived : text) : result outcome :=
  srs_rebuild wmv_load_srs (fun ts _ => open_run f path archived (p_wmv_find ts)) (fun ts _ => open_run f path archived (p_wmv_extract ts))
    wmv_rebuild false false no_stored srs [].
