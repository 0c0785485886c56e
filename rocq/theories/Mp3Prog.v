(** Mp3Prog: MP3 files with a main file that is only used by seek, tell and read (Prog.v).  The same functions as in
    Mp3.v, which are over the contents of the main file. *)
From Verif Require Import Base SrsRec Srs Mp3 StreamSpec Prog.
From Verif Require Srr.

(** seek(pos, os.SEEK_SET) and read(n) *)
Definition p_zread (pos n : Z) : prog bytes := ask _ <- p_seek pos FromStart; p_read n.

(** mp3.py:109-122 *)
Fixpoint p_id3_loop (fuel : nat) (pos : N) : prog (list mblock * N) :=
  match fuel with
  | O => Raise OutOfFuel
  | S fuel =>
    ask first <- p_zread (Z.of_N pos) 3;
    if beqb first (bstr "ID3") then
      ask _ <- p_seek 3 FromHere;
      ask sbytes <- p_read 4;
      ask size <- lift (decode_id3_size sbytes);
      ask r <- p_id3_loop fuel (pos + (10 + size));
      Ret (mkM (Z.of_N (10 + size)) (str "ID3") (Z.of_N pos) :: fst r, snd r)
    else Ret ([], pos)
  end.

Section Int.
(** int(b"..."), as in Mp3.v *)
Variable py_int : bytes -> result Z.

(** mp3.py:124-132; [len]: the size of the file *)
Definition p_step_tag (len : N) : prog (list mblock * Z) :=
  ask _ <- p_seek (-128) FromEnd;
  ask start <- p_tell;
  ask first <- p_read 3;
  Ret (if beqb first (bstr "TAG") then ([mkM 128 (str "TAG") (Z.of_N start)], Z.of_N start) else ([], Z.of_N len)).
(** mp3.py:134-151 *)
Definition p_step_lyrics2 (e : Z) : prog (list mblock * Z) :=
  if (0 <=? e - 15)%Z then
    ask foot <- p_zread (e - 15) 15;
    if beqb (dropN 6 foot) (bstr "LYRICS200") then
      ask n <- lift (py_int (takeN 6 foot));
      Ret ([mkM (n + 15) (str "LYRICS200") (e - (n + 15))], (e - (n + 15))%Z)
    else Ret ([], e)
  else Ret ([], e).
(** mp3.py:153-168 *)
Definition p_step_lyrics1 (e : Z) : prog (list mblock * Z) :=
  if (0 <=? e - 9)%Z then
    ask foot <- p_zread (e - 9) 9;
    if beqb foot (bstr "LYRICSEND") then
      ask data <- p_zread (e - 5100) 5100;
      match find_sub Byte.eqb (bstr "LYRICSBEGIN") data with
      | None => Raise ValueError
      | Some i => let start := (e - 5100 + Z.of_N i)%Z in Ret ([mkM (e - start) (str "LYRICS") start], (e - (e - start))%Z)
      end
    else Ret ([], e)
  else Ret ([], e).
(** mp3.py:170-190 *)
Definition p_step_ape (e : Z) : prog (list mblock * Z) :=
  if (0 <=? e - 32)%Z then
    ask mark <- p_zread (e - 32) 8;
    if beqb mark (bstr "APETAGEX") then
      ask v <- p_read 4;
      ask version <- lift (unpack 4 v 0);
      ask s <- p_read 4;
      ask size <- lift (unpack 4 s 0);
      let start := (e - Z.of_N size - (if (version =? 2000)%N then 32 else 0))%Z in
      Ret ([mkM (e - start) (str "APE") start], (e - (e - start))%Z)
    else Ret ([], e)
  else Ret ([], e).
(** mp3.py:302-354 last_id3v2_before_sync *)
Fixpoint p_last_id3_loop (fuel : nat) (len current : N) (last_good id3 : Z) : prog Z :=
  match fuel with
  | O => Raise OutOfFuel
  | S fuel =>
    if current <? len then
      ask part <- p_zread (Z.of_N current) (0x10000 + 3);
      let sync := Z.max (find_sync part 0) (Z.max (zfind (bstr "RIFF") part) (zfind (bstr "SRSF") part)) in
      let imatch := zrfind (bstr "ID3") part in
      let imatch := if (0 <? imatch)%Z then (imatch + Z.of_N current)%Z else imatch in
      let id3 := Z.max imatch id3 in
      let last_good := if ((last_good <? id3) && negb (sync =? -1) && (id3 <? Z.of_N current + sync))%Z then id3 else last_good in
      if (sync =? -1)%Z then p_last_id3_loop fuel len (current + 0x10000) last_good id3 else Ret last_good
    else Ret last_good
  end.
(** mp3.py:205-239 *)
Definition p_repair (len : N) (ids : list mblock) (begin : Z) : prog (list mblock * Z) :=
  ask last_id3 <- p_last_id3_loop (S (N.to_nat len)) len 0 0 0;
  let b := List.last ids (mkM 0 [] 0) in
  if (last_id3 =? m_start b)%Z then Ret (ids, begin)
  else if (m_start b + m_size b <=? last_id3)%Z then
    ask sbytes <- p_zread (last_id3 + 6) 4;
    ask size <- lift (decode_id3_size sbytes);
    let begin := (last_id3 + 10 + Z.of_N size)%Z in
    Ret (removelast ids ++ [mkM (begin - m_start b) (m_type b) (m_start b)], begin)
  else if (Z.of_N len <? begin)%Z then
    ask sbytes <- p_zread (last_id3 + 6) 4;
    ask size <- lift (decode_id3_size sbytes);
    Ret (ids ++ [mkM (10 + Z.of_N size) (str "ID3") last_id3], (last_id3 + (10 + Z.of_N size))%Z)
  else Ret (ids, begin).
(** mp3.py:251-270 *)
Fixpoint p_srs_loop (fuel : nat) (cur : N) (stop : Z) : prog (list mblock) :=
  match fuel with
  | O => Raise OutOfFuel
  | S fuel =>
    if (Z.of_N cur <? stop)%Z then
      ask marker <- p_zread (Z.of_N cur) 4;
      ask s <- p_read 4;
      match unpack 4 s 0 with
      | Err _ => Raise ValueError
      | Ok size =>
        if forallb (fun c => b2n c <? 128) marker then
          if size =? 0 then Raise ValueError
          else if (stop <? Z.of_N size)%Z then Raise ValueError
          else
            ask r <- p_srs_loop fuel (cur + size) stop;
            Ret (mkM (Z.of_N size) (map b2n marker) (Z.of_N cur) :: r)
        else Raise UnicodeError
      end
    else Ret []
  end.
(** mp3.py:77-284 Mp3Reader.__init__ *)
Definition p_blocks : prog (list mblock) :=
  ask len <- p_size;
  ask r <- p_id3_loop (S (N.to_nat len)) 0;
  let '(ids, begin) := r in
  ask r <- p_step_tag len; let '(b1, e) := r in
  ask r <- p_step_lyrics2 e; let '(b2, e) := r in
  ask r <- p_step_lyrics1 e; let '(b3, e) := r in
  ask r <- p_step_ape e; let '(b4, e) := r in
  ask marker <- p_zread (Z.of_N begin) 4;
  ask r <- (match ids with
            | [] => Ret (ids, Z.of_N begin)
            | _ => if marker_has_issues marker then p_repair len ids (Z.of_N begin) else Ret (ids, Z.of_N begin)
            end);
  let '(ids, begin) := r in
  ask marker <- p_zread begin 4;
  match marker with
  | [] => Raise ValueError
  | [_] => Raise StructError
  | _ =>
    ask main <- (if beqb (takeN 3 marker) (bstr "SRS") then p_srs_loop (S (N.to_nat len)) (Z.to_N begin) e
                 else Ret [mkM (e - begin) (str "MP3") begin]);
    Ret (m_sort (ids ++ b1 ++ b2 ++ b3 ++ b4 ++ main))
  end.
(** mp3.py:297-303 read_part *)
Definition p_part (b : mblock) (n off : Z) : prog bytes :=
  if (m_start b + m_size b <? m_start b + off + n)%Z then Raise ValueError else p_zread (m_start b + off) n.

(** main.py:2803-2816 mp3_match_signature *)
Fixpoint p_match_loop (fuel : nat) (b : mblock) (sig : bytes) (boffset : Z) : prog (option Z) :=
  match fuel with
  | O => Raise OutOfFuel
  | S fuel =>
    if (boffset <=? m_size b)%Z then
      ask data <- p_part b (Z.min (m_size b - boffset) 0x10000) boffset;
      match find_sub Byte.eqb sig data with
      | Some i => Ret (Some (boffset + Z.of_N i)%Z)
      | None => p_match_loop fuel b sig (boffset + (0x10000 - Z.of_N SIG_SIZE + 1))
      end
    else Ret None
  end.
(** main.py:2769-2801 mp3_find_sample_streams *)
Definition p_mp3_find (ts : tracks) : prog tracks :=
  ask bs <- p_blocks;
  match find is_audio bs with
  | None => Ret ts
  | Some b =>
    ask t <- lift (get_track 1 ts);
    let sig := td_signature (t_td t) in
    if (m_size b <? 0)%Z then Raise NotModelled
    else
      ask data <- p_part b (Z.min (m_size b) (Z.of_N (lenN sig))) 0;
      let n := N.min (td_length (t_td t)) (Z.to_N (m_size b)) in
      ask t <- (if beqb sig data then Ret (located t (m_start b) n)
                else if 2 <=? lenN data then
                  if starts_sync data then Ret (located t (-1) (t_match t))
                  else
                    ask m <- p_match_loop (S (S (N.to_nat (Z.to_N (m_size b) / 65281)))) b sig 0;
                    match m with Some o => Ret (located t o n) | None => Ret (located t (-1) (t_match t)) end
                else Ret (located t (-1) (t_match t)));
      Ret (set_track 1 t ts)
  end.
(** main.py:3368-3383 mp3_extract_sample_streams *)
Definition p_mp3_extract (ts : tracks) : prog tracks :=
  ask bs <- p_blocks;
  match find is_audio bs with
  | None => Ret ts
  | Some b =>
    ask t <- lift (get_track 1 ts);
    let offset := (t_offset t - m_start b)%Z in
    if (offset <? 0)%Z then Raise AssertionError
    else
      ask data <- p_part b (Z.of_N (t_match t)) offset;
      Ret (set_track 1 (mkTrack (t_td t) (t_offset t) (t_match t) (Some data) (t_print t)) ts)
  end.

(** srs.py:427-600 with a main file at [path]; [archived]: the file found by file_type_info *)
Definition mp3_restore_at (f : Srr.fs) (srs : bytes) (path archived : text) : result outcome :=
  srs_rebuild (mp3_load_srs py_int) (fun ts _ => open_run f path archived (p_mp3_find ts)) (fun ts _ => open_run f path archived (p_mp3_extract ts))
    (mp3_rebuild py_int) true true false srs [].
End Int.
