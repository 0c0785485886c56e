(** Cmd: what the commands srr and srs do with files when they create or rebuild something, on the file operations of
    Disk.v.  Messages are left out; [Raised] stands for every ending with an error, also with a status other than 0. *)
From Verif Require Import Base Path Srr Disk Crc.

(** ** Asking *)
(** srr.py:544-559 can_overwrite, with the options -y and -n and the answer to the question *)
Definition srr_may (yes no answer : bool) (f : fs) (p : text) : bool :=
  if negb yes && negb no && isfile f p then answer
  else if no && isfile f p then false else true.
(** resample/srs.py:48-56 can_overwrite *)
Definition srs_may (yes answer : bool) (f : fs) (p : text) : bool := if negb yes && isfile f p then answer else true.

(** ** srr: creating *)
(** How rescene.create_srr ends when all file operations work: an error for which the file is removed or not, of the
    types that are caught or not. *)
Record ending := mkEnding { removed : bool; caught : bool }.
(** srr.py:386-397 the handler of errors *)
Definition failed (srr : text) : io := ignore (act (OUnlink srr)) ;; raise.
Definition handle (srr : text) (a : io) : io := fun f w =>
  let '(f1, w1, r) := a f w in match r with Raised => failed srr f1 w1 | _ => (f1, w1, r) end.
(** srr.py:366-397 create_srr; main.py:475-586 create_srr with a temporary name *)
Definition srr_create (may : fs -> text -> bool) (srr tmp : text) (l : list (option bytes)) (e : option ending) : io := fun f w =>
  if may f srr then
    match e with
    | None => handle srr (act (OCreate tmp) ;; body tmp true l ;; replace_result tmp srr) f w
    | Some e =>
      let '(f1, w1, r) := handle srr (act (OCreate tmp) ;; body tmp true l ;; if removed e then act OOther ;; act (OUnlink tmp) else ret) f w in
      match r with Done => if caught e then failed srr f1 w1 else raise f1 w1 | _ => (f1, w1, r) end
    end
  else handle srr (replace_result tmp srr) f w.

(** ** srs: creating *)
(** resample/srs.py:359-369; [ok] is false if creating ends with an error that is not one of a file operation *)
Definition srs_create (may : fs -> text -> bool) (srs tmp : text) (ok : bool) (l : list (option bytes)) : io := fun f w =>
  if may f srs then (act (OCreate tmp) ;; body tmp ok l ;; replace_result tmp srs) f w else (f, w, Done).

(** ** srs: rebuilding *)
(** one rebuilt file; rebuild_sample gives the CRC of what it writes *)
Record attempt := mkAt { a_tmp : text; a_ok : bool; a_parts : list (option bytes) }.
Definition make (a : attempt) : io := act (OCreate (a_tmp a)) ;; body (a_tmp a) (a_ok a) (a_parts a).
Section Rebuild.
(** the CRC in the SRS file; FLAC or MP3; the movie is the file to write, with links followed; -k *)
Variables (wanted : N) (music same keep : bool) (result : text).
Definition good (a : attempt) : bool := crc32 (written (a_parts a)) =? wanted.
(** resample/srs.py:586-632 *)
Definition finish (a : attempt) : io :=
  if good a then replace_result (a_tmp a) result
  else
    (if keep then
       if negb music then replace_result (a_tmp a) result
       else if same then ret else replace_result (a_tmp a) result
     else
       if negb music then replace_result (a_tmp a) result ;; act (OUnlink result)
       else if same then ret else replace_result (a_tmp a) result ;; act (OUnlink result)) ;; raise.
(** resample/srs.py:525-578 is_good_rebuild and check_tracks: the combinations of places one after the other *)
Fixpoint others (before : option attempt) (l : list attempt) : io :=
  match l with
  | [] => match before with Some a => finish a | None => raise end
  | a :: l =>
    (match before with Some b => act (OUnlink (a_tmp b)) | None => ret end) ;; make a ;;
    if good a then finish a else others (Some a) l
  end.
(** resample/srs.py:492-632; [more] is empty when no track has other places *)
Definition srs_rebuild (may : fs -> text -> bool) (first : attempt) (more : list attempt) : io := fun f w =>
  if may f result then
    (make first ;; if good first then finish first else match more with [] => finish first | _ => others None more end) f w
  else (f, w, Raised).
End Rebuild.
