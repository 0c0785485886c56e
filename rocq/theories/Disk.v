(** Disk: the order of the file operations of create, add, remove, rename and replace_result, with
    every operation allowed to fail and the process allowed to die at every point. *)
From Verif Require Import Base Path Srr.

(** What happens at one file operation: it works; it raises OSError after the first [n] bytes of a
    write; the process dies after the first [n] bytes of a write.  An operation other than a write
    has its whole effect or none.  Losing data of closed files (power failure) is left out. *)
Inductive fate := Good | Fail (n : N) | Crash (n : N).
Inductive outcome := Done | Raised | Crashed.
Inductive op :=
| OCreate (p : text)            (* mkstemp, open(p, "wb") *)
| OWrite (p : text) (d : bytes) (* append to the open file *)
| OUnlink (p : text)            (* os.unlink, os.remove *)
| ORename (a b : text)          (* os.rename; on POSIX it replaces b *)
| OOther.                       (* reading and closing *)
Definition apply_op (o : op) (f : fs) : option fs :=
  match o with
  | OCreate p => Some (fs_set f p [])
  | OWrite p d => Some (fs_append f p d)
  | OUnlink p => if isfile f p then Some (fs_del f p) else None
  | ORename a b =>
    match fs_get f a with Some d => Some (fs_set (fs_del f a) b d) | None => None end
  | OOther => Some f
  end.
Definition half_op (o : op) (n : N) (f : fs) : fs :=
  match o with OWrite p d => fs_append f p (takeN n d) | _ => f end.

(** a piece of program: file system and fates still to come *)
Definition io := fs -> list fate -> fs * list fate * outcome.
Definition act (o : op) : io := fun f w =>
  match w with
  | Crash n :: w' => (half_op o n f, w', Crashed)
  | Fail n :: w' => (half_op o n f, w', Raised)
  | _ => match apply_op o f with Some f' => (f', tl w, Done) | None => (f, tl w, Raised) end
  end.
Definition ret : io := fun f w => (f, w, Done).
Definition raise : io := fun f w => (f, w, Raised).
Definition andthen (a b : io) : io := fun f w =>
  let '(f1, w1, r) := a f w in match r with Done => b f1 w1 | _ => (f1, w1, r) end.
(** try: a except: h; raise *)
Definition cleanup (a h : io) : io := fun f w =>
  let '(f1, w1, r) := a f w in
  match r with Raised => andthen h raise f1 w1 | _ => (f1, w1, r) end.
(** try: a except: pass *)
Definition ignore (a : io) : io := fun f w =>
  let '(f1, w1, r) := a f w in match r with Raised => (f1, w1, Done) | _ => (f1, w1, r) end.
Notation "a ;; b" := (andthen a b) (at level 61, right associativity).

(** the writing part: [None] is a step that only reads; [ok] is false if it ends with an error (bad
    block, bad name) that is not a file operation *)
Fixpoint body (tmp : text) (ok : bool) (l : list (option bytes)) : io :=
  match l with
  | [] => if ok then ret else raise
  | None :: l' => act OOther ;; body tmp ok l'
  | Some d :: l' => act (OWrite tmp d) ;; body tmp ok l'
  end.
Fixpoint written (l : list (option bytes)) : bytes :=
  match l with [] => [] | None :: l' => written l' | Some d :: l' => d ++ written l' end.

(** main.py:284-341 add_stored_files from the creation of the temporary file on *)
Definition add_io (srr tmp : text) (ok : bool) (l : list (option bytes)) : io :=
  act (OCreate tmp) ;;
  cleanup (body tmp ok l) (act (OUnlink tmp)) ;;
  act OOther ;;
  act (OUnlink srr) ;; act (ORename tmp srr).

(** main.py:354-376 remove_stored_files: the last two operations are inside the try *)
Definition remove_io (srr tmp : text) (ok : bool) (l : list (option bytes)) : io :=
  act (OCreate tmp) ;;
  cleanup (body tmp ok l ;; act OOther ;; act (OUnlink srr) ;; act (ORename tmp srr))
    (act (OUnlink tmp)).

(** rar.py:667-680 renameto: no cleanup at all *)
Definition rename_io (srr tmp : text) (ok : bool) (l : list (option bytes)) : io :=
  act (OCreate tmp) ;; body tmp ok l ;; act OOther ;;
  act (OUnlink srr) ;; act (ORename tmp srr).

(** utility.py:468-515 replace_result; the assert on the names is left out *)
Definition replace_result (src dest : text) : io := fun f w =>
  if isfile f src then
    ((if isfile f dest then ignore (act (OUnlink dest)) else ret) ;;
     cleanup (act (ORename src dest)) (act (OUnlink src))) f w
  else (f, w, Done).

(** main.py:452-586 create_srr and 588-629 create_srr_single_volume as file operations.  The
    policy is main.py:149 can_overwrite.  [ending]: [None] done, [Some true] the file is unlinked
    and an error raised (a missing or compressed volume), [Some false] another error. *)
Definition create_target (srr : text) (tmp_name : option text) : text :=
  match tmp_name with Some ((_ :: _) as t) => t | _ => srr end.
Definition create_io (srr : text) (tmp_name : option text) (l : list (option bytes))
  (ending : option bool) : io := fun f w =>
  let tmp := create_target srr tmp_name in
  if can_overwrite f srr then
    (act (OCreate tmp) ;; body tmp true l ;;
     match ending with
     | None => ret
     | Some true => act OOther ;; act (OUnlink tmp) ;; raise
     | Some false => raise
     end) f w
  else (f, w, Done).
