(** Prog: code that uses a main file only by seek, tell and read, and the two kinds of main file it can get: a file, or a
    file inside RAR volumes (rescene/rarstream.py, Stream.v).  [op] and [answer]: StreamSpec.v. *)
From Verif Require Import Base Path VolName Srr Stream StreamSpec.

Inductive prog (A : Type) : Type := Ret (a : A) | Raise (e : exn) | Call (o : op) (k : answer -> prog A).
Arguments Ret {A}. Arguments Raise {A}. Arguments Call {A}.
Fixpoint pbind {A B} (p : prog A) (k : A -> prog B) : prog B :=
  match p with
  | Ret a => k a
  | Raise e => Raise e
  | Call o q => Call o (fun a => pbind (q a) k)
  end.
Notation "'ask' x <- p ; q" := (pbind p (fun x => q)) (at level 200, x name, p at level 100, q at level 200).
Definition lift {A} (r : result A) : prog A := match r with Ok a => Ret a | Err e => Raise e end.

(** A seek before the start: OSError for a file, IndexError for a RarStream; both are OSError here. *)
Definition p_seek (offset : Z) (w : whence) : prog unit :=
  Call (OSeek offset w) (fun a => match a with Pos _ => Ret tt | _ => Raise OSError end).
Definition p_tell : prog N := Call OTell (fun a => match a with Pos n => Ret (Z.to_N n) | _ => Raise OSError end).
Definition p_read (size : Z) : prog bytes := Call (ORead size) (fun a => match a with Data d => Ret d | _ => Raise OSError end).

Section Run.
Context {St : Type}.
Variable step : St -> op -> St * answer.
Fixpoint run {A} (s : St) (p : prog A) : result (A * St) :=
  match p with
  | Ret a => Ok (a, s)
  | Raise e => Err e
  | Call o k => let '(s, a) := step s o in run s (k a)
  end.
End Run.

(** open(path) or RarStream(path, archived_file_name): riff.py:82-86, ebml.py:302-306, asf.py:78-82, mov.py, flac.py,
    mp3.py, resample/main.py:2819-2822, 3386-3389; an empty name is no name *)
Definition open_run {A} (f : fs) (path archived : text) (p : prog A) : result A :=
  if is_rar path then
    do t <- rar_stream f path (Some archived) false false;
    do r <- run (stream_op f) t p; Ok (fst r)
  else
    match fs_get f path with
    | None => Err FileNotFound
    | Some d => do r <- run (flat_op d) 0 p; Ok (fst r)
    end.
(** seek(0, 2), tell(): the size of the file *)
Definition p_size : prog N := ask _ <- p_seek 0 FromEnd; p_tell.
