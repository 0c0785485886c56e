(** NntpSpec: a file posted in segments, and reading a file. *)
From Verif Require Import Base Nntp.

(** the file [f] in segments of [size] bytes; the last one can be smaller *)
Definition segment_of (f : bytes) (size i : N) : bytes := sub ((i - 1) * size) size f.
Definition segments (f : bytes) (size : N) : N := (lenN f + size - 1) / size.
(** the servers have all of it; with the first lines comes the begin of a segment *)
Definition posted (article : N -> Z -> result dpart) (name : text) (f : bytes) (size : N) : Prop :=
  0 < size <= lenN f /\
  forall i lines, 1 <= i <= segments f size -> exists d r,
    article i lines = Ok (mkD (lenN f) i (lenN (segment_of f size i)) d name) /\ segment_of f size i = d ++ r /\ ((lines <= 1)%Z -> r = []).
(** the NZB lists them all *)
Definition complete (nzb : list (N * N)) (f : bytes) (size : N) : Prop := forall i, In i (map fst nzb) <-> 1 <= i <= segments f size.

Section File.
Variable f : bytes.
Local Open Scope Z_scope.
Definition len : Z := Z.of_N (lenN f).
Definition wanted (pos size : Z) : Z := if size =? -1 then len - pos else size.
(** the position afterwards, and the reply *)
Definition plain (pos : Z) (c : ncall) : Z * nreply :=
  match c with
  | NSeek offset o =>
    let p := offset + match o with FromStart => 0 | FromHere => pos | FromEnd => len end in
    if (p <? 0) || (len <? p) then (pos, NError IndexError) else (p, NPos p)
  | NTell => (pos, NPos pos)
  | NSize => (pos, NPos len)
  | NRead size =>
    if pos =? len then (pos, NData [])
    else if size <? -1 then (pos, NError AssertionError)
    else if len <? pos + wanted pos size then (pos, NError IndexError)
    else (pos + wanted pos size, NData (sub (Z.to_N pos) (Z.to_N (wanted pos size)) f))
  end.
Fixpoint plains (pos : Z) (cs : list ncall) : list nreply :=
  match cs with [] => [] | c :: cs => let r := plain pos c in snd r :: plains (fst r) cs end.
(** no read needs bytes of two segments *)
Fixpoint apart (size : N) (pos : Z) (cs : list ncall) : Prop :=
  match cs with
  | [] => True
  | c :: cs =>
    match c with
    | NRead n => exists j, j * Z.of_N size <= pos /\ pos + wanted pos n <= (j + 1) * Z.of_N size
    | _ => True
    end /\ apart size (fst (plain pos c)) cs
  end.
End File.
