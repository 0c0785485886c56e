(** Fake: rescene/rarstream.py FakeFile, a file of null bytes that is not on disk. *)
From Coq Require Import ZArith.
From Verif Require Import Base.

(** rarstream.py:306-308 *)
Record fakefile := mkFake { k_size : N; k_pos : N }.
Definition fake_open (size : N) : fakefile := mkFake size 0.
Inductive origin := SeekSet | SeekCur | SeekEnd.
(** rarstream.py:328-354 seek: the new state, whose position is also the result *)
Definition fake_seek (offset : Z) (o : origin) (s : fakefile) : result fakefile :=
  let destination := match o with
                     | SeekSet => offset
                     | SeekCur => (Z.of_N (k_pos s) + offset)%Z
                     | SeekEnd => (Z.of_N (k_size s) + offset)%Z
                     end in
  if (destination <? 0)%Z then Err IndexError
  else if (Z.of_N (k_size s) <=? destination)%Z then Err IndexError
  else Ok (mkFake (k_size s) (Z.to_N destination)).
(** rarstream.py:356-378 read *)
Definition fake_read (size : Z) (s : fakefile) : bytes * fakefile :=
  let remainder := k_size s - k_pos s in
  if (size <? 0)%Z then (repN remainder x00, mkFake (k_size s) (k_size s))
  else if remainder =? 0 then (repN 0 x00, s)
  else if Z.to_N size <=? remainder then (repN (Z.to_N size) x00, mkFake (k_size s) (k_pos s + Z.to_N size))
  else (repN remainder x00, mkFake (k_size s) (k_size s)).
(** a program that seeks and reads; a seek that fails leaves the file as it is *)
Inductive fop := OSeek (offset : Z) (o : origin) | ORead (size : Z).
Inductive fres := RPos (p : N) | RFail | RData (d : bytes).
Fixpoint fake_run (ops : list fop) (s : fakefile) : list fres :=
  match ops with
  | [] => []
  | OSeek z o :: ops =>
    match fake_seek z o s with Ok s' => RPos (k_pos s') :: fake_run ops s' | Err _ => RFail :: fake_run ops s end
  | ORead z :: ops => let '(d, s') := fake_read z s in RData d :: fake_run ops s'
  end.
