(** CmdSpec: when a command may replace a file. *)
From Verif Require Import Base.
(** [old] is what the file has; with -n it is kept, with -y it is not asked for *)
Definition allowed (yes no answer : bool) (old : option bytes) : Prop := old = None \/ (no = false /\ (yes = true \/ answer = true)).
