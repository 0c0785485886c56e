(** MsgSpec: what a user should see of the messages. *)
From Verif Require Import Base Msg.

Inductive subseq {A} : list A -> list A -> Prop :=
| sub_nil : subseq [] []
| sub_take x a b : subseq a b -> subseq (x :: a) (x :: b)
| sub_skip x a b : subseq a b -> subseq a (x :: b).

(** the messages of a program, in order *)
Fixpoint emitted (p : list op) : list event :=
  match p with [] => [] | Emit e :: p => e :: emitted p | _ :: p => emitted p end.
(** The lines for some events, when codes [ms] or all of them are shown: those with an informative code
    (MSG, STORING, DEL_STORED_FILE, BLOCK, FBLOCK, RBLOCK, COMPRESSION) on stdout, others on stderr. *)
Definition lines (ms : list N) (all : bool) (es : list event) (ls : list (stream * bytes)) : Prop :=
  exists keep, Forall2 (fun e (k : bool) => k = true <-> In (e_code e) ms \/ all = true) es keep /\
  Forall2 (fun e l => snd l = e_message e /\ (fst l = Stdout <-> In (e_code e) [0; 5; 8; 15; 16; 17; 18]))
    (map fst (filter snd (combine es keep))) ls.
(** a program that ends by stopping the thread: [p] and then done = True *)
Definition whole (p : list op) : list op := p ++ [SetDone].
Definition no_stop (p : list op) : Prop := ~ In SetDone p.
(** each message is waited for *)
Definition waiting (es : list event) : list op := concat (map (fun e => [Emit e; Wait]) es).
(** The next step of the reporting thread puts a message in a list that is thrown away: the list has been
    replaced since it was read, or the display loop has ended and the list is about to be replaced. *)
Definition too_late (s : st) : Prop :=
  exists e p r, prog s = Emit e :: p /\ held s = Some r /\ (r <> cur s \/ cpc s = CReset).
(** no such step along a schedule *)
Fixpoint in_time (ms : list N) (all : bool) (s : st) (sch : list bool) : Prop :=
  match sch with
  | [] => True
  | b :: sch => (b = false -> ~ too_late s) /\ in_time ms all (step ms all s b) sch
  end.
