(** Msg: the message thread of the srr command and the thread that reports messages
    (rescene/srr.py MessageThread, rescene/main.py Observer and _fire), as a transition system.
    A step is what Python does between two reads or writes of shared data. *)
From Verif Require Import Base.

(** main.py:97-104: an event has a code and a message (other attributes are not used here) *)
Record event := mkEvent { e_code : N; e_message : bytes }.
(** main.py:125-133: the codes written to stdout *)
Definition informative : list N := [0; 5; 8; 15; 17; 16; 18].
Inductive stream := Stdout | Stderr.

(** What the reporting thread does: a message (the callback of _fire, main.py:113-114), wait_for_output
    (srr.py:88-92), mthread.done = True. *)
Inductive op := Emit (e : event) | Wait | SetDone.

(** Where the message thread is in run (srr.py:74-86). *)
Inductive pc :=
| CWhile      (* while: not self.done *)
| CWhile2     (* or len(o.events) *)
| CIf         (* if len(o.events) *)
| CIter       (* for event in o.events: read o.events *)
| CFor (r i : nat)  (* about to take element i of list r *)
| CReset      (* o.events = [] *)
| CSleep
| CEnd.

Record st := mkSt {
  lists : list (list event);    (* all list objects made so far; o.events is the last *)
  cpc : pc;
  prog : list op;               (* what the reporting thread still has to do *)
  held : option nat;            (* self.events has been read for the append *)
  done : bool;
  out : list (stream * bytes) }.
Definition cur (s : st) : nat := (length (lists s) - 1)%nat.
Definition nth_list (s : st) (r : nat) : list event := nth r (lists s) [].
Definition set_pc (s : st) (p : pc) : st := mkSt (lists s) p (prog s) (held s) (done s) (out s).
Fixpoint append_at (ls : list (list event)) (r : nat) (e : event) : list (list event) :=
  match ls, r with
  | [], _ => []
  | l :: ls, O => (l ++ [e]) :: ls
  | l :: ls, S r => l :: append_at ls r e
  end.

Section Run.
(** self.messages and self.all *)
Variables (messages : list N) (show_all : bool).
(** srr.py:78-83 *)
Definition display (e : event) : list (stream * bytes) :=
  if existsb (N.eqb (e_code e)) messages || show_all then
    [(if existsb (N.eqb (e_code e)) informative then Stdout else Stderr, e_message e)]
  else [].
(** srr.py:74-86 one step of the message thread; None: it has ended *)
Definition cstep (s : st) : option st :=
  match cpc s with
  | CWhile => Some (set_pc s (if done s then CWhile2 else CIf))
  | CWhile2 => Some (set_pc s (match nth_list s (cur s) with [] => CEnd | _ => CIf end))
  | CIf => Some (set_pc s (match nth_list s (cur s) with [] => CSleep | _ => CIter end))
  | CIter => Some (set_pc s (CFor (cur s) 0))
  | CFor r i =>
    match nth_error (nth_list s r) i with
    | Some e => Some (mkSt (lists s) (CFor r (S i)) (prog s) (held s) (done s) (out s ++ display e))
    | None => Some (set_pc s CReset)
    end
  | CReset => Some (mkSt (lists s ++ [[]]) CSleep (prog s) (held s) (done s) (out s))
  | CSleep => Some (set_pc s CWhile)
  | CEnd => None
  end.
(** one step of the reporting thread; None: it has ended *)
Definition pstep (s : st) : option st :=
  match prog s with
  | [] => None
  | Emit e :: p =>
    match held s with
    | None => Some (mkSt (lists s) (cpc s) (prog s) (Some (cur s)) (done s) (out s))
    | Some r => Some (mkSt (append_at (lists s) r e) (cpc s) p None (done s) (out s))
    end
  | Wait :: p =>
    Some (match nth_list s (cur s) with [] => mkSt (lists s) (cpc s) p (held s) (done s) (out s) | _ => s end)
  | SetDone :: p => Some (mkSt (lists s) (cpc s) p (held s) true (out s))
  end.
(** true: the message thread, false: the reporting thread; a thread that has ended does nothing *)
Definition step (s : st) (b : bool) : st :=
  match (if b then cstep s else pstep s) with Some s' => s' | None => s end.
Definition run (s : st) (schedule : list bool) : st := fold_left step schedule s.
End Run.
(** srr.py:56-65, main.py:110-111; the thread has been started *)
Definition start (p : list op) : st := mkSt [[]] CWhile p None false [].
