(** RetrySpec: trying again, with each download made anew. *)
From Verif Require Import Base Nntp Retry.

(** the article of segment [i] says that it is segment [i] *)
Definition right (v : server) : Prop := forall i lines d, fst v i lines = Ok d -> d_number d = i.
(** it asks where it is and seeks to the end, and gives up when that fails *)
Definition seeks_end {A} (p : reader A) : Prop :=
  exists k, p = Call NTell k /\ forall r, exists q, k r = Call (NSeek 0 FromEnd) q /\ forall e, q (NError e) = Done (Err e).
(** errors after which it is tried again *)
Definition temporary {A} (r : result A) : Prop := r = Err EnvironmentError \/ r = Err OSError \/ r = Err IndexError.
(** the first result that is not such an error, or the last one *)
Inductive settles {A} : list (result A) -> result A -> Prop :=
| settles_last r : settles [r] r
| settles_here r l : ~ temporary r -> settles (r :: l) r
| settles_next r l q : temporary r -> l <> [] -> settles l q -> settles (r :: l) q.
(** the servers in turn, as many times as asked *)
Definition turns (extra : list server) (n : nat) : list server :=
  map (fun i => nth (i mod length extra) extra (fun _ _ => Err KeyError, fun _ => 0)) (seq 0 n).
(** what a reader of a new file gives; [again]: the connection is not the first one *)
Definition download {A} (name : text) (rar : bool) (less : N -> Z) (nzb : list (N * N)) (p : reader A) (again : bool) (v : server) : result A :=
  snd (n_run name rar less again v p (n_new nzb)).
