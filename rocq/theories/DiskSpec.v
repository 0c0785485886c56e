(** DiskSpec: what may be on disk after an edit that was cut short. *)
From Verif Require Import Base.
Definition untouched {A} (get : A -> text -> option bytes) (except : list text) (f f' : A) : Prop :=
  forall q, ~ In q except -> get f' q = get f q.
(** no failing operation, no crash *)
Definition crash_safe (old new : bytes) (now : option bytes) : Prop := now = Some old \/ now = Some new.
