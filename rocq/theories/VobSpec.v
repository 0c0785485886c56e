(** VobSpec: the places for the SRR file of a sample. *)
From Verif Require Import Base WorkDirSpec.

(** a sample that is a RAR file: name and first bytes *)
Definition rared_vob (sample : text) (sig : bytes) : Prop := (exists a, sample = a ++ str ".vob") /\ exists t, sig = bstr "Rar!" ++ t.
(** beside the SRS file with its name, or if this is taken with the name of the sample *)
Definition vob_place (get : text -> option bytes) (srs name dest : text) : Prop :=
  exists d b, folder d /\ ~ In 47 b /\ ~ In 47 name /\ srs = d ++ [47] ++ b ++ str ".srs" /\ get dest = None /\
  (dest = d ++ [47] ++ b ++ str ".srr" \/ (get (d ++ [47] ++ b ++ str ".srr") <> None /\ dest = d ++ [47] ++ name ++ str ".srr")).
