(** ProgSpec: a movie on disk, as it is or inside RAR volumes. *)
From Verif Require Import Base VolSpec SetSpec Srr StreamSpec.

(** The volumes of a set from the one named [path] on have the stored file [archived], or if [archived] is empty each
    starts with the file, whose contents are [main]. *)
Definition in_volumes (f : fs) (path archived : text) (main : bytes) : Prop :=
  exists s first vols n, path = vol_name s first /\ on_disk f s first false vols /\ starts_file vols /\
    asks (match archived with [] => None | _ => Some archived end) n vols /\ first_full (parts_of n vols) /\ main = concat (parts_of n vols).
Definition movie (f : fs) (path archived : text) (main : bytes) : Prop :=
  (~ rar_ending path /\ fs_get f path = Some main) \/ in_volumes f path archived main.
