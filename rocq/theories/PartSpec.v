(** PartSpec: what the reconstruction of one volume of a set needs. *)
From Verif Require Import Base RarSpec SrrSpec SetSpec.

(** The last parts in [ps] that have the same name: name and number of bytes. *)
Definition run_step (cur : option (text * N)) (hd : fhead * bytes) : option (text * N) :=
  match cur with
  | Some (n, k) => if list_eq_dec N.eq_dec n (h_text (fst hd)) then Some (n, k + lenN (snd hd)) else Some (h_text (fst hd), lenN (snd hd))
  | None => Some (h_text (fst hd), lenN (snd hd))
  end.
Definition last_run (ps : list (fhead * bytes)) : option (text * N) := fold_left run_step ps None.
Definition run_size (cur : option (text * N)) : N := match cur with Some (_, k) => k | None => 0 end.

(** the data of a part is found [off] bytes from the start of its file *)
Definition found_at (disk : text -> option bytes) (off : N) (hd : fhead * bytes) : Prop :=
  is_dir (fst hd) = false /\ exists c, content_of disk (fst hd) c /\ takeN (lenN (snd hd)) (dropN off c) = snd hd.

(** The offsets of parts in their files, for files stored from front to back. *)
Fixpoint offsets (cur : option (text * N)) (ps : list (fhead * bytes)) : list N :=
  match ps with
  | [] => []
  | hd :: ps => (run_size (run_step cur hd) - lenN (snd hd)) :: offsets (run_step cur hd) ps
  end.
