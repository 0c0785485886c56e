(** MatchSpec: the CRCs of the files that a reconstruction takes from disk. *)
From Verif Require Import Base RarSpec PathSpec CrcSpec SrrSpec SetSpec.

(** The header of a part of a file has the CRC of the part if the file goes on in the next volume (flag
    0x2), else the CRC of the whole file: [past] are the bytes of the earlier parts, [part] those of this one. *)
Definition crc_right (h : fhead) (past part : bytes) : Prop :=
  if N.testbit (h_flags h) 1 then is_crc32 part (h_fcrc h)
  else h_method h = 0x30 -> is_crc32 (past ++ part) (h_fcrc h).

(** [c] is what is read for the file that a header names; nothing is said of files that were not there *)
Definition read_from (disk : text -> option bytes) (h : fhead) (c : bytes) : Prop :=
  if is_dir h then c = repN (h_unpacked h) x00
  else exists p, rar_path (h_text h) p /\ forall d, disk p = Some d -> c = d.

(** The parts with their sizes, in the order of the SRR file.  [cur]: name, used and remaining bytes of
    the file of the last part. *)
Inductive crcs_match (disk : text -> option bytes) : option (text * bytes * bytes) -> list (fhead * N) -> Prop :=
| cm_nil cur : crcs_match disk cur []
| cm_next past rest h k ps :
    crc_right h past (takeN k rest) ->
    crcs_match disk (Some (h_text h, past ++ takeN k rest, dropN k rest)) ps ->
    crcs_match disk (Some (h_text h, past, rest)) ((h, k) :: ps)
| cm_new cur c h k ps :
    (forall n a r, cur = Some (n, a, r) -> h_text h <> n) -> read_from disk h c ->
    crc_right h [] (takeN k c) ->
    crcs_match disk (Some (h_text h, takeN k c, dropN k c)) ps ->
    crcs_match disk cur ((h, k) :: ps).

(** the parts of files in an SRR file *)
Definition file_parts (l : list sitem) : list (fhead * N) :=
  concat (map (fun i => match i with SHead (HFile h k) => [(h, k)] | _ => [] end) l).
Fixpoint total (g : list (fhead * N)) : N := match g with [] => 0 | x :: g => snd x + total g end.
