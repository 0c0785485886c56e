(** ComprSpec: the blocks of an archive, its files and volumes. *)
From Verif Require Import VolName.
From Verif Require Import Base Compr.

(** a name that ends in .part and a number *)
Definition part_form (n s : text) : Prop := exists p ds, n = s ++ p ++ ds /\ lower p = str ".part" /\ Forall (fun c => 48 <= c <= 57) ds.
(** the volume [name] is of the archive [s]: without the last four characters, and without the number of the part *)
Definition set_is (name s : text) : Prop :=
  exists n e, name = n ++ e /\ (length e = 4%nat \/ n = [] /\ (length e < 4)%nat) /\
  (part_form n s \/ s = n /\ forall x, ~ part_form n x).
Definition header (b : blk) : Prop := k_raw b = 0x71.
Definition file_block (b : blk) : bool := k_raw b =? 0x74.
(** [r]: the volumes of the archive [s], one behind the other; others are before and behind them *)
Definition archive_of (s : text) (a r c : list blk) : Prop :=
  s <> [] /\
  (exists h r', r = h :: r' /\ header h) /\ Forall (fun b => header b -> set_is (k_name b) s) r /\
  (forall x h y, a = x ++ h :: y -> header h -> Forall (fun b => ~ header b) y -> ~ set_is (k_name h) s) /\
  match c with [] => True | h :: _ => header h /\ ~ set_is (k_name h) s end.
Fixpoint sum (l : list N) : N := match l with [] => 0 | x :: l => x + sum l end.
(** the sizes of the blocks of a volume; only the bytes are kept of what is between the blocks *)
Definition block_size (b : blk) : N := if k_raw b =? 0x6C then k_add b else k_head b + k_add b.
Definition srr_block (b : blk) : Prop := In (k_raw b) [0x69; 0x6A; 0x6B; 0x71].
(** a block within a volume, not its first and last one *)
Definition plain (b : blk) : Prop := ~ srr_block b /\ k_raw b <> 0x72 /\ k_raw b <> 0x7B.
Definition day_le (a b : N * N * N) : Prop :=
  let '(y, m, d) := a in let '(y', m', d') := b in y < y' \/ y = y' /\ (m < m' \/ m = m' /\ d <= d').
Definition day_ok (a : N * N * N) : Prop := let '(y, m, d) := a in y < 10000 /\ m < 100 /\ d < 100.
Definition times (l : list blk) (d : N * N * N) : Prop := exists b, In b l /\ k_raw b = 0x74 /\ In (Some d) (k_times b).
