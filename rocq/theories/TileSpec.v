(** TileSpec: how the blocks of a file lie in it.  Written from the format notes only: the size of a
    block in the file follows from its first bytes. *)
From Verif Require Import Base Rar.

(** little endian number of [k] bytes at [p] *)
Definition le_at (data : bytes) (p k : N) : N := unle (sub p k data).

(** the header at [p] announces data behind it: flag LONG, or a file or service block *)
Definition announces (data : bytes) (p : N) : bool :=
  let ty := le_at data (p + 2) 1 in
  N.testbit (le_at data (p + 3) 2) 15 || (ty =? 0x74) || (ty =? 0x7A).
Definition announced (data : bytes) (p : N) : N :=
  if announces data p && (7 <? le_at data (p + 5) 2) then le_at data (p + 7) 4 else 0.
(** files of 4 GiB and more: another 32 bits *)
Definition large_file (data : bytes) (p : N) : bool :=
  (le_at data (p + 2) 1 =? 0x74) && N.testbit (le_at data (p + 3) 2) 8 && (7 <? le_at data (p + 5) 2).
(** a recovery record, old or new style *)
Definition recovery_at (data : bytes) (p : N) : bool :=
  let ty := le_at data (p + 2) 1 in
  (7 <? le_at data (p + 5) 2) &&
  ((ty =? 0x78) ||
   ((ty =? 0x7A) && (34 <? le_at data (p + 5) 2) && (le_at data (p + 26) 2 =? 2) &&
    (le_at data (p + 32) 1 =? 82) && (le_at data (p + 33) 1 =? 82))).

(** number of bytes of the block at [p]: in a volume all announced data follows the header;
    in an SRR the packed data is left out, and the recovery data too if [removed] *)
Definition extent (m : mode) (removed : bool) (data : bytes) (p : N) : N :=
  le_at data (p + 5) 2 +
  match m with
  | RAR => announced data p + (if large_file data p then le_at data (p + 32) 4 * 0x100000000 else 0)
  | SRR => if le_at data (p + 2) 1 =? 0x74 then 0
           else if recovery_at data p && removed then 0
           else announced data p
  end.
(** blocks whose data is read with them; it may be cut short by the end of the file *)
Definition data_read (m : mode) (data : bytes) (p : N) : bool :=
  let ty := le_at data (p + 2) 1 in
  negb ((ty =? 0x6A) || (ty =? 0x74) || recovery_at data p).

(** [tiles m data p ended removed bs]: the blocks [bs] cover the file from [p] to its end *)
Inductive tiles (m : mode) (data : bytes) : N -> bool -> bool -> list block -> Prop :=
| tiles_end : forall ended rem, tiles m data (lenN data) ended rem []
| tiles_padding : forall p rem b,
    m = RAR -> p < lenN data ->
    b_pos b = p -> b_kind b = KPadding (lenN data - p) ->
    dropN (b_hsize b) (b_raw b) = dropN p data ->
    tiles m data p true rem [b]
| tiles_block : forall p ended rem b bs e,
    ended && mode_eqb m RAR = false ->
    b_pos b = p -> b_type b = le_at data (p + 2) 1 ->
    b_flags b = le_at data (p + 3) 2 -> b_hsize b = le_at data (p + 5) 2 ->
    7 <= b_hsize b -> p + b_hsize b <= lenN data ->
    e = (if data_read m data p then N.min (p + extent m rem data p) (lenN data)
         else p + extent m rem data p) ->
    e <= lenN data ->
    b_raw b = (if data_read m data p then sub p (e - p) data else sub p (b_hsize b) data) ->
    tiles m data e (ended || (b_type b =? 0x7B))
      (if (mode_eqb m SRR && (b_type b =? 0x71) && (7 <? b_hsize b))%bool then N.testbit (b_flags b) 0 else rem) bs ->
    tiles m data p ended rem (b :: bs).
