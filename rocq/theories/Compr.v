(** Compr: the blocks used to rebuild compressed RAR archives (rescene/main.py). *)
From Verif Require Import VolName.
From Verif Require Import Base Preprar Rarexe.

(** a block of an SRR file: [k_id] stands for the Python object, which is what == compares; the times of a file block *)
Record blk := mkBlk { k_id : N; k_raw : N; k_name : text; k_flags : N; k_packed : N; k_head : N; k_add : N; k_times : list (option (N * N * N)) }.
Definition R_FILE : N := 0x74.
Definition R_MIN : N := 0x72.
Definition R_MAX : N := 0x7B.
Definition S_RAR : N := 0x71.
Definition S_PADDING : N := 0x6C.
Definition same (a b : blk) : bool := k_id a =? k_id b.
(** block.flags & block.SOLID *)
Definition solid (b : blk) : bool := negb (N.land (k_flags b) 0x10 =? 0).

(** main.py:2126-2136 get_set.  Names have no line breaks; \d is 0 to 9. *)
Definition get_set (file_name : text) : text :=
  let n := firstn (length file_name - 4) file_name in
  match skip_while digit (rev n) with
  | t :: r :: a :: p :: dot :: rest => if teqb (lower [dot; p; a; r; t]) (str ".part") then rev rest else n
  | _ => n
  end.
(** main.py:2100-2124 get_archived_file_blocks: [current_set] and [mine] (set_current_block) start empty *)
Fixpoint archived_loop (current : blk) (blocks result : list blk) (current_set mine : text) : list blk :=
  match blocks with
  | [] => result
  | b :: blocks =>
    let mine := if same b current then current_set else mine in
    let result := if k_raw b =? R_FILE then result ++ [b] else result in
    if k_raw b =? S_RAR then
      let nset := get_set (k_name b) in
      if teqb nset current_set then archived_loop current blocks result current_set mine
      else match mine with
           | [] => archived_loop current blocks [] nset mine
           | _ => result
           end
    else archived_loop current blocks result current_set mine
  end.
Definition archived_blocks (blocks : list blk) (current : blk) : list blk := archived_loop current blocks [] [] [].
(** main.py:2066-2077 followed_by_solid_block, 2079-2087 next_block: the block behind it, [started] when it was found *)
Fixpoint next_loop (block : blk) (blocks : list blk) (started : bool) : option blk :=
  match blocks with
  | [] => None
  | b :: blocks =>
    if same b block then next_loop block blocks true
    else if started then Some b
    else next_loop block blocks started
  end.
Definition next_block (block : blk) (blocks : list blk) : option blk := next_loop block blocks false.
Definition followed_by_solid (block : blk) (blocks : list blk) : option blk :=
  match next_loop block blocks false with
  | Some b => if solid b then Some b else None
  | None => None
  end.
(** main.py:2089-2098 previous_block; [start] is the block before *)
Fixpoint prev_loop (block : blk) (blocks : list blk) (start : option blk) : blk :=
  match blocks with
  | [] => block
  | b :: blocks =>
    if same b block then match start with None => block | Some s => s end
    else prev_loop block blocks (Some b)
  end.
Definition previous_block (block : blk) (blocks : list blk) : blk := prev_loop block blocks None.
(** main.py:2138-2145 get_full_packed_size *)
Fixpoint packed_loop (name : text) (blocks : list blk) (size : N) : N :=
  match blocks with
  | [] => size
  | b :: blocks =>
    if teqb (k_name b) name then packed_loop name blocks (size + k_packed b)
    else if size =? 0 then packed_loop name blocks size
    else size
  end.
Definition full_packed_size (block : blk) (blocks : list blk) : N := packed_loop (k_name block) blocks 0.
(** main.py:2603-2620 calculate_size_volume *)
Fixpoint volume_loop (blocks : list blk) (size : N) : N :=
  match blocks with
  | [] => size
  | b :: blocks =>
    if (k_raw b =? R_MIN) && negb (size =? 0) then size
    else if k_raw b =? R_MAX then size + k_head b
    else if existsb (N.eqb (k_raw b)) [0x69; 0x6A; 0x71; 0x6B] then volume_loop blocks size
    else if k_raw b =? S_PADDING then volume_loop blocks (size + k_add b)
    else volume_loop blocks (size + k_head b + k_add b)
  end.
Definition volume_size (blocks : list blk) : N := volume_loop blocks 0.
(** main.py:2513-2523 get_most_recent_date; years have four digits *)
Definition date_text (d : N * N * N) : text := let '(y, m, d) := d in d4 y ++ str "-" ++ d2 m ++ str "-" ++ d2 d.
Fixpoint recent_times (times : list (option (N * N * N))) (recent : text) : text :=
  match times with
  | [] => recent
  | None :: times => recent_times times recent
  | Some d :: times => recent_times times (if text_lt recent (date_text d) then date_text d else recent)
  end.
Fixpoint recent_loop (blocks : list blk) (recent : text) : text :=
  match blocks with
  | [] => recent
  | b :: blocks => recent_loop blocks (if k_raw b =? R_FILE then recent_times (k_times b) recent else recent)
  end.
Definition recent_date (blocks : list blk) : text := recent_loop blocks (str "1970-01-01").

(** main.py:1998-2056 compressed_rar_file_factory: what is compressed for a block.  [archived]: the keys of archived_files;
    files are there and compress as they should, so regular_method_failed is never set. *)
Inductive plan := PSolid (followup : blk) | PReuse (first : text) (followup : option blk) | PAlone (next : option blk).
Definition factory (archived : list text) (block : blk) (blocks : list blk) : result plan :=
  let blocks := archived_blocks blocks block in
  let alone := Ok (PAlone (next_block block blocks)) in
  match followed_by_solid block blocks with
  | Some f =>
    if negb (solid block) then Ok (PSolid f)
    else match blocks with
         | [] => Err IndexError
         | b0 :: _ => if same block b0 then alone
                      else if existsb (teqb (k_name b0)) archived then Ok (PReuse (k_name b0) (Some f)) else Err KeyError
         end
  | None =>
    if solid block then
      match blocks with
      | [] => Err IndexError
      | b0 :: _ => if same block b0 then alone
                   else if existsb (teqb (k_name b0)) archived then Ok (PReuse (k_name b0) None) else Err KeyError
      end
    else alone
  end.
