(** MkvFix: undoing the changes that a tool of Usenet posters made to MKV files (scripts/mkvfix_usenet.py).
    Reading the file (get_data) and printing are left out. *)
From Coq Require Import Permutation.
From Verif Require Import Base Ebml.

(** ebml.py:213-219 *)
Definition ID_SEEK_HEAD : bytes := [x11; x4d; x9b; x74].
Definition ID_SEEK : bytes := [x4d; xbb].
Definition ID_SEEK_POSITION : bytes := [x53; xac].
Definition ID_INFO : bytes := [x15; x49; xa9; x66].
Definition ID_VOID : bytes := [xec].
(** mkvfix_usenet.py:76-82 Seek *)
Record seek := mkSeek { k_header : bytes; k_hid : bytes; k_id : bytes; k_hpos : bytes; k_pos : bytes }.
(** mkvfix_usenet.py:58-70 ToFixData *)
Record fixdata := mkFix { d_start : N; d_hseek : bytes; d_seek : bytes; d_hinfo : bytes; d_info : bytes; d_title : bytes; d_hvoid : bytes; d_void : bytes; d_seeks : list seek }.
(** comparison of bytes objects *)
Fixpoint bytes_lt (a b : bytes) : bool :=
  match a, b with
  | _, [] => false
  | [], _ :: _ => true
  | x :: a, y :: b => (b2n x <? b2n y) || (b2n x =? b2n y) && bytes_lt a b
  end.
(** mkvfix_usenet.py:177 sorted with reverse: those with the same position stay in order *)
Fixpoint insert (k : seek) (l : list seek) : list seek :=
  match l with
  | [] => [k]
  | x :: l => if bytes_lt (k_pos k) (k_pos x) then x :: insert k l else k :: x :: l
  end.
Fixpoint sorted_seeks (l : list seek) : list seek := match l with [] => [] | k :: l => insert k (sorted_seeks l) end.
(** mkvfix_usenet.py:153-155 check_fixable *)
Definition check_fixable (d : fixdata) : result bool :=
  match rev (d_seeks d) with [] => Err IndexError | k :: _ => Ok (beqb (k_id k) ID_INFO) end.
(** mkvfix_usenet.py:158-162 *)
Definition total (d : fixdata) : N := (lenN (d_hseek d) + lenN (d_seek d)) + (lenN (d_hinfo d) + lenN (d_info d) + lenN (d_title d)) + (lenN (d_hvoid d) + lenN (d_void d)).
(** an ID, the length and the data: mkvfix_usenet.py:170-172, 188-194, 200-201 *)
Definition elem (id data : bytes) : result bytes := do l <- make_ebml_uint (lenN data); Ok (id ++ l ++ data).
(** mkvfix_usenet.py:178-199 one entry; [offset] is total - total_info *)
Definition seek_entry (total total_info : N) (k : seek) : result bytes :=
  if beqb (k_id k) ID_INFO then
    if (total <? total_info) || (65535 <? total - total_info) then Err StructError
    else do p <- elem ID_SEEK_POSITION (be 2 (total - total_info)); elem ID_SEEK (k_hid k ++ k_id k ++ p)
  else Ok (k_header k ++ k_hid k ++ k_id k ++ k_hpos k ++ k_pos k).
Fixpoint entries (total total_info : N) (l : list seek) : result bytes :=
  match l with [] => Ok [] | k :: l => do a <- seek_entry total total_info k; do b <- entries total total_info l; Ok (a ++ b) end.
(** mkvfix_usenet.py:205-207; the length may be negative: MakeEbmlUInt then gives one byte, and there are no zeros *)
Definition void_segment (left : Z) : result bytes :=
  if (left <? 3)%Z then Ok (ID_VOID ++ [n2b (Z.to_N (Z.lor (left - 3) 128 mod 256))])
  else do l <- make_ebml_uint (Z.to_N (left - 3)); Ok (ID_VOID ++ l ++ repN (Z.to_N (left - 3)) x00).
(** mkvfix_usenet.py:157-212 fix_usenet *)
Definition fix_usenet (d : fixdata) : result (N * bytes) :=
  do info <- elem ID_INFO (d_info d);
  do es <- entries (total d) (lenN info) (sorted_seeks (d_seeks d));
  do head <- elem ID_SEEK_HEAD es;
  do void <- void_segment (Z.of_N (total d) - Z.of_N (lenN info) - Z.of_N (lenN head));
  Ok (d_start d, head ++ void ++ info).
(** mkvfix_usenet.py:242-250 the fixed copy of the file; [d_start] is in the file *)
Definition patched (file : bytes) (start : N) (data : bytes) : bytes := takeN start file ++ data ++ dropN (start + lenN data) file.
Definition fixed_copy (file : bytes) (d : fixdata) : result (option bytes) :=
  do ok <- check_fixable d;
  if ok then do r <- fix_usenet d; Ok (Some (patched file (fst r) (snd r))) else Ok None.
