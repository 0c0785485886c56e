(** MkvFixSpec: EBML elements, and a fixed MKV file. *)
From Coq Require Import Permutation Sorted.
From Verif Require Import Base EbmlSpec MkvFix.

(** an element: ID, length in the fewest bytes, data *)
Definition element (id data b : bytes) : Prop := exists w, vint_ok w (lenN data) /\ (forall w', vint_ok w' (lenN data) -> (w <= w')%nat) /\ b = id ++ vint w (lenN data) ++ data.
(** an entry of the seek head: the one of the Info element gets a new position in two bytes, others stay *)
Definition entry_is (position : N) (k : seek) (b : bytes) : Prop :=
  (k_id k = [x15; x49; xa9; x66] /\ position < 65536 /\ exists p, element [x53; xac] (be 2 position) p /\ element [x4d; xbb] (k_hid k ++ k_id k ++ p) b) \/
  (k_id k <> [x15; x49; xa9; x66] /\ b = k_header k ++ k_hid k ++ k_id k ++ k_hpos k ++ k_pos k).
Inductive entries_are (position : N) : list seek -> bytes -> Prop :=
| en_nil : entries_are position [] []
| en_cons k l a b : entry_is position k a -> entries_are position l b -> entries_are position (k :: l) (a ++ b).
(** byte strings, from the highest one down *)
Inductive lex_lt : bytes -> bytes -> Prop :=
| lx_nil y b : lex_lt [] (y :: b)
| lx_head x y a b : b2n x < b2n y -> lex_lt (x :: a) (y :: b)
| lx_tail x a b : lex_lt a b -> lex_lt (x :: a) (x :: b).
Definition downwards (l : list seek) : Prop := StronglySorted (fun a b => ~ lex_lt (k_pos a) (k_pos b)) l.
(** the bytes that the three elements take in the file *)
Definition old_size (d : fixdata) : N := lenN (d_hseek d ++ d_seek d ++ d_hvoid d ++ d_void d ++ d_hinfo d ++ d_info d ++ d_title d).
