(** C95: MKV files with an added title are brought back without moving the rest. *)
From Coq Require Import Permutation Sorted.
From Verif Require Import Base Ebml EbmlSpec MkvFix MkvFixSpec MkvFixFacts MkvFixEx.

(** The fixed data: a seek head with all old entries, ordered by the bytes of their positions, in which the entry of the Info element names its new place; if the space
    that is left is of the size assumed, an element of zeros that fills it; the Info element without title. *)
Theorem C95_fix : forall d s out, fix_usenet d = Ok (s, out) -> exists head info es, s = d_start d /\ element [x11; x4d; x9b; x74] es head /\ element [x15; x49; xa9; x66] (d_info d) info /\
  (exists l, Permutation l (d_seeks d) /\ downwards l /\ (lenN info <= old_size d -> entries_are (old_size d - lenN info) l es)) /\
  (forall v, old_size d = lenN head + 3 + v + lenN info -> 128 <= v < 16384 -> element [xec] (repN v x00) ([xec] ++ vint 2 v ++ repN v x00) /\ out = head ++ ([xec] ++ vint 2 v ++ repN v x00) ++ info).
Proof. exact fix_thm. Qed.
Print Assumptions C95_fix.
Example C95_fix_example : fix_usenet (x_fix 140) = Ok (2, x_head ++ ([xec; x40; x8b] ++ repN 139 x00) ++ x_new) /\ old_size (x_fix 140) = lenN x_head + 3 + 139 + lenN x_new.
Proof. exact ex_fix. Qed.
(** In the fixed copy nothing else is changed or moved, and the Info element is at the place that its entry names. *)
Theorem C95_file_partial : forall file d f', fixed_copy file d = Ok (Some f') -> d_start d + old_size d <= lenN file -> exists head info es,
  element [x11; x4d; x9b; x74] es head /\ element [x15; x49; xa9; x66] (d_info d) info /\
  forall v, old_size d = lenN head + 3 + v + lenN info -> 128 <= v < 16384 ->
    lenN f' = lenN file /\ takeN (d_start d) f' = takeN (d_start d) file /\ dropN (d_start d + old_size d) f' = dropN (d_start d + old_size d) file /\
    exists rest, dropN (d_start d + (old_size d - lenN info)) f' = info ++ rest.
Proof. exact file_thm. Qed.
Print Assumptions C95_file_partial.
Example C95_file_example : fixed_copy (repN 200 x07) (x_fix 140) = Ok (Some ([x07; x07] ++ (x_head ++ ([xec; x40; x8b] ++ repN 139 x00) ++ x_new) ++ repN 12 x07)).
Proof. exact ex_file. Qed.
(** No copy is made just if the last entry is not that of the Info element. *)
Theorem C95_none : forall file d, fixed_copy file d = Ok None <-> exists l k, d_seeks d = l ++ [k] /\ k_id k <> [x15; x49; xa9; x66].
Proof. exact none_thm. Qed.
Print Assumptions C95_none.
Example C95_none_example : fixed_copy [] (mkFix 0 [] [] [] [] [] [] [] [x_info; x_tracks]) = Ok None.
Proof. exact ex_none. Qed.
(** the fixed data has the size of the old: false if less than 131 bytes are left, its length then takes one byte *)
Theorem C95_size_refuted : exists d s out n, fix_usenet d = Ok (s, out) /\ old_size d = n /\ lenN out = n - 1.
Proof. exact (ex_intro _ (x_fix 50) (ex_intro _ 2 (ex_intro _ _ (ex_intro _ 96 ex_small)))). Qed.
Print Assumptions C95_size_refuted.
(** the entries are ordered by position: false, the bytes are compared *)
Theorem C95_order_refuted : exists a b, sorted_seeks [b; a] = [a; b] /\ unbe (k_pos a) < unbe (k_pos b).
Proof. exact (ex_intro _ x_near (ex_intro _ x_far ex_order)). Qed.
Print Assumptions C95_order_refuted.
