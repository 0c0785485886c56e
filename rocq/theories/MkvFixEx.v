(** MkvFixEx: examples of fixed MKV files. *)
From Coq Require Import Permutation Sorted.
From Verif Require Import Base BaseFacts Ebml EbmlSpec EbmlFacts SrrFacts MkvFix MkvFixSpec MkvFixFacts.

(** a seek head with entries for the tracks and the Info element, which has a title of [n] bytes *)
Definition x_tracks : seek := mkSeek [x4d; xbb; x8a] [x53; xab; x84] [x16; x54; xae; x6b] [x53; xac; x81] [xf0].
Definition x_info : seek := mkSeek [x4d; xbb; x8a] [x53; xab; x84] [x15; x49; xa9; x66] [x53; xac; x81] [x40].
Definition x_fix (n : N) : fixdata := mkFix 2 [x11; x4d; x9b; x74; x9d] (repN 29 x01) [x15; x49; xa9; x66; x88] [x2a; xd7; xb1; x81; x05] (repN n x41) [xec; x80] [] [x_tracks; x_info].
Definition x_head : bytes := [x11; x4d; x9b; x74; x9d] ++ [x4d; xbb; x8a; x53; xab; x84; x16; x54; xae; x6b; x53; xac; x81; xf0] ++ [x4d; xbb; x8c; x53; xab; x84; x15; x49; xa9; x66; x53; xac; x82; x00; xb0].
Definition x_new : bytes := [x15; x49; xa9; x66; x85; x2a; xd7; xb1; x81; x05].
Lemma ex_fix : fix_usenet (x_fix 140) = Ok (2, x_head ++ ([xec; x40; x8b] ++ repN 139 x00) ++ x_new) /\ old_size (x_fix 140) = lenN x_head + 3 + 139 + lenN x_new.
Proof. split; vm_compute; reflexivity. Qed.
Lemma ex_file : fixed_copy (repN 200 x07) (x_fix 140) = Ok (Some ([x07; x07] ++ (x_head ++ ([xec; x40; x8b] ++ repN 139 x00) ++ x_new) ++ repN 12 x07)).
Proof. vm_compute. reflexivity. Qed.
Lemma ex_none : fixed_copy [] (mkFix 0 [] [] [] [] [] [] [] [x_info; x_tracks]) = Ok None.
Proof. vm_compute. reflexivity. Qed.
Lemma ex_small : fix_usenet (x_fix 50) = Ok (2, takeN 33 x_head ++ [x56] ++ ([xec; xb1] ++ repN 49 x00) ++ x_new) /\ old_size (x_fix 50) = 96 /\ lenN (takeN 33 x_head ++ [x56] ++ ([xec; xb1] ++ repN 49 x00) ++ x_new) = 95.
Proof. repeat split; vm_compute; reflexivity. Qed.
Definition x_near : seek := mkSeek [] [] [] [] [x10].
Definition x_far : seek := mkSeek [] [] [] [] [x01; x00].
Lemma ex_order : sorted_seeks [x_far; x_near] = [x_near; x_far] /\ unbe (k_pos x_near) < unbe (k_pos x_far).
Proof. split; vm_compute; reflexivity. Qed.
