(** SameSfvSpec: when two SFV files say the same. *)
From Coq Require Import Permutation.
From Verif Require Import Base VolSpec Sfv SfvSpec.

(** the entries of an SFV file *)
Definition entries (data : bytes) (es : list sfv) : Prop := exists cs rs ls, lines (map b2n data) ls /\ account ls es cs rs.
(** the same entries but for their order and the case of letters *)
Definition same_entries (es es' : list sfv) : Prop :=
  exists p, Permutation es' p /\ Forall2 (fun a b => same_text (e_name a) (e_name b) /\ same_text (e_crc a) (e_crc b)) es p.
(** with names in the same case *)
Definition exact_entries (es es' : list sfv) : Prop :=
  exists p, Permutation es' p /\ Forall2 (fun a b => e_name a = e_name b /\ same_text (e_crc a) (e_crc b)) es p.
(** files that are all no .rar files, or volumes of one set, each once *)
Definition no_rar (es : list sfv) : Prop := forall e p x, In e es -> e_name e = p ++ x -> ~ up_to_case x (str ".rar").
Definition one_set (es : list sfv) : Prop := exists s n, style_ok s /\ N.of_nat n <= vol_limit s /\ forall e, In e es -> In (e_name e) (vol_names s n).
Definition tame (es : list sfv) : Prop := NoDup (map e_name es) /\ (no_rar es \/ one_set es).
