(** CollectSpec: the volumes of sets. *)
From Verif Require Import VolSpec.
From Verif Require Import Base Path Rar Srr Sfv SfvSpec Collect.

(** the header of a volume that is in a set *)
Definition in_set (b : block) : Prop := b_type b = T_RarVolume /\ N.testbit (b_flags b) 0 = true.
(** what the last such header tells *)
Definition numbering (bs : list block) (old : bool) : Prop :=
  (exists a b c, bs = a ++ b :: c /\ in_set b /\ Forall (fun x => ~ in_set x) c /\ old = negb (N.testbit (b_flags b) 4)) \/
  (Forall (fun x => ~ in_set x) bs /\ old = false).
Definition there (f : fs) (p : text) : Prop := fs_get f p <> None.
(** volumes 0 .. n-1 of a set are there and no other *)
Definition first_n (f : fs) (s : style) (n : nat) : Prop :=
  (forall i, (i < n)%nat -> there f (vol_name s (N.of_nat i))) /\ ~ there f (vol_name s (N.of_nat n)).
(** volumes that are not first by their name *)
Definition counted_from (s : style) (i : N) : Prop := match s with Old _ _ => 0 < i | New _ _ _ _ => False | Num _ start => 1 < start + i end.
(** an SFV file of volumes 0 .. n-1 of a set *)
Definition sfv_for (f : fs) (sfile : text) (sn : style * nat) : Prop :=
  (exists p e, sfile = p ++ e /\ up_to_case e (str ".sfv")) /\ style_ok (fst sn) /\ (0 < snd sn)%nat /\ N.of_nat (snd sn) <= vol_limit (fst sn) /\
  exists data es cs rs, fs_get f sfile = Some data /\ parse_sfv_data data = Ok (es, cs, rs) /\ sfv_of_set (fst sn) (snd sn) es.
