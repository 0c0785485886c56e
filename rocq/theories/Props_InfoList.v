(** Props_InfoList: archived files and SFV sums in the listing of an SRR file (C25). *)
From Verif Require Import Base Path Rar Sfv Info InfoListSpec InfoListFacts InfoListEx.

(** Each volume is listed with the sum of the last SFV entry about it and is not changed otherwise; the other entries are kept in order. *)
Theorem C25_sums : forall lowf upf es d d' rest, add_sums lowf upf es d = (d', rest) ->
  rest = filter (fun e => negb (mem_text (lowf (basename (e_name e))) (map fst d))) es /\ map fst d' = map fst d /\
  forall k r, dict_get k d = Some r -> exists c, dict_get k d' = Some (mkRar (ri_name r) (ri_size r) (ri_start r) (ri_end r) c) /\ sum_listed lowf upf es k (ri_crc r) c.
Proof. exact sums_thm. Qed.
Print Assumptions C25_sums.
Example C25_sums_example : add_sums lower (fun t => t) x_sfv x_rars = ([(str "a.rar", mkRar (str "CD1/A.rar") 10 0 10 (Some (str "0000000b"))); (str "a.r00", mkRar (str "CD1/A.r00") 10 10 20 None)], [mkSfv (str "x.nfo") (str "1")]).
Proof. exact ex_sums. Qed.
(** The files listed are those with blocks, with the method of their first block and the CRC of their last one. *)
Theorem C25_files : forall fs n, match parts fs n with
  | [] => dict_get n (i_files (fold_left arch_step fs info0)) = None
  | f :: r => exists a, dict_get n (i_files (fold_left arch_step fs info0)) = Some a /\ ai_name a = n /\ ai_compressed a = negb (f_method f =? COMPR_STORING) /\ ai_crc a = f_crc (last r f)
  end.
Proof. exact files_thm. Qed.
Print Assumptions C25_files.
Example C25_files_example : i_files (fold_left arch_step x_files info0) = [(str "a", mkArch (str "a") 30 false 2); (str "b", mkArch (str "b") 11 false 8)].
Proof. exact ex_files. Qed.
(** A file of which the blocks know the size is listed with that size. *)
Theorem C25_known : forall fs n f r a, parts fs n = f :: r -> f_unpacked f <> 0 -> (forall g, In g (f :: r) -> f_unpacked g <> 0xffffffff /\ f_unpacked g <> 0xffffffffffffffff) ->
  dict_get n (i_files (fold_left arch_step fs info0)) = Some a -> ai_size a = f_unpacked f.
Proof. exact known_thm. Qed.
Print Assumptions C25_known.
Example C25_known_example : parts x_files (str "a") = [part (str "a") 10 30 1; part (str "a") 20 30 2] /\ (forall g, In g [part (str "a") 10 30 1; part (str "a") 20 30 2] -> f_unpacked g <> 0xffffffff /\ f_unpacked g <> 0xffffffffffffffff).
Proof. exact ex_known. Qed.
(** A stored file of unknown size is listed with the size of all its parts.  Missing: a first part without data, for which it is false. *)
Theorem C25_unknown_partial : forall fs n f r a, parts fs n = f :: r -> f_method f = COMPR_STORING -> f_packed f <> 0 -> (forall g, In g (f :: r) -> f_unpacked g = 0xffffffff) ->
  dict_get n (i_files (fold_left arch_step fs info0)) = Some a -> ai_size a = sum_packed (f :: r).
Proof. exact unknown_thm. Qed.
Print Assumptions C25_unknown_partial.
Example C25_unknown_example : parts x_files (str "b") = [part (str "b") 5 0xffffffff 7; part (str "b") 6 0xffffffff 8] /\ (forall g, In g [part (str "b") 5 0xffffffff 7; part (str "b") 6 0xffffffff 8] -> f_unpacked g = 0xffffffff) /\ sum_packed (parts x_files (str "b")) = 11.
Proof. exact ex_unknown. Qed.
(** a stored file of unknown size is always listed with the size of its parts: false if the first one has no data *)
Theorem C25_empty_part_refuted : exists fs a, sum_packed fs = 6 /\ i_files (fold_left arch_step fs info0) = [(str "b", a)] /\ ai_size a = 0x100000005.
Proof. exact (ex_intro _ [part (str "b") 0 0xffffffff 7; part (str "b") 6 0xffffffff 8] (ex_intro _ _ (conj eq_refl (conj ex_zero eq_refl)))). Qed.
Print Assumptions C25_empty_part_refuted.
