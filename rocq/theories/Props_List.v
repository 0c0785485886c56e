(** Props_List: the listing of archived files (C52), of stored files, hashes and recovery records (C53) and of sums (C54). *)
From Verif Require Import Base Path Rar RarSpec ReadSpec SrrSpec Srr Sfv SfvSpec Info ListSpec ListFacts Samples.

(** ** C52 *)
(** Each packed file is listed once, in the order of its first part, with the CRC of its last part and with
    the size that its headers give. *)
Theorem C52_partial : forall lowf upf l i, srr_ok l -> info lowf upf (ser_srr l) = Ok i ->
  firsts (map (fun p => h_text (fst p)) (parts l)) (map fst (i_files i)) /\
  (forall n p q, of_name n (parts l) = p :: q -> exists a, In (n, a) (i_files i) /\ ai_name a = n /\
     ai_compressed a = negb (h_method (fst p) =? 0x30) /\ ai_crc a = h_fcrc (fst (last (p :: q) p)) /\
     forall size, says (p :: q) size -> ai_size a = size) /\
  (i_compression i = true <-> exists n a, In (n, a) (i_files i) /\ ai_compressed a = true).
Proof. exact archived_ok. Qed.
Print Assumptions C52_partial.
Example C52_example : exists i, srr_ok srr1 /\ info lower (fun t => t) (ser_srr srr1) = Ok i /\
  i_files i = [(str "a.txt", mkArch (str "a.txt") 5 false 0x22); (str "b.txt", mkArch (str "b.txt") 0 false 0)] /\
  says (of_name (str "a.txt") (parts srr1)) 5.
Proof. exact ex_archived. Qed.
Example C52_late_example : exists i, srr_ok srr_late /\ info lower (fun t => t) (ser_srr srr_late) = Ok i /\
  map (fun na => ai_size (snd na)) (i_files i) = [7; 9] /\
  says (of_name (str "late") (parts srr_late)) 7 /\ says (of_name (str "none") (parts srr_late)) 9.
Proof. exact ex_late. Qed.
(** If no header gives the size the sum of the parts is listed: false when the first part is empty, 2^32 - 1 is
    added then. *)
Theorem C52_refuted : exists l i n a, srr_ok l /\ info lower (fun t => t) (ser_srr l) = Ok i /\ In (n, a) (i_files i) /\
  Forall (fun p => h_unpacked (fst p) = 0xFFFFFFFF /\ h_method (fst p) = 0x30) (of_name n (parts l)) /\
  ai_size a <> fold_right N.add 0 (map snd (of_name n (parts l))).
Proof. exact empty_first. Qed.
Print Assumptions C52_refuted.

(** ** C53 *)
Theorem C53_listed : forall lowf upf l i, srr_ok l -> info lowf upf (ser_srr l) = Ok i ->
  firsts (map fst (all stored_part l)) (map fst (i_stored i)) /\
  (forall n size, In (n, size) (i_stored i) -> exists d, last_for n (all stored_part l) d /\ size = lenN d) /\
  i_app i = last (all app_part l) [] /\ i_oso i = all oso_part l /\
  i_recovery i = match all recov_part l with
                 | [] => None
                 | (new, _) :: _ => Some (if new then str "Protect+" else str "Protect!", fold_right N.add 0 (map snd (all recov_part l)))
                 end.
Proof. exact others_ok. Qed.
Print Assumptions C53_listed.
Example C53_example : exists i, srr_ok srr_sums /\ info lower (fun t => t) (ser_srr srr_sums) = Ok i /\
  i_stored i = [(str "CD1/a.sfv", 39); (str "a.nfo", 2)] /\ i_recovery i = Some (str "Protect!", 1548) /\ i_oso i = [(str "a.txt", 7, 5)].
Proof. exact ex_sums. Qed.

(** ** C54 *)
(** Each volume has the sum of the last entry with its name in the stored SFV files; the entries for other files
    are listed in their order. *)
Theorem C54_sums : forall lowf upf l i, srr_ok l -> info lowf upf (ser_srr l) = Ok i ->
  exists es remarks, sfv_files lowf l es remarks /\ i_comments i = remarks /\
  (forall k r, In (k, r) (i_rars i) -> sum_for lowf upf k es (ri_crc r)) /\
  i_sfv i = filter (fun e => if in_dec text_dec (entry_key lowf e) (map fst (i_rars i)) then false else true) es.
Proof. exact sfv_sums_ok. Qed.
Print Assumptions C54_sums.
Example C54_example : exists i, srr_ok srr_sums /\ info lower (fun t => t) (ser_srr srr_sums) = Ok i /\
  map (fun kr => (fst kr, ri_crc (snd kr))) (i_rars i) = [(str "a.rar", Some (str "12345678")); (str "a.r00", None)] /\
  i_sfv i = [mkSfv (str "CD2/b.zip") (str "00000001")] /\ i_comments i = [str "; text"].
Proof. exact ex_sfv. Qed.
