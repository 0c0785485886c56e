(** SFV files: C17, C18. *)
From Verif Require Import Base BaseFacts VolName VolSpec Sfv SfvSpec StreamThms SfvFacts SfvSortFacts.
From Coq Require Import Permutation.

(** C17: every line of any bytes is accounted for *)
Theorem C17_lines : forall data, exists es cs rs ls,
  parse_sfv_data data = Ok (es, cs, rs) /\ lines (map b2n data) ls /\ account ls es cs rs.
Proof. exact sfv_thm. Qed.
Print Assumptions C17_lines.
Theorem C17_rows : forall l, Forall row_ok l ->
  parse_sfv_data (undo (concat (map ser_entry l))) = Ok (l, [], []).
Proof. exact rows_thm. Qed.
Print Assumptions C17_rows.
Example C17_example :
  parse_sfv_data (bstr "; made by x" ++ [x0a; x0d] ++ bstr "a b.rar" ++ [x09] ++ bstr "0aF1 " ++ [x0d; x0a] ++ bstr "no sum here" ++ [x0a])
    = Ok ([mkSfv (str "a b.rar") (str "00000aF1")], [str "; made by x"], [str "no sum here"]) /\
  Forall row_ok [mkSfv (str "a b.rar") (str "0123cdEF"); mkSfv (str "c") (str "00000000")].
Proof. split; [reflexivity|]. repeat apply Forall_cons; try apply Forall_nil; apply row_test; reflexivity. Qed.

(** C18: whatever the order and the repetitions in the SFV file *)
Theorem C18_filter : forall s n l, style_ok s -> N.of_nat n <= vol_limit s -> sfv_of_set s n l ->
  Forall (fun e => Forall hex_char (e_crc e)) l ->
  map e_name (filter_sfv_duplicates l) = vol_names s n /\ incl (filter_sfv_duplicates l) l.
Proof. exact filter_set. Qed.
Print Assumptions C18_filter.
(** the same for any way of sorting with this comparison *)
Theorem C18_any_sort : forall s n l r, style_ok s -> N.of_nat n <= vol_limit s -> sfv_of_set s n l ->
  Forall (fun e => Forall hex_char (e_crc e)) l -> sorting l r ->
  map e_name (drop_dups None r) = vol_names s n /\ incl (drop_dups None r) l.
Proof. exact set_sorted. Qed.
Print Assumptions C18_any_sort.
(** only repeated entries are left out, in any list *)
Theorem C18_nothing_lost : forall l e, In e l -> exists e', In e' (filter_sfv_duplicates l) /\
  same_text (e_name e) (e_name e') /\ same_text (e_crc e) (e_crc e').
Proof. exact filter_all. Qed.
Print Assumptions C18_nothing_lost.
(** exactly one of two different names comes first *)
Theorem C18_total : forall a b,
  (e_name a <> e_name b -> sfv_lt a b = negb (sfv_lt b a)) /\ (e_name a = e_name b -> sfv_lt a b = false).
Proof. exact lt_strict. Qed.
Print Assumptions C18_total.
(** but the comparison is not transitive *)
Theorem C18_cycle_refuted : exists a b c,
  sfv_lt a b = true /\ sfv_lt b c = true /\ sfv_lt c a = true.
Proof.
  exists (mkSfv (str "a.r00") []), (mkSfv (str "a.rab") []), (mkSfv (str "a.rar") []). vm_compute. auto.
Qed.
Print Assumptions C18_cycle_refuted.
(** so that the order in the SFV file can matter *)
Theorem C18_order_refuted : exists l l', Permutation l l' /\
  filter_sfv_duplicates l <> filter_sfv_duplicates l'.
Proof.
  exists [mkSfv (str "a.r00") []; mkSfv (str "a.rab") []; mkSfv (str "a.rar") []], [mkSfv (str "a.rab") []; mkSfv (str "a.rar") []; mkSfv (str "a.r00") []].
  split; [|vm_compute; discriminate].
  apply perm_trans with [mkSfv (str "a.rab") []; mkSfv (str "a.r00") []; mkSfv (str "a.rar") []]; [apply perm_swap|apply perm_skip, perm_swap].
Qed.
Print Assumptions C18_order_refuted.
Example C18_example :
  let l := [mkSfv (str "a.r00") (str "11111111"); mkSfv (str "a.r01") (str "222222ff"); mkSfv (str "a.rar") (str "33333333"); mkSfv (str "a.r01") (str "222222FF")] in
  sfv_of_set (Old (str "a") (str ".rar")) 3 l /\ Forall (fun e => Forall hex_char (e_crc e)) l /\
  map e_name (filter_sfv_duplicates l) = [str "a.rar"; str "a.r00"; str "a.r01"].
Proof.
  cbv zeta. split; [|split; [|reflexivity]].
  - split.
    + intros x. change (vol_names _ 3) with [str "a.rar"; str "a.r00"; str "a.r01"]. cbn [map e_name In]. tauto.
    + intros a b Ha Hb E. cbn [In] in Ha, Hb.
      destruct Ha as [<-|[<-|[<-|[<-|[]]]]]; destruct Hb as [<-|[<-|[<-|[<-|[]]]]]; try reflexivity; discriminate E.
  - repeat (apply Forall_cons; [apply hex_test; reflexivity|]). apply Forall_nil.
Qed.
