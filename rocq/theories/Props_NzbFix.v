(** C77: repairing NZB files. *)
From Verif Require Import Base BaseFacts NzbFix NzbFixSpec NzbFixFacts.

(** What happens to each line, and to the lines together. *)
Theorem C77_line : forall l o, rep l o <-> fix_line l = o.
Proof. exact line_spec. Qed.
Print Assumptions C77_line.
Theorem C77_amps : forall l a b, fix_line l = a ++ x26 :: b -> reference b.
Proof. exact amps. Qed.
Print Assumptions C77_amps.
Theorem C77_file_partial : forall data raw ls, file_lines data raw -> Forall2 rep raw ls ->
  ((forall l, In l ls -> ~ closing l) -> fix_nzb data = concat ls ++ bstr "</nzb>") /\
  (forall a l b, ls = a ++ l :: b -> closing l -> (forall m, In m (a ++ b) -> ~ closing m) -> fix_nzb data = concat ls) /\
  (forall a l b, ls = a ++ l :: l :: b -> closing l -> (forall m, In m (a ++ b) -> ~ closing m) -> fix_nzb data = concat (a ++ l :: b)).
Proof. exact file_spec. Qed.
Print Assumptions C77_file_partial.
Theorem C77_closed : forall data, closing (fix_nzb data).
Proof. exact ends_closed. Qed.
Print Assumptions C77_closed.
(** A file without such faults is not changed. *)
Theorem C77_sound : forall data a l b, file_lines data (a ++ l :: b) -> (forall m, In m (a ++ l :: b) -> sound m) -> closing l ->
  (forall m, In m (a ++ b) -> ~ closing m) -> fix_nzb data = data.
Proof. exact sound_kept. Qed.
Print Assumptions C77_sound.
Example C77_ex : file_lines (bstr "a & &lt;" ++ [x0a] ++ bstr "&ouml;" ++ [x00] ++ bstr "&&#9;</nzb>") [bstr "a & &lt;" ++ [x0a]; bstr "&ouml;" ++ [x00] ++ bstr "&&#9;</nzb>"] /\
  fix_nzb (bstr "a & &lt;" ++ [x0a] ++ bstr "&ouml;" ++ [x00] ++ bstr "&&#9;</nzb>") = bstr "a &amp; &lt;" ++ [x0a; xf6] ++ bstr "&amp;&#9;</nzb>" /\
  fix_nzb (bstr "a" ++ [x0a] ++ bstr "</nzb>" ++ [x0a] ++ bstr "</nzb>" ++ [x0a]) = bstr "a" ++ [x0a] ++ bstr "</nzb>" ++ [x0a] /\
  fix_nzb (bstr "a&gt;") = bstr "a&gt;</nzb>".
Proof. split; [apply (lines_read (bstr "a & &lt;" ++ [x0a] ++ bstr "&ouml;" ++ [x00] ++ bstr "&&#9;</nzb>"))|]. repeat split; vm_compute; reflexivity. Qed.

(** The closing tag twice, at the end of a file without a newline, stays: the lines differ in the newline. *)
Theorem C77_twice_refuted : exists data a b, file_lines data [a; b ++ [x0a]; b] /\ b = bstr "</nzb>" /\ fix_nzb data = data.
Proof.
  exists (bstr "<nzb>" ++ [x0a] ++ bstr "</nzb>" ++ [x0a] ++ bstr "</nzb>"), (bstr "<nzb>" ++ [x0a]), (bstr "</nzb>").
  split; [apply (lines_read (bstr "<nzb>" ++ [x0a] ++ bstr "</nzb>" ++ [x0a] ++ bstr "</nzb>"))|]. split; [reflexivity|vm_compute; reflexivity].
Qed.
Print Assumptions C77_twice_refuted.
(** Three times: only the second is removed. *)
Theorem C77_thrice_refuted : exists data l, file_lines data [l; l; l] /\ closing l /\ fix_nzb data = l ++ l.
Proof.
  exists (bstr "</nzb>" ++ [x0a] ++ bstr "</nzb>" ++ [x0a] ++ bstr "</nzb>" ++ [x0a]), (bstr "</nzb>" ++ [x0a]).
  split; [apply (lines_read (bstr "</nzb>" ++ [x0a] ++ bstr "</nzb>" ++ [x0a] ++ bstr "</nzb>" ++ [x0a]))|]. split; [now exists [], [x0a]|vm_compute; reflexivity].
Qed.
Print Assumptions C77_thrice_refuted.
(** A reference that is good XML is taken for an ampersand, if it has capitals. *)
Theorem C77_hex_refuted : exists n, xml_ref n /\ fix_line (bstr "&" ++ n ++ bstr ";") = bstr "&amp;" ++ n ++ bstr ";".
Proof.
  exists (bstr "#xAB"). split; [|vm_compute; reflexivity]. right. right. exists (bstr "AB"). split; [reflexivity|]. split; [discriminate|].
  repeat (apply Forall_cons; [right; left; unfold all_in; cbn; lia|]). apply Forall_nil.
Qed.
Print Assumptions C77_hex_refuted.
(** For an empty file a closing tag is written, so that the test for empty files is never true and the error of the parser is raised again. *)
Theorem C77_never : forall A (parse : bytes -> result (list A)) data e, parse data = Err e -> read_nzb A parse data = parse (fix_nzb data).
Proof. exact read_fails. Qed.
Print Assumptions C77_never.
Theorem C77_empty_error : forall A (parse : bytes -> result (list A)) e e', parse [] = Err e -> parse (bstr "</nzb>") = Err e' -> read_nzb A parse [] = Err e'.
Proof. intros A parse e e' E E'. rewrite (read_fails A parse [] e E). exact E'. Qed.
Print Assumptions C77_empty_error.
Theorem C77_empty_refuted : exists parse : bytes -> result (list N), (exists e, parse [] = Err e) /\ parse (bstr "<nzb></nzb>") = Ok [] /\ read_nzb N parse [] = Err ValueError.
Proof. exists (fun d => if starts_with Byte.eqb (bstr "<nzb") d then Ok [] else Err ValueError). split; [now exists ValueError|]. split; vm_compute; reflexivity. Qed.
Print Assumptions C77_empty_refuted.
Example C77_sound_ex : let a := bstr "a &lt; &#65;" ++ [x0a] in let l := bstr "</nzb>" in
  file_lines (a ++ l) [a; l] /\ sound a /\ sound l /\ closing l /\ ~ closing a.
Proof.
  cbv zeta. split; [apply (lines_read ((bstr "a &lt; &#65;" ++ [x0a]) ++ bstr "</nzb>"))|]. split; [apply sound_tested; vm_compute; reflexivity|]. split; [apply sound_tested; vm_compute; reflexivity|].
  split; [now exists [], []|]. intros C. apply tag_spec in C. vm_compute in C. discriminate C.
Qed.
