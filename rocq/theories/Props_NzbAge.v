(** C102: NZB files of a certain age. *)
From Verif Require Import Base NzbAge NzbAgeSpec NzbAgeFacts NzbAgeEx.

(** The date of a line is the last one in it. *)
Theorem C102_date : forall line, (forall v, date_in line = Some v <-> dated line v) /\ (date_in line = None <-> no_date line).
Proof. exact date_thm. Qed.
Print Assumptions C102_date.
Example C102_date_example : date_in (str "<file date=""12"" x date=""345"">") = Some 345 /\ date_in (str "<file date=""x"">") = None.
Proof. exact ex_date. Qed.
(** The date of a file is that of its first line with one. *)
Theorem C102_first : forall lines, (forall v, first_date lines = Some v <-> file_date lines v) /\ (first_date lines = None <-> forall l, In l lines -> no_date l).
Proof. exact first_thm. Qed.
Print Assumptions C102_first.
Example C102_first_example : first_date x_old = Some 100.
Proof. exact ex_first. Qed.
(** Without an output folder nothing is changed; the NZB files shown are those with an age between the limits, the bad ones those without date.
    Missing: dates after the year 9999, for which it is false. *)
Theorem C102_show_partial : forall s e now f out, fine f -> let st := main s e now false f out in
  s_exn st = None /\ s_left st = f /\ s_out st = out /\
  (forall n, In (Shown n) (s_lines st) <-> exists c, In (n, c) f /\ wanted s e now n c) /\
  (forall n, In (Bad n) (s_lines st) <-> exists c, In (n, c) f /\ is_nzb n /\ forall l, In l c -> no_date l).
Proof. exact show_thm. Qed.
Print Assumptions C102_show_partial.
Example C102_show_example : fine x_f /\ s_lines (main 2 6 432200 false x_f x_out) = [Shown (str "a.nzb"); Bad (str "c.nzb")].
Proof. exact (conj ex_fine ex_show). Qed.
(** With an output folder just these files are moved to it; all others stay, and nothing else is changed there.  Missing: as above. *)
Theorem C102_move_partial : forall s e now f out, fine f -> NoDup (map fst f) -> let st := main s e now true f out in
  s_exn st = None /\ (forall n c, In (n, c) (s_left st) <-> In (n, c) f /\ ~ wanted s e now n c) /\
  (forall n c, In (n, c) f -> wanted s e now n c -> s_out st n = Some c) /\
  (forall n, (forall c, In (n, c) f -> ~ wanted s e now n c) -> s_out st n = out n).
Proof. exact move_thm. Qed.
Print Assumptions C102_move_partial.
Example C102_move_example : (fine x_f /\ NoDup (map fst x_f)) /\ let s := main 2 6 432200 true x_f x_out in s_out s (str "a.nzb") = Some x_old /\ map fst (s_left s) = [str "b.nzb"; str "c.nzb"; str "d.txt"].
Proof. exact (conj (conj ex_fine ex_nodup) ex_move). Qed.
(** No file of the folder is lost, also when the program stops. *)
Theorem C102_kept : forall s e now mv f out, NoDup (map fst f) -> forall n c, In (n, c) f -> In (n, c) (s_left (main s e now mv f out)) \/ s_out (main s e now mv f out) n = Some c.
Proof. exact kept_thm. Qed.
Print Assumptions C102_kept.
Example C102_kept_example : NoDup (map fst x_f) /\ let s := main 2 6 432200 true x_f x_out in s_out s (str "a.nzb") = Some x_old /\ map fst (s_left s) = [str "b.nzb"; str "c.nzb"; str "d.txt"].
Proof. exact (conj ex_nodup ex_move). Qed.
(** all files are looked at: false, a date after the year 9999 stops the program *)
Theorem C102_far_refuted : exists f, let s := main 2 6 432200 true f x_out in s_exn s = Some ValueError /\ s_left s = f.
Proof. exact (ex_intro _ x_far ex_far). Qed.
Print Assumptions C102_far_refuted.
(** files as old as the limits are among them: false, at 2 days for the limits 2 and 6 the file is not shown *)
Theorem C102_limit_refuted : exists f, s_lines (main 2 6 172900 false f x_out) = [] /\ s_lines (main 2 6 259300 false f x_out) = [Shown (str "a.nzb")].
Proof. exact (ex_intro _ [(str "a.nzb", x_old)] ex_limit). Qed.
Print Assumptions C102_limit_refuted.
(** no file of the output folder is lost: false, one with the same name is overwritten *)
Theorem C102_over_refuted : exists out, out (str "a.nzb") = Some x_new /\ s_out (main 2 6 432200 true x_f out) (str "a.nzb") = Some x_old.
Proof. exact (ex_intro _ (fun q => if teqb q (str "a.nzb") then Some x_new else None) ex_over). Qed.
Print Assumptions C102_over_refuted.
