(** NzbAgeEx: examples of the age of NZB files. *)
From Verif Require Import Base BaseFacts NzbAge NzbAgeSpec NzbAgeFacts.

Definition d_line (ds : text) : text := str "<file date=""" ++ ds ++ [34; 62; 10].
Definition x_old : list text := [str "<nzb>"; d_line (str "100"); d_line (str "999999")].
Definition x_new : list text := [d_line (str "400000")].
Definition x_f : folder := [(str "a.nzb", x_old); (str "b.nzb", x_new); (str "c.nzb", [str "date"]); (str "d.txt", x_old)].
Definition x_out : text -> option (list text) := fun _ => None.

Lemma ex_date : date_in (str "<file date=""12"" x date=""345"">") = Some 345 /\ date_in (str "<file date=""x"">") = None.
Proof. split; vm_compute; reflexivity. Qed.
Lemma ex_first : first_date x_old = Some 100.
Proof. vm_compute. reflexivity. Qed.
Lemma ex_fine : fine x_f.
Proof.
  intros n c d I _ F. apply first_thm in F. destruct I as [I|[I|[I|[I|[]]]]]; apply pair_equal_spec in I; destruct I as [_ <-]; vm_compute in F; try discriminate F; injection F as <-; vm_compute; discriminate.
Qed.
Lemma ex_show : s_lines (main 2 6 432200 false x_f x_out) = [Shown (str "a.nzb"); Bad (str "c.nzb")].
Proof. vm_compute. reflexivity. Qed.
Lemma ex_nodup : NoDup (map fst x_f).
Proof. vm_compute. repeat (constructor; [cbn; intuition discriminate|]). constructor. Qed.
Lemma ex_move : let s := main 2 6 432200 true x_f x_out in s_out s (str "a.nzb") = Some x_old /\ map fst (s_left s) = [str "b.nzb"; str "c.nzb"; str "d.txt"].
Proof. cbv zeta. split; vm_compute; reflexivity. Qed.
(** a date after the year 9999 *)
Definition x_far : folder := [(str "a.nzb", [d_line (str "253402300800")]); (str "b.nzb", x_old)].
Lemma ex_far : let s := main 2 6 432200 true x_far x_out in s_exn s = Some ValueError /\ s_left s = x_far.
Proof. cbv zeta. split; vm_compute; reflexivity. Qed.
(** just the number of days given *)
Lemma ex_limit : s_lines (main 2 6 172900 false [(str "a.nzb", x_old)] x_out) = [] /\ s_lines (main 2 6 259300 false [(str "a.nzb", x_old)] x_out) = [Shown (str "a.nzb")].
Proof. split; vm_compute; reflexivity. Qed.
Lemma ex_over : let out := fun q => if teqb q (str "a.nzb") then Some x_new else None in out (str "a.nzb") = Some x_new /\ s_out (main 2 6 432200 true x_f out) (str "a.nzb") = Some x_old.
Proof. cbv zeta. split; vm_compute; reflexivity. Qed.
