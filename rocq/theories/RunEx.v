(** RunEx: examples of runs. *)
From Verif Require Import Base BaseFacts Path Sfv Run RunSpec RunFacts.

Definition x_gen (seen : list text) (r : text) : gen_end :=
  if teqb r (str "/a") then Made else if teqb r (str "/b") then Fails FileNotFound else if teqb r (str "/c") then NotMade else if teqb r (str "/d") then Interrupted else Fails OSError.
Definition x_releases (d : text) : list text := if teqb d (str "/x") then [str "/a"; str "/b"] else if teqb d (str "/y") then [str "/c"; str "/a"] else [str "/a"].
Lemma ex_through : works (fun d => d) x_releases true [str "/x"; str "/y"] [str "/a"; str "/b"; str "/c"; str "/a"] /\ through x_gen [] [str "/a"; str "/b"; str "/c"; str "/a"] [str "/b"; str "/c"] /\
  main_run x_gen (fun d => d) x_releases true [str "/x"; str "/y"] = mkReport (Ok 1) [str "/a"; str "/b"; str "/c"; str "/a"] [str "/b"; str "/c"] true.
Proof.
  split; [|split; [|reflexivity]].
  { exact (wk_below _ x_releases (str "/x") _ _ (wk_below _ x_releases (str "/y") _ _ (wk_end _ x_releases true))). }
  apply th_made; [reflexivity|]. apply th_not; [now right|]. apply th_not; [now left|]. apply th_made; [reflexivity|]. constructor.
Qed.
Lemma ex_ok : r_status (main_run x_gen (fun d => d) x_releases true [str "/z"; str "/z"]) = Ok 0 /\ r_status (main_run x_gen (fun d => d) x_releases false [str "/d"; str "/a"]) = Ok 1 /\
  works (fun d => d) x_releases false [str "/d"; str "/a"] [str "/d"; str "/a"].
Proof. repeat split. exact (wk_single _ x_releases (str "/d") _ _ (wk_single _ x_releases (str "/a") _ _ (wk_end _ x_releases false))). Qed.
Lemma ex_raised : main_run x_gen (fun d => d) x_releases true [str "/x"; str "/z"] = mkReport (Ok 1) [str "/a"; str "/b"; str "/a"] [str "/b"] true /\
  main_run x_gen (fun d => d) x_releases false [str "/c"; str "/e"] = mkReport (Err OSError) [str "/c"; str "/e"] [] false.
Proof. now split. Qed.
Lemma ex_single : main_run x_gen (fun d => d) x_releases false [str "/b"; str "/a"] = mkReport (Err FileNotFound) [str "/b"] [] false.
Proof. reflexivity. Qed.
Lemma ex_answers : says true [str "what"; str "Y"] /\ says false [str "yes"; str "n"; str "y"] /\ can_overwrite false false true [str "yes"; str "n"; str "y"] = Ok false.
Proof.
  split; [|split; [|reflexivity]].
  - exists [str "what"], (str "Y"), []. split; [reflexivity|]. split; [reflexivity|]. constructor; [split; discriminate|constructor].
  - exists [str "yes"], (str "n"), [str "y"]. split; [reflexivity|]. split; [reflexivity|]. constructor; [split; discriminate|constructor].
Qed.
Lemma ex_dir : says false [str "n"] /\ output_dir false false false [str "n"] = Ok (Some true).
Proof. split; [|reflexivity]. exists [], (str "n"), []. split; [reflexivity|]. split; [reflexivity|constructor]. Qed.
Lemma ex_output : output_dir false false true [str "x"; str "N"] = Ok (Some false) /\ output_dir false true false [] = Ok None /\ output_dir true false true [] = Ok (Some true).
Proof. repeat split. Qed.
