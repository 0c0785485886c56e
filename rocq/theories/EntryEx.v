(** EntryEx: examples for the command srr. *)
From Verif Require Import Base BaseFacts Path PathSpec PathFacts Sfv Dirs DirsSpec Srr Entry EntrySpec EntryFacts.
From Verif Require FsFacts.

Definition x_given : given := mkGiven (Ret tt) OtherError (Ret 10) (Ret [(str "o/a.nfo", true); (str "o/b.sfv", false)]) true (Ret []) (Ret true) true NotFound.
Definition x_only (a : action) : switches :=
  mkSw false false (match a with Verify => true | _ => false end) (match a with Extract => true | _ => false end) (match a with ExtractSome => true | _ => false end) (match a with Store => true | _ => false end).
Lemma ex_status : exit_status (start_of (fun _ => true) false false [str "a.srr"]) (manage (x_only ExtractSome) x_given) OtherError = 0 /\
  exit_status (start_of (fun _ => true) false false [str "a.srr"]) (manage (x_only Extract) x_given) OtherError = 1 /\
  exit_status (start_of (fun _ => true) false false [str "a.srr"]) (manage (x_only Verify) x_given) OtherError = 10 /\
  exit_status (start_of (fun _ => true) false false [str "a.srr"]) (manage (x_only Rebuild) x_given) OtherError = 1 /\
  exit_status (start_of (fun _ => true) false false [str "a.SFV"; str "b.rar"]) (manage (x_only Rebuild) x_given) (Ret 0) = 0.
Proof. repeat split; vm_compute; reflexivity. Qed.
Lemma ex_choose : choose (mkSw false true false true false true) = Details /\ chosen (mkSw false true false true false true) Details.
Proof. split; [reflexivity|]. now apply chosen_is. Qed.
Lemma ex_capital : named ".srr" (str "a.SRR") /\ start_of (fun _ => true) false false [str "a.SRR"] = Create.
Proof. split; [exists (str "a"); vm_compute; reflexivity|vm_compute; reflexivity]. Qed.
Lemma ex_shown : normpath (str "/o/x") = str "/o/x" /\ shown_name (str "/o/x") (str "Sample/a.srs") = str "Sample/a.srs" /\ shown_name (str "o/") (str "a.nfo") = str ".nfo".
Proof. repeat split; vm_compute; reflexivity. Qed.
Lemma ex_name : srr_name (str "/w") [] (str "/r/Rel") true (str "x.sfv") = str "/w/Rel.srr" /\ srr_name (str "/w") (str "out") (str "/r/Rel") false (str "/r/x.sfv") = str "out/x.srr" /\
  srr_name (str "/w") (str "o/y.SRR") (str "/r/Rel") true (str "x.sfv") = str "o/y.SRR".
Proof. repeat split; vm_compute; reflexivity. Qed.
Lemma ex_slash : srr_name (str "/w") [] (str "/r/Rel" ++ [47]) true (str "x.sfv") = str "/w" ++ 47 :: str ".srr".
Proof. vm_compute; reflexivity. Qed.
Lemma ex_shown_bad : PathSpec.below [str "a.nfo"] (str "a.nfo") /\ shown_name (str "o/") (str "a.nfo") <> str "a.nfo".
Proof.
  split; [|vm_compute; discriminate]. apply FsFacts.plain_below. repeat constructor; vm_compute; intuition discriminate.
Qed.
Lemma ex_stop : start_of (fun _ => true) false true [str "a.srr"] = Stop 1 /\ start_of (fun _ => true) false false [str "a.srr"] <> Stop 1.
Proof. split; [reflexivity|vm_compute; discriminate]. Qed.
