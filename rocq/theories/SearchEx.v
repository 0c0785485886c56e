(** SearchEx: examples of the search of RAR executables. *)
From Coq Require Import Sorted.
From Verif Require Import VolName VolSpec.
From Verif Require Import Base BaseFacts Path Flags FlagsSpec Rarexe RarexeSpec Search SearchSpec SearchFacts.

Definition e1 : exe := mkExe (str "2006-03-29_rar360b1.exe") (str "2006-03-29") 3 60.
Definition e2 : exe := mkExe (str "2013-09-01_rar500.exe") (str "2013-09-01") 5 0.
(** the characters behind each _rar *)
Fixpoint marks (t : text) : list N :=
  match t with
  | [] => []
  | _ :: t' => (if starts_with N.eqb (str "_rar") t then match skipn 4 t with c :: _ => [c] | [] => [] end else []) ++ marks t'
  end.
Lemma marks_in p : forall v r, In v (marks (p ++ str "_rar" ++ v :: r)).
Proof.
  induction p as [|c p IH]; intros v r; [cbn; now left|]. cbn [app marks]. apply in_or_app. right. exact (IH v r).
Qed.
Lemma marks_ok folder e p r : pjoin folder (x_file e) = p ++ str "_rar" ++ (48 + x_major e) :: r -> marks (pjoin folder (x_file e)) = [48 + x_major e] -> marked folder e.
Proof.
  intros H M. exists p, r. split; [exact H|]. intros p' v' r' E. pose proof (marks_in p' v' r') as I. rewrite <- E, M in I. destruct I as [I|[]]. now symmetry.
Qed.
Lemma marked1 : marked (str "/rar") e1.
Proof. apply (marks_ok _ _ (str "/rar/2006-03-29") (str "60b1.exe")); vm_compute; reflexivity. Qed.
Lemma marked2 : marked (str "/rar") e2.
Proof. apply (marks_ok _ _ (str "/rar/2013-09-01") (str "00.exe")); vm_compute; reflexivity. Qed.
Definition s1 : mt := mkMt [] 0 2.
Definition sup (e : exe) : bool := x_major e =? 5.
Definition cmd2 : list text := map str ["/rar/2013-09-01_rar500.exe"; "a"; "-m3"; "-mdG"; "-s-"; "-ds"; "-mt2"; "-vn"; "-ma4"; "-o+"; "-ep"; "-idcd"; "-v600b"; "o.rar"; "before"; "piece"]%string.
Definition beq (a b : list text) : bool := (fix go a b := match a, b with [] , [] => true | x :: a, y :: b => teqb x y && go a b | _, _ => false end) a b.
Definition found2 : rargs := mkArgs (str "-m3") (str "-mdG") (str "-s-") (Some 2%Z) (str "-vn") (str "-ma4") (Some 600) (str "o.rar") [str "before"] [str "piece"] [].
Lemma ex_search : Forall (fun e => marked (str "/rar") e /\ x_minor e < 100) [e1; e2] /\
  job_of 0x33 0xC0 600 (str "o.rar") (mkJob 3 (str "-mdG") false (Some 600) (str "o.rar")) /\
  file_before [(str "q", str "after"); (str "p", str "before")] (Some (str "p")) (Some (str "before")) /\
  search (str "/rar") sup (beq cmd2) s1 [e2] [e1; e2] false 0x33 0xC0 (str "o.rar") (str "src") (str "piece") 600 [] [(str "q", str "after"); (str "p", str "before")] (Some (str "p")) =
    Ok (Some (e2, found2)).
Proof.
  split; [repeat constructor; [exact marked1|exact marked2]|]. split.
  { repeat split; try lia; try discriminate. right. split; [lia|reflexivity]. }
  split; [right; exists [(str "q", str "after")], (str "before"), []; split; [reflexivity|split; [repeat constructor; discriminate|reflexivity]]|]. vm_compute. reflexivity.
Qed.
Lemma ex_cmd : exe_path (str "/rar") e2 :: arglist found2 = cmd2.
Proof. vm_compute. reflexivity. Qed.
(** the next file is only used with the first executable *)
Definition with_next (c : list text) : bool := match rev c with n :: p :: _ => teqb n (str "next") && teqb p (str "piece") && teqb (hd [] c) (str "/rar/2013-09-01_rar500.exe") | _ => false end.
Definition job1 : job := mkJob 3 (str "-mdG") false None (str "o.rar").
Lemma ex_more : search (str "/rar") (fun _ => false) with_next s1 [e2] [e1; e2] false 0x33 0xC0 (str "o.rar") (str "src") (str "piece") 0 [str "next"] [] None = Ok None.
Proof. vm_compute. reflexivity. Qed.
Lemma ex_more_cmd : exists c, command (str "/rar") job1 (mkAtt e2 None [str "piece"; str "next"]) c /\ with_next c = true.
Proof.
  exists (map str ["/rar/2013-09-01_rar500.exe"; "a"; "-m3"; "-mdG"; "-s-"; "-ds"; "-vn"; "-ma4"; "-o+"; "-ep"; "-idcd"; "o.rar"; "piece"; "next"]%string).
  split; [|vm_compute; reflexivity]. exists (str "3"), [], []. split; [right; exists 1%nat; repeat split; vm_compute; congruence|]. repeat split; vm_compute; reflexivity.
Qed.
Lemma ex_missing : search (str "/rar") (fun _ => false) (fun _ => false) s1 [e2] [e1; e2] false 0x33 0xC0 (str "o.rar") (str "src") (str "piece") 0 [] [(str "q", str "x")] (Some (str "p")) = Err KeyError.
Proof. vm_compute. reflexivity. Qed.
(** the folder of the executables is named after a version *)
Definition no_ma4 (c : list text) : bool := negb (mem_text (str "-ma4") c).
Lemma ex_folder : search (str "/all_rar500") (fun _ => false) no_ma4 s1 [e1] [e1] false 0x33 0xC0 (str "o.rar") (str "src") (str "piece") 0 [] [] None = Ok None.
Proof. vm_compute. reflexivity. Qed.
Lemma ex_job : job_of 0x33 0xC0 0 (str "o.rar") job1.
Proof. repeat split; try lia; try discriminate. left. split; reflexivity. Qed.
Lemma ex_old : search (str "/rar") (fun _ => false) (fun _ => true) s1 [e1] [e1] true 0x33 0xC0 (str "o.rar") (str "src") (str "piece") 0 [] [] None = Err UnboundLocal.
Proof. vm_compute. reflexivity. Qed.
