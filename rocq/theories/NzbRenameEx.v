(** NzbRenameEx: examples of renaming NZB files. *)
From Verif Require Import Base BaseFacts NzbRename NzbRenameSpec NzbRenameFacts.

Definition x_mp3 : content := Files [mkFile (str "a.nfo") []; mkFile (str "01-a.mp3") (str "VA-Rel-2001-GRP"); mkFile (str "02-a.mp3") (str "Other")].
Definition x_mkv : content := Files [mkFile (str "a.mkv") (str "Rel-GRP"); mkFile (str "a.rar") (str "Longer.Rel-GRP")].
Definition x_dir : folder := fun n => if teqb n (str "1.nzb") then Some x_mp3 else if teqb n (str "2.nzb") then Some x_mkv else if teqb n (str "t.txt") then Some (Stuff 1) else None.
Definition x_names : list text := [str "2.nzb"; str "t.txt"; str "1.nzb"].
Definition x_none : bool -> folder := fun _ _ => None.
Definition at_ (s : state) (g : bool) (n : text) : option content := match s_out s g with IsDir d => d n | _ => None end.

Lemma ex_about : process [mkFile (str "a.nfo") []; mkFile (str "01-a.mp3") (str "VA-Rel-2001-GRP"); mkFile (str "02-a.mp3") (str "Other")] [] = (str "VA-Rel-2001-GRP", true).
Proof. vm_compute. reflexivity. Qed.
Lemma ex_main : let s := main None x_names x_dir in at_ s true (str "VA-Rel-2001-GRP.nzb") = Some x_mp3 /\ at_ s false (str "Rel-GRP.nzb") = Some x_mkv /\ s_in s (str "1.nzb") = None /\ s_in s (str "t.txt") = Some (Stuff 1).
Proof. cbv zeta. split; [|split; [|split]]; vm_compute; reflexivity. Qed.
Lemma ex_goes n g t c : In n x_names -> goes x_dir n g t c -> (n = str "2.nzb" /\ g = false /\ t = str "Rel-GRP.nzb") \/ (n = str "1.nzb" /\ g = true /\ t = str "VA-Rel-2001-GRP.nzb").
Proof.
  intros I (_ & l & x & D & -> & P & _ & ->). apply about_thm in P. destruct I as [<-|[<-|[<-|[]]]]; vm_compute in D; try discriminate D; injection D as <-; vm_compute in P; injection P as <- <-; [left|right]; repeat split.
Qed.
Lemma ex_free : (forall g, make_dirs None g = IsDir (x_none g)) /\ free x_names x_dir x_none.
Proof.
  split; [reflexivity|]. split; [repeat (constructor; [cbn; intuition discriminate|]); constructor|]. split; [|split].
  - intros n l x g I _ D P. apply about_thm in P. destruct I as [<-|[<-|[<-|[]]]]; vm_compute in D; try discriminate D; injection D as <-; vm_compute in P; injection P as <- <-; rewrite <- slash_is; vm_compute; discriminate.
  - intros n g t c _ _. split; reflexivity.
  - intros n m g t t' c c' I J N0 G1 G2. apply ex_goes in G1; [|exact I]. apply ex_goes in G2; [|exact J]. destruct G1 as [(-> & -> & ->)|(-> & -> & ->)], G2 as [(-> & X & ->)|(-> & X & ->)]; try discriminate X; now destruct N0.
Qed.
(** two NZB files of the same release *)
Definition x_two : folder := fun n => if teqb n (str "1.nzb") then Some (Files [mkFile (str "a.rar") (str "Rel-GRP")]) else if teqb n (str "2.nzb") then Some x_mkv else None.
Lemma ex_two : let s := main None [str "1.nzb"; str "2.nzb"] x_two in at_ s false (str "Rel-GRP.nzb") = Some x_mkv /\ s_in s (str "1.nzb") = None /\ at_ s false (str "1.nzb") = None.
Proof. cbv zeta. split; [|split]; vm_compute; reflexivity. Qed.
(** the folder processed is there, but not the folders in it *)
Lemma ex_file : s_out (main (Some (fun _ => NotThere)) [str "1.nzb"; str "2.nzb"] x_two) false = IsFile x_mkv /\ s_in (main (Some (fun _ => NotThere)) [str "1.nzb"; str "2.nzb"] x_two) (str "1.nzb") = None.
Proof. split; vm_compute; reflexivity. Qed.
Lemma ex_capital : process [mkFile (str "01-A.MP3") (str "VA-Rel-2001-GRP")] [] = (str "VA-Rel-2001-GRP", false).
Proof. vm_compute. reflexivity. Qed.
Lemma ex_empty : let s := main None [str "1.nzb"] (fun n => if teqb n (str "1.nzb") then Some (Files []) else None) in at_ s false (str ".nzb") = Some (Files []) /\ s_in s (str "1.nzb") = None.
Proof. cbv zeta. split; vm_compute; reflexivity. Qed.
