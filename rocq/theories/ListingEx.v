(** ListingEx: examples of listed releases. *)
From Verif Require Import Base BaseFacts Path PathSpec PathFacts Sfv Dirs FixSpec Listing ListingSpec ListingFacts.

(** /a has an NFO file and a sample, /b has neither, in /c the sample is a file, in /d there are two folders for samples *)
Definition x_listdir (d : text) : result (list text) :=
  if teqb d (str "/p/a") then Ok [str "x.NFO"; str "Sample"]
  else if teqb d (str "/p/a/Sample") then Ok [str "x.MKV"]
  else if teqb d (str "/p/b") then Ok [str "x.rar"; str "sample"]
  else if teqb d (str "/p/b/sample") then Ok [str "x.srs"]
  else if teqb d (str "/p/c") then Ok [str "x.nfo"; str "SAMPLE"]
  else if teqb d (str "/p/d") then Ok [str "Sample"; str "sample"]
  else if teqb d (str "/p/d/Sample") then Ok []
  else if teqb d (str "/p/d/sample") then Ok [str "x.avi"]
  else Err OSError.
Lemma x_names d l : x_listdir d = Ok l -> Forall plain l /\ Forall one_line l.
Proof.
  unfold x_listdir. intros H. repeat (destruct (teqb _ _) in H; [injection H as <-; split; repeat constructor; vm_compute; intuition discriminate|]). discriminate H.
Qed.
Lemma ex_list : list_all x_listdir (mkList true true true false) [str "/p/a"; str "/p/b"] = Ok [str "a"; str "b"; str "b"; str "b"] /\
  list_all x_listdir (mkList false false true true) [str "/p/a"; str "/p/b"] = Ok [str "/p/b"].
Proof. split; vm_compute; reflexivity. Qed.
Lemma ex_video : vidext (str "x.MKV") = true /\ video_name (str "x.MKV") /\ vidext (str "x.srs") = false.
Proof.
  split; [vm_compute; reflexivity|]. split; [|vm_compute; reflexivity]. exists (str "x"), 46, "mkv"%string. split; [vm_compute; reflexivity|]. cbn; tauto.
Qed.
Lemma ex_dot : vidext (str "charts") = true /\ ~ In 46 (str "charts").
Proof. split; vm_compute; [reflexivity|intuition discriminate]. Qed.
Lemma ex_file : x_listdir (str "/p/c") = Ok [str "x.nfo"; str "SAMPLE"] /\ list_all x_listdir (mkList false false true false) [str "/p/b"; str "/p/c"] = Err OSError.
Proof. split; vm_compute; reflexivity. Qed.
Lemma ex_two : x_listdir (str "/p/d") = Ok [str "Sample"; str "sample"] /\ x_listdir (str "/p/d/sample") = Ok [str "x.avi"] /\ list_all x_listdir (mkList false false true false) [str "/p/d"] = Ok [str "d"].
Proof. repeat split; vm_compute; reflexivity. Qed.
Lemma ex_total : forall r, In r [str "/p/a"; str "/p/b"] -> exists l, x_listdir r = Ok l /\ forall d, In d l -> lower d = str "sample" -> exists fs, x_listdir (in_folder r d) = Ok fs.
Proof.
  intros r [<-|[<-|[]]]; eexists; (split; [vm_compute; reflexivity|]); intros d [<-|[<-|[]]] H; try (vm_compute in H; discriminate H); eexists; vm_compute; reflexivity.
Qed.
