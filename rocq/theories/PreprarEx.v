(** PreprarEx: installers of RAR 3.93 and others. *)
From Verif Require Import VolName VolSpec VolFacts.
From Verif Require Import Base BaseFacts Rarexe RarexeSpec RarexeFacts Preprar PreprarSpec PreprarFacts.

(** 15 March 2010 *)
Definition p_stamp : N := (30 * 512 + 3 * 32 + 15) * 65536.
Definition p_rar : content := CRar [(str "ReadMe.txt", 0); (str "Rar.exe", p_stamp); (str "rar", 0)].
Definition p_rar64 : content := CRar [(str "Rar.exe", p_stamp)].
Definition p_tar : content := CTar (str "2016-08-15").
Definition p_tag : tag := mkTag 3 93 [].
Definition p_name : text := str "2010-03-15_rar393.exe".
Definition p_list : list (text * content) :=
  [(str "wrar393.exe", p_rar); (str "rarlinux-x64-5.4.0.tar.gz", p_tar); (str "wrar393b1.exe", p_rar); (str "notes.txt", COther)].
Lemma p_digits l : forallb digit l = true -> Forall digit_c l.
Proof. intros H. apply Forall_forall. intros c I. apply digit_spec. rewrite forallb_forall in H. auto. Qed.
Lemma p_letters l : forallb alpha l = true -> Forall letter l.
Proof. intros H. apply Forall_forall. intros c I. apply alpha_spec. rewrite forallb_forall in H. auto. Qed.
Lemma ex_three : three (str "wrar393.exe") p_tag (str ".exe").
Proof.
  exists (str "wrar"), [], 51, 57, 51, []. split; [discriminate|]. split; [apply p_letters; reflexivity|]. split; [now left|]. split; [apply p_digits; reflexivity|].
  split; [now left|]. split; [discriminate|]. split; reflexivity.
Qed.
Lemma ex_three64 : three (str "winrar-x64-393.exe") p_tag (str ".exe").
Proof.
  exists (str "winrar"), (str "-x64-"), 51, 57, 51, []. split; [discriminate|]. split; [apply p_letters; reflexivity|]. split; [now right|]. split; [apply p_digits; reflexivity|].
  split; [now left|]. split; [discriminate|]. split; reflexivity.
Qed.
Lemma p_no_beta : no_beta (str ".exe"). Proof. intros d q E. discriminate E. Qed.
Lemma ex_two : two (str "wrar39b1.exe") (mkTag 3 90 (str "b1")) (str ".exe").
Proof.
  exists (str "wrar"), [], 51, 57, (str "b1"). split; [discriminate|]. split; [apply p_letters; reflexivity|]. split; [now left|]. split; [apply p_digits; reflexivity|].
  split; [right; exists 49; split; [unfold digit_c; lia|reflexivity]|]. split; [discriminate|]. split; reflexivity.
Qed.
Lemma ex_unix : unix (str "rarlinux-x64-5.4.0.tar.gz") (mkTag 5 40 []) [].
Proof.
  exists (str "linux"), (str "x64-"), 53, 52, [46; 48], [], [], 46. split; [right; now left|]. split; [now right|]. split; [unfold digit_c; lia|]. split; [unfold digit_c; lia|].
  split; [right; exists 48; split; [unfold digit_c; lia|reflexivity]|]. split; [now left|]. split; [now left|]. split; reflexivity.
Qed.
Lemma p_not_rar t : mem_text t RAR_NAMES = false -> ~ rar_program t.
Proof. intros H I. apply mem_text_In in I. unfold RAR_NAMES in H. congruence. Qed.
Lemma ex_dated : dated p_rar (str "2010-03-15").
Proof. left. exists [(str "ReadMe.txt", 0)], (str "Rar.exe"), p_stamp, [(str "rar", 0)]. split; [reflexivity|]. split; [now left|]. split; [constructor; [apply p_not_rar; reflexivity|constructor]|reflexivity]. Qed.
Lemma ex_dated64 : dated p_rar64 (str "2010-03-15").
Proof. left. exists [], (str "Rar.exe"), p_stamp, []. split; [reflexivity|]. split; [now left|]. split; [constructor|reflexivity]. Qed.
Lemma p_exe f c v : clear_name f v -> v = p_tag -> (exists files, c = CRar files) -> dated c (str "2010-03-15") -> ends (str ".exe") f = true -> inside_b (str ".sfx") f = false -> forall eb, wanted eb f c p_name.
Proof.
  intros C -> R D E S eb. exists p_tag, (str "2010-03-15"). split; [exact C|]. split; [discriminate|]. split; [now right|]. split; [exact D|]. left. split; [exact R|]. split; [now apply ends_spec|]. split; [|reflexivity].
  intros W. apply sub_spec in W. congruence.
Qed.
Lemma ex_wanted eb : wanted eb (str "wrar393.exe") p_rar p_name.
Proof. apply (p_exe _ _ p_tag); [left; exists (str ".exe"); split; [exact ex_three|intros _; exact p_no_beta]|reflexivity|eexists; reflexivity|exact ex_dated|reflexivity|reflexivity]. Qed.
Lemma ex_wanted64 eb : wanted eb (str "winrar-x64-393.exe") p_rar64 p_name.
Proof. apply (p_exe _ _ p_tag); [left; exists (str ".exe"); split; [exact ex_three64|intros _; exact p_no_beta]|reflexivity|eexists; reflexivity|exact ex_dated64|reflexivity|reflexivity]. Qed.
Lemma p_ok : content_ok p_rar /\ content_ok p_rar64.
Proof. split; cbn [content_ok p_rar p_rar64]; repeat (apply Forall_cons; [vm_compute; reflexivity|]); apply Forall_nil. Qed.
Lemma p_tar_ok : content_ok p_tar.
Proof. exists 2016, 8, 15. repeat split. Qed.
Lemma ex_contents : Forall (fun x => content_ok (snd x)) p_list.
Proof. exact (Forall_cons (str "wrar393.exe", p_rar) (proj1 p_ok) (Forall_cons (_, p_tar) p_tar_ok (Forall_cons (_, p_rar) (proj1 p_ok) (Forall_cons (_, COther) I (Forall_nil _))))). Qed.
Lemma ex_list : extract_all false p_list [] = Ok [(str "2016-08-15_rar540", str "rarlinux-x64-5.4.0.tar.gz"); (p_name, str "wrar393.exe")].
Proof. vm_compute. reflexivity. Qed.
Lemma ex_lost : extract_all false [(str "winrar-x64-393.exe", p_rar64); (str "wrar393.exe", p_rar)] [] = Ok [(p_name, str "wrar393.exe")].
Proof. vm_compute. reflexivity. Qed.
Lemma ex_x32 : extract_all true [(str "rarlinux-x32-623.tar.gz", p_tar)] [] = Ok [].
Proof. vm_compute. reflexivity. Qed.
Lemma ex_stop : extract_all true [(str "wrar500.exe", COther); (str "wrar393.exe", p_rar)] [] = Err ValueError.
Proof. vm_compute. reflexivity. Qed.
