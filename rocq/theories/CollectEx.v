(** CollectEx: examples for the volumes of sets. *)
From Verif Require Import VolName VolSpec.
From Verif Require Import Base BaseFacts Path Rar Srr SrrFacts Sfv SfvSpec Stream Collect CollectSpec CollectFacts.

(** a RAR file without files: the marker and the archive header with some flags *)
Definition rar_of (flags : byte) : bytes := bstr "Rar!" ++ [x1a; x07; x00] ++ [x00; x00; x73; flags; x00; x0d; x00; x00; x00; x00; x00; x00; x00].
Definition s_old : style := Old (str "x") (str ".rar").
Definition f_old : fs := [(str "x.r00", rar_of x01); (str "x.rar", rar_of x01); (str "y.rar", rar_of x01)].
Definition s_new : style := New (str "x") (str ".part") (str ".rar") 1.
Definition f_new : fs := [(str "x.part2.rar", rar_of x11); (str "x.part1.rar", rar_of x11); (str "x.part3.rar", rar_of x11)].
Lemma ex_old : handle_rar f_old (str "x.rar") = Ok [str "x.rar"; str "x.r00"].
Proof. vm_compute. reflexivity. Qed.
Lemma ex_new : handle_rar f_new (str "x.part1.rar") = Ok [str "x.part1.rar"; str "x.part2.rar"; str "x.part3.rar"].
Proof. vm_compute. reflexivity. Qed.
Lemma ex_first_n : style_ok s_old /\ first_n f_old s_old 2.
Proof.
  split; [vm_compute; repeat constructor; auto|]. split; [|vm_compute; congruence]. intros i Hi. destruct i as [|[|i]]; [vm_compute; discriminate|vm_compute; discriminate|lia].
Qed.
Definition ex_blocks : list block := match read_all (rar_of x01) with Ok bs => bs | Err _ => [] end.
Lemma ex_reads : read_all (rar_of x01) = Ok ex_blocks /\ length ex_blocks = 2%nat /\ numbering ex_blocks true.
Proof.
  split; [vm_compute; reflexivity|]. split; [vm_compute; reflexivity|]. left. exists (firstn 1 ex_blocks), (nth 1 ex_blocks (mkBlock 0 0 0 0 0 0 [] KPlain)), []. split; [vm_compute; reflexivity|].
  split; [vm_compute; split; reflexivity|]. split; [constructor|vm_compute; reflexivity].
Qed.
Lemma ex_kinds : forall b, In b ex_blocks -> b_type b = T_RarVolume -> exists x y, b_kind b = KVolume x y.
Proof. intros b [<-|[<-|[]]] H; [vm_compute in H; discriminate H|]. vm_compute. eauto. Qed.
Lemma ex_style : forall base, ~ like_part base -> told (Old base (str ".rar")) false.
Proof. intros base H. now right. Qed.
(** an SFV file *)
Definition nl : bytes := [x0a].
Definition d_sfv : bytes := bstr "x.r00 00000001" ++ nl ++ bstr "x.nfo 00000002" ++ nl ++ bstr "x.rar 00000003" ++ nl.
Definition d_set : bytes := bstr "x.r00 00000001" ++ nl ++ bstr "x.rar 00000003" ++ nl.
Definition f_sfv : fs := [(str "d/x.SFV", d_set); (str "a.sfv", d_sfv)].
Lemma ex_sfv : handle_sfv f_sfv (str "a.sfv") = Ok [str "x.rar"; str "x.r00"].
Proof. vm_compute. reflexivity. Qed.
Lemma ex_collect : collect f_sfv [str "d/x.SFV"; str "a.sfv"] = Ok [str "d/x.rar"; str "d/x.r00"; str "x.rar"; str "x.r00"].
Proof. vm_compute. reflexivity. Qed.
Lemma ex_sfv_for : sfv_for f_sfv (str "d/x.SFV") (s_old, 2%nat).
Proof.
  split; [exists (str "d/x"), (str ".SFV"); split; [reflexivity|apply Forall2_cons; [now left|]; do 3 (apply Forall2_cons; [right; vm_compute; repeat split; discriminate|]); constructor]|]. split; [apply ex_first_n|]. split; [cbn; lia|]. split; [vm_compute; discriminate|].
  exists d_set, (match parse_sfv_data d_set with Ok (es, _, _) => es | Err _ => [] end), [], []. split; [vm_compute; reflexivity|]. split; [vm_compute; reflexivity|]. split.
  - intros x. change (vol_names (fst (s_old, 2%nat)) (snd (s_old, 2%nat))) with [str "x.rar"; str "x.r00"]. match goal with |- _ <-> In x ?l => change l with [str "x.r00"; str "x.rar"] end. cbn [In]. tauto.
  - intros a b A B. vm_compute in A, B. destruct A as [<-|[<-|[]]], B as [<-|[<-|[]]]; intros H; try reflexivity; vm_compute in H; discriminate H.
Qed.
(** what goes wrong *)
Definition f_gap : fs := [(str "x.rar", rar_of x01); (str "x.r01", rar_of x01)].
Lemma ex_gap : handle_rar f_gap (str "x.rar") = Ok [str "x.rar"].
Proof. vm_compute. reflexivity. Qed.
Definition f_case : fs := [(str "X.RAR", rar_of x01); (str "X.R00", rar_of x01)].
Lemma ex_case : handle_rar f_case (str "X.RAR") = Ok [str "X.RAR"].
Proof. vm_compute. reflexivity. Qed.
Lemma ex_second : handle_rar f_new (str "x.part2.rar") = Ok [str "x.part2.rar"; str "x.part3.rar"].
Proof. vm_compute. reflexivity. Qed.
Definition d_twice : bytes := bstr "x.rar 00000001" ++ nl ++ bstr "x.rar 00000002" ++ nl.
Lemma ex_twice : handle_sfv [(str "a.sfv", d_twice)] (str "a.sfv") = Ok [str "x.rar"; str "x.rar"].
Proof. vm_compute. reflexivity. Qed.
Definition d_short : bytes := bstr "Rar!" ++ [x1a; x07; x00] ++ [x00; x00; x73; x01; x00; x1d; x00; x00; x00; x00; x00; x00; x00].
Lemma ex_short : read_all d_short = Err EnvironmentError /\ handle_rar [(str "x.rar", d_short)] (str "x.rar") = Err AttributeError.
Proof. split; vm_compute; reflexivity. Qed.
Lemma ex_same : same_text (str "X.RAR") (str "x.rar") /\ same_text (str "X.R00") (str "x.r00").
Proof. split; [change (same_text [88; 46; 82; 65; 82] [120; 46; 114; 97; 114])|change (same_text [88; 46; 82; 48; 48] [120; 46; 114; 48; 48])]; unfold same_text; repeat (apply Forall2_cons; [unfold same_letter, capital; lia|]); apply Forall2_nil. Qed.
