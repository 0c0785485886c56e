(** VerifyEx: samples for the check of extracted files. *)
From Verif Require Import Base BaseFacts Path PathSpec Crc CrcSpec CrcFacts RarSpec ReadSpec SrrSpec Srr Info ListSpec Samples Verify VerifySpec.

Definition vvol (fs : list (string * N * N)) : volume := mkVolume
  ((AHEAD, []) :: map (fun f => let '(n, s, c) := f in (HFile (FHEAD 0 n s c) s, repN s x61)) fs ++ [(ENDHEAD, [])]) [].
Definition vsrr (fs : list (string * N * N)) : list sitem := app_item (str "ReScene .NET 1.2") :: vol_items (str "a.rar") (vvol fs).
Definition four : list (string * N * N) := [("d\a.txt", 3, 0x352441C2); ("e.bin", 9, 7); ("b.avi", 2, 0x7D90298B); ("c.txt", 3, 5)]%string.
Definition vdisk (files : list (string * bytes)) (p : text) : option entry :=
  match find (fun f => teqb (str (fst f)) p) files with Some f => Some (EFile (snd f)) | None => None end.
Definition disk4 := vdisk [("out/d/a.txt", bstr "abc"); ("out/c.txt", bstr "abd"); ("out/d/x.avi", bstr "de"); ("out/d/y.avi", bstr "ab")]%string.
Definition walk4 : list (text * list text) := [(str "out", [str "c.txt"]); (str "out/d", [str "y.avi"; str "x.avi"; str "a.txt"])].
Lemma four_ok : srr_ok (vsrr four).
Proof.
  split; [|split; [|split]].
  - unfold vsrr, app_item. eauto 8.
  - ok.
  - vm_compute. repeat split; intros; discriminate.
  - ok.
Qed.
Lemma recorded_in l n c : recorded l n c -> In n (map (fun p => h_text (fst p)) (parts l)).
Proof.
  intros (p & q & E & _). assert (I : In p (of_name n (parts l))) by (rewrite E; now left). apply filter_In in I as [I D].
  destruct (text_dec (h_text (fst p)) n) as [<-|]; [|discriminate]. exact (in_map (fun p => h_text (fst p)) _ _ I).
Qed.
Ltac no_in := let H := fresh in intros H; vm_compute in H; repeat (destruct H as [H|H]; [discriminate|]); exact H.
Ltac plain_name := split; [discriminate|]; split; [discriminate|]; split; [discriminate|no_in].
Lemma plain_path n : plain n -> ~ In 92 n -> srr_path n n.
Proof.
  intros P N. exists [n]. split; [|split; [discriminate|split; [now constructor|]]]; constructor; [|].
  - intros s [<-|[<-|[]]]; [apply P|exact N].
  - intros s [<-|[]]; apply P.
Qed.
Lemma ext_lit p a b c : dotted p a b c -> literal (46 :: c) -> forall e, ext_of p e -> literal e.
Proof.
  intros D L e [a' b' c' D'|N]; [|exfalso; exact (N _ _ _ D)].
  replace c' with c; [exact L|].
  destruct D as (-> & A & B & C & E & X), D' as (Y & A' & B' & C' & E' & X').
  apply (f_equal (@rev _)) in Y. rewrite !rev_app_distr in Y. cbn [rev] in Y. rewrite <- !app_assoc in Y. cbn [app] in Y.
  assert (G : forall (u v x y : text), ~ In 46 u -> ~ In 46 v -> u ++ 46 :: x = v ++ 46 :: y -> u = v).
  { clear. induction u as [|h u IH]; intros [|k v] x y N1 N2 H; [reflexivity| | |].
    - injection H as H _. exfalso. apply N2. now left.
    - injection H as H _. exfalso. apply N1. now left.
    - injection H as -> H. f_equal. apply (IH v x y); [intros Z; apply N1; now right|intros Z; apply N2; now right|exact H]. }
  apply G in Y; [|now rewrite <- in_rev|now rewrite <- in_rev]. apply (f_equal (@rev _)) in Y. now rewrite !rev_involutive in Y.
Qed.
Lemma says_one (h : fhead) s : h_unpacked h = s -> said s -> says [(h, s)] s.
Proof.
  intros H S. apply (say_head _ _ [] [(h, s)]); [reflexivity|discriminate|exact S|constructor|]. constructor; [exact H|constructor].
Qed.
Ltac dots a b c := apply (ext_lit _ a b c); [split; [reflexivity|]; split; [first [left; reflexivity | right; exists (removelast a); reflexivity]|]; split; [no_in|]; split; [no_in|]; split; [no_in|]; left; vm_compute; discriminate
  | repeat (apply Forall_cons; [no_in|]); apply Forall_nil].
Ltac sized := lazymatch goal with |- says ?x ?s => let y := eval hnf in x in change x with y; vm_compute end; apply says_one; [reflexivity|split; discriminate].
Lemma ex_four : exists i, srr_ok (vsrr four) /\ info lower (fun t => t) (ser_srr (vsrr four)) = Ok i /\ parts (vsrr four) <> [] /\
  walk_ok disk4 walk4 /\ (forall n c, recorded (vsrr four) n c -> checkable disk4 true (str "out") (vsrr four) n) /\
  verify disk4 walk4 lower (fun t => t) (ser_srr (vsrr four)) (str "out") true = Ok 1 /\
  map (fun n => verify disk4 walk4 lower (fun t => t) (ser_srr (vsrr (firstn n four))) (str "out") true) [1; 2; 3]%nat = [Ok 0; Ok 2; Ok 2] /\
  verify disk4 walk4 lower (fun t => t) (ser_srr (vsrr (skipn 2 (firstn 3 four)))) (str "out") true = Ok 0.
Proof.
  eexists. split; [exact four_ok|]. split; [vm_compute; reflexivity|]. split; [vm_compute; discriminate|]. split; [|split; [|split; [|split]]].
  - unfold walk_ok, walk4. repeat (apply Forall_cons || apply Forall_nil); (split; [plain_name|eexists; vm_compute; reflexivity]).
  - intros n c R. apply recorded_in in R. change (map _ _) with [str "d\a.txt"; str "e.bin"; str "b.avi"; str "c.txt"] in R. destruct R as [<-|[<-|[<-|[<-|[]]]]].
    + exists (str "d/a.txt"). split; [|split; [vm_compute; discriminate|]].
      * exists [str "d"; str "a.txt"]. split; [|split; [discriminate|split]].
        -- apply (joined_more _ (str "d") 92 [str "a.txt"] (str "a.txt")); [intros s [<-|[<-|[]]]; no_in|now right; left|]. constructor. intros s [<-|[<-|[]]]; no_in.
        -- constructor; [plain_name|]. constructor; [plain_name|constructor].
        -- apply (joined_more _ (str "d") 47 [str "a.txt"] (str "a.txt")); [intros s [<-|[]]; no_in|now left|]. constructor. intros s [<-|[]]; no_in.
      * intros _. split; [exists 3; sized|]. dots (str "d/") (str "a") (str "txt").
    + exists (str "e.bin"). split; [apply plain_path; [plain_name|no_in]|]. split; [vm_compute; discriminate|]. intros _. split; [exists 9; sized|]. dots (@nil N) (str "e") (str "bin").
    + exists (str "b.avi"). split; [apply plain_path; [plain_name|no_in]|]. split; [vm_compute; discriminate|]. intros _. split; [exists 2; sized|]. dots (@nil N) (str "b") (str "avi").
    + exists (str "c.txt"). split; [apply plain_path; [plain_name|no_in]|]. split; [vm_compute; discriminate|]. intros _. split; [exists 3; sized|]. dots (@nil N) (str "c") (str "txt").
  - vm_compute. reflexivity.
  - vm_compute. reflexivity.
  - vm_compute. reflexivity.
Qed.
Definition music : list sitem := [app_item []; stored_item (str "01-a.nfo", bstr "a")].
Lemma ex_music : exists i, srr_ok music /\ info lower (fun t => t) (ser_srr music) = Ok i /\ parts music = [].
Proof.
  eexists. split; [|split; [vm_compute; reflexivity|reflexivity]]. split; [|split; [|split]].
  - unfold music, app_item. eauto 8.
  - ok.
  - vm_compute. repeat split; intros; discriminate.
  - ok.
Qed.
Definition zero1 : list (string * N * N) := [("z.bin", 4, 0)]%string.
Lemma zero_ok : srr_ok (vsrr zero1).
Proof.
  split; [|split; [|split]].
  - unfold vsrr, app_item. eauto 8.
  - ok.
  - vm_compute. repeat split; intros; discriminate.
  - ok.
Qed.
Lemma missing_zero : exists l n d, srr_ok l /\ recorded l n 0 /\ srr_path n n /\ says (of_name n (parts l)) (lenN d) /\ d <> [] /\ is_crc32 d 0 /\
  forall folder auto, verify (fun _ => None) [] lower (fun t => t) (ser_srr l) folder auto = Ok 0.
Proof.
  exists (vsrr zero1), (str "z.bin"), (map n2b [0x9D; 0x0A; 0xD9; 0x6D]). split; [exact zero_ok|]. split; [|split; [|split; [|split; [|split]]]].
  - eexists _, _. split; vm_compute; reflexivity.
  - apply plain_path; [plain_name|no_in].
  - change (lenN _) with 4. sized.
  - discriminate.
  - apply file_crc. vm_compute. reflexivity.
  - intros folder auto. unfold verify. let v := eval vm_compute in (info lower (fun t => t) (ser_srr (vsrr zero1))) in
      replace (info lower (fun t => t) (ser_srr (vsrr zero1))) with v by (vm_compute; reflexivity). cbn [bind i_files map snd foldR]. unfold verify_one. cbn [ai_crc]. reflexivity.
Qed.
Definition abs1 : list (string * N * N) := [("/tmp/x", 3, 0x352441C2)]%string.
Lemma abs_ok : srr_ok (vsrr abs1).
Proof.
  split; [|split; [|split]].
  - unfold vsrr, app_item. eauto 8.
  - ok.
  - vm_compute. repeat split; intros; discriminate.
  - ok.
Qed.
Lemma outside : exists l n c disk folder, srr_ok l /\ recorded l n c /\ c <> 0 /\ (forall p, disk (folder ++ 47 :: p) = None) /\
  verify disk [] lower (fun t => t) (ser_srr l) folder false = Ok 0.
Proof.
  exists (vsrr abs1), (str "/tmp/x"), 0x352441C2, (vdisk [("/tmp/x", bstr "abc")]%string), (str "out"). split; [exact abs_ok|]. split; [|split; [discriminate|split]].
  - eexists _, _. split; vm_compute; reflexivity.
  - intros p. reflexivity.
  - vm_compute. reflexivity.
Qed.
