(** RetagEx: a release with two tracks, and the runs that go wrong. *)
From Verif Require Import Base BaseFacts Path PathSpec PathFacts Rar RarSpec ReadSpec SrrSpec SrrFacts Srr FsSpec FsFacts
  Info Samples Retag RetagSpec RetagFacts.

Fixpoint look (w : list (text * node)) (p : text) : option node :=
  match w with [] => None | (q, n) :: w => if teqb q p then Some n else look w p end.
Definition ex_disk : list (text * node) :=
  [(str "in", NDir [str "A.MP3"; str "cd1"]); (str "in/", NDir [str "A.MP3"; str "cd1"]); (str "in/A.MP3", NFile);
   (str "in/cd1", NDir [str "b.mp3"]); (str "in/cd1/", NDir [str "b.mp3"]); (str "in/cd1/b.mp3", NFile)].
Definition ex_world : text -> option node := look ex_disk.
Lemma look_in w p n : look w p = Some n -> In (p, n) w.
Proof.
  induction w as [|[q m] w IH]; [discriminate|]. cbn [look]. destruct (teqb q p) eqn:E; [|intros H; right; now apply IH].
  intros H. apply some_inj in H. subst m. apply teqb_eq in E. subst q. now left.
Qed.
Definition plainb (p : text) : bool := negb (teqb p []) && negb (teqb p (str ".")) && negb (teqb p (str "..")) && negb (existsb (N.eqb 47) p).
Lemma plainb_ok p : plainb p = true -> plain p.
Proof.
  unfold plainb. rewrite !andb_true_iff, !negb_true_iff. intros [[[A B] D] E]. apply teqb_neq in A, B, D. split; [exact A|]. split; [exact B|]. split; [exact D|].
  intros I. apply not_true_iff_false in E. apply E. apply existsb_exists. exists 47. split; [exact I|reflexivity].
Qed.
Lemma in_open d n : open_end d -> in_folder d n = d ++ 47 :: n.
Proof.
  intros [A B]. unfold in_folder. unfold last_is in B. destruct (rev d) eqn:R; [|now rewrite B].
  exfalso. apply A. rewrite <- (rev_involutive d), R. reflexivity.
Qed.
(** what a check of the entries shows *)
Definition entry_ok (w : list (text * node)) (e : text * node) : bool :=
  let '(p, n) := e in
  (* the entry is in the listing of its directory *)
  (let b := basename p in let d := dirname p in
   teqb b [] || teqb d [] || match look w d with Some (NDir l) => existsb (teqb b) l | _ => false end) &&
  (* the names of a directory are there, differ, and the slash changes nothing *)
  match n with
  | NFile => true
  | NDir l =>
    teqb p [] || last_is 47 p ||
    (forallb (fun x => plainb x && match look w (p ++ 47 :: x) with Some _ => true | None => false end) l &&
     forallb (fun a => forallb (fun b => negb (teqb (lower a) (lower b)) || teqb a b) l) l &&
     match look w (p ++ [47]) with
     | Some (NDir l') => (fix same (a b : list text) := match a, b with [], [] => true | x :: a, y :: b => teqb x y && same a b | _, _ => false end) l l'
     | _ => false
     end)
  end.
Lemma same_list a : forall b, (fix same (a b : list text) := match a, b with [], [] => true | x :: a, y :: b => teqb x y && same a b | _, _ => false end) a b = true -> b = a.
Proof.
  induction a as [|x a IH]; intros [|y b] H; try discriminate; [reflexivity|]. apply andb_true_iff in H as [X H]. apply teqb_eq in X. subst y. f_equal. now apply IH.
Qed.
Lemma tidy_check w : look w [] = None -> forallb (entry_ok w) w = true -> tidy (look w).
Proof.
  intros Z H. rewrite forallb_forall in H.
  assert (D : forall d l, open_end d -> look w d = Some (NDir l) ->
    forallb (fun x => plainb x && match look w (d ++ 47 :: x) with Some _ => true | None => false end) l = true /\
    forallb (fun a => forallb (fun b => negb (teqb (lower a) (lower b)) || teqb a b) l) l = true /\ look w (d ++ [47]) = Some (NDir l)).
  { intros d l [O1 O2] L. apply look_in in L. specialize (H _ L). unfold entry_ok in H. apply andb_true_iff in H as [_ H]. apply teqb_neq in O1. rewrite O1, O2 in H. cbn [orb] in H.
    apply andb_true_iff in H as [H X]. apply andb_true_iff in H as [H1 H2]. split; [exact H1|]. split; [exact H2|].
    destruct (look w (d ++ [47])) as [[|l']|]; try discriminate. apply same_list in X. now subst l'. }
  split.
  - exact Z.
  - intros d n O P E. rewrite in_open in E by exact O. destruct (look w (d ++ 47 :: n)) as [x|] eqn:L; [|congruence]. apply look_in in L. specialize (H _ L).
    unfold entry_ok in H. apply andb_true_iff in H as [H _]. assert (Nn : ~ In 47 n) by apply P. cbn zeta in H. rewrite dirname_open, basename_sep in H by assumption.
    destruct O as [O1 O2]. destruct P as (P1 & _). apply teqb_neq in O1, P1. rewrite O1, P1 in H. cbn [orb] in H.
    destruct (look w d) as [[|l]|]; try discriminate. exists l. split; [reflexivity|]. apply existsb_exists in H as (y & I & Y). apply teqb_eq in Y. now subst y.
  - intros d l n O L I. destruct (D d l O L) as (A & _). rewrite forallb_forall in A. specialize (A n I). apply andb_true_iff in A as [A B].
    split; [now apply plainb_ok|]. rewrite in_open by exact O. destruct (look w (d ++ 47 :: n)); congruence.
  - intros d l a b O L Ia Ib X. destruct (D d l O L) as (_ & A & _). rewrite forallb_forall in A. specialize (A a Ia). rewrite forallb_forall in A. specialize (A b Ib).
    unfold alike_part in X. rewrite X, teqb_refl in A. cbn [negb orb] in A. now apply teqb_eq.
  - intros d l O L. now apply (D d l O L).
Qed.
Lemma ex_tidy : tidy ex_world.
Proof. apply tidy_check; vm_compute; reflexivity. Qed.
Lemma ex_open : open_end (str "in").
Proof. split; [discriminate|reflexivity]. Qed.

(** the .srs files: A and B of music, V of a video *)
Definition ex_music (d : bytes) : result (option text) :=
  if list_eq_dec Byte.byte_eq_dec d (bstr "A") then Ok (Some (str "a.mp3"))
  else if list_eq_dec Byte.byte_eq_dec d (bstr "B") then Ok (Some (str "B.mp3")) else Ok None.
Definition ex_main (srs m out : text) (f : fs) : fs * option exn := (fs_set f (str "out/new.mp3") (bstr "x"), None).
Definition ex_srr : list sitem :=
  [app_item (str "x"); stored_item (str "a.nfo", bstr "hi"); stored_item (str "CD1/b.srs", bstr "B"); stored_item (str "a.srs", bstr "A")].
Definition ex_video : list sitem :=
  [app_item (str "x"); stored_item (str "Sample/v.srs", bstr "V"); stored_item (str "a.srs", bstr "A")].
Definition ex_twice : list sitem :=
  [app_item (str "x"); stored_item (str "CD1/a.srs", bstr "B"); stored_item (str "a.srs", bstr "A")].
Ltac srr l := split; [unfold l, app_item; eauto 8|split; [ok|split; [vm_compute; repeat split; intros; discriminate|ok]]].
Lemma ex_srr_ok : srr_ok ex_srr.
Proof. srr ex_srr. Qed.
Lemma ex_video_ok : srr_ok ex_video.
Proof. srr ex_video. Qed.
Lemma ex_twice_ok : srr_ok ex_twice.
Proof. srr ex_twice. Qed.
Lemma own_path n : srr_os_file_name n = Ok n -> srr_path n n.
Proof. apply srr_os_file_name_spec. Qed.
Lemma base_name n b : base_of n b -> b = basename n.
Proof. intros H. now apply base_of_det in H as [H _]. Qed.
Ltac tidy_names := split; [repeat constructor; cbn; intuition discriminate|split;
  [repeat constructor; apply own_path; vm_compute; reflexivity|
   intros n n' I J B; apply base_name in B; cbn in I, J;
   repeat match goal with H : _ \/ _ |- _ => destruct H as [H|H] end; try contradiction; subst n n'; vm_compute in B; try discriminate B; reflexivity]].
Lemma ex_clean : clean ex_srr.
Proof. tidy_names. Qed.
Lemma ex_video_clean : clean ex_video.
Proof. tidy_names. Qed.
Lemma ex_minds l : (forall n, In n (stored_names l) -> teqb (place (str "out") n) (str "out/new.mp3") = false) -> minds ex_main (str "out") l.
Proof.
  intros H a b c f n I. specialize (H n I). apply teqb_neq in H. unfold ex_main. cbn [fst]. apply fs_get_set_other. congruence.
Qed.
Lemma ex_srr_minds : minds ex_main (str "out") ex_srr.
Proof. apply ex_minds. intros n I. cbn in I. repeat destruct I as [<-|I]; try reflexivity. destruct I. Qed.
Lemma ex_video_minds : minds ex_main (str "out") ex_video.
Proof. apply ex_minds. intros n I. cbn in I. repeat destruct I as [<-|I]; try reflexivity. destruct I. Qed.
Lemma ex_twice_minds : minds ex_main (str "out") ex_twice.
Proof. apply ex_minds. intros n I. cbn in I. repeat destruct I as [<-|I]; try reflexivity. destruct I. Qed.
Definition ex_run (l : list sitem) : run * option exn :=
  fix_tracks ex_world lower (fun t => t) ex_music ex_main (str "x.srr") (ser_srr l) (str "in") (str "out") true [].

Lemma ex_find : tidy ex_world /\ open_end (str "in") /\ join_fix_case ex_world (str "in") [str "CD1"; str "B.mp3"] = Ok (str "in/cd1/b.mp3") /\
  join_fix_case ex_world (str "in") [str "CD2"; str "B.mp3"] = Ok [].
Proof. split; [exact ex_tidy|]. split; [exact ex_open|]. split; vm_compute; reflexivity. Qed.
Lemma ex_good : srr_ok ex_srr /\ clean ex_srr /\ minds ex_main (str "out") ex_srr /\ tidy ex_world /\ open_end (str "in") /\
  (exists i, info lower (fun t => t) (ser_srr ex_srr) = Ok i) /\
  (forall n d, In (n, d) (srs_files ex_srr) -> ex_music d <> Ok None) /\ (forall n d t, In (n, d) (srs_files ex_srr) -> ex_music d = Ok (Some t) -> plain t) /\
  let '(s, e) := ex_run ex_srr in
  e = None /\ r_calls s = [(str "out/CD1/b.srs", str "in/cd1/b.mp3", str "out/CD1"); (str "out/a.srs", str "in/A.MP3", str "out/")] /\ r_good s = 2.
Proof.
  split; [exact ex_srr_ok|]. split; [exact ex_clean|]. split; [exact ex_srr_minds|]. split; [exact ex_tidy|]. split; [exact ex_open|].
  split; [eexists; vm_compute; reflexivity|]. split.
  { intros n d I X. cbn in I. destruct I as [I|[I|[]]]; injection I as <- <-; vm_compute in X; discriminate X. }
  split; [|vm_compute; repeat split; reflexivity].
  intros n d t I H. cbn in I. destruct I as [I|[I|[]]]; injection I as <- <-; vm_compute in H; apply ok_inj, some_inj in H; subst t; apply plainb_ok; vm_compute; reflexivity.
Qed.
(** a track that is there *)
Lemma ex_a_there n : track ex_world (str "in") n (str "a.mp3") (str "in/A.MP3").
Proof.
  left. split; [vm_compute; reflexivity|]. exists [str "A.MP3"]. split; [constructor; [vm_compute; reflexivity|constructor]|]. split; [|reflexivity].
  constructor; [apply plainb_ok; vm_compute; reflexivity|constructor].
Qed.
(** two folders that differ in case *)
Definition two_disk : list (text * node) :=
  [(str "in", NDir [str "CD1"; str "cd1"]); (str "in/CD1", NDir []); (str "in/cd1", NDir [str "b.mp3"]); (str "in/cd1/b.mp3", NFile)].
Lemma two_case : look two_disk (str "in/cd1/b.mp3") = Some NFile /\ cased (str "in") [str "CD1"; str "B.mp3"] (str "in/cd1/b.mp3") /\
  join_fix_case (look two_disk) (str "in") [str "CD1"; str "B.mp3"] = Ok [].
Proof.
  split; [reflexivity|]. split; [|vm_compute; reflexivity]. exists [str "cd1"; str "b.mp3"].
  split; [repeat constructor; vm_compute; reflexivity|]. split; [repeat constructor; apply plainb_ok; vm_compute; reflexivity|reflexivity].
Qed.
