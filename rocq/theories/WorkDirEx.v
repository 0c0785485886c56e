(** WorkDirEx: examples of copies in the working directory. *)
From Verif Require Import Base BaseFacts Path PathSpec FsSpec FsFacts Store StoreFacts Capital WorkDir WorkDirSpec WorkDirFacts.

Definition xr : text := str "/r/X-Y".
Definition xw : text := str "/w".
Definition x_list (p : text) : option (list text) :=
  if teqb p xr then Some [str "CD1"; str "x.nfo"; str "B.sfv"] else if teqb p (str "/r/X-Y/CD1") then Some [str "x.nfo"] else None.
Definition x_disk (p : text) : option bytes :=
  if teqb p (str "/r/X-Y/x.nfo") then Some [x41] else if teqb p (str "/r/X-Y/B.sfv") then Some [x42]
  else if teqb p (str "/r/X-Y/CD1/x.nfo") then Some [x43] else if teqb p (str "/w/s.srs") then Some [x44] else None.
Ltac plain_ := split; [discriminate|]; split; [discriminate|]; split; [discriminate|];
  let H := fresh in intros H; vm_compute in H; repeat (destruct H as [H|H]; [discriminate|]); exact H.
Ltac plains := repeat (constructor; [plain_|]); constructor.
Lemma x_folders : first_is 47 (str "/") = true /\ denotes [] (str "/") [] /\ folder xr /\ denotes [] xr [str "X-Y"; str "r"] /\ folder xw /\ denotes [] xw [str "w"].
Proof.
  split; [reflexivity|]. split; [now apply denotes_split|]. split; [exists (str "/r/X-"), 89; now split|]. split; [now apply denotes_split|]. split; [exists (str "/"), 119; now split|now apply denotes_split].
Qed.
Lemma place_begins cs : forall r, exists s, place r cs = r ++ s.
Proof. induction cs as [|c cs IH]; intros r; [exists []; cbn; now rewrite app_nil_r|]. cbn [place]. destruct (IH (r ++ 47 :: c)) as (s & ->). exists ((47 :: c) ++ s). now rewrite <- app_assoc. Qed.
Lemma x_apart : apart xr xw.
Proof.
  intros cs cs' E. destruct (place_begins cs xr) as (s & E1). destruct (place_begins cs' xw) as (s' & E2). rewrite E1, E2 in E. vm_compute in E. discriminate E.
Qed.
Definition x_files : list (list text * text) := [([], str "x.nfo"); ([str "CD1"], str "x.nfo"); ([], str "B.sfv")].
Lemma x_alone : Forall (fun x => alone lower x_list x_disk xr (fst x) (snd x)) x_files.
Proof.
  constructor; [|constructor; [|constructor; [|constructor]]]; unfold alone; cbn [fst snd]; (split; [plains|]); (split; [plain_|]); (split; [vm_compute; discriminate|]).
  1, 3: exists [str "CD1"; str "x.nfo"; str "B.sfv"].
  3: exists [str "x.nfo"].
  all: split; [reflexivity|]; split; [plains|]; split; [vm_compute; tauto|].
  all: intros e H L; repeat (destruct H as [<-|H]; [try reflexivity; vm_compute in L; discriminate|]); destruct H.
Qed.
Lemma x_case : stands_for lower x_list x_disk xr [] (str "b.sfv") (str "B.sfv") /\ nowhere lower x_list x_disk xr [] (str "c.sfv").
Proof.
  split.
  - split; [constructor|]. split; [plain_|]. split; [vm_compute; discriminate|]. split; [reflexivity|]. exists [str "CD1"; str "x.nfo"; str "B.sfv"].
    split; [reflexivity|]. split; [plains|]. split; [vm_compute; tauto|]. intros e H L. repeat (destruct H as [<-|H]; [try reflexivity; vm_compute in L; discriminate|]); destruct H.
  - split; [constructor|]. split; [plain_|]. split; [reflexivity|]. exists [str "CD1"; str "x.nfo"; str "B.sfv"].
    split; [reflexivity|]. split; [plains|]. intros e H L. repeat (destruct H as [<-|H]; [try reflexivity; vm_compute in L; discriminate|]); destruct H.
Qed.
(** .srs files; one has been made already *)
Definition s_list (p : text) : option (list text) := if teqb p xr then Some [str "s.srs"; str "t.srs"] else None.
Definition s_disk (p : text) : option bytes :=
  if teqb p (str "/r/X-Y/s.srs") then Some [x41] else if teqb p (str "/r/X-Y/t.srs") then Some [x42] else if teqb p (str "/w/s.srs") then Some [x44] else None.
Definition s_files : list (list text * text) := [([], str "s.srs"); ([], str "t.srs")].
Lemma s_alone : Forall (fun x => alone lower s_list s_disk xr (fst x) (snd x)) s_files.
Proof.
  constructor; [|constructor; [|constructor]]; unfold alone; cbn [fst snd]; (split; [plains|]); (split; [plain_|]); (split; [vm_compute; discriminate|]); exists [str "s.srs"; str "t.srs"];
  (split; [reflexivity|]); (split; [plains|]); (split; [vm_compute; tauto|]); intros e H L; repeat (destruct H as [<-|H]; [try reflexivity; vm_compute in L; discriminate|]); destruct H.
Qed.
(** two files whose names are equal but for case *)
Definition c_list (p : text) : option (list text) := if teqb p xr then Some [str "X.nfo"; str "x.nfo"] else None.
Definition c_disk (p : text) : option bytes :=
  if teqb p (str "/r/X-Y/X.nfo") then Some [x41] else if teqb p (str "/r/X-Y/x.nfo") then Some [x42] else None.
Lemma lost : exists listdir d r w names l d' c, folder r /\ folder w /\ apart r w /\ listdir r = Some names /\ Forall plain names /\
  (forall b, In b names <-> In ([], b) l) /\ NoDup l /\ (forall x, In x l -> d (file_in r x) <> None) /\
  copy_all lower (str "/") listdir w r d (map (file_in r) l) = Ok (d', [str "/w/X.nfo"; str "/w/X.nfo"]) /\
  d (file_in r ([], str "x.nfo")) = Some c /\ In ([], str "x.nfo") l /\ forall cs, d' (place w cs) <> Some c.
Proof.
  exists c_list, c_disk, xr, xw, [str "X.nfo"; str "x.nfo"], [([], str "X.nfo"); ([], str "x.nfo")], (put (str "/w/X.nfo") [x41] (put (str "/w/X.nfo") [x41] c_disk)), [x42].
  split; [apply x_folders|]. split; [apply x_folders|]. split; [exact x_apart|]. split; [reflexivity|]. split; [plains|]. split.
  - intros b. cbn [In]. split; [intros [<-|[<-|[]]]; auto|]. intros [E|[E|[]]]; injection E as <-; auto.
  - split; [constructor; [intros [E|[]]; vm_compute in E; discriminate E|constructor; [intros []|constructor]]|]. split; [intros x [<-|[<-|[]]]; vm_compute; discriminate|].
    split; [reflexivity|]. split; [reflexivity|]. split; [right; now left|]. intros cs. unfold put, c_disk. destruct (teqb (place xw cs) (str "/w/X.nfo")); [discriminate|].
    assert (N : forall p, teqb (place xw cs) (xr ++ p) = false). { intros p. apply teqb_neq. destruct (place_begins cs xw) as (s & ->). intros E. vm_compute in E. discriminate E. }
    pose proof (N (str "/X.nfo")) as N1. pose proof (N (str "/x.nfo")) as N2. change (xr ++ str "/X.nfo") with (str "/r/X-Y/X.nfo") in N1. change (xr ++ str "/x.nfo") with (str "/r/X-Y/x.nfo") in N2.
    rewrite N1, N2. discriminate.
Qed.
Lemma ex_copied : (first_is 47 (str "/") = true /\ denotes [] (str "/") [] /\ folder xr /\ denotes [] xr [str "X-Y"; str "r"] /\ folder xw /\ denotes [] xw [str "w"]) /\
  apart xr xw /\ Forall (fun x => alone lower x_list x_disk xr (fst x) (snd x)) x_files /\
  match copy_all lower (str "/") x_list xw xr x_disk (map (file_in xr) x_files) with
  | Ok (d, l) => l = [str "/w/x.nfo"; str "/w/CD1/x.nfo"; str "/w/B.sfv"] /\ map d l = [Some [x41]; Some [x43]; Some [x42]]
  | Err _ => False end.
Proof. split; [exact x_folders|]. split; [exact x_apart|]. split; [exact x_alone|]. vm_compute. now split. Qed.
Lemma ex_srs : apart xr xw /\ Forall (fun x => alone lower s_list s_disk xr (fst x) (snd x)) s_files /\
  match copy_srs lower (str "/") s_list xw xr s_disk [str "/w/s.srs"] (map (file_in xr) s_files) with
  | Ok (d, l) => l = [str "/w/s.srs"; str "/w/t.srs"] /\ map d l = [Some [x44]; Some [x42]]
  | Err _ => False end.
Proof. split; [exact x_apart|]. split; [exact s_alone|]. vm_compute. now split. Qed.
Lemma ex_case : (first_is 47 (str "/") = true /\ denotes [] (str "/") [] /\ folder xr /\ denotes [] xr [str "X-Y"; str "r"] /\ folder xw /\ denotes [] xw [str "w"]) /\
  stands_for lower x_list x_disk xr [] (str "b.sfv") (str "B.sfv") /\ nowhere lower x_list x_disk xr [] (str "c.sfv").
Proof. split; [exact x_folders|exact x_case]. Qed.
