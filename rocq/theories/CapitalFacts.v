(** CapitalFacts: proofs about names that differ in case. *)
From Verif Require Import Base BaseFacts Path PathSpec PathFacts FsFacts GlobFacts Capital CapitalSpec.

Lemma drop_slashes_repeat n r : drop_slashes (repeat 47 n ++ r) = drop_slashes r.
Proof. induction n as [|n IH]; [reflexivity|exact IH]. Qed.
Lemma rev_repeat {A} (x : A) n : rev (repeat x n) = repeat x n.
Proof. induction n as [|n IH]; [reflexivity|]. cbn [repeat rev]. rewrite IH. clear. induction n as [|n IH]; [reflexivity|]. cbn. now rewrite IH. Qed.
Lemma split_path_ok p d b : split_path p d b ->
  basename p = b /\ (match dirname p with [] => str "." | d => d end) = d.
Proof.
  intros (B & [[-> ->]|[(k & -> & ->)|(k & d' & x & -> & X & ->)]]).
  - destruct (base_dir [] b) as [E1 E2]; [now left|exact B|]. cbn [app] in *. rewrite E1, E2. now split.
  - destruct (base_dir (repeat 47 (S k)) b) as [E1 E2]; [right; exists (repeat 47 k); exact (repeat_cons k 47)|exact B|].
    rewrite E1, E2. split; [reflexivity|]. unfold strip_dir. replace (forallb (N.eqb SLASH) (repeat 47 (S k))) with true; [reflexivity|].
    symmetry. apply forallb_forall. intros x I. apply repeat_spec in I. subst x. reflexivity.
  - rewrite app_assoc. destruct (base_dir ((d' ++ [x]) ++ repeat 47 (S k)) b) as [E1 E2]; [right; exists ((d' ++ [x]) ++ repeat 47 k); rewrite <- (app_assoc (d' ++ [x])); f_equal; exact (repeat_cons k 47)|exact B|].
    rewrite E1, E2. split; [reflexivity|]. unfold strip_dir.
    assert (F : forallb (N.eqb SLASH) ((d' ++ [x]) ++ repeat 47 (S k)) = false).
    { apply Bool.not_true_iff_false. rewrite forallb_forall. intros F. specialize (F x). destruct (N.eqb_spec SLASH x) as [Y|Y]; [now apply X|]. discriminate F. rewrite !in_app_iff. left. right. now left. }
    rewrite F. unfold rstrip_slash. rewrite rev_app_distr, rev_repeat, drop_slashes_repeat, rev_app_distr. cbn [rev app drop_slashes]. destruct (N.eqb_spec x SLASH) as [Y|Y]; [contradiction|].
    cbn [rev]. rewrite rev_involutive. destruct d'; reflexivity.
Qed.
Lemma in_folder_base d c : ~ In 47 c -> basename (in_folder d c) = c.
Proof.
  intros H. unfold in_folder. destruct (rev d) as [|x r] eqn:E; [now apply basename_nosep|]. apply (f_equal (@rev _)) in E. rewrite rev_involutive in E. subst d. cbn [rev].
  destruct (N.eqb_spec x 47) as [->|_]; [|now apply basename_sep]. rewrite <- app_assoc. cbn [app]. now apply basename_sep.
Qed.
Section Os.
Variables (lowf : text -> text) (listdir : text -> option (list text)) (isfile : text -> bool).
Lemma find_first (f : text -> bool) l : match find f l with
  | Some x => exists a b, l = a ++ x :: b /\ f x = true /\ Forall (fun y => f y = false) a
  | None => Forall (fun y => f y = false) l
  end.
Proof.
  induction l as [|y l IH]; cbn [find]; [constructor|]. destruct (f y) eqn:E; [exists [], l; now split|].
  destruct (find f l) as [x|]; [|now constructor]. destruct IH as (a & b & -> & F & A). exists (y :: a), b. split; [reflexivity|]. split; [exact F|]. now constructor.
Qed.
Theorem capitalized_ok p d b names : split_path p d b -> plain b -> listdir d = Some names -> Forall plain names ->
  exists exact capitals e k, capitalized_fn lowf listdir isfile p = Ok (exact, capitals) /\
  ((exists pre post, names = pre ++ e :: post /\ same_but_case lowf isfile d b e /\ Forall (fun c => ~ same_but_case lowf isfile d b c) pre /\ exact = in_folder d e) \/
   Forall (fun c => ~ same_but_case lowf isfile d b c) names /\ e = b /\ exact = p) /\
  (capitals = in_folder d k \/ k = b /\ capitals = p) /\ (k = b \/ k = e) /\ lowf k = lowf b /\
  (lower_case lowf k -> lower_case lowf b /\ lower_case lowf e).
Proof.
  intros S B L N. destruct (split_path_ok p d b S) as [E1 E2]. unfold capitalized_fn. rewrite E2, E1, L.
  assert (J : forall c, plain c -> pjoin d c = in_folder d c) by (intros c C; apply (pjoin_folder d [c]); now apply plain_below).
  assert (SB : forall c, plain c -> same_name lowf isfile d b c = true <-> same_but_case lowf isfile d b c).
  { intros c C. unfold same_name, same_but_case. rewrite andb_true_iff, teqb_eq, (J c C). reflexivity. }
  assert (NS : forall a, Forall plain a -> Forall (fun y => same_name lowf isfile d b y = false) a -> Forall (fun c => ~ same_but_case lowf isfile d b c) a).
  { intros a PA FA. rewrite Forall_forall in *. intros c I X. apply (SB c (PA c I)) in X. rewrite (FA c I) in X. discriminate. }
  pose proof (find_first (same_name lowf isfile d b) names) as F. set (ex := match find _ names with Some cfile => pjoin d cfile | None => p end).
  assert (G : exists e, plain e /\ lowf e = lowf b /\ basename ex = e /\ ((exists pre post, names = pre ++ e :: post /\ same_but_case lowf isfile d b e /\ Forall (fun c => ~ same_but_case lowf isfile d b c) pre /\ ex = in_folder d e) \/
   Forall (fun c => ~ same_but_case lowf isfile d b c) names /\ e = b /\ ex = p)).
  { unfold ex. destruct (find _ names) as [c|].
    - destruct F as (pre & post & E & T & A). rewrite E in N. apply Forall_app in N as [N1 N2]. inversion N2 as [|? ? C N3]; subst.
      exists c. split; [exact C|]. rewrite (J c C). apply (SB c C) in T. split; [apply T|]. split; [apply in_folder_base; apply C|]. left. exists pre, post. split; [reflexivity|]. split; [exact T|]. split; [now apply NS|reflexivity].
    - exists b. split; [exact B|]. split; [reflexivity|]. split; [exact E1|]. right. split; [now apply NS|]. now split. }
  destruct G as (e & Pe & Le & Be & G). rewrite Be.
  destruct (teqb (lowf e) e) eqn:Te; [|destruct (teqb (lowf b) b) eqn:Tb].
  - apply teqb_eq in Te. exists ex, (pjoin d b), e, b. split; [reflexivity|]. split; [exact G|]. rewrite (J b B). split; [now left|]. split; [now left|]. split; [reflexivity|]. intros H. now split.
  - apply teqb_neq in Te. exists ex, (pjoin d e), e, e. split; [reflexivity|]. split; [exact G|]. rewrite (J e Pe). split; [now left|]. split; [now right|]. split; [exact Le|]. intros H. contradiction.
  - apply teqb_neq in Tb. exists ex, p, e, b. split; [reflexivity|]. split; [exact G|]. split; [now right|]. split; [now left|]. split; [reflexivity|]. intros H. contradiction.
Qed.
End Os.
(** ** Samples *)
Definition cdir (names : list string) (d : text) : option (list text) := if teqb d (str "in") then Some (map str names) else None.
Ltac plain_name := split; [discriminate|]; split; [discriminate|]; split; [discriminate|];
  let H := fresh in intros H; vm_compute in H; repeat (destruct H as [H|H]; [discriminate|]); exact H.
Lemma ex_capital : let names := ["b.rar"; "Group-A.rar"; "x"]%string in
  split_path (str "in//group-a.rar") (str "in") (str "group-a.rar") /\ plain (str "group-a.rar") /\ cdir names (str "in") = Some (map str names) /\ Forall plain (map str names) /\
  capitalized_fn lower (cdir names) (fun _ => true) (str "in//group-a.rar") = Ok (str "in/Group-A.rar", str "in/Group-A.rar") /\
  capitalized_fn lower (cdir names) (fun _ => true) (str "in/B.RAR") = Ok (str "in/b.rar", str "in/B.RAR") /\
  capitalized_fn lower (cdir names) (fun _ => true) (str "in/C.RAR") = Ok (str "in/C.RAR", str "in/C.RAR").
Proof.
  cbv zeta. split; [|split; [plain_name|split; [reflexivity|split; [|vm_compute; repeat split]]]].
  - split; [intros H; vm_compute in H; repeat (destruct H as [H|H]; [discriminate|]); exact H|]. right. right. exists 1%nat, (str "i"), 110. repeat split. discriminate.
  - cbn [map]. constructor; [plain_name|]. constructor; [plain_name|]. constructor; [plain_name|constructor].
Qed.
Lemma other_file : exists listdir isfile p d b names exact capitals, split_path p d b /\ plain b /\ listdir d = Some names /\ Forall plain names /\
  In b names /\ isfile (in_folder d b) = true /\ p = in_folder d b /\ capitalized_fn lower listdir isfile p = Ok (exact, capitals) /\ exact <> p.
Proof.
  exists (cdir ["A.rar"; "a.rar"]%string), (fun _ => true), (str "in/a.rar"), (str "in"), (str "a.rar"), [str "A.rar"; str "a.rar"], (str "in/A.rar"), (str "in/A.rar").
  split; [|split; [plain_name|split; [reflexivity|split; [|split; [right; now left|split; [reflexivity|split; [reflexivity|split; [vm_compute; reflexivity|discriminate]]]]]]]].
  - split; [intros H; vm_compute in H; repeat (destruct H as [H|H]; [discriminate|]); exact H|]. right. right. exists 0%nat, (str "i"), 110. repeat split. discriminate.
  - constructor; [plain_name|]. constructor; [plain_name|constructor].
Qed.
