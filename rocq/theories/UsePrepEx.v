(** UsePrepEx: examples of the choice of files in an NZB file. *)
From Coq Require Import Permutation Sorted.
From Verif Require Import VolName VolSpec VolFacts.
From Verif Require Import Base BaseFacts SrrSpec InfoSpec InfoFacts UsePrep UsePrepSpec UsePrepFacts.

Definition xp (n : string) (k size : N) (id : string) : post := mkPost (str n) [(k, mkSeg k size (str id))] k.
Definition xcounts (p : post) : result (N * N) := Ok (size p, 0).
Definition xpng (p : post) : N := 7.
Definition xnone (n : text) : bool := false.
Definition xl : list post :=
  [xp "a.rar" 1 10 "1"; xp "a.rar" 1 20 "2"; xp "a.rar" 1 20 "3"; xp "proof.sfv" 1 9 "4"; xp "x.sfv" 1 5 "5"; xp "x.sfv" 1 6 "6"; xp "d.jpg" 1 99 "7";
   xp "c.JPG" 1 99 "8"; xp "x.nfo" 1 3 "9"; xp "x.subs.sfv" 1 4 "10"; xp "e.png" 1 4 "11"].
Ltac oneeach := repeat (constructor; [repeat constructor; vm_compute; intuition discriminate|]); constructor.
Lemma count_all l : forall p, In p l -> main_sfv p -> countable xcounts p.
Proof. intros p _ _. now exists (size p), 0. Qed.
(** files with one segment each and different ids *)
Definition ids (p : post) : list text := map (fun ks => g_id (snd ks)) (p_segs p).
Lemma ids_distinct l (P : post -> Prop) : Forall (fun p => (length (p_segs p) = 1)%nat) l -> NoDup (concat (map ids l)) -> distinct (fun p => In p l /\ P p).
Proof.
  intros F N p q [Hp _] [Hq _] E. rewrite Forall_forall in F. pose proof (F p Hp) as Lp. destruct (p_segs p) as [|ks [|]] eqn:Sp; try discriminate. exists ks. split; [now left|]. intros I. clear F Lp. revert N. induction l as [|x l IH]; [destruct Hp|]. cbn [map concat]. intros N.
  assert (X : forall y, In y l -> forall i, In i (ids x) -> ~ In i (ids y)).
  { intros y Hy i Hi Hi'. clear - N Hy Hi Hi'. induction (ids x) as [|j r IHr]; [destruct Hi|]. cbn [app] in N. inversion N as [|? ? Nj N']; subst. destruct Hi as [->|Hi]; [|now apply IHr]. apply Nj. apply in_app_iff. right. apply in_concat. exists (ids y). split; [now apply in_map|exact Hi']. }
  assert (Kp : In (g_id (snd ks)) (ids p)) by (unfold ids; rewrite Sp; now left). assert (Kq : In (g_id (snd ks)) (ids q)) by (unfold ids; now apply (in_map (fun ks => g_id (snd ks)))).
  destruct Hp as [<-|Hp], Hq as [<-|Hq].
  - now apply E.
  - exact (X q Hq _ Kp Kq).
  - exact (X p Hp _ Kq Kp).
  - apply IH; [exact Hp|exact Hq|]. clear - N. induction (ids x) as [|j r IHr]; [exact N|]. apply IHr. now inversion N.
Qed.
Lemma xl_ok : input_ok xcounts xl.
Proof.
  split; [oneeach|]. split; [apply count_all|]. apply ids_distinct; [repeat constructor|]. vm_compute. repeat (constructor; [intros H; vm_compute in H; repeat (destruct H as [H|H]; [discriminate|]); exact H|]). constructor.
Qed.
Definition names (l : list post) : list (text * N) := map (fun p => (p_name p, post_bytes p)) l.
Lemma ex_prepare : match prepare xnone xcounts xpng xl with
  | inr (d, st, sf) => map fst d = [str "a.rar"; str "proof.sfv"; str "x.sfv"; str "d.jpg"; str "c.JPG"; str "x.nfo"; str "x.subs.sfv"; str "e.png"] /\
      get_post (str "a.rar") d = Some (xp "a.rar" 1 20 "2") /\
      names st = [(str "x.nfo", 3); (str "c.JPG", 99); (str "x.subs.sfv", 4); (str "e.png", 4)] /\ names sf = [(str "x.sfv", 6); (str "proof.sfv", 9)]
  | inl _ => False end.
Proof. vm_compute. repeat split. Qed.

Definition ends_l : list post := [xp "x.sfv" 1 5 "1"; xp "b-sample.sfv" 1 5 "2"; xp "a-proof.sfv" 1 5 "3"].
Lemma ends_ok_ : input_ok xcounts ends_l.
Proof.
  split; [oneeach|]. split; [apply count_all|]. apply ids_distinct; [repeat constructor|]. vm_compute. repeat (constructor; [intros H; vm_compute in H; repeat (destruct H as [H|H]; [discriminate|]); exact H|]). constructor.
Qed.
Lemma end_refuted : exists l d st sf p q a b c, input_ok xcounts l /\ prepare xnone xcounts xpng l = inr (d, st, sf) /\ sf = a ++ p :: b ++ q :: c /\ extra (p_name p) /\ ~ extra (p_name q).
Proof.
  exists ends_l. eexists _, _, _. exists (xp "b-sample.sfv" 1 5 "2"), (xp "x.sfv" 1 5 "1"), [], [], [xp "a-proof.sfv" 1 5 "3"].
  split; [exact ends_ok_|]. split; [vm_compute; reflexivity|]. split; [vm_compute; reflexivity|]. split; [now apply special_ok|]. rewrite <- special_ok. vm_compute. discriminate.
Qed.
Lemma twice_refuted : exists l d st sf p q, input_ok xcounts l /\ prepare xnone xcounts xpng l = inr (d, st, sf) /\ st = [p; q] /\ p_name p = p_name q /\ size p < size q.
Proof.
  exists [xp "x.nfo" 1 3 "1"; xp "x.nfo" 1 5 "2"]. eexists _, _, _. exists (xp "x.nfo" 1 3 "1"), (xp "x.nfo" 1 5 "2").
  split; [split; [oneeach|]; split; [apply count_all|]; apply ids_distinct; [repeat constructor|]; repeat (constructor; [intros H; vm_compute in H; repeat (destruct H as [H|H]; [discriminate|]); exact H|]); constructor|].
  split; [vm_compute; reflexivity|]. split; [vm_compute; reflexivity|]. split; reflexivity.
Qed.
Lemma nfo_refuted : exists l d st sf p q, input_ok xcounts l /\ prepare xnone xcounts xpng l = inr (d, st, sf) /\ st = [p; q] /\ ~ with_ext ".nfo" (p_name p) /\ with_ext ".nfo" (p_name q).
Proof.
  exists [xp "e.png" 1 3 "1"; xp "X.NFO" 1 5 "2"]. eexists _, _, _. exists (xp "e.png" 1 3 "1"), (xp "X.NFO" 1 5 "2").
  split; [split; [oneeach|]; split; [apply count_all|]; apply ids_distinct; [repeat constructor|]; repeat (constructor; [intros H; vm_compute in H; repeat (destruct H as [H|H]; [discriminate|]); exact H|]); constructor|].
  split; [vm_compute; reflexivity|]. split; [vm_compute; reflexivity|]. split; [rewrite <- (ext_ok ".nfo") by reflexivity; vm_compute; discriminate|now apply (ext_ok ".nfo")].
Qed.
Lemma first_refuted : exists l n p, input_ok xcounts l /\ prepare xnone xcounts xpng l = inl (IncompleteNzb n) /\ In p l /\ p_name p = n /\ In 1 (map fst (p_segs p)).
Proof.
  exists [xp "x.rar" 1 3 "1"; xp "x.rar" 2 5 "2"], (str "x.rar"), (xp "x.rar" 1 3 "1").
  split; [split; [oneeach|]; split; [apply count_all|]; apply ids_distinct; [repeat constructor|]; repeat (constructor; [intros H; vm_compute in H; repeat (destruct H as [H|H]; [discriminate|]); exact H|]); constructor|].
  split; [vm_compute; reflexivity|]. split; [now left|]. split; [reflexivity|now left].
Qed.
Definition sub1 : text := str "one.rar yEnc (1/5)".
Definition sub2 : text := str "two.rar yEnc (1/5)".
Lemma name_refuted : exists s t g h n, inside (str "one.rar") s /\ inside (str "two.rar") t /\ g <> h /\
  map p_name [make_post s g; make_post t h] = [n; n] /\ match prepare xnone xcounts xpng [make_post s g; make_post t h] with inr (d, _, _) => length d = 1%nat | inl _ => False end.
Proof.
  exists sub1, sub2, [mkSeg 1 3 (str "1")], [mkSeg 1 5 (str "2")], (str "yEnc"). split; [now apply contains_ok|]. split; [now apply contains_ok|]. split; [discriminate|]. split; vm_compute; reflexivity.
Qed.
(** the hypotheses of the theorem about the end of the list *)
Definition sp_l : list post := [xp "y.sfv" 1 5 "1"; xp "c-sample.sfv" 1 5 "2"; xp "a-proof.sfv" 1 5 "3"; xp "b.sfv" 1 5 "4"].
Definition sp_s : list post := [xp "a-proof.sfv" 1 5 "3"; xp "b.sfv" 1 5 "4"; xp "c-sample.sfv" 1 5 "2"; xp "y.sfv" 1 5 "1"].
Lemma sp_ok : input_ok xcounts sp_l.
Proof.
  split; [oneeach|]. split; [apply count_all|]. apply ids_distinct; [repeat constructor|]. vm_compute. repeat (constructor; [intros H; vm_compute in H; repeat (destruct H as [H|H]; [discriminate|]); exact H|]). constructor.
Qed.
Lemma sp_out : exists d st, prepare xnone xcounts xpng sp_l = inr (d, st, [xp "b.sfv" 1 5 "4"; xp "y.sfv" 1 5 "1"; xp "c-sample.sfv" 1 5 "2"; xp "a-proof.sfv" 1 5 "3"]).
Proof. eexists _, _. vm_compute. reflexivity. Qed.
Lemma ex_end : input_ok xcounts sp_l /\ StronglySorted by_name sp_s /\ (forall p, In p sp_s <-> main_sfv p /\ first_best (more_entries xcounts) (named (p_name p) sp_l) p) /\ spaced sp_s /\
  exists d st, prepare xnone xcounts xpng sp_l = inr (d, st, [xp "b.sfv" 1 5 "4"; xp "y.sfv" 1 5 "1"; xp "c-sample.sfv" 1 5 "2"; xp "a-proof.sfv" 1 5 "3"]).
Proof.
  split; [exact sp_ok|]. split; [repeat (constructor; [|repeat (constructor; [apply before_lt; reflexivity|]); constructor]); constructor|]. split; [|split; [|exact sp_out]].
  - intros p. destruct sp_out as (d & st & H). rewrite <- (proj2 (sfvs_final _ _ _ _ _ _ _ sp_ok H) p). unfold sp_s. cbn [In]. tauto.
  - intros a p q b E X Y. apply special_ok in X, Y. assert (Ep : nth_error sp_s (length a) = Some p) by (rewrite E, nth_error_app2, Nat.sub_diag by apply Nat.le_refl; reflexivity).
    assert (Eq : nth_error sp_s (S (length a)) = Some q) by (rewrite E, nth_error_app2 by lia; replace (S (length a) - length a)%nat with 1%nat by lia; reflexivity).
    destruct (length a) as [|[|[|n]]]; cbn in Ep, Eq; try (injection Ep as <-); try (injection Eq as <-); try (vm_compute in X; discriminate X); try (vm_compute in Y; discriminate Y). destruct n; discriminate Eq.
Qed.
