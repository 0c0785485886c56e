(** WorkDirFacts: proofs about the copies in the working directory. *)
From Verif Require Import SrrSpec DirsSpec DirsFacts WantedFacts StoredFacts.
From Verif Require Import Base BaseFacts SrrFacts Path PathSpec PathFacts FsSpec FsFacts Store StoreFacts Capital CapitalSpec CapitalFacts WorkDir WorkDirSpec.

Lemma snoc_nonempty {X} (l : list X) x : l ++ [x] <> [].
Proof. now destruct l. Qed.
Lemma place_app r a b : place r (a ++ b) = place (place r a) b.
Proof. revert r. induction a as [|c a IH]; intros r; [reflexivity|]. cbn [app place]. apply IH. Qed.
Lemma place_last r a c : place r (a ++ [c]) = place r a ++ 47 :: c.
Proof. now rewrite place_app. Qed.
Lemma plain_folder r c : plain c -> folder (r ++ 47 :: c).
Proof.
  intros (N & _ & _ & S). destruct (exists_last N) as (c' & x & ->). exists (r ++ 47 :: c'), x. split; [now rewrite <- app_assoc|].
  intros ->. apply S. rewrite in_app_iff. right. now left.
Qed.
Lemma place_folder cs : forall r, folder r -> Forall plain cs -> folder (place r cs).
Proof.
  induction cs as [|c cs IH]; intros r F P; [exact F|]. inversion P as [|? ? Pc Ps]; subst. cbn [place]. apply IH; [|exact Ps]. now apply plain_folder.
Qed.
Lemma folder_dir r : folder r -> dir_path r.
Proof.
  intros (a & x & -> & N). split; [now destruct a|]. intros s E. apply app_inj_tail in E as [_ E]. contradiction.
Qed.
Lemma folder_in r c : folder r -> in_folder r c = r ++ 47 :: c.
Proof.
  intros (a & x & -> & N). unfold in_folder. rewrite rev_app_distr. cbn [rev app]. apply N.eqb_neq in N. now rewrite N.
Qed.
Lemma place_split r ds b : folder r -> Forall plain ds -> plain b -> split_path (place r (ds ++ [b])) (place r ds) b.
Proof.
  intros F D B. rewrite place_last. destruct (place_folder ds r F D) as (a & x & E & N). split; [apply B|]. right. right. exists O, a, x. rewrite E. now repeat split.
Qed.
Lemma split_snoc p c : ~ In 47 c -> split SLASH (p ++ 47 :: c) = split SLASH p ++ [c].
Proof.
  intros H. induction p as [|x p IH].
  - cbn [app split]. change (47 =? SLASH) with true. cbv iota.
    assert (E : split SLASH c = [c]). { symmetry. apply joined_split. constructor. intros s [<-|[]]. exact H. }
    rewrite E. reflexivity.
  - cbn [app split]. rewrite IH. destruct (split SLASH p) as [|w ws] eqn:E; [destruct p as [|y p]; [discriminate|cbn in E; destruct (split SLASH p); [discriminate|destruct (y =? SLASH); discriminate]]|]. cbn [app]. now destruct (x =? SLASH).
Qed.
Lemma step_in_denotes c0 r rs c : folder r -> denotes c0 r rs -> plain c -> denotes c0 (r ++ 47 :: c) (c :: rs).
Proof.
  intros F D P. apply denotes_split in D. apply denotes_split.
  assert (Fi : first_is 47 (r ++ 47 :: c) = first_is 47 r) by (destruct F as (a & x & -> & _); now destruct a).
  rewrite Fi. assert (E : split 47 (r ++ 47 :: c) = split 47 r ++ [c]) by (apply split_snoc; apply P).
  rewrite E, walk_app, <- D, walk_plain by (constructor; [exact P|constructor]). reflexivity.
Qed.
Lemma place_denotes c0 cs : forall r rs, folder r -> denotes c0 r rs -> Forall plain cs -> denotes c0 (place r cs) (rev cs ++ rs).
Proof.
  induction cs as [|c cs IH]; intros r rs F D P; [exact D|]. inversion P as [|? ? Pc Ps]; subst. cbn [place rev]. rewrite <- app_assoc. cbn [app].
  apply IH; [now apply plain_folder|now apply step_in_denotes|exact Ps].
Qed.
Lemma place_joined cs n : joined [47] cs n -> forall r, place r cs = r ++ 47 :: n.
Proof.
  intros J. induction J as [c H|c s cs t H S J IH]; intros r; [reflexivity|]. cbn [place]. rewrite IH. destruct S as [<-|[]]. now rewrite <- app_assoc.
Qed.
Section Os.
Variables (lowf : text -> text) (cwd : text) (listdir : text -> option (list text)) (c0 : list text) (r w : text) (rs ws : list text).
Hypotheses (A : first_is 47 cwd = true) (C : denotes [] cwd c0) (Fr : folder r) (Dr : denotes c0 r rs) (Fw : folder w) (Dw : denotes c0 w ws).
Lemma relpath_place r' rs' cs : folder r' -> denotes c0 r' rs' -> cs <> [] -> Forall plain cs -> exists n, relpath cwd (place r' cs) r' = Ok n /\ below cs n.
Proof.
  intros F D N P. apply (relpath_below cwd c0 (place r' cs) r' cs rs' A C D N); [now apply place_denotes|].
  destruct (place_folder cs r' F P) as (a & x & -> & _). now destruct a.
Qed.
Lemma work_place cs : cs <> [] -> Forall plain cs -> work_dir_file cwd (place r cs) r w = Ok (place w cs).
Proof.
  intros N P. destruct (relpath_place r rs cs Fr Dr N P) as (n & E & B). unfold work_dir_file. rewrite E. cbn [bind]. f_equal.
  rewrite (pjoin_folder w cs n B), (folder_in w n Fw). symmetry. apply place_joined. apply B.
Qed.
Lemma copy_one d f ds e k exact capitals : Forall plain ds -> plain e -> plain k ->
  capitalized_fn lowf listdir (isfile d) f = Ok (exact, capitals) -> exact = place r (ds ++ [e]) -> basename capitals = k ->
  copy_to_working_dir lowf cwd listdir w r d f = Ok (match d (place r (ds ++ [e])) with Some c => put (place w (ds ++ [k])) c d | None => d end, place w (ds ++ [k])).
Proof.
  intros D E K H -> B. unfold copy_to_working_dir. rewrite H. cbn [bind]. rewrite work_place; [|now destruct ds|apply Forall_app; split; [exact D|now constructor]]. cbn [bind].
  rewrite B. assert (X : pjoin (dirname (place w (ds ++ [e]))) k = place w (ds ++ [k])).
  { rewrite !place_last. pose proof (folder_dir _ (place_folder ds w Fw D)) as P. rewrite dir_of; [|exact P|apply E]. apply (pjoin_ok (place w ds) k); [now apply dir_path_ok| |]; apply K. }
  now rewrite X.
Qed.
Lemma isfile_iff d p : isfile d p = true <-> d p <> None.
Proof. unfold isfile. destruct (d p); split; congruence. Qed.
Lemma same_place d ds b e : Forall plain ds -> same_but_case lowf (isfile d) (place r ds) b e <-> lowf e = lowf b /\ d (place r (ds ++ [e])) <> None.
Proof.
  intros D. unfold same_but_case. rewrite (folder_in _ e (place_folder ds r Fr D)), <- place_last, isfile_iff. reflexivity.
Qed.
Theorem copy_case d ds b e c : stands_for lowf listdir d r ds b e -> d (place r (ds ++ [e])) = Some c ->
  exists k, copy_to_working_dir lowf cwd listdir w r d (place r (ds ++ [b])) = Ok (put (place w (ds ++ [k])) c d, place w (ds ++ [k])) /\
  (k = b \/ k = e) /\ (lowf k = k -> lowf b = b /\ lowf e = e).
Proof.
  intros (D & B & X & L & names & Ln & Pn & I & U) Hc.
  destruct (capitalized_ok lowf listdir (isfile d) (place r (ds ++ [b])) (place r ds) b names) as (exact & capitals & e' & k & E & G & K1 & K2 & _ & K3); auto using place_split.
  destruct G as [(pre & post & En & S & _ & Ex)|(N & _)].
  2:{ exfalso. rewrite Forall_forall in N. apply (N e I). apply same_place; [exact D|]. now split. }
  assert (e' = e). { apply (same_place d ds b e' D) in S as [S1 S2]. apply U; [rewrite En, in_app_iff; right; now left|exact S1|exact S2]. } subst e'.
  assert (Pe : plain e) by (rewrite Forall_forall in Pn; now apply Pn).
  assert (Pk : plain k) by (destruct K2 as [->| ->]; assumption).
  exists k. split; [|split; [exact K2|exact K3]].
  assert (Bk : basename capitals = k).
  { destruct K1 as [->|[-> ->]]; [apply in_folder_base; apply Pk|]. rewrite place_last. apply basename_sep. apply B. }
  rewrite (copy_one d _ ds e k exact capitals D Pe Pk E); [now rewrite Hc| |exact Bk]. rewrite Ex, place_last. apply folder_in. now apply place_folder.
Qed.
Theorem copy_missing d ds b : nowhere lowf listdir d r ds b ->
  copy_to_working_dir lowf cwd listdir w r d (place r (ds ++ [b])) = Ok (d, place w (ds ++ [b])).
Proof.
  intros (D & B & X & names & Ln & Pn & U).
  destruct (capitalized_ok lowf listdir (isfile d) (place r (ds ++ [b])) (place r ds) b names) as (exact & capitals & e' & k & E & G & K1 & K2 & _ & K3); auto using place_split.
  destruct G as [(pre & post & En & S & _ & Ex)|(N & -> & Ex)].
  1:{ exfalso. apply (same_place d ds b e' D) in S as [S1 S2]. apply S2. apply U; [rewrite En, in_app_iff; right; now left|exact S1]. }
  assert (k = b) by (destruct K2; assumption). subst k.
  assert (Bk : basename capitals = b).
  { destruct K1 as [->|[_ ->]]; [apply in_folder_base; apply B|]. rewrite place_last. apply basename_sep. apply B. }
  rewrite (copy_one d _ ds b b exact capitals D B B E Ex Bk). now rewrite X.
Qed.
Lemma copy_alone d ds b c : alone lowf listdir d r ds b -> d (place r (ds ++ [b])) = Some c ->
  copy_to_working_dir lowf cwd listdir w r d (place r (ds ++ [b])) = Ok (put (place w (ds ++ [b])) c d, place w (ds ++ [b])).
Proof.
  intros (D & B & X & names & Ln & Pn & I & U) Hc. destruct (copy_case d ds b b c) as (k & E & [->| ->] & _); auto.
  repeat (split; [assumption || reflexivity|]). exists names. auto.
Qed.
Lemma alone_ext d d' x : (forall cs, d' (place r cs) = d (place r cs)) -> alone lowf listdir d r (fst x) (snd x) -> alone lowf listdir d' r (fst x) (snd x).
Proof.
  intros E (D & B & X & names & Ln & Pn & I & U). split; [exact D|]. split; [exact B|]. split; [now rewrite E|]. exists names. repeat (split; [assumption|]). intros e He Le. rewrite E. auto.
Qed.
Lemma put_other p c (d : files) q : q <> p -> put p c d q = d q.
Proof. intros H. unfold put. apply teqb_neq in H. now rewrite H. Qed.
Lemma put_same p c (d : files) : put p c d p = Some c.
Proof. unfold put. now rewrite teqb_refl. Qed.
Theorem copied (Ap : apart r w) l : forall d, Forall (fun x => alone lowf listdir d r (fst x) (snd x)) l ->
  exists d', copy_all lowf cwd listdir w r d (map (file_in r) l) = Ok (d', map (file_in w) l) /\
  (forall x, In x l -> d' (file_in w x) = d (file_in r x)) /\ (forall p, ~ In p (map (file_in w) l) -> d' p = d p).
Proof.
  induction l as [|x l IH]; intros d H; [exists d; cbn; repeat split; auto; now intros|].
  inversion H as [|? ? Hx Hl]; subst. cbn [map copy_all]. pose proof Hx as (_ & _ & X & _).
  destruct (d (place r (fst x ++ [snd x]))) as [c|] eqn:Ec; [|congruence].
  rewrite (copy_alone d (fst x) (snd x) c Hx Ec : copy_to_working_dir lowf cwd listdir w r d (file_in r x) = _). cbn [bind fst snd].
  fold (file_in w x). set (d1 := put (file_in w x) c d).
  assert (E1 : forall cs, d1 (place r cs) = d (place r cs)) by (intros cs; apply put_other; apply Ap).
  destruct (IH d1) as (d' & E & G1 & G2).
  { eapply Forall_impl; [|exact Hl]. intros y. now apply alone_ext. }
  rewrite E. cbn [bind fst snd]. exists d'. split; [reflexivity|]. split.
  - intros y Hy. destruct (in_dec text_dec (file_in w y) (map (file_in w) l)) as [I|I].
    + apply in_map_iff in I as (z & Ez & Iz). rewrite <- Ez, (G1 z Iz). unfold file_in at 1. rewrite E1. fold (file_in r z).
      assert (Z : file_in r z = file_in r y); [|now rewrite Z].
      assert (Pz : Forall plain (fst z ++ [snd z])).
      { rewrite Forall_forall in Hl. destruct (Hl z Iz) as (P1 & P2 & _). apply Forall_app. split; [exact P1|now constructor]. }
      assert (Py : Forall plain (fst y ++ [snd y])).
      { rewrite Forall_forall in H. destruct (H y Hy) as (P1 & P2 & _). apply Forall_app. split; [exact P1|now constructor]. }
      destruct (relpath_place r rs (fst z ++ [snd z]) Fr Dr (snoc_nonempty _ _) Pz) as (nz & _ & Bz). destruct (relpath_place r rs (fst y ++ [snd y]) Fr Dr (snoc_nonempty _ _) Py) as (ny & _ & By).
      unfold file_in in *. rewrite (place_joined _ _ (proj2 (proj2 Bz))), (place_joined _ _ (proj2 (proj2 By))) in *. apply app_inv_head in Ez. injection Ez as ->. reflexivity.
    + rewrite (G2 _ I). destruct Hy as [<-|Hy]; [|exfalso; apply I; now apply in_map]. unfold d1. rewrite put_same. symmetry. exact Ec.
  - intros p Hp. rewrite G2 by (intros I; apply Hp; now right). apply put_other. intros ->. apply Hp. now left.
Qed.
Theorem stored_place cs : cs <> [] -> Forall plain cs -> exists n, stored_name cwd true w (place w cs) = Ok n /\ below cs n.
Proof.
  intros N P. destruct (relpath_place w ws cs Fw Dw N P) as (n & E & B). exists n. split; [|exact B]. unfold stored_name. rewrite E. reflexivity.
Qed.
Theorem srs_copied (Ap : apart r w) l : forall d have, Forall (fun x => alone lowf listdir d r (fst x) (snd x)) l ->
  exists d' new, copy_srs lowf cwd listdir w r d have (map (file_in r) l) = Ok (d', have ++ new) /\ NoDup new /\
  (forall p, In p new <-> ~ In p have /\ exists x, In x l /\ p = file_in w x) /\
  (forall x, In x l -> ~ In (file_in w x) have -> d' (file_in w x) = d (file_in r x)) /\ (forall p, ~ In p new -> d' p = d p).
Proof.
  induction l as [|x l IH]; intros d have H.
  { exists d, []. cbn. rewrite app_nil_r. split; [reflexivity|]. split; [constructor|]. split; [intros p; split; [tauto|intros (_ & y & [] & _)]|]. split; [tauto|reflexivity]. }
  inversion H as [|? ? Hx Hl]; subst. cbn [map copy_srs]. pose proof Hx as (P1 & P2 & X & _).
  assert (Px : forall y, In y (x :: l) -> Forall plain (fst y ++ [snd y])).
  { intros y Hy. rewrite Forall_forall in H. destruct (H y Hy) as (Q1 & Q2 & _). apply Forall_app. split; [exact Q1|now constructor]. }
  assert (Inj : forall y z, In y (x :: l) -> In z (x :: l) -> file_in w y = file_in w z -> file_in r y = file_in r z).
  { intros y z Hy Hz E. destruct (relpath_place r rs (fst z ++ [snd z]) Fr Dr (snoc_nonempty _ _) (Px z Hz)) as (nz & _ & Bz). destruct (relpath_place r rs (fst y ++ [snd y]) Fr Dr (snoc_nonempty _ _) (Px y Hy)) as (ny & _ & By).
    unfold file_in in *. rewrite (place_joined _ _ (proj2 (proj2 Bz))), (place_joined _ _ (proj2 (proj2 By))) in *. apply app_inv_head in E. injection E as ->. reflexivity. }
  rewrite (work_place (fst x ++ [snd x]) (snoc_nonempty _ _) (Px x (or_introl eq_refl)) : work_dir_file cwd (file_in r x) r w = _). cbn [bind]. fold (file_in w x).
  destruct (mem_text (file_in w x) have) eqn:M.
  - apply mem_spec in M. destruct (IH d have Hl) as (d' & new & E & N & G & K1 & K2). exists d', new. split; [exact E|]. split; [exact N|]. split; [|split; [|exact K2]].
    + intros p. rewrite G. split; intros (Q1 & y & Q2 & Q3); (split; [exact Q1|]); [exists y; split; [now right|exact Q3]|].
      destruct Q2 as [<-|Q2]; [subst p; contradiction|]. now exists y.
    + intros y [<-|Hy] Q; [contradiction|now apply K1].
  - assert (M' : ~ In (file_in w x) have) by (intros I; apply mem_spec in I; congruence).
    destruct (d (place r (fst x ++ [snd x]))) as [c|] eqn:Ec; [|congruence].
    rewrite (copy_alone d (fst x) (snd x) c Hx Ec : copy_to_working_dir lowf cwd listdir w r d (file_in r x) = _). cbn [bind fst snd].
    fold (file_in w x). set (d1 := put (file_in w x) c d).
    assert (E1 : forall cs, d1 (place r cs) = d (place r cs)) by (intros cs; apply put_other; apply Ap).
    destruct (IH d1 (have ++ [file_in w x])) as (d' & new & E & N & G & K1 & K2).
    { eapply Forall_impl; [|exact Hl]. intros y. now apply alone_ext. }
    exists d', (file_in w x :: new). rewrite <- app_assoc in E. cbn [app] in E. split; [exact E|].
    assert (NI : ~ In (file_in w x) new) by (intros I; apply G in I as [I _]; apply I; rewrite in_app_iff; right; now left).
    split; [constructor; [exact NI|exact N]|]. split; [|split].
    + intros p. cbn [In]. rewrite G. split.
      * intros [<-|(Q1 & y & Q2 & Q3)]; [split; [exact M'|]; exists x; split; [now left|reflexivity]|]. split; [intros I; apply Q1; rewrite in_app_iff; now left|]. exists y. split; [now right|exact Q3].
      * intros (Q1 & y & [<-|Q2] & Q3); [left; now symmetry|]. destruct (text_dec (file_in w x) p) as [->|Ne]; [now left|]. right. split; [rewrite in_app_iff; intros [I|[I|[]]]; contradiction|]. now exists y.
    + intros y Hy Q. destruct (text_dec (file_in w y) (file_in w x)) as [Eq|Ne].
      * rewrite Eq, K2 by exact NI. unfold d1. rewrite put_same, (Inj y x Hy (or_introl eq_refl) Eq). symmetry. exact Ec.
      * destruct Hy as [<-|Hy]; [congruence|]. rewrite K1; [apply E1|exact Hy|]. rewrite in_app_iff. intros [I|[I|[]]]; [contradiction|congruence].
    + intros p Hp. rewrite K2 by (intros I; apply Hp; now right). apply put_other. intros ->. apply Hp. now left.
Qed.
End Os.
