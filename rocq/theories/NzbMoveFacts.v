(** NzbMoveFacts: where NZB files are put. *)
From Coq Require Import Permutation.
From Verif Require Import VolName VolFacts.
From Verif Require Import Base BaseFacts Path PathFacts SrrFacts Rarexe RarexeFacts Preprar PreprarSpec PreprarFacts DirsFacts RetagSpec RetagFacts NzbMove NzbMoveSpec.

Lemma dget_in k v d : NoDup (map fst d) -> (dget k d = Some v <-> In (k, v) d).
Proof.
  induction d as [|[n w] d IH]; intros H; cbn [dget map fst] in *; [split; [discriminate|intros []]|]. inversion_clear H as [|? ? H1 H2]. destruct (teqb n k) eqn:E.
  - apply teqb_eq in E. subst n. split; [intros X; apply some_inj in X as ->; now left|]. intros [X|X]; [now injection X as ->|]. destruct H1. apply in_map_iff. exists (k, v). auto.
  - rewrite (IH H2). split; [now right|]. intros [X|X]; [|exact X]. injection X as -> ->. now rewrite teqb_refl in E.
Qed.
Lemma drop_in k d q v : In (q, v) (drop k d) <-> q <> k /\ In (q, v) d.
Proof. unfold drop. rewrite filter_In. cbn [fst]. rewrite negb_true_iff, teqb_neq. tauto. Qed.
Lemma drop_nodup k d : NoDup (map fst d) -> NoDup (map fst (drop k d)).
Proof.
  induction d as [|[a b] d IH]; intros H; [constructor|]. inversion_clear H as [|? ? H1 H2]. unfold drop in *. cbn [filter fst]. destruct (teqb a k); cbn [negb map]; [exact (IH H2)|]. constructor; [|exact (IH H2)].
  intros I. apply H1. apply in_map_iff in I as (y & E & I). apply filter_In in I as [I _]. apply in_map_iff. eauto.
Qed.
Lemma drop_none k d : ~ In k (map fst d) -> drop k d = d.
Proof.
  induction d as [|[a b] d IH]; intros H; [reflexivity|]. unfold drop in *. cbn [filter fst map] in *. destruct (teqb a k) eqn:E; [apply teqb_eq in E; subst; destruct H; now left|]. cbn [negb]. f_equal. apply IH. intros I. apply H. now right.
Qed.
Lemma drop_perm k v d : NoDup (map fst d) -> In (k, v) d -> Permutation d ((k, v) :: drop k d).
Proof.
  induction d as [|[a b] d IH]; intros H I; [destruct I|]. cbn [map fst] in H. inversion_clear H as [|? ? H1 H2]. unfold drop. cbn [filter fst]. destruct I as [I|I].
  - injection I as -> ->. rewrite teqb_refl. cbn [negb]. fold (drop k d). now rewrite drop_none.
  - assert (a <> k) as Hn. { intros ->. apply H1. apply in_map_iff. exists (k, v). auto. } rewrite (proj2 (teqb_neq a k) Hn). cbn [negb]. fold (drop k d). rewrite perm_swap. constructor. now apply IH.
Qed.
Lemma move_spec s t d : NoDup (map fst d) -> s <> t -> In s (map fst d) -> NoDup (map fst (move_nzb s t d)) /\
  forall q v, In (q, v) (move_nzb s t d) <-> (q = t /\ In (s, v) d) \/ (q <> t /\ q <> s /\ In (q, v) d).
Proof.
  intros Nd Ne I. apply in_map_iff in I as ([k w] & E & I). cbn in E. subst k. unfold move_nzb. pose proof (proj2 (dget_in s w d Nd) I) as G. rewrite G. split.
  - cbn [map fst]. constructor; [|apply drop_nodup, drop_nodup, Nd]. intros J. apply in_map_iff in J as ([a b] & E & J). cbn in E. subst a. now apply drop_in in J as [J _].
  - intros q v. cbn [In]. rewrite !drop_in. split.
    + intros [X|X]; [injection X as <- <-; left; auto|right; tauto].
    + intros [[-> X]|X]; [|right; tauto]. left. apply (dget_in s v d Nd) in X. congruence.
Qed.
Lemma move_perm s t d : NoDup (map fst d) -> In s (map fst d) -> ~ In t (map fst d) -> Permutation (map snd d) (map snd (move_nzb s t d)).
Proof.
  intros Nd I N. apply in_map_iff in I as ([k w] & E & I). cbn in E. subst k. unfold move_nzb. pose proof (proj2 (dget_in s w d Nd) I) as G. rewrite G. rewrite (drop_none t).
  - cbn [map snd]. exact (Permutation_map snd (drop_perm s w d Nd I)).
  - intros J. apply N. apply in_map_iff in J as (y & E & J). apply in_map_iff. exists y. split; [exact E|]. destruct y as [a b]. now apply drop_in in J as [_ J].
Qed.

(** ** Folders *)
Lemma to_place p n place : folder_path p -> n <> [] -> ~ In 47 n -> place <> [] -> ~ In 47 place -> to_folder (p ++ 47 :: n) place = p ++ 47 :: place ++ 47 :: n.
Proof.
  intros Hp Nn Hn Np Hpl. unfold to_folder. rewrite dirname_open by assumption. rewrite basename_sep by exact Hn. unfold pjoin_all. cbn [fold_left].
  destruct (pjoin_ok p place Hp Np Hpl) as [-> Ok2]. destruct (pjoin_ok _ n Ok2 Nn Hn) as [-> _]. now rewrite <- app_assoc.
Qed.
Lemma belongs_plain o pl : belongs o pl -> pl <> [] /\ ~ In 47 pl.
Proof. destruct 1; (split; [discriminate|]); intros I; repeat (destruct I as [I|I]; [discriminate I|]); destruct I. Qed.
Lemma failure_spec t : (teqb t (str "Failure on all servers.") || has_text (str "430") t || teqb t (str "No data available to decode.")) = true <-> server_failure t.
Proof.
  rewrite !orb_true_iff, !teqb_eq. unfold server_failure. assert (H : has_text (str "430") t = true <-> exists a b, t = a ++ str "430" ++ b) by exact (sub_spec (str "430") t). rewrite H. tauto.
Qed.
Lemma belongs_one o a b : belongs o a -> belongs o b -> a = b.
Proof. intros H1 H2. destruct H1; inversion H2; subst; auto; contradiction. Qed.
Lemma wet_spec nzb o d : 
  (exists place, belongs o place /\ nzbmove false nzb o d = (move_nzb nzb (to_folder nzb place) d, None)) \/
  (o = OErr XOS /\ nzbmove false nzb o d = (d, None)) \/ (ends_program o /\ exists s, nzbmove false nzb o d = (d, Some s)).
Proof.
  destruct o as [| |[]]; unfold nzbmove; cbn [create_srr_out].
  - left. eexists. split; [constructor|reflexivity].
  - left. eexists. split; [constructor|reflexivity].
  - right. left. auto.
  - right. right. split; [cbn; auto|eauto].
  - right. right. split; [cbn; auto|eauto].
  - right. right. split; [cbn; auto|eauto].
  - left. eexists. split; [constructor|reflexivity].
  - left. eexists. split; [constructor|reflexivity].
  - left. eexists. split; [constructor|reflexivity].
  - left. eexists. split; [constructor|reflexivity].
  - destruct ename as [t|]; [|right; right; split; [cbn; auto|eauto]]. left. destruct (teqb t _ || _ || _) eqn:E.
    + apply failure_spec in E. eexists. split; [now apply b_server|reflexivity].
    + assert (~ server_failure t) by (intros X; apply failure_spec in X; congruence). eexists. split; [now apply b_news|reflexivity].
  - left. eexists. split; [constructor|reflexivity].
Qed.
Lemma no_place o : o = OErr XOS \/ ends_program o -> forall pl, ~ belongs o pl.
Proof. intros [-> | H] pl B; [inversion B|]. repeat (destruct H as [<-|H]; [inversion B|]). destruct H. Qed.
(** the place is deeper than the files *)
Lemma deeper p place n m : ~ In 47 place -> ~ In 47 m -> p ++ 47 :: place ++ 47 :: n <> p ++ 47 :: m.
Proof. intros _ Hm E. apply app_inv_head in E. injection E as E. apply Hm. rewrite <- E. apply in_app_iff. right. now left. Qed.
Lemma last_sep (a b n m : text) : ~ In 47 n -> ~ In 47 m -> a ++ 47 :: n = b ++ 47 :: m -> n = m.
Proof. intros Hn Hm E. rewrite <- (basename_sep a n Hn), <- (basename_sep b m Hm). now rewrite E. Qed.
Theorem process_all p out l : folder_path p -> NoDup l -> Forall (nzb_in p) l -> forall d, NoDup (map fst d) -> (forall f, In f l -> In f (map fst d)) ->
  exists done rest, l = done ++ rest /\ Forall (fun f => ~ ends_program (out f)) done /\ NoDup (map fst (fst (process false out l d))) /\ sorted_out p out done d (fst (process false out l d)) /\
  match rest with [] => snd (process false out l d) = None | f :: _ => ends_program (out f) /\ snd (process false out l d) <> None end.
Proof.
  intros Hp. induction l as [|f l IH]; intros Nl Fl d Nd Hin.
  - exists [], []. cbn. split; [reflexivity|]. split; [constructor|]. split; [exact Nd|]. split; [|reflexivity]. intros q v. split.
    + intros H. right. split; [exact H|]. split; [intros ? []|intros [[] _]].
    + intros [(f & [] & _)|[H _]]. exact H.
  - inversion_clear Nl as [|? ? Nf Nl']. inversion_clear Fl as [|? ? Hf Fl']. cbn [process].
    destruct (wet_spec f (out f) d) as [(pl & B & E)|[[Eo E]|(Ee & s & E)]]; rewrite E.
    + destruct Hf as (n & Ef & Nn & Hn). destruct (belongs_plain _ _ B) as [Np Hpl]. assert (Et : to_folder f pl = p ++ 47 :: pl ++ 47 :: n) by (rewrite Ef; now apply to_place).
      assert (Hne : f <> to_folder f pl) by (rewrite Et, Ef at 1; intros X; symmetry in X; revert X; now apply deeper).
      destruct (move_spec f (to_folder f pl) d Nd Hne (Hin f (or_introl eq_refl))) as [Nd1 M]. set (d1 := move_nzb f (to_folder f pl) d) in *.
      assert (Keep : forall g v, In g l -> (In (g, v) d1 <-> In (g, v) d)).
      { intros g v Ig. rewrite M. assert (g <> f) by (intros ->; contradiction). assert (g <> to_folder f pl).
        { rewrite Et. rewrite Forall_forall in Fl'. destruct (Fl' g Ig) as (m & -> & _ & Hm). intros X. symmetry in X. revert X. now apply deeper. }
        split; [intros [[X _]|(_ & _ & X)]; [contradiction|exact X]|intros X; right; auto]. }
      destruct (IH Nl' Fl' d1 Nd1) as (done & rest & El & Fd & Nd' & S & R).
      { intros g Ig. specialize (Hin g (or_intror Ig)). apply in_map_iff in Hin as ([a b] & Ea & I). cbn in Ea. subst a. apply in_map_iff. exists (g, b). split; [reflexivity|]. now apply Keep. }
      assert (Hdone : forall g, In g done -> In g l) by (intros g Ig; rewrite El; apply in_app_iff; now left).
      exists (f :: done), rest. split; [cbn; now f_equal|]. split; [constructor; [|exact Fd]; intros X; exact (no_place _ (or_intror X) _ B)|]. split; [exact Nd'|]. split; [|exact R].
      assert (Pf : forall q, place_for p out q f <-> q = to_folder f pl).
      { intros q. rewrite Et. split.
        - intros (n' & pl' & Ef' & Hn' & B' & ->). rewrite (belongs_one _ _ _ B' B). rewrite Ef in Ef'. apply app_inv_head in Ef'. now injection Ef' as ->.
        - intros ->. exists n, pl. auto. }
      intros q v. rewrite (S q v). split.
      * intros [(g & Ig & Pg & I)|(I & NP & NM)].
        -- left. exists g. split; [now right|]. split; [exact Pg|]. apply Keep; auto.
        -- apply M in I as [[-> I]|(N1 & N2 & I)]; [left; exists f; split; [now left|]; split; [now apply Pf|exact I]|]. right. split; [exact I|]. split.
           ++ intros g [<-|Ig]; [now rewrite Pf|now apply NP].
           ++ intros [[<-|Ig] X]; [now destruct N2|]. now apply NM.
      * intros [(g & [<-|Ig] & Pg & I)|(I & NP & NM)].
        -- apply Pf in Pg as ->. right. split; [apply M; left; auto|]. split.
           ++ intros g Ig (m & pl' & Eg & Hm & B' & X). rewrite Et in X. assert (n = m) as <-.
              { change (p ++ 47 :: pl ++ 47 :: n) with (p ++ (47 :: pl) ++ 47 :: n) in X. change (p ++ 47 :: pl' ++ 47 :: m) with (p ++ (47 :: pl') ++ 47 :: m) in X. rewrite !app_assoc in X. revert X. now apply last_sep. }
              apply Nf. rewrite Ef, <- Eg. now apply Hdone.
           ++ intros [Ig _]. apply Hdone in Ig. rewrite Forall_forall in Fl'. destruct (Fl' _ Ig) as (m & X & _ & Hm). rewrite Et in X. revert X. now apply deeper.
        -- left. exists g. split; [exact Ig|]. split; [exact Pg|]. apply Keep; auto.
        -- right. split; [apply M; right|].
           ++ split; [intros ->; apply (NP f (or_introl eq_refl)); now apply Pf|]. split; [|exact I]. intros ->. apply NM. split; [now left|eauto].
           ++ split; [intros g Ig; apply NP; now right|]. intros [Ig X]. apply NM. split; [now right|exact X].
    + destruct (IH Nl' Fl' d Nd (fun g Ig => Hin g (or_intror Ig))) as (done & rest & El & Fd & Nd' & S & R).
      exists (f :: done), rest. split; [cbn; now f_equal|]. split; [constructor; [|exact Fd]; rewrite Eo; intros X; repeat (destruct X as [X|X]; [discriminate X|]); destruct X|]. split; [exact Nd'|]. split; [|exact R].
      assert (NB : forall pl, ~ belongs (out f) pl) by (apply no_place; now left). intros q v. rewrite (S q v). split.
      * intros [(g & Ig & Pg & I)|(I & NP & NM)]; [left; exists g; split; [now right|]; auto|right]. split; [exact I|]. split.
        -- intros g [<-|Ig]; [intros (n & pl & _ & _ & B & _); exact (NB pl B)|now apply NP].
        -- intros [[<-|Ig] [pl B]]; [exact (NB pl B)|]. apply NM. eauto.
      * intros [(g & [<-|Ig] & Pg & I)|(I & NP & NM)]; [destruct Pg as (n & pl & _ & _ & B & _); destruct (NB pl B)|left; eauto|right]. split; [exact I|]. split; [intros g Ig; apply NP; now right|]. intros [Ig X]. apply NM. split; [now right|exact X].
    + exists [], (f :: l). cbn [app fst snd]. split; [reflexivity|]. split; [constructor|]. split; [exact Nd|]. split; [|split; [exact Ee|discriminate]]. intros q v. split.
      * intros H. right. split; [exact H|]. split; [intros ? []|intros [[] _]].
      * intros [(g & [] & _)|[H _]]. exact H.
Qed.

Lemma places_differ p out q f g : place_for p out q f -> place_for p out q g -> f = g.
Proof.
  intros (n & pl & -> & Hn & _ & E) (m & pl' & -> & Hm & _ & E'). f_equal. f_equal. rewrite E in E'.
  change (p ++ 47 :: pl ++ 47 :: n) with (p ++ (47 :: pl) ++ 47 :: n) in E'. change (p ++ 47 :: pl' ++ 47 :: m) with (p ++ (47 :: pl') ++ 47 :: m) in E'. rewrite !app_assoc in E'. revert E'. now apply last_sep.
Qed.
Lemma process_kept p out l : folder_path p -> NoDup l -> Forall (nzb_in p) l -> forall d, NoDup (map fst d) -> (forall f, In f l -> In f (map fst d)) ->
  (forall f q, In f l -> place_for p out q f -> ~ In q (map fst d)) -> Permutation (map snd d) (map snd (fst (process false out l d))).
Proof.
  intros Hp. induction l as [|f l IH]; intros Nl Fl d Nd Hin Hfree; [apply Permutation_refl|].
  inversion_clear Nl as [|? ? Nf Nl']. inversion_clear Fl as [|? ? Hf Fl']. cbn [process].
  destruct (wet_spec f (out f) d) as [(pl & B & E)|[[Eo E]|(Ee & s & E)]]; rewrite E; [| |apply Permutation_refl].
  - destruct Hf as (n & Ef & Nn & Hn). destruct (belongs_plain _ _ B) as [Np Hpl]. assert (Et : to_folder f pl = p ++ 47 :: pl ++ 47 :: n) by (rewrite Ef; now apply to_place).
    assert (Pf : place_for p out (to_folder f pl) f) by (exists n, pl; auto).
    assert (Hne : f <> to_folder f pl) by (intros X; apply (Hfree f _ (or_introl eq_refl) Pf); rewrite <- X; apply Hin; now left).
    destruct (move_spec f (to_folder f pl) d Nd Hne (Hin f (or_introl eq_refl))) as [Nd1 M].
    rewrite (move_perm f (to_folder f pl) d Nd (Hin f (or_introl eq_refl)) (Hfree f _ (or_introl eq_refl) Pf)). apply IH; [exact Nl'|exact Fl'|exact Nd1| |].
    + intros g Ig. pose proof (Hin g (or_intror Ig)) as J. apply in_map_iff in J as ([a b] & Ea & I). cbn in Ea. subst a. apply in_map_iff. exists (g, b). split; [reflexivity|]. apply M. right. split; [|split; [intros ->; contradiction|exact I]].
      intros ->. apply (Hfree f _ (or_introl eq_refl) Pf). apply Hin. now right.
    + intros g q Ig Pg J. apply in_map_iff in J as ([a b] & Ea & I). cbn in Ea. subst a. apply M in I as [[-> _]|(_ & _ & I)].
      * rewrite (places_differ _ _ _ _ _ Pf Pg) in Nf. contradiction.
      * apply (Hfree g q (or_intror Ig) Pg). apply in_map_iff. exists (q, b). auto.
  - apply IH; [exact Nl'|exact Fl'|exact Nd|intros g Ig; apply Hin; now right|intros g q Ig; apply (Hfree g q); now right].
Qed.

(** ** The files of a folder *)
Lemma existsb_47 n : existsb (N.eqb 47) n = false <-> ~ In 47 n.
Proof.
  split.
  - intros H I. assert (X : existsb (N.eqb 47) n = true) by (apply existsb_exists; exists 47; split; [exact I|reflexivity]). congruence.
  - intros H. apply not_true_is_false. intros X. apply existsb_exists in X as (c & I & E). apply N.eqb_eq in E. now subst c.
Qed.
Lemma in_folder_spec p f : in_folder_b p f = true <-> exists n, f = p ++ 47 :: n /\ nzb_name n.
Proof.
  unfold in_folder_b, nzb_name. rewrite !andb_true_iff, !negb_true_iff, existsb_47, VolFacts.ends_with_spec.
  assert (A : starts_with N.eqb (p ++ [47]) f = true <-> exists n, f = p ++ 47 :: n).
  { split.
    - intros H. destruct (lit (p ++ [47]) f) as [n|] eqn:L; [|unfold lit in L; rewrite H in L; discriminate]. apply lit_spec in L. exists n. rewrite L, <- app_assoc. reflexivity.
    - intros (n & ->). assert (L : lit (p ++ [47]) (p ++ 47 :: n) = Some n) by (apply lit_spec; now rewrite <- app_assoc). unfold lit in L. now destruct (starts_with _ _ _). }
  assert (S : forall n, skipn (length p + 1) (p ++ 47 :: n) = n).
  { intros n. replace (length p + 1)%nat with (length (p ++ [47])) by (rewrite app_length; reflexivity). change (47 :: n) with ([47] ++ n). rewrite app_assoc. rewrite skipn_app, skipn_all, Nat.sub_diag. reflexivity. }
  assert (D : forall n, first_is 46 n = false <-> forall r, n <> 46 :: r).
  { intros [|c n]; cbn; [split; [discriminate|reflexivity]|]. rewrite N.eqb_neq. split; [intros H r E; injection E as -> _; contradiction|intros H ->; now apply (H n)]. }
  rewrite A, D. split.
  - intros [[n ->] [[H1 H2] H3]]. rewrite S in *. eauto.
  - intros (n & -> & H1 & H2 & H3). rewrite S. eauto.
Qed.
Lemma listed_in p (d : disk) : Forall (nzb_in p) (filter (in_folder_b p) (map fst d)).
Proof.
  apply Forall_forall. intros f H. apply filter_In in H as [_ H]. apply in_folder_spec in H as (n & -> & H1 & (b & ->) & H3). exists (b ++ str ".nzb"). split; [reflexivity|]. split; [|exact H1]. intros E. apply app_eq_nil in E as [_ E]. discriminate E.
Qed.
Theorem dir_sorted p out d : folder_path p -> NoDup (map fst d) -> exists l done rest d', l = done ++ rest /\ NoDup l /\ (forall f, In f l <-> In f (map fst d) /\ exists n, f = p ++ 47 :: n /\ nzb_name n) /\
  fst (process_dir false out p d) = d' /\ NoDup (map fst d') /\ sorted_out p out done d d' /\ Forall (fun f => ~ ends_program (out f)) done /\
  match rest with [] => snd (process_dir false out p d) = None | f :: _ => ends_program (out f) /\ snd (process_dir false out p d) <> None end.
Proof.
  intros Hp Nd. set (l := filter (in_folder_b p) (map fst d)). assert (Nl : NoDup l) by now apply NoDup_filter.
  destruct (process_all p out l Hp Nl (listed_in p d) d Nd) as (done & rest & El & Fd & Nd' & S & R); [intros f H; now apply filter_In in H as [H _]|].
  exists l, done, rest, (fst (process_dir false out p d)). split; [exact El|]. split; [exact Nl|]. split; [intros f; unfold l; rewrite filter_In, in_folder_spec; reflexivity|]. unfold process_dir. fold l. auto.
Qed.
Theorem dir_kept p out d : folder_path p -> NoDup (map fst d) -> (forall f q, In f (map fst d) -> place_for p out q f -> ~ In q (map fst d)) -> Permutation (map snd d) (map snd (fst (process_dir false out p d))).
Proof.
  intros Hp Nd H. apply (process_kept p out); [exact Hp|now apply NoDup_filter|apply listed_in|exact Nd|intros f I; now apply filter_In in I as [I _]|]. intros f q I. apply H. now apply filter_In in I as [I _].
Qed.
Theorem dry_none p out d : (forall f, In f (map fst d) -> out f = OErr XOS \/ out f = OErr XPermanent \/ out f = OErr XOther \/ (exists t, out f = OErr (XNntp t)) \/ ends_program (out f)) -> fst (process_dir true out p d) = d.
Proof.
  intros H. unfold process_dir. assert (G : forall f, In f (filter (in_folder_b p) (map fst d)) -> In f (map fst d)) by (intros f I; now apply filter_In in I as [I _]). revert G.
  generalize (filter (in_folder_b p) (map fst d)) as l. induction l as [|f l IH]; intros G; [reflexivity|]. cbn [process].
  assert (X : fst (nzbmove true f (out f) d) = d).
  { destruct (H f (G f (or_introl eq_refl))) as [E|[E|[E|[(t & E)|E]]]]; [rewrite E; reflexivity|rewrite E; reflexivity|rewrite E; reflexivity| |].
    - rewrite E. destruct t as [t|]; [|reflexivity]. unfold nzbmove. cbn [create_srr_out]. now destruct (_ || _ || _).
    - repeat (destruct E as [<-|E]; [reflexivity|]). destruct E. }
  destruct (nzbmove true f (out f) d) as [d1 [s|]]; cbn [fst] in X; subst d1; [reflexivity|]. apply IH. intros g I. apply G. now right.
Qed.

(** ** STAT *)
Lemma others_no main servers b : (main = ROther \/ main = RTemp) -> stat_others main servers = Ok b -> b = false.
Proof. intros Hm. induction servers as [|[r| |] l IH]; cbn [stat_others]; intros H; [apply ok_inj in H; auto| |auto|discriminate]. destruct Hm as [-> | ->]; [apply ok_inj in H; auto|auto]. Qed.
Theorem stat_answer nostat have main servers b : stat_last_segment nostat have main servers = Ok b -> (b = true <-> nostat = true \/ have = true \/ main = RFound).
Proof.
  unfold stat_last_segment. destruct nostat; [intros H; apply ok_inj in H as <-; tauto|]. destruct have; [intros H; apply ok_inj in H as <-; tauto|]. destruct main; intros H.
  - apply ok_inj in H as <-. tauto.
  - apply others_no in H as ->; [|auto]. split; [discriminate|]. intros [X|[X|X]]; discriminate X.
  - apply others_no in H as ->; [|auto]. split; [discriminate|]. intros [X|[X|X]]; discriminate X.
  - discriminate.
Qed.
