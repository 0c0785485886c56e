(** WantedFacts: the SFV files of the main archives. *)
From Coq Require Import Permutation.
From Verif Require Import VolName VolSpec VolFacts Base BaseFacts Path PathFacts Dirs DirsSpec DirsFacts Select SelectSpec SelectFacts Wanted WantedSpec.

Lemma dir_of d n : dir_path d -> ~ In 47 n -> dirname (d ++ 47 :: n) = d.
Proof.
  intros D N. destruct (dir_path_ok d D) as [Dn L]. unfold dirname. rewrite rev_app_distr. cbn [rev]. rewrite <- app_assoc. cbn [app]. rewrite split_tail_sep by now rewrite <- in_rev.
  cbn [snd rev]. rewrite rev_involutive. unfold last_is in L. unfold rstrip_slash. rewrite rev_app_distr. cbn [rev app drop_slashes].
  change (47 =? SLASH) with true. cbv iota. destruct (rev d) as [|c r] eqn:E.
  - exfalso. apply Dn. rewrite <- (rev_involutive d), E. reflexivity.
  - destruct (forallb (N.eqb SLASH) (d ++ [47])) eqn:F.
    + exfalso. rewrite forallb_forall in F. assert (In c (d ++ [47])) as I by (apply in_app_iff; left; apply in_rev; rewrite E; now left). specialize (F c I). unfold SLASH in F. lia.
    + cbn [drop_slashes]. unfold SLASH. rewrite L. rewrite <- E. apply rev_involutive.
Qed.
Lemma within_b s t : part_of (str s) (lower t) = true <-> within s t.
Proof. apply part_of_spec. Qed.
Lemma within_f s t : part_of (str s) (lower t) = false <-> ~ within s t.
Proof. now rewrite <- not_true_iff_false, within_b. Qed.
Lemma has_b s t : has s (lower t) = true <-> within s t.
Proof. apply part_of_spec. Qed.
Lemma mem_b x l : mem_text x l = true <-> In x l.
Proof. unfold mem_text. rewrite existsb_exists. split; [intros (y & I & E); apply teqb_eq in E; now subst y|intros I; exists x; split; [exact I|apply teqb_refl]]. Qed.
Lemma eol_spec t : lang eol t <-> t = [] \/ t = [10].
Proof. unfold eol. rewrite inv_maybe, inv_one. split; (intros [H|H]; [now left|right]); [destruct H as (c & -> & H); apply N.eqb_eq in H; now subst c|subst t; now exists 10]. Qed.
Lemma subs_cd_is d : SUBS_CD d = true -> subs_cd d.
Proof.
  unfold SUBS_CD, icase. rewrite matches_lang, inv_then. intros (a & t & E & _ & H). rewrite inv_then in H. destruct H as (w & t1 & -> & Hw & H). rewrite inv_word in Hw. subst w.
  rewrite inv_then in H. destruct H as (x & t2 & -> & Hx & H). rewrite inv_then in H. destruct H as (w & t3 & -> & Hw & H). rewrite inv_word in Hw. subst w.
  rewrite inv_then in H. destruct H as (g & nl & -> & Hg & H). unfold digit in Hg. rewrite inv_one in Hg. destruct Hg as (c & -> & Hc). apply eol_spec in H.
  exists a, x, c, nl. split; [exact E|]. split; [|split; [unfold is_digit; lia|exact H]]. rewrite inv_maybe in Hx. destruct Hx as [-> |Hx]; [cbn; lia|]. unfold dot in Hx. rewrite inv_one in Hx. destruct Hx as (y & -> & _). cbn. lia.
Qed.
Lemma app_end_inv {A} (a b x y : list A) : a ++ x = b ++ y -> lenN x = lenN y -> a = b /\ x = y.
Proof.
  intros E L. assert (H : lenN a = lenN b) by (apply (f_equal lenN) in E; rewrite !lenN_app in E; lia).
  pose proof (f_equal (takeN (lenN a)) E) as E1. pose proof (f_equal (dropN (lenN a)) E) as E2. rewrite takeN_app_exact in E1 by reflexivity. rewrite dropN_app_exact in E2 by reflexivity.
  rewrite H, takeN_app_exact in E1 by reflexivity. rewrite H, dropN_app_exact in E2 by reflexivity. now split.
Qed.

Lemma image4 m : mem_text (lower (last4 m)) PROOF_IMAGE_EXTS = true <-> image m.
Proof.
  rewrite mem_b. replace (lower (last4 m)) with (last4 (lower m)) by (unfold last4, lower; rewrite !dropN_skipn, !lenN_length, map_length; now rewrite skipn_map). unfold image. split.
  - intros I. assert (K : forall s, lenN (str s) = 4 -> str s = last4 (lower m) -> named s m) by (intros s L E; apply (proj1 (ends4_spec s m L)); unfold ends4; apply teqb_eq; now symmetry).
    repeat (destruct I as [E|I]; [eexists; split; [|apply K; [|exact E]; reflexivity]; cbn; tauto|]). contradiction.
  - intros (e & I & E). assert (L : lenN (str e) = 4) by (repeat (destruct I as [<- |I]; [reflexivity|]); contradiction). apply (ends4_spec e m L) in E. unfold ends4 in E. apply teqb_eq in E. rewrite E.
    repeat (destruct I as [<- |I]; [cbn; tauto|]). contradiction.
Qed.
Section Disk.
Variables (entries : text -> list text) (isfile : text -> bool) (packed : text -> list text * bool).
Notation wanted := (wanted entries isfile packed).
Notation remove := (remove_unwanted_sfvs entries isfile packed).
Lemma base_of_root root rel : release_at root rel -> basename root = rel.
Proof. intros (_ & N & r & ->). now apply basename_sep. Qed.
Lemma main_wanted root rel sfv : release_at root rel -> main_sfv root rel sfv -> wanted root sfv = true.
Proof.
  intros R (d & n & (-> & N & D) & S & K). unfold Wanted.wanted. cbv zeta. rewrite (base_of_root _ _ R), basename_sep, dir_of by assumption.
  assert (~ within "subs" n /\ ~ within "vobsub" n /\ ~ within "subtitle" n) as (S1 & S2 & S3) by (unfold about_subs in S; tauto).
  apply within_f in S1, S2, S3. rewrite S1, S2, S3. cbn [orb andb].
  destruct K as [(-> & K1 & K2 & K3)|(k & (c & Kc & Kd) & -> & K)].
  - rewrite (base_of_root _ _ R).
    assert (mem_text (lower rel) EXTRA_DIRS = false) as -> by (apply not_true_iff_false; now rewrite mem_b).
    assert (teqb (lower rel) (str "proof") || teqb (lower rel) (str "proofs") = false) as ->.
    { apply not_true_iff_false. rewrite orb_true_iff, !teqb_eq. intros X. apply K2. unfold proof_dir. destruct X as [X|X]; [left|right; left]; now rewrite X. }
    assert (SUBS_CD root = false) as -> by (apply not_true_iff_false; intros X; now apply K3, subs_cd_is).
    cbn [andb]. unfold has. rewrite !andb_negb_r. reflexivity.
  - assert (~ In 47 k) as Nk. { rewrite <- lower_slash, Kc. cbn. unfold is_digit in Kd. intuition lia. }
    rewrite basename_sep by exact Nk. rewrite Kc.
    assert (SUBS_CD (root ++ 47 :: k) = false) as ->.
    { apply not_true_iff_false. intros X. apply subs_cd_is in X. destruct X as (a & x & c' & nl & E & Lx & Hc & Hn). apply K. clear K.
      rewrite lower_app in E. change (lower (47 :: k)) with (47 :: lower k) in E. rewrite Kc in E.
      destruct Hn as [-> | ->].
      - rewrite !app_assoc in E. change (47 :: str "cd" ++ [c]) with ([47] ++ str "cd" ++ [c]) in E. rewrite !app_assoc in E. apply app_inj_tail in E. destruct E as [E _].
        apply app_inv_tail in E. destruct x as [|y [|? ?]].
        + rewrite app_nil_r in E. apply (f_equal (fun l => hd 0 (rev l))) in E. rewrite !rev_app_distr in E. vm_compute in E. discriminate E.
        + apply app_inj_tail in E. destruct E as [E _]. now exists a.
        + rewrite lenN_length in Lx. cbn [length] in Lx. lia.
      - apply (f_equal (fun l => hd 0 (rev l))) in E. change (47 :: str "cd" ++ [c]) with ((47 :: str "cd") ++ [c]) in E. change (c' :: [10]) with ([c'] ++ [10]) in E. rewrite !app_assoc in E. rewrite !rev_unit in E. cbn [hd] in E. unfold is_digit in Kd. lia. }
    assert (In c [48; 49; 50; 51; 52; 53; 54; 55; 56; 57]) as I by (unfold is_digit in Kd; cbn [In]; lia).
    clear - I. repeat (destruct I as [<- |I]; [reflexivity|]). contradiction.
Qed.
Lemma remove_filter l root : exists keep, remove l root = filter keep l.
Proof. unfold remove_unwanted_sfvs. destruct (filter (wanted root) l) eqn:E; [eexists; reflexivity|]. exists (wanted root). now rewrite E. Qed.
Lemma main_kept root rel l sfv : release_at root rel -> In sfv l -> main_sfv root rel sfv -> In sfv (remove l root).
Proof.
  intros R I M. assert (J : In sfv (filter (wanted root) l)) by (apply filter_In; split; [exact I|now apply main_wanted with (rel := rel)]).
  unfold remove_unwanted_sfvs. destruct (filter (wanted root) l); [contradiction|exact J].
Qed.
Lemma with_main root rel l m sfv : release_at root rel -> In m l -> main_sfv root rel m -> In sfv (remove l root) -> wanted root sfv = true.
Proof.
  intros R I M. assert (J : In m (filter (wanted root) l)) by (apply filter_In; split; [exact I|now apply main_wanted with (rel := rel)]).
  unfold remove_unwanted_sfvs. destruct (filter (wanted root) l) eqn:E; [contradiction|]. rewrite <- E. intros H. now apply filter_In in H.
Qed.
Lemma some_kept root l sfv : In sfv l -> 1 < lenN (entries sfv) \/ (exists n, In n (entries sfv) /\ music_file n) -> remove l root <> [].
Proof.
  intros I H. unfold remove_unwanted_sfvs. destruct (filter (wanted root) l) eqn:E; [|discriminate]. intros X.
  assert (J : In sfv []); [|contradiction]. rewrite <- X. apply filter_In. split; [exact I|]. apply orb_true_iff. destruct H as [H|(n & J & b & e & Ie & ->)]; [left; lia|right].
  unfold has_music. apply existsb_exists. exists (b ++ str e). split; [exact J|]. rewrite !orb_true_iff, !ends_in_spec.
  destruct Ie as [<- |[<- |[<- |[]]]]; [left; left|left; right|right]; now exists b.
Qed.
(** why a file is not wanted *)
Lemma extra_unwanted root rel d n k p : release_at root rel -> sfv_at (d ++ 47 :: k) n p -> ~ In 47 k -> extra_dir k -> wanted root p = false.
Proof.
  intros R (-> & N & D) Nk X. unfold Wanted.wanted. cbv zeta. rewrite dir_of by assumption. rewrite (basename_sep d k Nk).
  replace (mem_text (lower k) EXTRA_DIRS) with true by (symmetry; apply mem_b; exact X). destruct (_ && _); [reflexivity|]. now destruct (_ && _).
Qed.
Lemma subs_unwanted root rel d n p : release_at root rel -> sfv_at d n p -> within "vobsub" n \/ within "subtitle" n -> ~ subs_release rel -> wanted root p = false.
Proof.
  intros R (-> & N & D) V X. unfold Wanted.wanted. cbv zeta. rewrite (base_of_root _ _ R), basename_sep by assumption.
  assert (part_of (str "vobsub") (lower n) || part_of (str "subtitle") (lower n) = true) as -> by now rewrite orb_true_iff, !within_b.
  unfold has. assert (~ within "subpack" rel /\ ~ within "vobsub" rel /\ ~ within "subtitle" rel /\ ~ within "sub.pack" rel) as (A & B & C & E) by (unfold subs_release in X; tauto).
  apply within_f in A, B, C, E. now rewrite A, B, C, E.
Qed.
Lemma proof_unwanted root d k n p f : sfv_at (d ++ 47 :: k) n p -> ~ In 47 k -> proof_dir k -> entries p = [f] ->
  (~ (exists b, f = b ++ str ".rar") \/ isfile (pjoin (d ++ 47 :: k) f) = false \/
   snd (packed (pjoin (d ++ 47 :: k) f)) = true \/ exists l m, fst (packed (pjoin (d ++ 47 :: k) f)) = l ++ [m] /\ image m) -> wanted root p = false.
Proof.
  intros (-> & N & D) Nk X E H. unfold Wanted.wanted. cbv zeta. rewrite dir_of by assumption. rewrite (basename_sep d k Nk).
  destruct (_ && _); [reflexivity|]. destruct (_ && _); [reflexivity|]. destruct (mem_text _ _); [reflexivity|].
  assert (teqb (lower k) (str "proof") || teqb (lower k) (str "proofs") = true) as -> by (rewrite orb_true_iff, !teqb_eq; destruct X as [X|[X|[]]]; auto).
  assert (proof_sfv entries isfile packed ((d ++ 47 :: k) ++ 47 :: n) = true) as ->; [|reflexivity].
  unfold proof_sfv. rewrite E. cbv zeta. rewrite dir_of by assumption. set (rar := pjoin (d ++ 47 :: k) f) in *.
  destruct (ends_in (str ".rar") rar) eqn:Er; [|reflexivity]. destruct (isfile rar) eqn:Ef; [|reflexivity].
  destruct H as [H|[H|[H|(l & m & H & M)]]].
  - exfalso. apply H. apply ends_in_spec in Er. destruct Er as (b & Er). unfold rar, pjoin in Er. destruct (first_is SLASH f); [now exists b|].
    destruct (dir_path_ok _ D) as [D1 D2]. change (last_is SLASH (d ++ 47 :: k)) with (last_is 47 (d ++ 47 :: k)) in Er. rewrite D2 in Er. replace (lenN (d ++ 47 :: k) =? 0) with false in Er by (rewrite lenN_app; cbn [lenN]; lia). cbn [orb] in Er.
    apply tail_part in Er; [exact Er|vm_compute; intuition discriminate].
  - discriminate.
  - destruct (packed rar) as [names failed]. cbn [snd] in H. now rewrite H.
  - destruct (packed rar) as [names failed]. cbn [fst] in H. rewrite H. rewrite fold_left_app. cbn [fold_left]. apply orb_true_iff. right. apply image4. exact M.
Qed.
Lemma unwanted_in all l x : In x (get_unwanted_sfvs all l) <-> In x all /\ ~ In x l.
Proof. unfold get_unwanted_sfvs. rewrite nodup_In, filter_In, negb_true_iff, <- not_true_iff_false, mem_b. reflexivity. Qed.
Lemma start_rars sfvs sets : Forall2 (fun sfv s => style_ok (fst s) /\ (0 < snd s)%nat /\ N.of_nat (snd s) <= vol_limit (fst s) /\ Permutation (entries sfv) (vol_names (fst s) (snd s))) sfvs sets ->
  get_start_rar_files entries sfvs = map (fun x => pjoin (dirname (fst x)) (vol_name (fst (snd x)) 0)) (combine sfvs sets).
Proof.
  induction 1 as [|sfv s sfvs sets (A & B & C & D) _ IH]; [reflexivity|]. unfold get_start_rar_files in *. cbn [map concat combine fst snd]. rewrite IH, (first_one (fst s) (snd s) _ A B C D). reflexivity.
Qed.
End Disk.
Lemma extra_out entries isfile packed root rel l m d k n p : release_at root rel -> In m l -> main_sfv root rel m ->
  sfv_at (d ++ 47 :: k) n p -> ~ In 47 k -> extra_dir k -> ~ In p (remove_unwanted_sfvs entries isfile packed l root).
Proof. intros R I M A B C H. apply (with_main _ _ _ _ _ _ _ _ R I M) in H. rewrite (extra_unwanted _ _ _ _ _ _ _ _ _ R A B C) in H. discriminate. Qed.
Lemma subs_out entries isfile packed root rel l m d n p : release_at root rel -> In m l -> main_sfv root rel m ->
  sfv_at d n p -> within "vobsub" n \/ within "subtitle" n -> ~ subs_release rel -> ~ In p (remove_unwanted_sfvs entries isfile packed l root).
Proof. intros R I M A B C H. apply (with_main _ _ _ _ _ _ _ _ R I M) in H. rewrite (subs_unwanted _ _ _ _ _ _ _ _ R A B C) in H. discriminate. Qed.
Lemma proof_out entries isfile packed root rel l m d k n p f : release_at root rel -> In m l -> main_sfv root rel m ->
  sfv_at (d ++ 47 :: k) n p -> ~ In 47 k -> proof_dir k -> entries p = [f] ->
  (~ (exists b, f = b ++ str ".rar") \/ isfile (pjoin (d ++ 47 :: k) f) = false \/
   snd (packed (pjoin (d ++ 47 :: k) f)) = true \/ exists l m, fst (packed (pjoin (d ++ 47 :: k) f)) = l ++ [m] /\ image m) ->
  ~ In p (remove_unwanted_sfvs entries isfile packed l root).
Proof. intros R I M A B C E F H. apply (with_main _ _ _ _ _ _ _ _ R I M) in H. rewrite (proof_unwanted _ _ _ _ _ _ _ _ _ A B C E F) in H. discriminate. Qed.
