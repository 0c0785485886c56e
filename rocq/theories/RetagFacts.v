(** RetagFacts: proofs about Retag.v. *)
From Verif Require Import Base BaseFacts Path PathSpec PathFacts Rar RarSpec ReadSpec SrrSpec SrrFacts Srr FsSpec FsFacts
  Info ListSpec ListFacts EditFacts DirsFacts Retag RetagSpec.

(** ** Paths *)
Lemma open_in d p : plain p -> open_end (in_folder d p).
Proof.
  intros H. assert (E : exists w, in_folder d p = w ++ p).
  { destruct (rev_in_folder d p) as [->| ->]; [now exists d|exists (d ++ [47])]. now rewrite <- app_assoc. }
  destruct E as [w ->]. split; [|now apply last_is_plain].
  destruct H as (H & _). intros X. apply app_eq_nil in X as [_ X]. contradiction.
Qed.
Lemma pjoin_plain d p : plain p -> pjoin d p = in_folder d p.
Proof. intros H. apply (pjoin_folder d [p]). now apply plain_below. Qed.
Lemma pjoin_all_below parts : forall d, Forall plain parts -> pjoin_all d parts = below_path d parts.
Proof.
  unfold pjoin_all. induction parts as [|p ps IH]; intros d H; [reflexivity|]. apply Forall_cons_iff in H as [Hp H].
  cbn [fold_left below_path]. rewrite pjoin_plain by exact Hp. now apply IH.
Qed.
Lemma alike_refl l : Forall2 alike_part l l.
Proof. induction l; constructor; [reflexivity|assumption]. Qed.

Lemma dirname_open d n : open_end d -> ~ In 47 n -> dirname (d ++ 47 :: n) = d.
Proof.
  intros [Dn L] N. unfold dirname. rewrite rev_app_distr. cbn [rev]. rewrite <- app_assoc. cbn [app]. rewrite split_tail_sep by now rewrite <- in_rev.
  cbn [snd rev]. rewrite rev_involutive. unfold last_is in L. unfold rstrip_slash. rewrite rev_app_distr. cbn [rev app drop_slashes].
  change (47 =? SLASH) with true. cbv iota. destruct (rev d) as [|x r] eqn:R.
  { exfalso. apply Dn. rewrite <- (rev_involutive d), R. reflexivity. }
  assert (Ed : d = rev r ++ [x]) by (rewrite <- (rev_involutive d), R; reflexivity).
  change SLASH with 47. cbn [drop_slashes]. change SLASH with 47. rewrite L. rewrite forallb_app, Ed, forallb_app. cbn [forallb]. rewrite (N.eqb_sym 47 x), L, andb_false_l, andb_false_r, andb_false_l.
  rewrite <- Ed, <- R. apply rev_involutive.
Qed.
Lemma join_snoc cs c : cs <> [] -> join 47 (cs ++ [c]) = join 47 cs ++ 47 :: c.
Proof.
  induction cs as [|x cs IH]; intros H; [congruence|]. destruct cs as [|y cs]; [reflexivity|].
  change ((x :: y :: cs) ++ [c]) with (x :: (y :: cs) ++ [c]). cbn [join] in *. rewrite IH by discriminate. cbn [app join]. now rewrite <- app_assoc.
Qed.
Lemma below_join cs n : below cs n -> n = join 47 cs.
Proof. intros (A & B & C). apply (joined_det 47 cs); [exact C|]. now apply join_joined. Qed.
Lemma join_open cs : cs <> [] -> Forall plain cs -> open_end (join 47 cs).
Proof.
  intros H P. destruct (exists_last H) as (a & x & ->). apply Forall_app in P as [_ P]. apply Forall_inv in P.
  destruct a as [|y a]; [exact (open_in [] x P)|]. rewrite join_snoc by discriminate. set (w := join 47 (y :: a)).
  replace (w ++ 47 :: x) with ((w ++ [47]) ++ x) by now rewrite <- app_assoc. split; [|now apply last_is_plain].
  intros Z. apply app_eq_nil in Z as [_ ->]. now destruct P.
Qed.
Lemma dirname_folders n cs : folders n cs -> dirname n = join 47 cs.
Proof.
  intros (c & B). pose proof (below_join _ _ B) as ->. destruct B as (_ & P & _). apply Forall_app in P as [P Pc]. apply Forall_inv in Pc.
  destruct cs as [|x cs]; [apply dirname_nosep; apply Pc|]. rewrite join_snoc by discriminate.
  apply dirname_open; [now apply join_open|apply Pc].
Qed.
Lemma folders_det n a b : folders n a -> folders n b -> a = b.
Proof.
  intros (c & _ & _ & A) (d & _ & _ & B). apply joined_split in A, B. rewrite <- A in B. now apply app_inj_tail in B as [-> _].
Qed.
Lemma folders_plain n a : folders n a -> Forall plain a.
Proof. intros (c & _ & P & _). now apply Forall_app in P as [P _]. Qed.

Section Tidy.
Variable world : text -> option node.
Hypothesis T : tidy world.

Lemma exists_in_true p : exists_in world p = true <-> world p <> None.
Proof. unfold exists_in. destruct (world p); split; congruence. Qed.
Lemma exists_in_false p : exists_in world p = false <-> world p = None.
Proof. unfold exists_in. destruct (world p); split; congruence. Qed.
Lemma below_exists parts : forall d, open_end d -> Forall plain parts -> world (below_path d parts) <> None -> world d <> None.
Proof.
  induction parts as [|p ps IH]; intros d O H E; [exact E|]. apply Forall_cons_iff in H as [Hp H]. cbn [below_path] in E.
  apply IH in E; [|now apply open_in|exact H]. destruct (td_in _ T d p O Hp E) as (l & -> & _). discriminate.
Qed.
Lemma first_cased_some p l n : first_cased p l = Some n -> In n l /\ alike_part p n.
Proof.
  induction l as [|x l IH]; [discriminate|]. cbn [first_cased]. destruct (teqb (lower x) (lower p)) eqn:E.
  - intros X. apply some_inj in X. subst x. split; [now left|]. apply teqb_eq in E. now symmetry.
  - intros X. apply IH in X as [A B]. split; [now right|exact B].
Qed.
Lemma first_cased_none p l n : first_cased p l = None -> In n l -> ~ alike_part p n.
Proof.
  induction l as [|x l IH]; intros H I; [destruct I|]. cbn [first_cased] in H. destruct (teqb (lower x) (lower p)) eqn:E; [discriminate|].
  destruct I as [->|I]; [|now apply IH]. apply teqb_neq in E. unfold alike_part. congruence.
Qed.

Lemma fix_parts_spec parts : forall d m, open_end d -> world d <> None -> Forall plain parts -> m <> [] ->
  (fix_parts world d parts = Ok m <-> world m <> None /\ cased d parts m).
Proof.
  induction parts as [|p ps IH]; intros d m O E H M.
  - cbn [fix_parts]. split.
    + intros X. apply ok_inj in X. subst m. split; [exact E|]. exists []. repeat split; constructor.
    + intros (_ & parts' & F & _ & ->). inversion F; subst. reflexivity.
  - apply Forall_cons_iff in H as [Hp H]. cbn [fix_parts]. rewrite pjoin_plain by exact Hp.
    assert (Up : forall n, plain n -> alike_part p n -> world m <> None /\ cased (in_folder d n) ps m -> world m <> None /\ cased d (p :: ps) m).
    { intros n Pn An (A & parts' & F & P & ->). split; [exact A|]. exists (n :: parts'). split; [now constructor|]. split; [now constructor|reflexivity]. }
    assert (Dn : world m <> None -> cased d (p :: ps) m -> exists n l, plain n /\ alike_part p n /\ world d = Some (NDir l) /\ In n l /\
                 world (in_folder d n) <> None /\ cased (in_folder d n) ps m).
    { intros A (parts' & F & P & ->). inversion F as [|? n ? ps' An F']; subst. apply Forall_cons_iff in P as [Pn P]. cbn [below_path] in A.
      pose proof (below_exists _ _ (open_in d n Pn) P A) as B. destruct (td_in _ T d n O Pn B) as (l & L & I).
      exists n, l. repeat (split; [assumption|]). exists ps'. now repeat split. }
    destruct (exists_in world (in_folder d p)) eqn:X.
    + apply exists_in_true in X. rewrite IH; [|now apply open_in|exact X|exact H|exact M]. split.
      * apply Up; [exact Hp|reflexivity].
      * intros [A C]. destruct (Dn A C) as (n & l & Pn & An & L & I & B & C'). split; [exact A|].
        destruct (td_in _ T d p O Hp X) as (l' & L' & I'). assert (l' = l) by congruence. subst l'.
        now rewrite (td_case _ T d l p n O L I' I An).
    + apply exists_in_false in X. unfold listdir. destruct (world d) as [[|l]|] eqn:L; [| |congruence]; cbn [bind].
      * split; [discriminate|]. intros [A C]. destruct (Dn A C) as (n & l & _ & _ & L' & _). congruence.
      * destruct (first_cased p l) as [n|] eqn:Fc.
        -- apply first_cased_some in Fc as [I An]. destruct (td_out _ T d l n O L I) as [Pn B]. rewrite pjoin_plain by exact Pn.
           rewrite IH; [|now apply open_in|exact B|exact H|exact M]. split; [now apply Up|].
           intros [A C]. destruct (Dn A C) as (n' & l' & Pn' & An' & L' & I' & B' & C'). split; [exact A|]. injection L' as <-.
           rewrite (td_case _ T d l n n' O L I I'); [exact C'|]. unfold alike_part in *. congruence.
        -- split; [intros Z; apply ok_inj in Z; congruence|]. intros [A C]. destruct (Dn A C) as (n & l' & _ & An & L' & I & _). injection L' as <-.
           exfalso. exact (first_cased_none _ _ _ Fc I An).
Qed.
Theorem find_spec indir l parts m : open_end indir -> world indir = Some (NDir l) -> Forall plain parts -> m <> [] ->
  (join_fix_case world indir parts = Ok m <-> world m <> None /\ cased indir parts m).
Proof.
  intros O L H M. assert (E : world indir <> None) by congruence. unfold join_fix_case. rewrite pjoin_all_below by exact H.
  destruct (exists_in world (below_path indir parts)) eqn:X; [|now apply fix_parts_spec].
  apply exists_in_true in X. set (j := below_path indir parts) in *.
  assert (J : j <> []) by (intros Z; rewrite Z, (td_none _ T) in X; congruence).
  assert (C : cased indir parts j) by (exists parts; split; [apply alike_refl|now split]).
  assert (F : fix_parts world indir parts = Ok j) by (apply fix_parts_spec; auto). split.
  - intros Z. apply ok_inj in Z. subst m. now split.
  - intros Z. apply fix_parts_spec in Z; auto. congruence.
Qed.

Variables (indir : text) (names : list text).
Hypothesis O : open_end indir.
Hypothesis L : world indir = Some (NDir names).

Lemma find_one s : exists m, join_fix_case world indir [s] = Ok m.
Proof.
  unfold join_fix_case. destruct (exists_in world (pjoin_all indir [s])); [eauto|]. cbn [fix_parts].
  destruct (exists_in world (pjoin indir s)); [eauto|]. unfold listdir. rewrite L. cbn [bind]. destruct (first_cased s names); eauto.
Qed.
Lemma slash_in p : plain p -> in_folder (indir ++ [47]) p = in_folder indir p.
Proof.
  intros P. unfold in_folder. rewrite rev_app_distr. cbn [rev app]. change (47 =? 47) with true. cbv iota.
  destruct O as [A B]. unfold last_is in B. destruct (rev indir) as [|x r] eqn:R.
  { exfalso. apply A. rewrite <- (rev_involutive indir), R. reflexivity. }
  rewrite B. now rewrite <- app_assoc.
Qed.
Lemma pjoin_empty : pjoin indir [] = indir ++ [47].
Proof.
  unfold pjoin. cbn [first_is]. destruct O as [A B]. change SLASH with 47. rewrite B, orb_false_r.
  destruct (lenN indir =? 0) eqn:Z; [|reflexivity]. exfalso. apply A. destruct indir as [|x t]; [reflexivity|]. apply N.eqb_eq in Z. cbn [lenN] in Z. lia.
Qed.
(** the search in the folder of a .srs file at the top is the search in the input folder *)
Lemma find_top s : plain s -> join_fix_case world indir [[]; s] = join_fix_case world indir [s].
Proof.
  intros P. unfold join_fix_case, pjoin_all. cbn [fold_left]. rewrite pjoin_empty, !(pjoin_plain _ s P), slash_in by exact P.
  destruct (exists_in world (in_folder indir s)) eqn:X; [reflexivity|]. cbn [fix_parts]. rewrite pjoin_empty, !(pjoin_plain _ s P), slash_in by exact P. rewrite X.
  assert (E : exists_in world (indir ++ [47]) = true) by (unfold exists_in; now rewrite (td_slash _ T _ _ O L)).
  rewrite E. unfold listdir. rewrite L, (td_slash _ T _ _ O L). cbn [bind]. destruct (first_cased s names) as [n|] eqn:F; [|reflexivity].
  apply first_cased_some in F as [I _]. destruct (td_out _ T _ _ _ O L I) as [Pn _]. now rewrite !(pjoin_plain _ n Pn), slash_in.
Qed.
Lemma file_in_true m : file_in world m = true <-> world m = Some NFile.
Proof. unfold file_in. destruct (world m) as [[|]|]; split; congruence. Qed.
Lemma find_file parts m : Forall plain parts -> (join_fix_case world indir parts = Ok m /\ file_in world m = true <-> world m = Some NFile /\ cased indir parts m).
Proof.
  intros P. rewrite file_in_true. assert (M : world m = Some NFile -> m <> []) by (intros A ->; rewrite (td_none _ T) in A; discriminate).
  split; intros [A B].
  - apply (find_spec _ _ _ _ O L P (M B)) in A. now split.
  - split; [|exact A]. apply (find_spec _ _ _ _ O L P (M A)). split; [congruence|exact B].
Qed.
Lemma find_track_spec n cs s m : folders n cs -> plain s ->
  (find_track world indir (join 47 cs) s = Ok m <-> track world indir n s m).
Proof.
  intros F P. unfold find_track. assert (P1 : Forall plain [s]) by (now constructor).
  destruct (find_one s) as [m1 E1]. rewrite E1. cbn [bind]. destruct (file_in world m1) eqn:I1.
  - assert (H1 : here world indir s m1) by (apply find_file; [exact P1|now split]). split.
    + intros X. apply ok_inj in X. subst m1. now left.
    + intros [H|[H _]]; [|exfalso; exact (H m1 H1)]. apply find_file in H as [H _]; [congruence|exact P1].
  - assert (N1 : forall m', ~ here world indir s m').
    { intros m' H. apply find_file in H as [A B]; [|exact P1]. assert (m' = m1) by congruence. subst m'. congruence. }
    destruct cs as [|c cs].
    + cbn [join]. change (split SLASH [] ++ [s]) with [[]; s]. rewrite find_top by exact P. rewrite E1. cbn [bind]. rewrite I1. split; [discriminate|].
      intros [H|[_ (cs & F' & A & B)]]; [exfalso; exact (N1 _ H)|]. rewrite (folders_det _ _ _ F' F) in B. exfalso. apply (N1 m). now split.
    + assert (Pc : Forall plain (c :: cs)) by now apply folders_plain in F.
      change SLASH with 47. rewrite split_join_nosep; [|discriminate|]. 2:{ intros x I. rewrite Forall_forall in Pc. now apply Pc in I as (_ & _ & _ & I). }
      assert (Pcs : Forall plain ((c :: cs) ++ [s])) by (apply Forall_app; split; assumption). split.
      * intros H. right. split; [exact N1|]. exists (c :: cs). split; [exact F|]. apply find_file; [exact Pcs|].
        destruct (join_fix_case world indir ((c :: cs) ++ [s])) as [m2|]; [|discriminate]. cbn [bind] in H. destruct (file_in world m2) eqn:I2; [|discriminate].
        apply ok_inj in H. subst m2. now split.
      * intros [H|[_ (cs' & F' & A & B)]]; [exfalso; exact (N1 _ H)|]. rewrite (folders_det _ _ _ F' F) in B.
        destruct (proj2 (find_file _ m Pcs) (conj A B)) as [X Y]. rewrite X. cbn [bind]. now rewrite Y.
Qed.
End Tidy.

(** ** Extracting one file *)
Lemma extract_head srr paths folder packed bs : forall f f' out ok r,
  extract_loop srr paths folder packed bs f = (f', None, (out, ok) :: r) -> (ok = true <-> fs_get f out = None).
Proof.
  induction bs as [|b bs IH]; intros f f' out ok r H; cbn [extract_loop] in H; [discriminate|].
  destruct (b_kind b); try (destruct (is_stored b); [discriminate|exact (IH _ _ _ _ _ H)]).
  destruct (opath name paths folder) as [o|]; [|discriminate]. destruct (srr_os_file_name name); [|discriminate].
  destruct (wants packed o a); [|exact (IH _ _ _ _ _ H)].
  destruct (extract1 srr b o f) as [f1 ok1] eqn:E. destruct (extract_loop srr paths folder packed bs f1) as [[f2 e2] l2].
  injection H as <- _ <- <- _. unfold extract1 in E. rewrite <- can_overwrite_true. destruct (can_overwrite f o); injection E as _ <-; split; congruence.
Qed.
Lemma srr_path_det n p q : srr_path n p -> srr_path n q -> p = q.
Proof. intros A B. apply srr_os_file_name_spec in A, B. congruence. Qed.
Lemma place_inj outdir a b : place outdir a = place outdir b -> a = b.
Proof.
  unfold place, in_folder. destruct (rev (normpath outdir)) as [|c r]; [auto|]. destruct (c =? 47); intros H; apply app_inv_head in H; congruence.
Qed.
Lemma place_rel outdir n : rel_out outdir (place outdir n) = n.
Proof.
  unfold rel_out. assert (E : place outdir n = pjoin (normpath outdir) [] ++ n).
  { unfold place, in_folder, pjoin. cbn [first_is]. unfold last_is. destruct (rev (normpath outdir)) as [|c r] eqn:R.
    - assert (E : normpath outdir = []) by (rewrite <- (rev_involutive (normpath outdir)), R; reflexivity). rewrite E. reflexivity.
    - assert (Z : lenN (normpath outdir) =? 0 = false).
      { apply N.eqb_neq. rewrite lenN_length, <- rev_length, R. cbn [length]. lia. }
      rewrite Z. cbn [orb]. change SLASH with 47. destruct (c =? 47); [now rewrite app_nil_r|now rewrite <- app_assoc]. }
  rewrite E. apply dropN_app_exact. reflexivity.
Qed.

Section Run.
Variables (l : list sitem) (outdir : text).
Hypothesis Hok : srr_ok l.
Hypothesis C : clean l.
Notation at_ := (place outdir).

Lemma names_map : stored_names l = map fst (stored_files l).
Proof.
  unfold stored_names, stored_files. clear. induction l as [|i m IH]; [reflexivity|]. cbn [map concat]. rewrite map_app, IH. now destruct i.
Qed.
Lemma names_files n : In n (stored_names l) <-> exists d, In (n, d) (stored_files l).
Proof.
  rewrite names_map, in_map_iff. split; [intros ([m d] & <- & I); eauto|intros (d & I)]. now exists (n, d).
Qed.
Lemma name_path n : In n (stored_names l) -> srr_path n n.
Proof. destruct C as (_ & P & _). rewrite Forall_forall in P. apply P. Qed.
Lemma asked_one n n' out : In n (stored_names l) -> In n' (stored_names l) -> asked n n' out -> n' = n.
Proof.
  intros I I' (p & P & H). pose proof (name_path n I) as Pn. pose proof (name_path n' I') as Pn'. rewrite (srr_path_det _ _ _ P Pn') in H. clear p P.
  destruct Pn as (cs & _ & B). destruct Pn' as (cs' & _ & B'). destruct H as [->|[H|[N H]]].
  - exfalso. pose proof (below_join _ _ B) as E. destruct B as (Z & P & _). destruct (join_open cs Z P) as [X _]. congruence.
  - now apply C.
  - apply (normpath_is n cs' n' N B') in H. destruct (normpath_normal _ _ B) as [_ X]. congruence.
Qed.
Lemma asked_self n out : In n (stored_names l) -> asked n n out.
Proof.
  intros I. pose proof (name_path n I) as Pn. exists n. split; [exact Pn|]. right. right. split; [|intros cwd r; reflexivity].
  destruct Pn as (cs & _ & B). rewrite (below_join _ _ B). destruct B as (Z & P & _). now destruct (join_open cs Z P).
Qed.
Lemma extracted_none n fs0 o : extracted true (normpath outdir) (asked n) fs0 o -> incl (map fst fs0) (stored_names l) -> In n (stored_names l) ->
  ~ In n (map fst fs0) -> o = [].
Proof.
  intros H. induction H as [|m d out fl o Ht Hs H IH|m d out fl o Ht Hs H IH]; intros I In' N; [reflexivity| |].
  - exfalso. apply N. left. cbn [fst map]. apply (asked_one n m out In'); [apply I; now left|exact Hs].
  - apply IH; [intros x X; apply I; now right|exact In'|intros X; apply N; now right].
Qed.
Lemma extracted_one n d fs0 o : extracted true (normpath outdir) (asked n) fs0 o -> NoDup (map fst fs0) -> incl (map fst fs0) (stored_names l) ->
  In (n, d) fs0 -> o = [(at_ n, d)].
Proof.
  intros H. induction H as [|m e out fl o Ht Hs H IH|m e out fl o Ht Hs H IH]; intros U I J; [destruct J| |].
  - inversion U as [|? ? U1 U2]; subst. assert (In' : In n (stored_names l)) by (apply I; exact (in_map fst _ _ J)).
    assert (Em : m = n) by (apply (asked_one n m out In'); [apply I; now left|exact Hs]). subst m. cbn [fst] in U1.
    rewrite (extracted_none _ _ _ H); [|intros x X; apply I; now right|exact In'|exact U1].
    destruct J as [J|J]; [|exfalso; apply U1; exact (in_map fst _ _ J)]. injection J as ->.
    destruct Ht as (p & Pp & ->). now rewrite (srr_path_det _ _ _ Pp (name_path n In')).
  - inversion U as [|? ? U1 U2]; subst. destruct J as [J|J].
    + injection J as -> ->. exfalso. apply Hs. apply asked_self. apply I. now left.
    + apply IH; [exact U2|intros x X; apply I; now right|exact J].
Qed.
Theorem extract_one n d f : In (n, d) (stored_files l) ->
  exists f' ok, extract_files (ser_srr l) true outdir n f = (f', None, [(at_ n, ok)]) /\ (ok = true <-> fs_get f (at_ n) = None) /\
    forall q, fs_get f' q = match fs_get f q with Some x => Some x | None => if teqb (at_ n) q then Some d else None end.
Proof.
  intros I. destruct (extract_files (ser_srr l) true outdir n f) as [[f' e] r] eqn:E. pose proof (extract_thm _ _ _ _ _ _ _ _ Hok E) as H.
  destruct e as [x|].
  - exfalso. destruct H as (_ & m & M & N). exact (N m (name_path m M)).
  - destruct H as (o & Ho & Hr & G). apply (extracted_one n d) in Ho; [|rewrite <- names_map; apply C|rewrite <- names_map; apply incl_refl|exact I]. subst o.
    destruct r as [|[out ok] [|]]; try discriminate. cbn in Hr. injection Hr as ->. exists f', ok. split; [reflexivity|]. split.
    + unfold extract_files in E. destruct (read_all (ser_srr l)); [|discriminate]. exact (extract_head _ _ _ _ _ _ _ _ _ _ E).
    + intros q. rewrite G. destruct (fs_get f q); [reflexivity|]. cbn [first_for]. destruct (text_dec (at_ n) q) as [->|X]; [now rewrite teqb_refl|]. apply teqb_neq in X. now rewrite X.
Qed.

(** ** The other files *)
Lemma has_end_spec e n : has_end e n = true <-> ends e n.
Proof.
  unfold has_end, ends. split; [intros H; apply starts_inv in H as (a & H)|intros (a & ->)].
  - exists (rev a). apply (f_equal (@rev N)) in H. rewrite rev_app_distr, !rev_involutive in H. exact H.
  - rewrite rev_app_distr. apply starts_app.
Qed.
Lemma others_run names : forall f, incl names (stored_names l) ->
  exists f', extract_others (ser_srr l) outdir names f = (f', None) /\
    (forall q x, fs_get f q = Some x -> fs_get f' q = Some x) /\
    (forall q, (forall n, In n names -> is_srs n = false -> at_ n <> q) -> fs_get f' q = fs_get f q) /\
    (forall n d, In n names -> is_srs n = false -> In (n, d) (stored_files l) -> fs_get f (at_ n) = None -> fs_get f' (at_ n) = Some d).
Proof.
  induction names as [|n ns IH]; intros f I; cbn [extract_others].
  { exists f. repeat split; auto. intros ? ? []. }
  assert (I' : incl ns (stored_names l)) by (intros x X; apply I; now right). destruct (is_srs n) eqn:S.
  - destruct (IH f I') as (f' & E & A & B & D). exists f'. split; [exact E|]. split; [exact A|]. split.
    + intros q H. apply B. intros m M. apply H. now right.
    + intros m d [<-|M]; [congruence|]. now apply D.
  - destruct (proj1 (names_files n) (I n (or_introl eq_refl))) as [d0 D0]. destruct (extract_one n d0 f D0) as (f1 & ok & E1 & _ & G1). rewrite E1.
    destruct (IH f1 I') as (f' & E & A & B & D). exists f'. split; [exact E|]. split; [|split].
    + intros q x H. apply A. now rewrite G1, H.
    + intros q H. rewrite B by (intros m M; apply H; now right). rewrite G1. destruct (fs_get f q); [reflexivity|].
      destruct (teqb (at_ n) q) eqn:X; [|reflexivity]. apply teqb_eq in X. exfalso. exact (H n (or_introl eq_refl) S X).
    + intros m d M Sm J N. destruct (text_dec m n) as [->|Ne].
      * apply A. rewrite G1, N, teqb_refl. f_equal. destruct C as (U & _). rewrite names_map in U. clear - U D0 J.
        induction (stored_files l) as [|[k v] fl IHf]; [destruct J|]. cbn [map fst] in U. apply NoDup_cons_iff in U as [U1 U2].
        destruct D0 as [D0|D0], J as [J|J]; try congruence; try (now apply IHf).
        -- injection D0 as -> ->. exfalso. apply U1. exact (in_map fst _ _ J).
        -- injection J as -> ->. exfalso. apply U1. exact (in_map fst _ _ D0).
      * destruct M as [M|M]; [congruence|]. apply (D m d M Sm J). rewrite G1, N.
        destruct (teqb (at_ n) (at_ m)) eqn:X; [|reflexivity]. apply teqb_eq in X. apply place_inj in X. congruence.
Qed.

(** ** The tracks *)
Variable world : text -> option node.
Hypothesis T : tidy world.
Variables (indir : text) (names : list text).
Hypothesis O : open_end indir.
Hypothesis L : world indir = Some (NDir names).
Variable music : bytes -> result (option text).
Variable srsmain : text -> text -> text -> fs -> fs * option exn.
Hypothesis M : minds srsmain outdir l.

Lemma track_run n d s : In (n, d) (stored_files l) -> fs_get (r_fs s) (at_ n) = None -> music d <> Ok None ->
  (forall t, music d = Ok (Some t) -> plain t) ->
  exists s' cs, fix_track world music srsmain (ser_srr l) indir outdir n s = (s', None) /\
    r_calls s' = r_calls s ++ cs /\ handled world music indir outdir (n, d) cs /\
    r_good s' + r_bad s' = r_good s + r_bad s + 1 /\ r_skip s' = r_skip s /\
    (forall m, In m (stored_names l) -> fs_get (r_fs s') (at_ m) = fs_get (r_fs s) (at_ m)) /\
    ((forall a b c f, snd (srsmain a b c f) = None) -> r_good s' = r_good s + lenN cs).
Proof.
  intros I N Mu Pl. unfold fix_track. destruct (extract_one n d (r_fs s) I) as (f & ok & E & Hk & G). rewrite E.
  assert (ok = true) by now apply Hk. subst ok. pose proof (G (at_ n)) as Gn. rewrite N, teqb_refl in Gn.
  assert (In' : In n (stored_names l)) by (apply names_files; eauto).
  assert (Fo : exists cs, folders n cs).
  { destruct (name_path n In') as (cs & _ & B). pose proof B as (Z & _). destruct (exists_last Z) as (a & x & ->). exists a, x. exact B. }
  destruct Fo as [cs Fo].
  assert (Rm : forall g, (forall m, In m (stored_names l) -> fs_get g (at_ m) = fs_get f (at_ m)) ->
    isfile g (at_ n) = true /\ forall m, In m (stored_names l) -> fs_get (fs_del g (at_ n)) (at_ m) = fs_get (r_fs s) (at_ m)).
  { intros g Hg. split; [unfold isfile; rewrite (Hg n In'), Gn; reflexivity|]. intros m Im. rewrite fs_get_del. destruct (teqb (at_ n) (at_ m)) eqn:X.
    - apply teqb_eq in X. now rewrite <- X, N.
    - rewrite (Hg m Im), G. destruct (fs_get (r_fs s) (at_ m)); [reflexivity|now rewrite X]. }
  unfold fix_tagging. rewrite Gn, place_rel, (dirname_folders _ _ Fo). destruct (music d) as [[t|]|e] eqn:Md; [|congruence|].
  - pose proof (find_track_spec world T indir names O L n cs t) as F. specialize (fun m => F m Fo (Pl t eq_refl)).
    destruct (find_track world indir (join 47 cs) t) as [m|e] eqn:Ft.
    + destruct (srsmain (at_ n) m (pjoin outdir (join 47 cs)) f) as [g e] eqn:Sm.
      assert (Hg : forall m0, In m0 (stored_names l) -> fs_get g (at_ m0) = fs_get f (at_ m0)).
      { intros m0 Im. pose proof (M (at_ n) m (pjoin outdir (join 47 cs)) f m0 Im) as X. now rewrite Sm in X. }
      destruct (Rm g Hg) as [R1 R2]. rewrite R1. eexists _, [_]. split; [reflexivity|]. cbn [r_calls r_good r_bad r_skip r_fs].
      split; [reflexivity|]. split; [right; exists t, m, cs; split; [reflexivity|]; split; [exact Fo|]; split; [exact Md|]; now apply F|].
      split; [destruct e; lia|]. split; [destruct e; lia|]. split; [exact R2|]. intros Nf. pose proof (Nf (at_ n) m (pjoin outdir (join 47 cs)) f) as X. rewrite Sm in X. cbn [snd] in X. subst e. cbn [lenN]. lia.
    + destruct (Rm f (fun _ _ => eq_refl)) as [R1 R2]. rewrite R1. eexists _, []. split; [reflexivity|]. cbn [r_calls r_good r_bad r_skip r_fs].
      split; [now rewrite app_nil_r|]. split; [left; split; [reflexivity|]|].
      * cbn [fst snd]. intros t' m Et Tr. assert (t' = t) by congruence. subst t'. apply F in Tr. discriminate.
      * split; [lia|]. split; [lia|]. split; [exact R2|]. intros _. cbn [lenN]. lia.
  - destruct (Rm f (fun _ _ => eq_refl)) as [R1 R2]. rewrite R1. eexists _, []. split; [reflexivity|]. cbn [r_calls r_good r_bad r_skip r_fs].
    split; [now rewrite app_nil_r|]. split; [left; split; [reflexivity|cbn [fst snd]; congruence]|].
    split; [lia|]. split; [lia|]. split; [exact R2|]. intros _. cbn [lenN]. lia.
Qed.
Lemma track_there n d s : In (n, d) (stored_files l) -> fs_get (r_fs s) (at_ n) <> None ->
  exists s', fix_track world music srsmain (ser_srr l) indir outdir n s = (s', None) /\
    r_calls s' = r_calls s /\ r_good s' = r_good s /\ r_bad s' = r_bad s /\ r_skip s' = r_skip s /\
    (forall m, In m (stored_names l) -> fs_get (r_fs s') (at_ m) = fs_get (r_fs s) (at_ m)).
Proof.
  intros I N. unfold fix_track. destruct (extract_one n d (r_fs s) I) as (f & ok & E & Hk & G). rewrite E.
  destruct ok; [exfalso; apply N; now apply Hk|]. eexists. split; [reflexivity|]. cbn [r_calls r_good r_bad r_skip r_fs]. repeat split.
  intros m _. rewrite G. destruct (fs_get (r_fs s) (at_ m)) eqn:X; [reflexivity|]. destruct (teqb (at_ n) (at_ m)) eqn:Y; [|reflexivity].
  apply teqb_eq in Y. exfalso. apply N. now rewrite Y.
Qed.
Lemma unmade_same f g todo : incl todo (stored_files l) -> (forall m, In m (stored_names l) -> fs_get g (at_ m) = fs_get f (at_ m)) ->
  filter (unmade outdir g) todo = filter (unmade outdir f) todo.
Proof.
  clear. intros I H. apply filter_ext_in. intros [n d] X. unfold unmade. cbn [fst]. rewrite H; [reflexivity|]. apply names_files. exists d. now apply I.
Qed.
Lemma tracks_run todo : forall s, incl todo (stored_files l) ->
  (forall n d, In (n, d) (filter (unmade outdir (r_fs s)) todo) -> music d <> Ok None) ->
  (forall n d t, In (n, d) (filter (unmade outdir (r_fs s)) todo) -> music d = Ok (Some t) -> plain t) ->
  exists s' css, fix_loop world music srsmain (ser_srr l) indir outdir (map fst todo) s = (s', None) /\
    r_calls s' = r_calls s ++ concat css /\ Forall2 (handled world music indir outdir) (filter (unmade outdir (r_fs s)) todo) css /\
    r_good s' + r_bad s' = r_good s + r_bad s + lenN (filter (unmade outdir (r_fs s)) todo) /\ r_skip s' = r_skip s /\
    (forall m, In m (stored_names l) -> fs_get (r_fs s') (at_ m) = fs_get (r_fs s) (at_ m)) /\
    ((forall a b c f, snd (srsmain a b c f) = None) -> r_good s' = r_good s + lenN (concat css)).
Proof.
  induction todo as [|[n d] todo IH]; intros s I Mu Pl; cbn [map fix_loop].
  { exists s, []. split; [reflexivity|]. cbn [concat lenN filter]. rewrite app_nil_r. split; [reflexivity|]. split; [constructor|]. split; [lia|]. split; [reflexivity|]. split; [reflexivity|]. intros _. lia. }
  cbn [fst]. assert (It : incl todo (stored_files l)) by (intros x X; apply I; now right).
  cbn [filter] in Mu, Pl |- *. assert (U : unmade outdir (r_fs s) (n, d) = match fs_get (r_fs s) (at_ n) with None => true | Some _ => false end) by reflexivity.
  destruct (fs_get (r_fs s) (at_ n)) as [x|] eqn:N; rewrite U in Mu, Pl |- *.
  { destruct (track_there n d s (I _ (or_introl eq_refl))) as (s1 & E & A1 & A2 & A3 & A4 & A5); [now rewrite N|]. rewrite E.
    destruct (IH s1 It) as (s2 & css & F & B1 & B2 & B3 & B4 & B5 & B6).
    - rewrite (unmade_same (r_fs s) _ _ It A5). exact Mu.
    - rewrite (unmade_same (r_fs s) _ _ It A5). exact Pl.
    - rewrite (unmade_same (r_fs s) _ _ It A5) in B2, B3. exists s2, css. split; [exact F|]. rewrite A1 in B1. rewrite A2, A3 in B3. rewrite A2 in B6.
      split; [exact B1|]. split; [exact B2|]. split; [exact B3|]. split; [congruence|]. split; [intros m Im; rewrite B5, A5; auto|]. exact B6. }
  destruct (track_run n d s (I _ (or_introl eq_refl)) N (Mu n d (or_introl eq_refl)) (fun t => Pl n d t (or_introl eq_refl))) as (s1 & cs & E & A1 & A2 & A3 & A4 & A5 & A6).
  rewrite E. destruct (IH s1 It) as (s2 & css & F & B1 & B2 & B3 & B4 & B5 & B6).
  - rewrite (unmade_same (r_fs s) _ _ It A5). intros m e X. apply (Mu m e). now right.
  - rewrite (unmade_same (r_fs s) _ _ It A5). intros m e t X. apply (Pl m e t). now right.
  - rewrite (unmade_same (r_fs s) _ _ It A5) in B2, B3.
    exists s2, (cs :: css). split; [exact F|]. cbn [concat]. rewrite lenN_app. split; [now rewrite B1, A1, app_assoc|]. split; [now constructor|].
    cbn [lenN]. split; [lia|]. split; [congruence|]. split; [intros m Im; rewrite B5, A5; auto|]. intros Nf. specialize (A6 Nf). specialize (B6 Nf). lia.
Qed.

(** ** The whole run *)
Lemma firsts_id a r : firsts a r -> NoDup a -> r = a.
Proof.
  induction 1 as [|a r x H IH N|a r x H IH I]; intros U; [reflexivity| |].
  - rewrite IH; [reflexivity|]. now apply NoDup_remove_1 in U; rewrite app_nil_r in U.
  - exfalso. apply NoDup_remove_2 in U. rewrite app_nil_r in U. contradiction.
Qed.
Lemma srs_same n : srs_name n = is_srs n.
Proof.
  unfold srs_name, is_srs. destruct (text_dec _ _) as [E|E].
  - symmetry. apply has_end_spec. exists (firstn (length n - 4) n). rewrite <- E. symmetry. apply firstn_skipn.
  - symmetry. apply not_true_iff_false. intros H. apply has_end_spec in H as (a & ->). apply E.
    rewrite app_length. change (length (str ".srs")) with 4%nat. replace (length a + 4 - 4)%nat with (length a) by lia.
    now rewrite skipn_app, skipn_all, Nat.sub_diag.
Qed.
Lemma map_filter (p : text -> bool) (fl : list (text * bytes)) : filter p (map fst fl) = map fst (filter (fun nd => p (fst nd)) fl).
Proof. induction fl as [|x fl IH]; [reflexivity|]. cbn [map filter]. destruct (p (fst x)); cbn [map]; now rewrite IH. Qed.
Theorem retag_run lowf upf i srr_file f : info lowf upf (ser_srr l) = Ok i -> ends (str ".srr") srr_file ->
  (forall n d, In (n, d) (new_srs outdir f l) -> music d <> Ok None) -> (forall n d t, In (n, d) (new_srs outdir f l) -> music d = Ok (Some t) -> plain t) ->
  exists s css, fix_tracks world lowf upf music srsmain srr_file (ser_srr l) indir outdir true f = (s, None) /\
    r_calls s = concat css /\ Forall2 (handled world music indir outdir) (new_srs outdir f l) css /\
    r_good s + r_bad s = lenN (new_srs outdir f l) /\ r_skip s = 0 /\
    ((forall a b c g, snd (srsmain a b c g) = None) -> r_good s = lenN (r_calls s)) /\
    (forall n d, In (n, d) (stored_files l) -> fs_get (r_fs s) (at_ n) =
       match fs_get f (at_ n) with Some x => Some x | None => if srs_name n then None else Some d end).
Proof.
  intros Hi He Mu Pl. destruct (others_ok lowf upf l i Hok Hi) as (F & _). change (all stored_part l) with (stored_files l) in F. rewrite <- names_map in F.
  apply firsts_id in F; [|apply C]. unfold fix_tracks. rewrite (proj2 (has_end_spec _ _) He). unfold dir_in. rewrite L. cbn [negb]. rewrite Hi, F.
  destruct (others_run (stored_names l) f (incl_refl _)) as (g & E & A & B & D). rewrite E.
  assert (Eq : filter is_srs (stored_names l) = map fst (srs_files l)).
  { rewrite names_map, map_filter. f_equal. apply filter_ext. intros x. symmetry. apply srs_same. }
  rewrite Eq.
  assert (Sub : forall n d, In (n, d) (srs_files l) -> In (n, d) (stored_files l) /\ is_srs n = true).
  { intros n d I. apply filter_In in I as [I S]. split; [exact I|]. now rewrite <- srs_same. }
  assert (Keep : forall n, is_srs n = true -> fs_get g (at_ n) = fs_get f (at_ n)).
  { intros n S. apply B. intros m _ Sm X. apply place_inj in X. congruence. }
  assert (New : filter (unmade outdir g) (srs_files l) = new_srs outdir f l).
  { apply filter_ext_in. intros [n d] I. unfold unmade. cbn [fst]. rewrite Keep; [reflexivity|]. now apply Sub in I. }
  destruct (tracks_run (srs_files l) (mkRun g [] 0 0 0)) as (s & css & R & B1 & B2 & B3 & B4 & B5 & B6).
  - intros [n d] I. now apply Sub in I.
  - cbn [r_fs]. now rewrite New.
  - cbn [r_fs]. now rewrite New.
  - exists s, css. split; [exact R|]. cbn [r_calls r_good r_bad r_skip r_fs] in *. rewrite New in B2, B3. split; [exact B1|]. split; [exact B2|]. split; [lia|]. split; [exact B4|].
    split; [intros Nf; rewrite B1; cbn [app]; rewrite (B6 Nf); lia|].
    intros n d I. rewrite B5 by (apply names_files; eauto). rewrite srs_same. destruct (is_srs n) eqn:S.
    + rewrite Keep by exact S. now destruct (fs_get f (at_ n)).
    + destruct (fs_get f (at_ n)) as [x|] eqn:G; [now apply A|]. apply (D n d); [apply names_files; eauto|exact S|exact I|exact G].
Qed.
End Run.
