(** SortingFacts: proofs about Sorting.v. *)
From Verif Require Import Base BaseFacts Rar RarSpec ReadSpec ReadAllFacts SrrSpec SrrFacts Verify VerifySpec VerifyFacts DirsSpec DirsFacts SelectFacts StoredFacts SortingSpec Sorting.

Fixpoint run {S A} (f : S -> block -> result (S + A)) (bs : list block) (s : S) : result (S + A) :=
  match bs with [] => Ok (inl s) | b :: bs => do x <- f s b; match x with inl s => run f bs s | inr a => Ok (inr a) end end.
Lemma scan_run {S A} (f : S -> block -> result (S + A)) m data fuel : forall st bs s, read_loop fuel m data st = Ok bs -> scan fuel m data st f s = run f bs s.
Proof.
  induction fuel as [|fuel IH]; intros st bs s H; [discriminate|]. cbn [read_loop scan] in *. destruct (read1 m data st) as [[[b st']|]|]; cbn [bind] in *; try discriminate.
  - destruct (read_loop fuel m data st') as [bs'|] eqn:E; [|discriminate]. cbn [bind] in H. apply ok_inj in H. subst bs. cbn [run]. destruct (f s b) as [[s'|a]|]; cbn [bind]; [now apply IH|reflexivity|reflexivity].
  - apply ok_inj in H. now subst bs.
Qed.
Lemma for_srr {S A} (f : S -> block -> result (S + A)) l s : srr_ok l -> for_blocks (ser_srr l) f s = run f (sblks 0 l) s.
Proof.
  intros H. pose proof (read_all_srr l H) as R. unfold read_all in R. unfold for_blocks. destruct (reader_mode (ser_srr l)) as [m|]; [|discriminate]. cbn [bind] in *. now apply scan_run.
Qed.
Section File.
Variable l : list sitem.
Hypothesis Hl : srr_ok l.
Lemma item_good i : In i l -> sitem_ok i. Proof. intros I. destruct Hl as (_ & F & _). rewrite Forall_forall in F. now apply F. Qed.
Lemma search_const f (p : sitem -> bool) v d : (forall pos i, In i l -> f (sblk pos i) = Ok (if p i then Some v else None)) -> search (ser_srr l) f d = Ok (if existsb p l then v else d).
Proof.
  intros H. unfold search. rewrite for_srr by exact Hl. generalize 0 as pos. clear Hl. induction l as [|i k IH]; intros pos; [reflexivity|]. cbn [sblks run existsb]. rewrite (H pos i (or_introl eq_refl)). cbn [bind].
  destruct (p i); cbn [bind orb]; [reflexivity|]. apply IH. intros q j J. apply H. now right.
Qed.
Lemma stored_name_ok pos i : sitem_ok i -> stored_name (sblk pos i) = Ok (match i with SStored _ _ n _ _ => Some n | _ => None end).
Proof.
  intros [_ H]. unfold stored_name, sblk. cbn [b_type b_kind]. destruct i as [ | | | | |hd]; try reflexivity. destruct hd as [h p|h m rs ds p|c f v rs ds p e|h d|c ty f b d]; try reflexivity.
  cbn [s_ty head_ty]. destruct H as [_ (N & _)]. replace (ty =? T_SrrStored) with false; [reflexivity|]. symmetry. apply N.eqb_neq. intros ->. apply N. cbn. tauto.
Qed.
Lemma rar_name_ok pos i : sitem_ok i -> rar_name (sblk pos i) = Ok (match i with SRar _ _ n _ => Some n | _ => None end).
Proof.
  intros [_ H]. unfold rar_name, sblk. cbn [b_type b_kind]. destruct i as [ | | | | |hd]; try reflexivity. destruct hd as [h p|h m rs ds p|c f v rs ds p e|h d|c ty f b d]; try reflexivity.
  cbn [s_ty head_ty]. destruct H as [_ (N & _)]. replace (ty =? T_SrrRarFile) with false; [reflexivity|]. symmetry. apply N.eqb_neq. intros ->. apply N. cbn. tauto.
Qed.
Lemma on_names (p : text -> bool) : existsb (fun i => match i with SStored _ _ n _ _ => p n | _ => false end) l = existsb p (stored_names l).
Proof. clear Hl. unfold stored_names. induction l as [|i k IH]; [reflexivity|]. cbn [existsb map concat]. rewrite existsb_app, IH. f_equal. destruct i; cbn [existsb]; try reflexivity. now rewrite orb_false_r. Qed.
Lemma stored_search (p : text -> bool) v d : search (ser_srr l) (on_stored p v) d = Ok (if existsb p (stored_names l) then v else d).
Proof. rewrite <- on_names. apply search_const. intros pos i I. unfold on_stored. rewrite stored_name_ok by now apply item_good. cbn [bind]. now destruct i. Qed.
Lemma has_ext_spec e n : has_ext (str e) n = true <-> DirsSpec.named e n.
Proof. unfold has_ext. apply (ends_in_spec (str e) (lower n)). Qed.
Lemma if_bool (b : bool) : (if b then true else false) = b. Proof. now destruct b. Qed.
Theorem ext_ok e : exists r, check_for_ext (ser_srr l) (str e) = Ok r /\ (r = true <-> exists n, has_stored l n /\ DirsSpec.named e n).
Proof.
  unfold check_for_ext. rewrite stored_search, if_bool. eexists. split; [reflexivity|]. rewrite existsb_exists. unfold has_stored. split; intros (n & I & H); exists n; (split; [exact I|now apply has_ext_spec]).
Qed.
Theorem no_ext_ok e : exists r, check_for_no_ext (ser_srr l) (str e) = Ok r /\ (r = true <-> forall n, has_stored l n -> ~ DirsSpec.named e n).
Proof.
  unfold check_for_no_ext. rewrite stored_search. eexists. split; [reflexivity|]. destruct (existsb (has_ext (str e)) (stored_names l)) eqn:E.
  - split; [discriminate|]. intros H. apply existsb_exists in E as (n & I & X). exfalso. apply (H n I). now apply has_ext_spec.
  - split; [|reflexivity]. intros _ n I X. apply has_ext_spec in X. apply not_true_iff_false in E. apply E. apply existsb_exists. now exists n.
Qed.
Theorem files_ok : exists r, check_availability_stored_files (ser_srr l) = Ok r /\ (r = true <-> forall n, ~ has_stored l n).
Proof.
  unfold check_availability_stored_files. rewrite (search_const _ (fun i => match i with SStored _ _ _ _ _ => true | _ => false end) false true).
  - rewrite (on_names (fun _ => true)). eexists. split; [reflexivity|]. unfold has_stored. destruct (stored_names l) as [|n k]; cbn [existsb]; split; try discriminate; auto. intros H. exfalso. apply (H n). now left.
  - intros pos i I. pose proof (item_good i I) as [_ H]. unfold sblk. cbn [b_type]. destruct i as [ | | | | |hd]; try reflexivity. destruct hd as [h p|h m rs ds p|c f v rs ds p e|h d|c ty f b d]; try reflexivity.
    cbn [s_ty head_ty]. destruct H as [_ (N & _)]. replace (ty =? T_SrrStored) with false; [reflexivity|]. symmetry. apply N.eqb_neq. intros ->. apply N. cbn. tauto.
Qed.
Definition packed_with (p : fhead -> bool) (i : sitem) : bool := match i with SHead (HFile h _) => p h | _ => false end.
Lemma packed_spec p : existsb (packed_with p) l = true <-> exists h, has_packed l h /\ p h = true.
Proof.
  rewrite existsb_exists. unfold has_packed. split.
  - intros (i & I & H). destruct i as [ | | | | |[h q| | | | ]]; try discriminate. exists h. split; [now exists q|exact H].
  - intros (h & (q & I) & H). exists (SHead (HFile h q)). now split.
Qed.
Lemma no_file pos i : sitem_ok i -> (b_type (sblk pos i) =? T_RarFile) = packed_with (fun _ => true) i.
Proof.
  intros [_ H]. unfold sblk. cbn [b_type]. destruct i as [ | | | | |hd]; try reflexivity. destruct hd as [h p|h m rs ds p|c f v rs ds p e|h d|c ty f b d]; try reflexivity.
  cbn [s_ty head_ty packed_with]. destruct H as [_ (N & _)]. apply N.eqb_neq. intros ->. apply N. cbn. tauto.
Qed.
Theorem compression_ok : exists r, check_compression (ser_srr l) = Ok r /\ (r = true <-> exists h, has_packed l h /\ h_method h <> 0x30).
Proof.
  unfold check_compression. rewrite (search_const _ (packed_with (fun h => negb (h_method h =? 0x30))) true false).
  - rewrite if_bool. eexists. split; [reflexivity|]. rewrite packed_spec. split; intros (h & I & H); exists h; (split; [exact I|]); lia.
  - intros pos i I. rewrite (no_file pos i (item_good i I)). destruct i as [ | | | | |[h q| | | | ]]; try reflexivity. cbn [packed_with sblk b_kind s_kind head_kind file_info_of f_method]. unfold COMPR_STORING. now destruct (h_method h =? 0x30).
Qed.
Theorem empty_ok : exists r, check_empty (ser_srr l) = Ok r /\ (r = true <-> forall h, ~ has_packed l h).
Proof.
  unfold check_empty. rewrite (search_const _ (packed_with (fun _ => true)) false true).
  - eexists. split; [reflexivity|]. destruct (existsb _ l) eqn:E.
    + apply packed_spec in E as (h & I & _). split; [discriminate|]. intros H. exfalso. now apply (H h).
    + split; [|reflexivity]. intros _ h I. apply not_true_iff_false in E. apply E. apply packed_spec. now exists h.
  - intros pos i I. now rewrite (no_file pos i (item_good i I)).
Qed.
Lemma rar_search (p : text -> bool) f : (forall b, f b = (do n <- rar_name b; Ok (match n with Some n => if p n then Some true else None | None => None end))) ->
  exists r, search (ser_srr l) f false = Ok r /\ (r = true <-> exists n, has_volume l n /\ p n = true).
Proof.
  intros F. rewrite (search_const _ (fun i => match i with SRar _ _ n _ => p n | _ => false end) true false).
  - rewrite if_bool. eexists. split; [reflexivity|]. rewrite existsb_exists. unfold has_volume. split.
    + intros (i & I & H). destruct i as [ | |c f' n e| | | ]; try discriminate. exists n. split; [now exists c, f', e|exact H].
    + intros (n & (c & f' & e & I) & H). exists (SRar c f' n e). now split.
  - intros pos i I. rewrite F, rar_name_ok by now apply item_good. cbn [bind]. now destruct i.
Qed.
Lemma in_word a b : part_of a b = true <-> inside a b.
Proof. apply part_of_spec. Qed.
Theorem repack_ok : exists r, check_repack (ser_srr l) = Ok r /\ (r = true <-> exists n, has_volume l n /\ repack n).
Proof.
  unfold check_repack. destruct (rar_search (fun n => existsb (fun k => part_of k n) [str "rpk"; str "repack"; str "-r.part01.rar"; str "-r.rar"]) _ (fun b => eq_refl)) as (r & -> & H). exists r. split; [reflexivity|]. rewrite H. unfold repack.
  change [str "rpk"; str "repack"; str "-r.part01.rar"; str "-r.rar"] with (map str ["rpk"; "repack"; "-r.part01.rar"; "-r.rar"]%string).
  split; intros (n & I & X); exists n; (split; [exact I|]).
  - apply existsb_exists in X as (k & K & X). apply in_map_iff in K as (w & <- & K). exists w. split; [exact K|now apply in_word].
  - destruct X as (w & K & X). apply existsb_exists. exists (str w). split; [now apply in_map|now apply in_word].
Qed.
Theorem p2p_ok : exists r, check_for_possible_nonscene (ser_srr l) = Ok r /\ (r = true <-> exists n, has_volume l n /\ lower n <> n).
Proof.
  unfold check_for_possible_nonscene. destruct (rar_search (fun n => negb (teqb n (lower n))) (fun b => do n <- rar_name b; Ok (match n with Some n => if teqb n (lower n) then None else Some true | None => None end))) as (r & -> & H).
  { intros b. destruct (rar_name b) as [[n|]|]; cbn [bind]; try reflexivity. now destruct (teqb n (lower n)). }
  exists r. split; [reflexivity|]. rewrite H. split; intros (n & I & X); exists n; (split; [exact I|]).
  - intros E. rewrite E, teqb_refl in X. discriminate.
  - rewrite teqb_neq; [reflexivity|]. congruence.
Qed.
Theorem duplicates_ok : exists r, check_duplicates (ser_srr l) = Ok r /\ (r = true <-> ~ NoDup (stored_names l)).
Proof.
  unfold check_duplicates. rewrite for_srr by exact Hl. pose proof item_good as G. clear Hl.
  assert (X : forall pos found, NoDup found -> exists x, run (fun found b => do n <- stored_name b; Ok (match n with Some n => if mem_text n found then inr true else inl (found ++ [n]) | None => inl found end)) (sblks pos l) found = Ok x /\
    ((exists f, x = inl f) /\ NoDup (found ++ stored_names l) \/ x = inr true /\ ~ NoDup (found ++ stored_names l))).
  { induction l as [|i k IH]; intros pos found U; cbn [sblks run].
    - eexists. split; [reflexivity|]. left. split; [eauto|]. cbn. now rewrite app_nil_r.
    - rewrite stored_name_ok by (apply G; now left). cbn [bind]. destruct i as [ |c f n d e| | | | ]; try (apply IH; [intros j J; apply G; now right|exact U]).
      change (stored_names (SStored c f n d e :: k)) with (n :: stored_names k). destruct (mem_text n found) eqn:M.
      + eexists. split; [reflexivity|]. right. split; [reflexivity|]. apply mem_spec in M. intros N. apply NoDup_remove_2 in N. apply N, in_app_iff. now left.
      + destruct (IH (fun j J => G j (or_intror J)) (pos + lenN (ser_sitem (SStored c f n d e))) (found ++ [n])) as (x & E & H).
        * apply NoDup_both; [exact U|repeat constructor; intros []|]. intros y Y [<-|[]]. apply mem_spec in Y. congruence.
        * exists x. split; [exact E|]. rewrite <- app_assoc in H. exact H. }
  destruct (X 0 [] (NoDup_nil _)) as (x & E & H). unfold text in *. rewrite E. cbn [bind app] in *. destruct H as [[(f & ->) H]|[-> H]]; eexists; (split; [reflexivity|]); [split; [discriminate|intros N; contradiction]|now split].
Qed.
(** ** Images *)
Fixpoint first_of (p : text -> bool) (v : text -> bool) (ns : list text) : bool := match ns with [] => false | n :: ns => if p n then v n else first_of p v ns end.
Lemma image_run noproof : check_image noproof (ser_srr l) = Ok (first_of (fun n => mem_text (extension n) IMAGES) (fun n => negb (noproof && part_of (str "proof") (lower n))) (stored_names l)).
Proof.
  unfold check_image, search. rewrite for_srr by exact Hl. pose proof item_good as G. clear Hl. generalize 0 as pos. induction l as [|i k IH]; intros pos; [reflexivity|].
  cbn [sblks run]. rewrite stored_name_ok by (apply G; now left). cbn [bind]. specialize (IH (fun j J => G j (or_intror J))). destruct i as [ |c f n d e| | | | ]; cbn [bind]; try apply IH.
  change (stored_names (SStored c f n d e :: k)) with (n :: stored_names k). cbn [first_of]. destruct (mem_text (extension n) IMAGES); cbn [bind]; [|apply IH].
  now destruct (noproof && part_of (str "proof") (lower n)).
Qed.
Lemma image_spec n : mem_text (extension n) IMAGES = true <-> image n.
Proof.
  rewrite mem_spec. unfold image. split.
  - intros I. assert (X : exists e, In e [".jpg"; ".png"; ".bmp"; ".gif"; "jpeg"]%string /\ str e = extension n).
    { change IMAGES with (map str [".jpg"; ".png"; ".bmp"; ".gif"; "jpeg"]%string) in I. apply in_map_iff in I as (e & E & I). now exists e. }
    destruct X as (e & K & E). pose proof (extension_ok n) as X. rewrite <- E in X. cbn in K. destruct K as [<-|[<-|[<-|[<-|[<-|[]]]]]]; try (eexists; split; [|exact X]; cbn; tauto).
    exfalso. vm_compute in X. inversion X.
  - intros (e & K & X). apply ext_of_is in X. rewrite <- X. cbn in K. destruct K as [<-|[<-|[<-|[<-|[]]]]]; vm_compute; tauto.
Qed.
Theorem image_ok : exists r, check_image false (ser_srr l) = Ok r /\ (r = true <-> exists n, has_stored l n /\ image n).
Proof.
  rewrite image_run. eexists. split; [reflexivity|]. unfold has_stored. induction (stored_names l) as [|n ns IH]; cbn [first_of]; [split; [discriminate|now intros (n & [] & _)]|].
  pose proof (image_spec n) as S. destruct (mem_text (extension n) IMAGES).
  - split; [|reflexivity]. intros _. exists n. split; [now left|now apply S].
  - rewrite IH. split; intros (m & I & X); exists m; (split; [|exact X]); [now right|]. destruct I as [<-|I]; [|exact I]. apply S in X. discriminate.
Qed.
Theorem noproof_ok : exists r, check_image true (ser_srr l) = Ok r /\ (r = true <-> exists a n b, stored_names l = a ++ n :: b /\ image n /\ ~ has_word "proof" n /\ forall m, In m a -> ~ image m).
Proof.
  rewrite image_run. eexists. split; [reflexivity|]. induction (stored_names l) as [|n ns IH]; cbn [first_of]; [split; [discriminate|intros (a & n & b & E & _); destruct a; discriminate]|].
  pose proof (image_spec n) as S. destruct (mem_text (extension n) IMAGES).
  - cbn [andb]. rewrite negb_true_iff, <- not_true_iff_false, in_word. split.
    + intros H. exists [], n, ns. split; [reflexivity|]. split; [now apply S|]. split; [exact H|intros m []].
    + intros (a & m & b & E & I & P & A). destruct a as [|x a]; [injection E as <- _; exact P|]. exfalso. injection E as <- _. apply (A n); [now left|now apply S].
  - rewrite IH. split.
    + intros (a & m & b & -> & I & P & A). exists (n :: a), m, b. split; [reflexivity|]. split; [exact I|]. split; [exact P|]. intros x [<-|J]; [intros X; apply S in X; discriminate|now apply A].
    + intros (a & m & b & E & I & P & A). destruct a as [|x a]; [injection E as <- _; apply S in I; discriminate|]. injection E as <- ->. exists a, m, b. split; [reflexivity|]. split; [exact I|]. split; [exact P|]. intros x J. apply A. now right.
Qed.
End File.
(** ** NFO files *)
Theorem nfos_never data r : check_nfos data = Ok r -> r = false.
Proof.
  unfold check_nfos, for_blocks. destruct (reader_mode data) as [m|]; [|discriminate]. cbn [bind].
  match goal with |- context [scan ?fu m data st0 ?f None] => set (F := f); set (fu0 := fu) end.
  assert (K : forall fuel st s x, (match s with Some c => c <= 1 | None => True end) -> scan fuel m data st F s = Ok x -> match x with inl (Some c) => c <= 1 | inl None => True | inr _ => False end).
  { induction fuel as [|fuel IH]; intros st s x Hs H; [discriminate|]. cbn [scan] in H. destruct (read1 m data st) as [[[b st']|]|]; cbn [bind] in H; try discriminate.
    - unfold F in H at 1. destruct (stored_name b) as [n|]; [|discriminate]. cbn [bind] in H. apply IH in H; [exact H|]. cbv beta iota. destruct n as [n|]; [destruct (teqb (lower (dropN (lenN n - 4) n)) (str ".nfo"))|]; lia.
    - apply ok_inj in H. subst x. exact Hs. }
  intros H. destruct (scan fu0 m data st0 F None) as [x|] eqn:E; [|discriminate]. cbn [bind] in H. apply K in E; [|exact I]. destruct x as [[c|]|a]; [|discriminate|destruct E]. apply ok_inj in H. subst r. apply negb_false_iff, N.leb_le. exact E.
Qed.
(** ** The options *)
Lemma or_val o w v : or_if o (Ok w) (Ok v) = Ok (v || (o && w)).
Proof. unfold or_if. cbn [bind]. destruct o; cbn [andb]; [reflexivity|now rewrite orb_false_r]. Qed.
Lemma or_no c v : or_if false c (Ok v) = Ok v. Proof. reflexivity. Qed.
Theorem check_ok o l : srr_ok l -> o_noproof o = false -> o_nfos o = false -> exists r, check o (ser_srr l) = Ok r /\ (r = true <-> wanted o l).
Proof.
  intros H P Q. unfold check, wanted. rewrite P, Q, orb_false_r.
  destruct (compression_ok l H) as (r1 & E1 & I1). destruct (empty_ok l H) as (r2 & E2 & I2). destruct (image_ok l H) as (r3 & E3 & I3). destruct (repack_ok l H) as (r4 & E4 & I4).
  destruct (duplicates_ok l H) as (r5 & E5 & I5). destruct (p2p_ok l H) as (r6 & E6 & I6). destruct (files_ok l H) as (r7 & E7 & I7). destruct (no_ext_ok l H ".sfv") as (r8 & E8 & I8).
  destruct (no_ext_ok l H ".nfo") as (r9 & E9 & I9). destruct (ext_ok l H ".txt") as (r0 & E0 & I0).
  rewrite E1, E2, E3, E4, E5, E6, E7, E8, E9, E0. repeat first [rewrite or_val|rewrite or_no]. eexists. split; [reflexivity|].
  rewrite <- I1, <- I2, <- I3, <- I4, <- I5, <- I6, <- I7, <- I8, <- I9, <- I0. clear. rewrite !orb_true_iff, !andb_true_iff. intuition discriminate.
Qed.
