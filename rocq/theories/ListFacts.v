(** ListFacts: the listing of an SRR file block by block. *)
From Verif Require Import Base BaseFacts Path VolName Rar RarSpec ReadSpec ReadAllFacts SrrSpec Srr SrrFacts EditFacts Sfv SfvSpec SfvFacts Info InfoFacts ListSpec Samples.

Definition afun (d : list (text * arch_info)) (hp : fhead * N) : list (text * arch_info) :=
  i_files (arch_step (info_files info0 d false) (file_info_of (fst hp) (snd hp))).
Definition cfun (dc : list (text * arch_info) * bool) (hp : fhead * N) : list (text * arch_info) * bool :=
  let s := arch_step (info_files info0 (fst dc) (snd dc)) (file_info_of (fst hp) (snd hp)) in (i_files s, i_compression s).
Definition rfun (r : option (text * N)) (bp : bool * N) : option (text * N) :=
  Some (match r with None => (if fst bp then str "Protect+" else str "Protect!", snd bp) | Some (n, k) => (n, k + snd bp) end).
Definition sfun (d : list (text * N)) (nd : text * bytes) : list (text * N) := dict_set (fst nd) (lenN (snd nd)) d.

Section Run.
Variables (lowf upf : text -> text) (file : bytes).
Notation step := (info_step lowf file).

Definition sums_none (d : list (text * rar_info)) : Prop := NoDup (map fst d) /\ Forall (fun kr => ri_crc (snd kr) = None) d.
Lemma none_set k r d : sums_none d -> ri_crc r = None -> sums_none (dict_set k r d).
Proof.
  intros [N H] Hr. split; [now apply nodup_set|]. clear N. induction H as [|[q w] d Hq H IH]; cbn [dict_set]; [repeat constructor; exact Hr|]. destruct (teqb q k); constructor; assumption.
Qed.
Lemma none_get k d r : sums_none d -> dict_get k d = Some r -> ri_crc r = None.
Proof. intros [_ H] G. apply get_in in G. rewrite Forall_forall in H. now specialize (H _ G). Qed.
(** what a step does, apart from the list of volumes *)
Definition moved (s : info_t) (i : sitem) (s' : info_t) : Prop :=
  (i_files s', i_compression s') = fold_left cfun (part_of i) (i_files s, i_compression s) /\
  i_stored s' = fold_left sfun (stored_part i) (i_stored s) /\
  i_app s' = last (app_part i) (i_app s) /\
  i_oso s' = i_oso s ++ oso_part i /\
  i_recovery s' = fold_left rfun (recov_part i) (i_recovery s) /\
  (exists rs, Forall2 sfv_file (sfv_data lowf i) rs /\ i_sfv s' = i_sfv s ++ concat (map fst rs) /\ i_comments s' = i_comments s ++ concat (map snd rs)) /\
  (sums_none (i_rars s) -> sums_none (i_rars s')).
Lemma count_moved s b i s' : moved s i s' -> moved s i (info_count s' b).
Proof.
  intros (H1 & H2 & H3 & H4 & H5 & H6 & H7). unfold info_count. destruct (i_current s') as [k|]; [|unfold moved; auto 10].
  destruct (dict_get k (i_rars s')) as [r|] eqn:G; [|unfold moved; auto 10]. cbn [info_rars].
  repeat (split; [assumption|]). intros N. specialize (H7 N). apply none_set; [exact H7|]. cbn [ri_crc]. exact (none_get _ _ _ H7 G).
Qed.
Lemma take4 (l : text) : takeN 4 l = firstn 4 l.
Proof. do 4 (destruct l as [|? l]; [reflexivity|]). destruct l; reflexivity. Qed.
Lemma ext_named n : teqb (lowf (last_part 4 n)) (str ".sfv") = sfv_named lowf n.
Proof.
  unfold sfv_named, last_part. rewrite take4. destruct (text_dec _ _) as [E|E]; [now rewrite E, teqb_refl|now apply teqb_ne].
Qed.
Lemma same_moved s i : part_of i = [] -> stored_part i = [] -> app_part i = [] -> oso_part i = [] -> recov_part i = [] -> sfv_data lowf i = [] -> moved s i s.
Proof.
  intros E1 E2 E3 E4 E5 E6. unfold moved. rewrite E1, E2, E3, E4, E5, E6, app_nil_r. repeat (split; [reflexivity|]). split; [|auto]. exists []. split; [constructor|]. cbn. now rewrite !app_nil_r.
Qed.
Lemma kind_moved s pos i s' : sitem_ok i -> (forall c f n d e, i = SStored c f n d e -> srr_data file (sblk pos i) = d) ->
  info_kind lowf file s (sblk pos i) = Ok s' -> moved s i s'.
Proof.
  intros Hok Hd H. unfold info_kind in H.
  destruct i as [c f n e|c f n d e|c f n e|c f sz h n e|c f d e|hd]; cbn [sblk b_type b_kind s_ty s_kind b_add s_add b_pos b_hsize] in H.
  - change (0x69 =? T_SrrHeader) with true in H. cbv iota in H. apply ok_inj in H. subst s'. unfold moved, info_app. cbn [part_of stored_part app_part oso_part recov_part sfv_data fold_left i_files i_compression i_stored i_app i_oso i_recovery i_sfv i_comments i_rars last].
    rewrite app_nil_r. repeat (split; [reflexivity|]). split; [|auto]. exists []. split; [constructor|]. cbn. now rewrite !app_nil_r.
  - change (0x6A =? T_SrrHeader) with false in H. change (0x6A =? T_SrrStored) with true in H. cbv iota in H. rewrite ext_named in H.
    change (mkBlock _ _ _ _ _ _ _ _) with (sblk pos (SStored c f n d e)) in H. rewrite (Hd c f n d e eq_refl) in H.
    unfold moved. cbn [part_of stored_part app_part oso_part recov_part sfv_data fold_left last].
    destruct (sfv_named lowf n).
    + destruct (sfv_thm d) as (es & cs & rs & ls & E & L & A). rewrite E in H. cbn [bind] in H. apply ok_inj in H. subst s'.
      unfold info_stored. cbn [i_files i_compression i_stored i_app i_oso i_recovery i_sfv i_comments i_rars].
      rewrite app_nil_r. repeat (split; [reflexivity|]). split; [|auto]. exists [(es, cs ++ rs)]. split; [|cbn; now rewrite !app_nil_r].
      constructor; [|constructor]. now exists ls, cs, rs.
    + apply ok_inj in H. subst s'. unfold info_stored. cbn [i_files i_compression i_stored i_app i_oso i_recovery i_sfv i_comments i_rars].
      rewrite app_nil_r. repeat (split; [reflexivity|]). split; [|auto]. exists []. split; [constructor|]. cbn. now rewrite !app_nil_r.
  - change (0x71 =? T_SrrHeader) with false in H. change (0x71 =? T_SrrStored) with false in H. change (0x71 =? T_SrrRarFile) with true in H. cbv iota in H. apply ok_inj in H. subst s'.
    destruct (same_moved s (SRar c f n e)) as (H1 & H2 & H3 & H4 & H5 & H6 & H7); try reflexivity.
    unfold moved, info_rars. cbn [i_files i_compression i_stored i_app i_oso i_recovery i_sfv i_comments i_rars].
    repeat (split; [assumption|]). intros N. now apply none_set.
  - change (0x6B =? T_SrrHeader) with false in H. change (0x6B =? T_SrrStored) with false in H. change (0x6B =? T_SrrRarFile) with false in H. change (0x6B =? T_RarFile) with false in H.
    change (0x6B =? T_RarNewSub) with false in H. change (0x6B =? T_RarOldRec) with false in H. change (0x6B =? T_SrrOso) with true in H. cbv iota in H. apply ok_inj in H. subst s'.
    unfold moved, info_oso. cbn [part_of stored_part app_part oso_part recov_part sfv_data fold_left i_files i_compression i_stored i_app i_oso i_recovery i_sfv i_comments i_rars last].
    repeat (split; [reflexivity|]). split; [|auto]. exists []. split; [constructor|]. cbn. now rewrite !app_nil_r.
  - change (0x6C =? T_SrrHeader) with false in H. change (0x6C =? T_SrrStored) with false in H. change (0x6C =? T_SrrRarFile) with false in H. change (0x6C =? T_RarFile) with false in H.
    change (0x6C =? T_RarNewSub) with false in H. change (0x6C =? T_RarOldRec) with false in H. change (0x6C =? T_SrrOso) with false in H. cbv iota in H. apply ok_inj in H. subst s'.
    apply same_moved; reflexivity.
  - destruct Hok as [_ Hok]. destruct hd as [h p|h m rs ds p|c f v rs ds p e|h d|c ty f body d]; cbn [head_ty head_kind] in H.
    + change (0x74 =? T_SrrHeader) with false in H. change (0x74 =? T_SrrStored) with false in H. change (0x74 =? T_SrrRarFile) with false in H. change (0x74 =? T_RarFile) with true in H. cbv iota in H.
      apply ok_inj in H. subst s'. unfold moved. cbn [part_of stored_part app_part oso_part recov_part sfv_data fold_left last].
      split; [reflexivity|]. cbn [arch_step info_files i_stored i_app i_oso i_recovery i_sfv i_comments i_rars]. rewrite app_nil_r. repeat (split; [reflexivity|]). split; [|auto].
      exists []. split; [constructor|]. cbn. now rewrite !app_nil_r.
    + change (0x7A =? T_SrrHeader) with false in H. change (0x7A =? T_SrrStored) with false in H. change (0x7A =? T_SrrRarFile) with false in H. change (0x7A =? T_RarFile) with false in H. change (0x7A =? T_RarNewSub) with true in H. cbv iota in H.
      cbn [file_info_of f_name head_add head_packed] in H.
      assert (T : h_text h = str "RR").
      { destruct Hok as (_ & Hf & Hr & _ & _ & HU & _). destruct Hf as (_ & _ & _ & _ & _ & _ & _ & _ & Hn & _). unfold name_spec in Hn. rewrite HU, Hr in Hn. rewrite Hn. reflexivity. }
       rewrite T, teqb_refl in H. destruct (N.eqb_spec p (512 * rs + 2 * ds)) as [->|]; [|discriminate].
      apply ok_inj in H. subst s'. unfold moved, add_recovery. cbn [part_of stored_part app_part oso_part recov_part sfv_data fold_left last]. rewrite app_nil_r.
      destruct (i_recovery s) as [[rn rk]|]; unfold info_recovery; cbn [i_files i_compression i_stored i_app i_oso i_recovery i_sfv i_comments i_rars]; repeat (split; [reflexivity|]);
      (split; [|auto]; exists []; split; [constructor|]; cbn; now rewrite !app_nil_r).
    + change (0x78 =? T_SrrHeader) with false in H. change (0x78 =? T_SrrStored) with false in H. change (0x78 =? T_SrrRarFile) with false in H. change (0x78 =? T_RarFile) with false in H. change (0x78 =? T_RarNewSub) with false in H. change (0x78 =? T_RarOldRec) with true in H. cbv iota in H.
      cbn [head_add head_packed] in H.
      apply ok_inj in H. subst s'. unfold moved, add_recovery. cbn [part_of stored_part app_part oso_part recov_part sfv_data fold_left last]. rewrite app_nil_r.
      destruct (i_recovery s) as [[rn rk]|]; unfold info_recovery; cbn [i_files i_compression i_stored i_app i_oso i_recovery i_sfv i_comments i_rars]; repeat (split; [reflexivity|]);
      (split; [|auto]; exists []; split; [constructor|]; cbn; now rewrite !app_nil_r).
    + change (0x7A =? T_SrrHeader) with false in H. change (0x7A =? T_SrrStored) with false in H. change (0x7A =? T_SrrRarFile) with false in H. change (0x7A =? T_RarFile) with false in H. change (0x7A =? T_RarNewSub) with true in H. cbv iota in H.
      cbn [file_info_of f_name] in H. destruct Hok as (_ & _ & _ & _ & Hn). rewrite teqb_ne in H by exact Hn. apply ok_inj in H. subst s'. apply same_moved; reflexivity.
    + destruct Hok as (_ & Hn & _). cbn [In] in Hn.
      assert (Q : forall k, In k [0x69; 0x6A; 0x6B; 0x6C; 0x71; 0x74; 0x78; 0x7A] -> (ty =? k) = false).
      { intros k Hk. apply N.eqb_neq. intros ->. apply Hn. exact Hk. }
      rewrite (Q T_SrrHeader), (Q T_SrrStored), (Q T_SrrRarFile), (Q T_RarFile), (Q T_RarNewSub), (Q T_RarOldRec), (Q T_SrrOso) in H by (cbn; tauto).
      apply ok_inj in H. subst s'. apply same_moved; reflexivity.
Qed.
End Run.

Section All.
Variables (lowf upf : text -> text) (file : bytes).
Definition ran (s : info_t) (l : list sitem) (s' : info_t) : Prop :=
  (i_files s', i_compression s') = fold_left cfun (parts l) (i_files s, i_compression s) /\
  i_stored s' = fold_left sfun (all stored_part l) (i_stored s) /\
  i_app s' = last (all app_part l) (i_app s) /\
  i_oso s' = i_oso s ++ all oso_part l /\
  i_recovery s' = fold_left rfun (all recov_part l) (i_recovery s) /\
  (exists rs, Forall2 sfv_file (all (sfv_data lowf) l) rs /\ i_sfv s' = i_sfv s ++ concat (map fst rs) /\ i_comments s' = i_comments s ++ concat (map snd rs)) /\
  (sums_none (i_rars s) -> sums_none (i_rars s')).
Lemma last_app2 {A} (a b : list A) d : last (a ++ b) d = last b (last a d).
Proof.
  destruct b as [|z b] using rev_ind; [now rewrite app_nil_r|]. now rewrite app_assoc, !last_last.
Qed.
Lemma run_moved l : forall pre s s', Forall sitem_ok l -> file = pre ++ ser_srr l ->
  foldR (info_step lowf file) (sblks (lenN pre) l) s = Ok s' -> ran s l s'.
Proof.
  induction l as [|i l IH]; intros pre s s' Hok Hfile H.
  - apply ok_inj in H. subst s'. unfold ran, parts, all. cbn [map concat fold_left last]. rewrite app_nil_r. repeat (split; [reflexivity|]). split; [|auto].
    exists []. split; [constructor|]. cbn. now rewrite !app_nil_r.
  - inversion Hok as [|? ? Hi Hl]; subst. cbn [sblks foldR] in H. bindinv H. unfold info_step in E. bindinv E. apply ok_inj in E. subst v.
    apply kind_moved in E0; [|exact Hi|].
    2:{ intros c f n d e ->. apply srr_data_sblk. }
    apply (count_moved lowf s (sblk (lenN pre) i)) in E0. set (s1 := info_count v0 (sblk (lenN pre) i)) in *.
    replace (lenN pre + lenN (ser_sitem i)) with (lenN (pre ++ ser_sitem i)) in H by apply lenN_app.
    apply IH in H; [|exact Hl|unfold ser_srr; cbn [map concat]; now rewrite app_assoc].
    destruct E0 as (A1 & A2 & A3 & A4 & A5 & (rs1 & A6 & A7 & A8) & A9). destruct H as (B1 & B2 & B3 & B4 & B5 & (rs2 & B6 & B7 & B8) & B9).
    unfold ran, parts, all. cbn [map concat]. rewrite !fold_left_app, <- A1, <- A2, <- A5.
    split; [exact B1|]. split; [exact B2|]. split; [|split; [|split; [exact B5|split; [|auto]]]].
    + rewrite last_app2, <- A3. exact B3.
    + rewrite B4, A4, <- app_assoc. reflexivity.
    + exists (rs1 ++ rs2). split; [now apply Forall2_app|]. rewrite !map_app, !concat_app, B7, B8, A7, A8, <- !app_assoc. split; reflexivity.
Qed.
End All.

(** ** Dictionaries filled one by one *)
Section Fill.
Context {X A : Type} (f : X -> text) (v : option A -> X -> A).
Definition fill (d : list (text * A)) (x : X) : list (text * A) := dict_set (f x) (v (dict_get (f x) d) x) d.
Definition for_name (n : text) (l : list X) : list X := filter (fun x => if text_dec (f x) n then true else false) l.
Lemma for_name_snoc n l x : for_name n (l ++ [x]) = for_name n l ++ (if text_dec (f x) n then [x] else []).
Proof. unfold for_name. rewrite filter_app. cbn [filter]. now destruct (text_dec (f x) n). Qed.
Lemma for_name_in n l : In n (map f l) <-> for_name n l <> [].
Proof.
  unfold for_name. split.
  - intros H E. apply in_map_iff in H as (x & <- & H). assert (K : In x (filter (fun y => if text_dec (f y) (f x) then true else false) l)).
    { apply filter_In. split; [exact H|]. now destruct (text_dec (f x) (f x)). }
    rewrite E in K. destruct K.
  - intros H. destruct (filter _ l) as [|x r] eqn:E; [contradiction|]. assert (K : In x (x :: r)) by now left. rewrite <- E in K. apply filter_In in K as [K C].
    destruct (text_dec (f x) n) as [<-|]; [|discriminate]. now apply in_map.
Qed.
Lemma fill_all l : firsts (map f l) (map fst (fold_left fill l [])) /\
  forall n, dict_get n (fold_left fill l []) = fold_left (fun o x => Some (v o x)) (for_name n l) None.
Proof.
  induction l as [|x l [IH1 IH2]] using rev_ind; [split; [constructor|reflexivity]|]. rewrite fold_left_app. cbn [fold_left]. set (d := fold_left fill l []) in *.
  assert (Hin : In (f x) (map f l) <-> In (f x) (map fst d)).
  { rewrite in_keys_get, IH2, for_name_in. split.
    - intros H. destruct (for_name (f x) l) as [|y r] using rev_ind; [contradiction|]. rewrite fold_left_app. cbn. eauto.
    - intros (w & H) E. rewrite E in H. discriminate. }
  split.
  - rewrite map_app. cbn [map]. unfold fill. destruct (in_dec text_dec (f x) (map fst d)) as [I|I].
    + rewrite set_keys by exact I. apply fi_old; [exact IH1|]. now apply Hin.
    + rewrite set_new, map_app by exact I. apply fi_new; [exact IH1|]. now rewrite Hin.
  - intros n. rewrite for_name_snoc. unfold fill. destruct (text_dec (f x) n) as [<-|N].
    + now rewrite get_set_same, fold_left_app, IH2.
    + rewrite get_set_other by exact N. now rewrite app_nil_r, IH2.
Qed.
End Fill.

(** ** Archived files *)
Definition special (n : N) : bool := (n =? 0xffffffffffffffff) || (n =? 0xffffffff).
Definition astep (o : option arch_info) (hp : fhead * N) : arch_info :=
  let h := fst hp in
  let f0 := match o with Some a => a | None => mkArch (h_text h) (if special (h_unpacked h) then 0 else h_unpacked h) (negb (h_method h =? 0x30)) 0 end in
  let size := if (h_unpacked h =? 0xffffffff) && negb (ai_compressed f0) then ai_size f0 + snd hp else ai_size f0 in
  let size := if negb (h_unpacked h =? 0xffffffffffffffff) && (size =? 0) then h_unpacked h else size in
  mkArch (ai_name f0) size (ai_compressed f0) (h_fcrc h).
Lemma cfun_fill d c hp : fst (cfun (d, c) hp) = fill (fun p => h_text (fst p)) astep d hp.
Proof.
  unfold cfun, fill, astep, arch_step, special. cbn [fst snd info_files i_files file_info_of f_name f_unpacked f_method f_packed f_crc i_compression].
  change COMPR_STORING with 0x30. destruct (dict_get (h_text (fst hp)) d); [reflexivity|].
  destruct (h_unpacked (fst hp) =? 0xffffffffffffffff), (h_unpacked (fst hp) =? 0xffffffff); reflexivity.
Qed.
Lemma cfun_fold l : forall d c, fst (fold_left cfun l (d, c)) = fold_left (fill (fun p => h_text (fst p)) astep) l d.
Proof.
  induction l as [|hp l IH]; intros d c; [reflexivity|]. cbn [fold_left]. destruct (cfun (d, c) hp) as [d' c'] eqn:E. rewrite IH. f_equal.
  rewrite <- (cfun_fill d c hp), E. reflexivity.
Qed.
Definition some_compressed (d : list (text * arch_info)) : Prop := exists n a, dict_get n d = Some a /\ ai_compressed a = true.
Lemma cfun_compressed l : forall d c, (c = true <-> some_compressed d) ->
  snd (fold_left cfun l (d, c)) = true <-> some_compressed (fst (fold_left cfun l (d, c))).
Proof.
  induction l as [|hp l IH]; intros d c H; [exact H|]. cbn [fold_left]. destruct (cfun (d, c) hp) as [d' c'] eqn:E. apply IH.
  pose proof (cfun_fill d c hp) as F. rewrite E in F. cbn [fst] in F. subst d'.
  assert (C : c' = match dict_get (h_text (fst hp)) d with Some _ => c | None => c || negb (h_method (fst hp) =? 0x30) end).
  { change c' with (snd (fill (fun p => h_text (fst p)) astep d hp, c')). rewrite <- E. unfold cfun, arch_step. cbn [fst snd info_files i_files i_compression file_info_of f_name].
    destruct (dict_get _ d); reflexivity. }
  subst c'. unfold fill. set (n := h_text (fst hp)). destruct (dict_get n d) as [a|] eqn:G.
  - rewrite H. split; intros (m & b & Hm & Hb); destruct (text_dec n m) as [<-|N].
    + rewrite G in Hm. injection Hm as <-. exists n. eexists. rewrite get_set_same. split; [reflexivity|exact Hb].
    + exists m, b. now rewrite get_set_other.
    + rewrite get_set_same in Hm. injection Hm as <-. exists n, a. split; [exact G|exact Hb].
    + rewrite get_set_other in Hm by exact N. exists m, b. now split.
  - rewrite orb_true_iff, H. split.
    + intros [(m & b & Hm & Hb)|K].
      * destruct (text_dec n m) as [<-|N]; [congruence|]. exists m, b. now rewrite get_set_other.
      * exists n. eexists. rewrite get_set_same. split; [reflexivity|exact K].
    + intros (m & b & Hm & Hb). destruct (text_dec n m) as [<-|N].
      * right. rewrite get_set_same in Hm. injection Hm as <-. exact Hb.
      * left. rewrite get_set_other in Hm by exact N. exists m, b. now split.
Qed.
Definition asum (o : option arch_info) (ps : list (fhead * N)) : option arch_info := fold_left (fun o x => Some (astep o x)) ps o.
Lemma asum_app o a b : asum o (a ++ b) = asum (asum o a) b.
Proof. apply fold_left_app. Qed.
Lemma asum_facts p q : exists a, asum None (p :: q) = Some a /\ ai_name a = h_text (fst p) /\ ai_compressed a = negb (h_method (fst p) =? 0x30) /\
  ai_crc a = h_fcrc (fst (last (p :: q) p)).
Proof.
  induction q as [|x q IH] using rev_ind.
  - eexists. split; [reflexivity|]. split; [reflexivity|]. split; reflexivity.
  - destruct IH as (a & E & H1 & H2 & H3). change (p :: q ++ [x]) with ((p :: q) ++ [x]). rewrite asum_app, E, last_last. eexists. split; [reflexivity|]. now split.
Qed.
Lemma asum_late a : Forall (fun p => h_unpacked (fst p) = 0xFFFFFFFFFFFFFFFF) a -> forall o, (o = None \/ exists r, o = Some r /\ ai_size r = 0) ->
  asum o a = None /\ o = None /\ a = [] \/ exists r, asum o a = Some r /\ ai_size r = 0.
Proof.
  induction 1 as [|p a Hp H IH]; intros o Ho; cbn [asum fold_left].
  - destruct Ho as [->|(r & -> & Hr)]; [left; auto|right; eauto].
  - right. assert (S : ai_size (astep o p) = 0).
    { unfold astep. rewrite Hp. destruct Ho as [->|(r & -> & Hr)]; cbn [ai_size]; [reflexivity|]. rewrite Hr. reflexivity. }
    destruct (IH (Some (astep o p))) as [(_ & X & _)|X]; [right; eauto|discriminate|exact X].
Qed.
Lemma asum_const b size : said size -> Forall (fun p => h_unpacked (fst p) = size) b -> forall r, ai_size r = 0 \/ ai_size r = size -> exists r',
  asum (Some r) b = Some r' /\ (b <> [] -> ai_size r' = size).
Proof.
  intros [S1 S2]. induction 1 as [|p b Hp H IH]; intros r Hr; cbn [asum fold_left].
  - exists r. split; [reflexivity|congruence].
  - assert (S : ai_size (astep (Some r) p) = size).
    { unfold astep. rewrite Hp. cbn [ai_size]. replace (size =? 0xFFFFFFFF) with false by (symmetry; now apply N.eqb_neq). replace (size =? 0xFFFFFFFFFFFFFFFF) with false by (symmetry; now apply N.eqb_neq).
      cbn [andb negb]. destruct (N.eqb_spec (ai_size r) 0); [reflexivity|]. destruct Hr; congruence. }
    destruct (IH (astep (Some r) p)) as (r' & E & Q); [now right|]. exists r'. split; [exact E|]. intros _. destruct b; [cbn in E; congruence|apply Q; discriminate].
Qed.
Lemma asum_sum q : Forall (fun p => h_unpacked (fst p) = 0xFFFFFFFF /\ h_method (fst p) = 0x30) q -> forall r, ai_compressed r = false -> ai_size r <> 0 -> exists r',
  asum (Some r) q = Some r' /\ ai_size r' = ai_size r + fold_right N.add 0 (map snd q).
Proof.
  induction 1 as [|p q [Hp Hm] H IH]; intros r Hc Hs; cbn [asum fold_left map fold_right].
  - exists r. split; [reflexivity|]. lia.
  - assert (S : ai_size (astep (Some r) p) = ai_size r + snd p /\ ai_compressed (astep (Some r) p) = false).
    { unfold astep. rewrite Hp. cbn [ai_size ai_compressed]. rewrite Hc. change (0xFFFFFFFF =? 0xFFFFFFFF) with true. change (0xFFFFFFFF =? 0xFFFFFFFFFFFFFFFF) with false. cbn [andb negb].
      replace (ai_size r + snd p =? 0) with false by lia. split; reflexivity. }
    destruct S as [S C]. destruct (IH (astep (Some r) p)) as (r' & E & Q); [exact C|lia|]. exists r'. split; [exact E|]. rewrite Q, S. lia.
Qed.
Lemma asum_says ps size : says ps size -> exists a, asum None ps = Some a /\ ai_size a = size.
Proof.
  intros [a b -> Hb Hs Ha Hbs|p q -> H Hp ->].
  - rewrite asum_app. destruct (asum_late a Ha None (or_introl eq_refl)) as [(-> & _ & ->)|(r & -> & Hr)].
    + destruct b as [|p b]; [congruence|]. inversion Hbs as [|? ? Hp Hb']; subst. set (size := h_unpacked (fst p)) in *. cbn [asum fold_left].
      assert (S : ai_size (astep None p) = size).
      { unfold astep. cbn [ai_size]. fold size. destruct Hs as [S1 S2]. unfold special. replace (size =? 0xFFFFFFFF) with false by (symmetry; now apply N.eqb_neq).
        replace (size =? 0xFFFFFFFFFFFFFFFF) with false by (symmetry; now apply N.eqb_neq). cbn [orb andb negb]. destruct (N.eqb_spec size 0); congruence. }
      destruct (asum_const b size Hs Hb' (astep None p) (or_intror S)) as (r' & E & Q). exists r'. split; [exact E|]. destruct b; [cbn in E; congruence|apply Q; discriminate].
    + destruct (asum_const b size Hs Hbs r (or_introl Hr)) as (r' & E & Q). exists r'. split; [exact E|]. now apply Q.
  - inversion H as [|? ? [Hu Hm] Hq]; subst. cbn [asum fold_left].
    assert (S : ai_size (astep None p) = snd p /\ ai_compressed (astep None p) = false).
    { unfold astep. rewrite Hu, Hm. cbn [ai_size ai_compressed]. change (special 0xFFFFFFFF) with true. change (0x30 =? 0x30) with true. change (0xFFFFFFFF =? 0xFFFFFFFF) with true.
      change (0xFFFFFFFF =? 0xFFFFFFFFFFFFFFFF) with false. cbn [andb negb]. replace (0 + snd p =? 0) with false by lia. split; reflexivity || lia. }
    destruct S as [S C]. destruct (asum_sum q Hq (astep None p) C) as (r' & E & Q); [congruence|]. exists r'. split; [exact E|]. rewrite Q, S. reflexivity.
Qed.

(** ** Sums *)
Lemma nodup_get {A} (d : list (text * A)) k v : NoDup (map fst d) -> In (k, v) d -> dict_get k d = Some v.
Proof.
  induction d as [|[q w] d IH]; intros N H; [destruct H|]. cbn [map fst] in N. inversion N as [|? ? N1 N2]; subst. cbn [dict_get]. destruct H as [H|H].
  - injection H as -> ->. now rewrite teqb_refl.
  - rewrite teqb_ne; [now apply IH|]. intros ->. apply N1. change k with (fst (k, v)). now apply in_map.
Qed.
Section Sums.
Variables lowf upf : text -> text.
Definition scan (k : text) (es : list sfv) (c : option text) : option text :=
  fold_left (fun c e => if text_dec (entry_key lowf e) k then Some (upf (e_crc e)) else c) es c.
Lemma scan_sum k es : sum_for lowf upf k es (scan k es None).
Proof.
  induction es as [|e es IH] using rev_ind; [right; split; [constructor|reflexivity]|]. unfold scan. rewrite fold_left_app. cbn [fold_left]. fold (scan k es None).
  destruct (text_dec (entry_key lowf e) k) as [E|E].
  - left. exists es, e, []. repeat split; [exact E|constructor].
  - destruct IH as [(a & x & b & -> & H1 & H2 & H3)|[H1 H2]].
    + left. exists a, x, (b ++ [e]). rewrite <- app_assoc. split; [reflexivity|]. split; [exact H1|]. split; [|exact H3]. apply Forall_app. split; [exact H2|repeat constructor; exact E].
    + right. split; [|exact H2]. apply Forall_app. split; [exact H1|repeat constructor; exact E].
Qed.
Lemma sums_ok es : forall d d' rest, add_sums lowf upf es d = (d', rest) ->
  map fst d' = map fst d /\
  (forall k r', dict_get k d' = Some r' -> exists r, dict_get k d = Some r /\ ri_crc r' = scan k es (ri_crc r)) /\
  rest = filter (fun e => if in_dec text_dec (entry_key lowf e) (map fst d) then false else true) es.
Proof.
  induction es as [|e es IH]; intros d d' rest H; cbn [add_sums] in H.
  - injection H as <- <-. split; [reflexivity|]. split; [|reflexivity]. intros k r G. exists r. split; [exact G|reflexivity].
  - change (lowf (basename (e_name e))) with (entry_key lowf e) in H. unfold scan. cbn [filter fold_left]. set (k := entry_key lowf e) in *. destruct (dict_get k d) as [r0|] eqn:G.
    + assert (I : In k (map fst d)) by (apply in_keys_get; eauto). destruct (in_dec text_dec k (map fst d)) as [_|X]; [|contradiction].
      apply IH in H as (K & H & R). rewrite set_keys in K, R by exact I. split; [exact K|]. split; [|exact R].
      intros q r' Gq. apply H in Gq as (r1 & G1 & C). destruct (text_dec k q) as [<-|Nq].
      * rewrite get_set_same in G1. injection G1 as <-. exists r0. split; [exact G|exact C].
      * rewrite get_set_other in G1 by exact Nq. exists r1. split; [exact G1|exact C].
    + destruct (add_sums lowf upf es d) as [d1 rest1] eqn:E. injection H as <- <-. apply IH in E as (K & H & R). split; [exact K|].
      assert (I : ~ In k (map fst d)) by (intros X; apply in_keys_get in X as (? & X); congruence). destruct (in_dec text_dec k (map fst d)) as [X|_]; [contradiction|].
      split; [|now rewrite R]. intros q r' Gq. apply H in Gq as (r1 & G1 & C). exists r1. split; [exact G1|]. destruct (text_dec k q) as [<-|Nq]; [congruence|exact C].
Qed.
End Sums.

(** ** The listing *)
Lemma firsts_in l r : firsts l r -> forall x, In x r <-> In x l.
Proof.
  induction 1 as [|l r x H IH N|l r x H IH I]; intros y; [reflexivity| |].
  - rewrite !in_app_iff, IH. reflexivity.
  - rewrite in_app_iff, IH. cbn. split; [auto|]. intros [Y|[->|[]]]; auto.
Qed.
Lemma firsts_nodup l r : firsts l r -> NoDup r.
Proof.
  induction 1 as [|l r x H IH N|l r x H IH I]; [constructor| |exact IH]. 
  apply (NoDup_Add (a := x) (l := r)); [rewrite <- (app_nil_r r) at 1; apply Add_app|]. split; [exact IH|]. now rewrite (firsts_in _ _ H).
Qed.
Section Listing.
Variables (lowf upf : text -> text) (l : list sitem) (i : info_t).
Hypotheses (Hok : srr_ok l) (Hi : info lowf upf (ser_srr l) = Ok i).
Lemma listing_ran : exists s rars rest, ran lowf info0 l s /\ add_sums lowf upf (i_sfv s) (i_rars s) = (rars, rest) /\
  i = mkInfo (i_app s) (i_stored s) rars (i_files s) (i_recovery s) rest (i_comments s) (i_compression s) (i_oso s) None.
Proof.
  unfold info in Hi. rewrite read_all_srr in Hi by exact Hok. cbn [bind] in Hi. pose proof Hi as H. bindinv H. destruct (add_sums _ _ _ _) as [rars rest] eqn:A. apply ok_inj in H.
  exists v, rars, rest. split; [|split; [exact A|now symmetry]]. destruct Hok as (_ & Hs & _). apply (run_moved lowf (ser_srr l) l [] info0 v Hs eq_refl). exact E.
Qed.
Theorem archived_ok :
  firsts (map (fun p => h_text (fst p)) (parts l)) (map fst (i_files i)) /\
  (forall n p q, of_name n (parts l) = p :: q -> exists a, In (n, a) (i_files i) /\ ai_name a = n /\
     ai_compressed a = negb (h_method (fst p) =? 0x30) /\ ai_crc a = h_fcrc (fst (last (p :: q) p)) /\
     forall size, says (p :: q) size -> ai_size a = size) /\
  (i_compression i = true <-> exists n a, In (n, a) (i_files i) /\ ai_compressed a = true).
Proof.
  destruct listing_ran as (s & rars & rest & (R & _) & _ & ->). cbn [i_files i_compression]. 
  pose proof (cfun_fold (parts l) [] false) as F. pose proof (cfun_compressed (parts l) [] false) as C. change (i_files info0, i_compression info0) with (@nil (text * arch_info), false) in R. rewrite <- R in F, C. cbn [fst snd] in F, C.
  destruct (fill_all (fun p => h_text (fst p)) astep (parts l)) as [F1 F2]. rewrite <- F in F1, F2. split; [exact F1|]. split.
  - intros n p q E. specialize (F2 n). change (for_name (fun p => h_text (fst p)) n (parts l)) with (of_name n (parts l)) in F2. rewrite E in F2.
    destruct (asum_facts p q) as (a & Ea & A1 & A2 & A3). change (fold_left (fun o x => Some (astep o x)) (p :: q) None) with (asum None (p :: q)) in F2. rewrite Ea in F2.
    assert (Hn : h_text (fst p) = n).
    { assert (I : In p (of_name n (parts l))) by (rewrite E; now left). unfold of_name in I. apply filter_In in I as [_ I]. now destruct (text_dec (h_text (fst p)) n). }
    exists a. split; [now apply get_in|]. split; [congruence|]. split; [exact A2|]. split; [exact A3|]. intros size Hs. apply asum_says in Hs as (a' & Ea' & Hs). congruence.
  - rewrite C by (split; [discriminate|intros (n & a & X & _); discriminate]). apply firsts_nodup in F1. split; intros (n & a & G & K); exists n, a; (split; [|exact K]); [now apply get_in|now apply nodup_get].
Qed.
Lemma scan_last n (nds : list (text * bytes)) : forall o, fold_left (fun (o : option N) x => Some (lenN (snd x))) (for_name fst n nds) None = Some o ->
  exists d, last_for n nds d /\ o = lenN d.
Proof.
  induction nds as [|[m d] nds IH] using rev_ind; intros o H; [discriminate|]. rewrite for_name_snoc in H. cbn [fst] in H. destruct (text_dec m n) as [->|N].
  - rewrite fold_left_app in H. cbn in H. injection H as <-. exists d. split; [|reflexivity]. exists nds, []. split; [reflexivity|intros []].
  - rewrite app_nil_r in H. apply IH in H as (d' & (a & b & -> & Hb) & ->). exists d'. split; [|reflexivity]. exists a, (b ++ [(m, d)]). rewrite <- app_assoc. split; [reflexivity|].
    rewrite map_app, in_app_iff. intros [X|[X|[]]]; [exact (Hb X)|cbn in X; congruence].
Qed.
Theorem others_ok :
  firsts (map fst (all stored_part l)) (map fst (i_stored i)) /\
  (forall n size, In (n, size) (i_stored i) -> exists d, last_for n (all stored_part l) d /\ size = lenN d) /\
  i_app i = last (all app_part l) [] /\ i_oso i = all oso_part l /\
  i_recovery i = match all recov_part l with
                 | [] => None
                 | (new, _) :: _ => Some (if new then str "Protect+" else str "Protect!", fold_right N.add 0 (map snd (all recov_part l)))
                 end.
Proof.
  destruct listing_ran as (s & rars & rest & (_ & R1 & R2 & R3 & R4 & _) & _ & ->). cbn [i_stored i_app i_oso i_recovery].
  assert (F : i_stored s = fold_left (fill fst (fun (_ : option N) (nd : text * bytes) => lenN (snd nd))) (all stored_part l) []) by exact R1.
  destruct (fill_all fst (fun (_ : option N) (nd : text * bytes) => lenN (snd nd)) (all stored_part l)) as [F1 F2]. rewrite <- F in F1, F2.
  split; [exact F1|]. split; [|split; [exact R2|split; [exact R3|]]].
  - intros n size H. apply nodup_get in H; [|exact (firsts_nodup _ _ F1)]. rewrite F2 in H. now apply scan_last.
  - rewrite R4. change (i_recovery info0) with (@None (text * N)). destruct (all recov_part l) as [|[new p] rs]; [reflexivity|]. cbn [fold_left map snd fold_right]. unfold rfun at 2. cbn [fst snd].
    clear. generalize (if new then str "Protect+" else str "Protect!") as nm. intros nm. revert p. induction rs as [|[n2 p2] rs IH]; intros p; cbn [fold_left map snd fold_right]; [do 2 f_equal; lia|].
    unfold rfun at 2. cbn [snd]. rewrite IH. do 2 f_equal. lia.
Qed.
Theorem sfv_sums_ok : exists es remarks, sfv_files lowf l es remarks /\ i_comments i = remarks /\
  (forall k r, In (k, r) (i_rars i) -> sum_for lowf upf k es (ri_crc r)) /\
  i_sfv i = filter (fun e => if in_dec text_dec (entry_key lowf e) (map fst (i_rars i)) then false else true) es.
Proof.
  destruct listing_ran as (s & rars & rest & (_ & _ & _ & _ & _ & (rs & S1 & S2 & S3) & S4) & A & ->). cbn [i_comments i_rars i_sfv].
  destruct S4 as [N Z]; [split; constructor|]. apply sums_ok in A as (K & H & ->).
  exists (concat (map fst rs)), (concat (map snd rs)). split; [exists rs; auto|]. split; [exact S3|]. change (i_sfv info0 ++ ?x) with x in S2. split.
  - intros k r G. apply nodup_get in G; [|now rewrite K]. apply H in G as (r0 & G & ->). rewrite (none_get k (i_rars s) r0 (conj N Z) G), S2. apply scan_sum.
  - now rewrite K, S2.
Qed.
End Listing.

(** ** Examples *)
Ltac srrok := split; [|split; [|split]]; [unfold app_item; eauto 8|ok|vm_compute; repeat split; intros; discriminate|ok].
Lemma ex_archived : exists i, srr_ok srr1 /\ info lower (fun t => t) (ser_srr srr1) = Ok i /\
  i_files i = [(str "a.txt", mkArch (str "a.txt") 5 false 0x22); (str "b.txt", mkArch (str "b.txt") 0 false 0)] /\
  says (of_name (str "a.txt") (parts srr1)) 5.
Proof.
  eexists. split; [exact srr1_ok|]. split; [vm_compute; reflexivity|]. split; [reflexivity|]. eapply (say_head _ _ [] _ eq_refl).
  - vm_compute. discriminate.
  - split; discriminate.
  - constructor.
  - vm_compute. repeat constructor.
Qed.
(** sizes that are not in the first headers, or in none *)
Definition NOSIZE : N := 0xFFFFFFFF.
Definition NOSIZE64 : N := 0xFFFFFFFFFFFFFFFF.
Definition FH64 (fl : N) (name : string) (size : N) : fhead :=
  mkFhead 0x4321 (0x8100 + fl) size 2 1 0x3A21B4C7 20 0x30 0x20 (bstr name) (str name) [] [] [].
Definition srr_late : list sitem :=
  [app_item (str "x"); rar_item (str "a.rar"); SHead MARKER; SHead (HFile (FH64 0 "late" NOSIZE64) 4); SHead (HFile (FH64 0 "none" NOSIZE) 4); SHead ENDHEAD;
   rar_item (str "a.r00"); SHead MARKER; SHead (HFile (FH64 0 "none" NOSIZE) 5); SHead (HFile (FH64 0 "late" 7) 3); SHead ENDHEAD].
Lemma ex_late : exists i, srr_ok srr_late /\ info lower (fun t => t) (ser_srr srr_late) = Ok i /\
  map (fun na => ai_size (snd na)) (i_files i) = [7; 9] /\
  says (of_name (str "late") (parts srr_late)) 7 /\ says (of_name (str "none") (parts srr_late)) 9.
Proof.
  eexists. split; [unfold srr_late; srrok|]. split; [vm_compute; reflexivity|]. split; [reflexivity|]. split.
  - apply (say_head _ _ [(FH64 0 "late" NOSIZE64, 4)] [(FH64 0 "late" 7, 3)]); [vm_compute; reflexivity|discriminate|split; discriminate|constructor; [reflexivity|constructor]|constructor; [reflexivity|constructor]].
  - eapply say_sum; [vm_compute; reflexivity| |vm_compute; discriminate|vm_compute; reflexivity]. vm_compute. constructor; [split; reflexivity|]. constructor; [split; reflexivity|constructor].
Qed.
Definition srr_empty : list sitem :=
  [app_item (str "x"); rar_item (str "a.rar"); SHead MARKER; SHead (HFile (FHEAD 0 "q" NOSIZE 1) 0); SHead ENDHEAD].
Theorem empty_first : exists l i n a, srr_ok l /\ info lower (fun t => t) (ser_srr l) = Ok i /\ In (n, a) (i_files i) /\
  Forall (fun p => h_unpacked (fst p) = 0xFFFFFFFF /\ h_method (fst p) = 0x30) (of_name n (parts l)) /\
  ai_size a <> fold_right N.add 0 (map snd (of_name n (parts l))).
Proof.
  exists srr_empty. destruct (info lower (fun t => t) (ser_srr srr_empty)) as [i|] eqn:E; vm_compute in E; [|discriminate]. apply ok_inj in E.
  exists i, (str "q"), (mkArch (str "q") NOSIZE false 1). split; [unfold srr_empty; srrok|]. split; [reflexivity|]. split; [rewrite <- E; now left|]. split.
  - vm_compute. constructor; [split; reflexivity|constructor].
  - vm_compute. discriminate.
Qed.
Definition OLDRR : rhead := HOldRecov 0x1111 0x8000 1 1 2 516 [].
Definition srr_sums : list sitem :=
  [app_item (str "x"); stored_item (str "CD1/a.sfv", bstr "; text" ++ [x0a] ++ bstr "A.RAR 12345678" ++ [x0a] ++ bstr "CD2/b.zip 1" ++ repN 6 x20);
   stored_item (str "a.nfo", bstr "hello"); oso_item 5 7 (str "a.txt"); rar_item (str "CD1/a.rar"); SHead MARKER; SHead AHEAD; SHead OLDRR; SHead ENDHEAD;
   rar_item (str "a.r00"); SHead MARKER; SHead (RRHEAD 2 4); SHead ENDHEAD; stored_item (str "a.nfo", bstr "hi")].
Lemma ex_sums : exists i, srr_ok srr_sums /\ info lower (fun t => t) (ser_srr srr_sums) = Ok i /\
  i_stored i = [(str "CD1/a.sfv", 39); (str "a.nfo", 2)] /\ i_recovery i = Some (str "Protect!", 1548) /\ i_oso i = [(str "a.txt", 7, 5)].
Proof. eexists. split; [unfold srr_sums; srrok|]. split; [vm_compute; reflexivity|]. repeat split. Qed.
Lemma ex_sfv : exists i, srr_ok srr_sums /\ info lower (fun t => t) (ser_srr srr_sums) = Ok i /\
  map (fun kr => (fst kr, ri_crc (snd kr))) (i_rars i) = [(str "a.rar", Some (str "12345678")); (str "a.r00", None)] /\
  i_sfv i = [mkSfv (str "CD2/b.zip") (str "00000001")] /\ i_comments i = [str "; text"].
Proof. eexists. split; [unfold srr_sums; srrok|]. split; [vm_compute; reflexivity|]. repeat split. Qed.
