(** SearchFacts: proofs about the search of RAR executables. *)
From Coq Require Import Sorted Permutation.
From Verif Require Import VolName VolSpec VolFacts.
From Verif Require Import Base BaseFacts Path Rar Srr SrrFacts Flags FlagsSpec FlagsFacts Rarexe RarexeSpec RarexeFacts DirsSpec NzbSplitFacts Search SearchSpec.

(** ** Numbers *)
Lemma show_loop_ok fuel : forall n acc, n < 10 ^ N.of_nat fuel -> fuel <> O ->
  exists k, show_loop fuel n acc = dec k n ++ acc /\ n < 10 ^ N.of_nat k /\ (0 < n -> 10 ^ (N.of_nat k - 1) <= n) /\ (n = 0 -> k = 1%nat).
Proof.
  induction fuel as [|fuel IH]; intros n acc H H0; [congruence|]. cbn [show_loop]. destruct (N.ltb_spec n 10) as [L|L].
  - exists 1%nat. split; [cbn [dec app]; rewrite N.mod_small by lia; reflexivity|]. change (N.of_nat 1) with 1. change (1 - 1) with 0. rewrite N.pow_0_r, N.pow_1_r. lia.
  - assert (Hf : fuel <> O) by (intros ->; change (10 ^ N.of_nat 1) with 10 in H; lia).
    assert (Hd : n / 10 < 10 ^ N.of_nat fuel).
    { apply N.div_lt_upper_bound; [lia|]. rewrite <- N.pow_succ_r'. now replace (N.succ (N.of_nat fuel)) with (N.of_nat (S fuel)) by lia. }
    destruct (IH (n / 10) ((48 + n mod 10) :: acc) Hd Hf) as (k & E & H1 & H2 & _). exists (S k). rewrite E. cbn [dec]. rewrite <- app_assoc. split; [reflexivity|].
    assert (Hp : 10 ^ N.of_nat (S k) = 10 * 10 ^ N.of_nat k) by (rewrite <- N.pow_succ_r'; f_equal; lia).
    pose proof (N.div_mod n 10 ltac:(lia)) as Hn. pose proof (N.mod_lt n 10 ltac:(lia)) as Hm.
    assert (0 < n / 10) by (apply N.div_str_pos; lia). specialize (H2 H3). split; [rewrite Hp; lia|]. split; [|lia]. intros _.
    assert (Hk : k <> O) by (intros ->; change (10 ^ N.of_nat 0) with 1 in H1; lia).
    replace (N.of_nat (S k) - 1) with (N.succ (N.of_nat k - 1)) by lia. rewrite N.pow_succ_r'. lia.
Qed.
Lemma size_bound n : n < 10 ^ N.of_nat (S (N.size_nat n)).
Proof.
  assert (H : n < 2 ^ N.of_nat (N.size_nat n)).
  { destruct n as [|p]; [reflexivity|]. pose proof (N.size_gt (N.pos p)) as H. replace (N.of_nat (N.size_nat (N.pos p))) with (N.size (N.pos p)); [exact H|].
    cbn [N.size N.size_nat]. clear. induction p as [p IH|p IH|]; cbn [Pos.size Pos.size_nat]; [|exact eq_refl || idtac|reflexivity]; rewrite Nat2N.inj_succ, <- IH; reflexivity. }
  eapply N.lt_le_trans; [exact H|]. transitivity (10 ^ N.of_nat (N.size_nat n)); [apply N.pow_le_mono_l; lia|]. apply N.pow_le_mono_r; lia.
Qed.
Lemma show_ok n : number n (show n).
Proof.
  unfold show. destruct (show_loop_ok (S (N.size_nat n)) n [] (size_bound n) ltac:(discriminate)) as (k & E & H1 & H2 & H3). rewrite E, app_nil_r.
  destruct (N.eq_dec n 0) as [->|Hn]; [left; rewrite (H3 eq_refl); split; reflexivity|]. right. exists k. split; [reflexivity|]. split; [exact H1|apply H2; lia].
Qed.
Lemma decimal_pos n t : decimal n t -> 0 < n.
Proof. intros (k & _ & _ & H). pose proof (N.pow_nonzero 10 (N.of_nat k - 1) ltac:(lia)). lia. Qed.
Lemma number_det n t t' : number n t -> number n t' -> t = t'.
Proof.
  intros [(-> & ->)|H] [(E & ->)|H']; [reflexivity|apply decimal_pos in H'; lia|subst n; apply decimal_pos in H; lia|].
  destruct H as (k & -> & A & B), H' as (k' & -> & A' & B'). f_equal. assert (X : forall a b, n < 10 ^ N.of_nat a -> 10 ^ (N.of_nat b - 1) <= n -> (b <= a)%nat).
  { intros a b Ha Hb. destruct (Nat.le_gt_cases b a) as [L|L]; [exact L|]. exfalso.
    assert (10 ^ N.of_nat a <= 10 ^ (N.of_nat b - 1)) by (apply N.pow_le_mono_r; lia). lia. }
  apply Nat.le_antisymm; now apply X.
Qed.
Lemma command_det folder j x c c' : command folder j x c -> command folder j x c' -> c = c'.
Proof.
  intros (l & m & v & H1 & H2 & H3 & ->) (l' & m' & v' & H1' & H2' & H3' & ->). rewrite (number_det _ _ _ H1 H1').
  assert (m = m') as ->.
  { unfold opt in *. destruct (t_threads x); [|congruence]. destruct H2 as (t & -> & u & U & ->), H2' as (t' & -> & u' & U' & ->). now rewrite (number_det _ _ _ U U'). }
  assert (v = v') as ->; [|reflexivity].
  unfold opt in *. destruct (j_split j); [|congruence]. destruct H3 as (t & -> & u & U & ->), H3' as (t' & -> & u' & U' & ->). now rewrite (number_det _ _ _ U U').
Qed.

(** ** The command *)
Lemma sub_ok a b : contains a b = true <-> inside a b.
Proof. exact (NzbSplitFacts.contains_spec a b). Qed.
Lemma mark_is folder e c : marked folder e -> contains (str "_rar" ++ [c]) (pjoin folder (x_file e)) = (48 + x_major e =? c).
Proof.
  intros (p & r & E & H). apply Bool.eq_iff_eq_true. rewrite sub_ok, N.eqb_eq. split.
  - intros (x & y & X). rewrite <- app_assoc in X. cbn [app] in X. symmetry. exact (H x c y X).
  - intros <-. exists p, r. rewrite E, <- app_assoc. reflexivity.
Qed.
Lemma flags_ok folder e a : marked folder e -> set_flags (pjoin folder (x_file e)) a =
  mkArgs (a_level a) (a_dict a) (a_solid a) (a_threads a) (if x_major e =? 2 then [] else str "-vn")
    (if (x_major e =? 5) || (x_major e =? 6) then str "-ma4" else []) (a_split a) (a_out a) (a_before a) (a_store a) (a_after a).
Proof.
  intros H. unfold set_flags. change (str "_rar2") with (str "_rar" ++ [50]). change (str "_rar5") with (str "_rar" ++ [53]). change (str "_rar6") with (str "_rar" ++ [54]).
  rewrite !(mark_is folder e _ H).
  assert (X : forall k, (48 + x_major e =? 48 + k) = (x_major e =? k)) by (intros k; lia).
  rewrite (X 2 : (48 + x_major e =? 50) = _), (X 5 : (48 + x_major e =? 53) = _), (X 6 : (48 + x_major e =? 54) = _). reflexivity.
Qed.
Definition shape (j : job) (bf st af : list text) (a : rargs) : Prop :=
  a_level a = str "-m" ++ show (j_level j) /\ a_dict a = j_dict j /\ a_solid a = (if j_solid j then str "-s" else str "-s-") /\ a_split a = j_split j /\
  a_out a = j_out j /\ a_before a = bf /\ a_store a = st /\ a_after a = af.
Lemma keep_ne (x : text) l : x <> [] -> filter (fun x => negb (teqb x [])) (x :: l) = x :: filter (fun x => negb (teqb x [])) l.
Proof. intros H. apply teqb_neq in H. cbn [filter]. now rewrite H. Qed.
Lemma drop_e l : filter (fun x : text => negb (teqb x [])) ([] :: l) = filter (fun x => negb (teqb x [])) l.
Proof. reflexivity. Qed.
Ltac keep := rewrite keep_ne by (discriminate || assumption).
Section Search.
Variables (folder : text) (supports : exe -> bool) (works : list text -> bool) (s : mt) (j : job).
Hypotheses (Hd : j_dict j <> []) (Ho : j_out j <> []).
Lemma cmd_ok bf st af a e : shape j bf st af a -> marked folder e ->
  command folder j (mkAtt e (a_threads a) (bf ++ st ++ af)) (exe_path folder e :: arglist (set_flags (exe_path folder e) a)).
Proof.
  intros (H1 & H2 & H3 & H4 & H5 & H6 & H7 & H8) M. unfold exe_path. rewrite (flags_ok folder e a M). unfold command. cbn [t_threads t_exe t_files].
  exists (show (j_level j)), (match a_threads a with None => [] | Some c => [str "-mt" ++ show (Z.to_N c)] end), (match j_split j with None => [] | Some n => [str "-v" ++ show n ++ str "b"] end).
  split; [apply show_ok|]. split; [unfold opt; destruct (a_threads a) as [c|]; [|reflexivity]; eexists; split; [reflexivity|]; exists (show (Z.to_N c)); split; [apply show_ok|reflexivity]|].
  split; [unfold opt; destruct (j_split j) as [n|]; [|reflexivity]; eexists; split; [reflexivity|]; exists (show n); split; [apply show_ok|reflexivity]|].
  unfold arglist. cbn [a_level a_dict a_solid a_threads a_old a_rar4 a_split a_out a_before a_store a_after]. rewrite H1, H2, H3, H4, H5, H6, H7, H8.
  do 3 keep. assert (E : forall l, filter (fun x => negb (teqb x [])) ((if j_solid j then str "-s" else str "-s-") :: l) = (if j_solid j then str "-s" else str "-s-") :: filter (fun x => negb (teqb x [])) l) by (intros l; destruct (j_solid j); reflexivity).
  rewrite E. keep. clear E.
  assert (T : forall l, filter (fun x => negb (teqb x [])) ((match a_threads a with None => [] | Some c => str "-mt" ++ show (Z.to_N c) end) :: l) =
    (match a_threads a with None => [] | Some c => [str "-mt" ++ show (Z.to_N c)] end) ++ filter (fun x => negb (teqb x [])) l) by (intros l; destruct (a_threads a); reflexivity).
  rewrite T. clear T.
  assert (T : forall (b : bool) t l, t <> [] -> filter (fun x => negb (teqb x [])) ((if b then [] else t) :: l) = (if b then [] else [t]) ++ filter (fun x => negb (teqb x [])) l)
    by (intros b t l Ht; destruct b; [reflexivity|now apply keep_ne]).
  rewrite T by discriminate.
  assert (T2 : forall (b : bool) t l, t <> [] -> filter (fun x => negb (teqb x [])) ((if b then t else []) :: l) = (if b then [t] else []) ++ filter (fun x => negb (teqb x [])) l)
    by (intros b t l Ht; destruct b; [now apply keep_ne|reflexivity]).
  rewrite T2 by discriminate. do 3 keep. clear T T2.
  assert (T : forall l, filter (fun x => negb (teqb x [])) ((match j_split j with None => [] | Some c => str "-v" ++ show c ++ str "b" end) :: l) =
    (match j_split j with None => [] | Some c => [str "-v" ++ show c ++ str "b"] end) ++ filter (fun x => negb (teqb x [])) l) by (intros l; destruct (j_split j); reflexivity).
  rewrite T. keep. cbn [filter]. cbn [app]. repeat (rewrite <- app_assoc; cbn [app]). reflexivity.
Qed.
Definition ok (x : attempt) : Prop := exists c, command folder j x c /\ works c = true.
Lemma ok_is x c : command folder j x c -> (ok x <-> works c = true).
Proof. intros H. split; [intros (c' & H' & W); now rewrite (command_det _ _ _ _ _ H H')|intros W; now exists c]. Qed.
Lemma shape_flags bf st af a p : shape j bf st af a -> shape j bf st af (set_flags p a).
Proof. intros H. exact H. Qed.
Lemma shape_threads bf st af a t : shape j bf st af a -> shape j bf st af (set_threads t a).
Proof. intros H. exact H. Qed.
Lemma shape_extra bf st af a bf' af' : shape j bf st af a -> shape j bf' st af' (set_extra bf' af' a).
Proof. intros (H1 & H2 & H3 & H4 & H5 & H6 & H7 & H8). repeat split; assumption. Qed.
(** what trying a list of attempts gives *)
Definition tried (bf st af : list text) (l : list attempt) (r : rargs * bool) : Prop :=
  shape j bf st af (fst r) /\
  (snd r = false /\ Forall (fun x => ~ ok x) l \/
   snd r = true /\ exists a x b, l = a ++ x :: b /\ Forall (fun x => ~ ok x) a /\ ok x /\ command folder j x (exe_path folder (t_exe x) :: arglist (fst r))).
Lemma try_one bf st af a e : shape j bf st af a -> marked folder e ->
  tried bf st af [mkAtt e (a_threads a) (bf ++ st ++ af)] (try_exe folder works e a).
Proof.
  intros H M. pose proof (cmd_ok bf st af a e H M) as C. unfold try_exe. split; [now apply shape_flags|]. cbn [fst snd].
  pose proof (ok_is _ _ C) as W. destruct (works _) eqn:E.
  - right. split; [reflexivity|]. exists [], (mkAtt e (a_threads a) (bf ++ st ++ af)), []. split; [reflexivity|]. split; [constructor|]. split; [now apply W|exact C].
  - left. split; [reflexivity|]. constructor; [|constructor]. intros X. apply W in X. discriminate X.
Qed.
Lemma try_counts fuel e : marked folder e -> forall bf st af a l, shape j bf st af a -> tries fuel s e (a_threads a) = Some l ->
  exists r, try_threads folder works s fuel e a = Some r /\ tried bf st af (map (fun n => mkAtt e (Some n) (bf ++ st ++ af)) l) r.
Proof.
  intros M. induction fuel as [|fuel IH]; intros bf st af a l H T; [discriminate T|]. cbn [tries] in T. cbn [try_threads].
  destruct (increase s e (a_threads a)) as [c|].
  - destruct (tries fuel s e (Some c)) as [l'|] eqn:E; [|discriminate T]. apply some_inj in T. subst l. cbn [map].
    pose proof (try_one bf st af (set_threads (Some c) a) e (shape_threads _ _ _ _ _ H) M) as (H1 & H2). cbn [set_threads a_threads] in H1, H2.
    assert (Ht : a_threads (fst (try_exe folder works e (set_threads (Some c) a))) = Some c) by reflexivity.
    destruct (try_exe folder works e (set_threads (Some c) a)) as [a' f] eqn:Et. cbn [fst snd] in *. destruct H2 as [(-> & H2)|(-> & x & y & z & H2 & H3 & H4 & H5)].
    + destruct (IH bf st af a' l' H1) as (r & R1 & R2 & R3); [now rewrite Ht|]. exists r. split; [exact R1|]. split; [exact R2|]. apply Forall_inv in H2.
      destruct R3 as [(R3 & R4)|(R3 & p & q & t & -> & R5 & R6)]; [left; split; [exact R3|now constructor]|]. right. split; [exact R3|].
      exists (mkAtt e (Some c) (bf ++ st ++ af) :: p), q, t. split; [reflexivity|]. split; [now constructor|exact R6].
    + exists (a', true). split; [reflexivity|]. split; [exact H1|]. right. split; [reflexivity|]. destruct x as [|? [|]]; [|discriminate H2|discriminate H2]. cbn [app] in H2. injection H2 as H2 _.
      exists [], y, (map (fun n => mkAtt e (Some n) (bf ++ st ++ af)) l'). rewrite <- H2. split; [reflexivity|]. rewrite H2. auto.
  - apply some_inj in T. subst l. exists (a, false). split; [reflexivity|]. split; [exact H|]. left. split; [reflexivity|constructor].
Qed.
Hypotheses (Hs : settings_ok s) (Hm : mt_set s = [] \/ StronglySorted Z.lt (mt_set s)).
Lemma try_each e : marked folder e -> x_minor e < 100 -> exists l, thread_list supports s e l /\ forall bf st af a, shape j bf st af a -> a_threads a = None ->
  exists r, try_all folder supports works s e a = Ok r /\ tried bf st af (map (fun t => mkAtt e t (bf ++ st ++ af)) l) r.
Proof.
  intros M Mi. unfold thread_list, try_all. destruct (supports e) eqn:Su.
  - destruct (tries_total s e Mi) as (l & T). exists (map Some l). split.
    + exists l. split; [reflexivity|]. split; [exact (proj1 (tries_sorted _ _ _ _ _ T))|]. exact (threads_all s e l Mi Hs Hm T).
    + intros bf st af a H E. rewrite <- E in T. destruct (try_counts 34 e M bf st af a l H T) as (r & -> & R). exists r. split; [reflexivity|]. now rewrite map_map.
  - exists [None]. split; [reflexivity|]. intros bf st af a H E. eexists. split; [reflexivity|]. cbn [map]. rewrite <- E. now apply try_one.
Qed.
Definition result_of (st : list text) (ats : list attempt) (res : result (option (exe * rargs))) : Prop :=
  exists r, first_working ok ats r /\ match r with None => res = Ok None | Some x => exists a, res = Ok (Some (t_exe x, a)) /\ command folder j x (exe_path folder (t_exe x) :: arglist a) end.
Lemma more_before l ats st res : Forall (fun x => ~ ok x) l -> result_of st ats res -> result_of st (l ++ ats) res.
Proof.
  intros F (r & H & E). exists r. split; [|exact E]. destruct r as [x|]; cbn [first_working] in *; [|apply Forall_app; auto].
  destruct H as (a & b & -> & H1 & H2). exists (l ++ a), b. rewrite <- app_assoc. split; [reflexivity|]. split; [apply Forall_app; auto|exact H2].
Qed.
Lemma found_here a x b ats st g : Forall (fun x => ~ ok x) a -> ok x -> command folder j x (exe_path folder (t_exe x) :: arglist g) ->
  result_of st ((a ++ x :: b) ++ ats) (Ok (Some (t_exe x, g))).
Proof.
  intros F O C. exists (Some x). split; [|now exists g]. exists a, (b ++ ats). rewrite <- app_assoc. auto.
Qed.
Lemma in_map_exe l (e : exe) (fs : list text) a x b : map (fun t => mkAtt e t fs) l = a ++ x :: b -> t_exe x = e.
Proof. intros H. assert (I : In x (map (fun t => mkAtt e t fs) l)) by (rewrite H; apply in_or_app; right; now left). apply in_map_iff in I. destruct I as (t & <- & _). reflexivity. Qed.
Lemma find_before (archived : list (text * text)) (p : text) a (src : text) b : archived = a ++ (p, src) :: b -> Forall (fun x => fst x <> p) a -> find (fun x => teqb (fst x) p) archived = Some (p, src).
Proof.
  intros -> F. induction F as [|[k v] a H F IH]; cbn [app find fst] in *; [now rewrite teqb_refl|]. apply teqb_neq in H. now rewrite H.
Qed.
Lemma loop_ok rarexe archived prev f st exes : file_before archived prev f -> Forall (fun e => marked folder e /\ x_minor e < 100) exes ->
  exists ats, attempts supports s st f exes ats /\ forall a, shape j [] st [] a -> a_threads a = None ->
  result_of st ats (search_loop folder supports works s (Some rarexe) archived prev exes a).
Proof.
  intros Hf He. induction He as [|e es (M & Mi) He (rest & At & IH)].
  - exists []. split; [constructor|]. intros a H Ht. exists None. split; [constructor|reflexivity].
  - destruct (try_each e M Mi) as (l & L & T).
    exists (map (fun t => mkAtt e t st) l ++ match f with None => [] | Some f => map (fun t => mkAtt e t (f :: st)) l end ++ rest).
    split; [now constructor|]. intros a H Ht. cbn [search_loop]. destruct (T [] st [] a H Ht) as ([a1 f1] & -> & S1 & R1). cbn [bind fst snd] in *. cbn [app] in R1. rewrite app_nil_r in R1.
    assert (Next : forall a', shape j [] st [] a' \/ (exists x, shape j [x] st [] a') ->
      result_of st rest (search_loop folder supports works s (Some rarexe) archived prev es (set_threads None (set_extra [] [] a')))).
    { intros a' Ha'. apply IH; [|reflexivity]. apply shape_threads. destruct Ha' as [Ha'|(x & Ha')]; eapply shape_extra; exact Ha'. }
    destruct R1 as [(-> & F1)|(-> & x & y & z & E & F1 & O1 & C1)].
    + apply more_before; [exact F1|]. destruct archived as [|[k v] archived'] eqn:Ea.
      * assert (f = None) as -> by (unfold file_before in Hf; destruct prev as [p|]; [|exact Hf]; destruct Hf as [(_ & X)|(x & y & z & X & _)]; [exact X|destruct x; discriminate X]).
        cbn [app]. apply Next. left. now apply shape_threads.
      * destruct prev as [p|].
        -- destruct Hf as [(X & _)|(x & src & z & Ex & Fx & ->)]; [discriminate X|]. rewrite (find_before _ _ _ _ _ Ex Fx).
           destruct (T [src] st [] (set_extra [src] (a_after (set_threads None a1)) (set_threads None a1))) as ([a2 f2] & -> & S2 & R2).
           { assert (Haf : a_after (set_threads None a1) = []) by apply S1. rewrite Haf. eapply shape_extra. apply shape_threads. exact S1. }
           { reflexivity. }
           cbn [bind fst snd] in *. cbn [app] in R2. rewrite app_nil_r in R2. destruct R2 as [(-> & F2)|(-> & x2 & y2 & z2 & E2 & F2 & O2 & C2)].
           ++ apply more_before; [exact F2|]. apply Next. right. exists src. exact S2.
           ++ rewrite E2. assert (Hy : t_exe y2 = e) by (eapply in_map_exe; exact E2). rewrite <- Hy. now apply found_here.
        -- unfold file_before in Hf. rewrite Hf. cbn [app]. apply Next. left. now apply shape_threads.
    + rewrite E. assert (Hy : t_exe y = e) by (eapply in_map_exe; exact E). rewrite <- Hy. now apply found_here.
Qed.
End Search.

(** ** The whole search *)
Lemma method_num m : 0x30 <= m <= 0x35 -> compression_parameter m = Ok (str "-m" ++ show (m - 0x30)).
Proof.
  intros H. assert (X : m = 0x30 \/ m = 0x31 \/ m = 0x32 \/ m = 0x33 \/ m = 0x34 \/ m = 0x35) by lia.
  destruct X as [-> |[-> |[-> |[-> |[-> | ->]]]]]; vm_compute; reflexivity.
Qed.
Lemma dict_num flags : dict_parameter flags = str "-md" ++ [65 + N.min 6 (dict_field flags)].
Proof.
  destruct (N.eq_dec (dict_field flags) 7) as [E|E].
  - rewrite (proj1 (proj2 (dict_dir flags E))), E. reflexivity.
  - rewrite (proj1 (dict_thm flags E)). pose proof (field_cases flags) as F. replace (N.min 6 (dict_field flags)) with (dict_field flags); [reflexivity|]. cbn [In] in F. lia.
Qed.
Lemma solid_bit flags : (N.land flags SOLID =? 0) = negb (N.testbit flags 4).
Proof.
  change SOLID with (2 ^ 4). destruct (N.testbit flags 4) eqn:E; cbn [negb].
  - apply N.eqb_neq. intros H. apply (f_equal (fun x => N.testbit x 4)) in H. rewrite N.land_spec, E, N.pow2_bits_true, N.bits_0 in H. discriminate H.
  - apply N.eqb_eq. apply N.bits_inj. intros k. rewrite N.land_spec, N.bits_0, N.pow2_bits_eqb. destruct (N.eqb_spec 4 k) as [<-|_]; [now rewrite E|apply andb_false_r].
Qed.
Theorem search_thm folder supports works s j repository exes method flags split out src piece archived prev f :
  settings_ok s -> (mt_set s = [] \/ StronglySorted Z.lt (mt_set s)) -> Forall (fun e => marked folder e /\ x_minor e < 100) exes -> repository <> [] ->
  job_of method flags split out j -> out <> [] -> file_before archived prev f ->
  exists ats r, attempts supports s [piece] f exes ats /\ first_working (fun x => exists c, command folder j x c /\ works c = true) ats r /\
    match r with
    | None => search folder supports works s repository exes false method flags out src piece split [] archived prev = Ok None
    | Some x => exists a, search folder supports works s repository exes false method flags out src piece split [] archived prev = Ok (Some (t_exe x, a)) /\
        command folder j x (exe_path folder (t_exe x) :: arglist a)
    end.
Proof.
  intros Hs Hm He Hr (J1 & J2 & J3 & J4 & J5 & J6) Ho Hf. unfold search, init_args. rewrite (method_num method J1). cbn [bind].
  assert (Hd : j_dict j <> []) by (rewrite J3; discriminate). rewrite <- J6 in Ho.
  destruct (rev repository) as [|e rs] eqn:Er; [apply (f_equal (@rev _)) in Er; rewrite rev_involutive in Er; contradiction|]. cbn [bind].
  destruct (loop_ok folder supports works s j Hd Ho Hs Hm e archived prev f [piece] exes Hf He) as (ats & A & L).
  match goal with |- context [search_loop _ _ _ _ _ _ _ _ ?a] => destruct (L a) as (r & R1 & R2) end.
  - unfold shape. cbn. rewrite J2, J3, J6, solid_bit, dict_num. repeat split; try reflexivity.
    + destruct (N.testbit flags 4) eqn:E; cbn [negb]; [rewrite (proj2 J4 eq_refl); reflexivity|]. destruct (j_solid j); [now apply J4 in E|reflexivity] || (destruct (j_solid j); [assert (false = true) by (apply J4; reflexivity); discriminate|reflexivity]).
    + destruct J5 as [(-> & ->)|(H & ->)]; [reflexivity|]. destruct (N.eqb_spec split 0); [lia|reflexivity].
  - reflexivity.
  - exists ats, r. auto.
Qed.
(** a block without CRC *)
Theorem old_thm folder supports works s repository e exes method flags split out src piece more archived prev : 0x30 <= method <= 0x35 ->
  search folder supports works s repository (e :: exes) true method flags out src piece split more archived prev = Err UnboundLocal.
Proof. intros H. unfold search, init_args. rewrite (method_num method H). reflexivity. Qed.
