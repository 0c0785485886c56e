(** EntryFacts: proofs about the command srr. *)
From Verif Require Import Base BaseFacts Path PathSpec PathFacts Sfv Dirs DirsSpec DirsFacts Srr SrrFacts Entry EntrySpec.
From Verif Require PartFacts FsFacts.

Lemma chosen_is s a : chosen s a <-> choose s = a.
Proof.
  assert (F : forall (b c : list (bool * action)), Forall (fun x => fst x = false) b -> find fst (b ++ (true, a) :: c) = Some (true, a)).
  { intros b c. induction b as [|[x y] b IH]; intros F; [reflexivity|]. apply Forall_cons_iff in F. destruct F as [F0 F]. cbn [fst] in F0. subst x. cbn [app find fst]. exact (IH F). }
  unfold choose, chosen, by_rank. destruct s as [i d v x r t]. cbn [s_info s_details s_verify s_extract s_regex s_store]. split.
  - intros (b & c & E & G). apply (F b c) in G. rewrite <- E in G. destruct i, d, v, x, r, t; cbn [find fst] in G; now injection G.
  - intros <-.
    destruct i; [exists []; eexists; split; [reflexivity|constructor]|].
    destruct d; [eexists [_]; eexists; split; [reflexivity|repeat constructor]|].
    destruct v; [eexists [_; _]; eexists; split; [reflexivity|repeat constructor]|].
    destruct x; [eexists [_; _; _]; eexists; split; [reflexivity|repeat constructor]|].
    destruct r; [eexists [_; _; _; _]; eexists; split; [reflexivity|repeat constructor]|].
    destruct t; [eexists [_; _; _; _; _]; eexists; split; [reflexivity|repeat constructor]|].
    eexists [_; _; _; _; _; _]; eexists; split; [reflexivity|repeat constructor].
Qed.
Theorem choose_thm s : exists a, chosen s a /\ choose s = a /\ forall b, chosen s b -> b = a.
Proof. exists (choose s). split; [now apply chosen_is|]. split; [reflexivity|]. intros b H. symmetry. now apply chosen_is. Qed.
Lemma fold_one l : fold_left (fun st (x : text * bool) => if snd x then st else 1) l 1 = 1.
Proof. induction l as [|[p []] l IH]; [reflexivity|exact IH|exact IH]. Qed.
Lemma extracted_is l : extracted l = 0 <-> forall p b, In (p, b) l -> b = true.
Proof.
  unfold extracted. induction l as [|[p b] l IH]; cbn [fold_left snd]; [split; [contradiction|reflexivity]|]. destruct b.
  - rewrite IH. split; intros H q c I; [destruct I as [I|I]; [now injection I as _ <-|exact (H q c I)]|apply (H q c); now right].
  - rewrite fold_one. split; [discriminate|]. intros H. specialize (H p false (or_introl eq_refl)). discriminate H.
Qed.
Lemma after_is {A} (e : ended A) f n : after e f = Ret n <-> exists a, e = Ret a /\ f a = n.
Proof.
  destruct e; cbn [after]; split; try (intros (a' & E & _); discriminate E); try discriminate.
  - intros H. injection H as <-. now exists a.
  - intros (a' & E & <-). now injection E as ->.
Qed.
Lemma manage_is s g : manage s g = Ret 0 <-> exists a, chosen s a /\ succeeds g a.
Proof.
  transitivity (succeeds g (choose s)).
  - unfold manage. destruct (choose s); cbn [succeeds].
    + rewrite after_is. split; [intros ([] & E & _); exact E|intros E; now exists tt].
    + rewrite after_is. split; [intros ([] & E & _); exact E|intros E; now exists tt].
    + rewrite after_is. split; [intros (n & E & ->); exact E|intros E; now exists 0].
    + rewrite after_is. split; intros (l & E & H); exists l; (split; [exact E|now apply extracted_is]).
    + destruct (g_re g); [|split; [discriminate|intros (X & _); discriminate X]]. rewrite after_is. split.
      * intros (l & E & H). split; [reflexivity|]. exists l. split; [exact E|now apply extracted_is].
      * intros (_ & l & E & H). exists l. split; [exact E|now apply extracted_is].
    + rewrite after_is. split; [intros (b & E & _); now exists b|intros (b & E); now exists b].
    + destruct (g_hints g); [|split; [discriminate|intros (X & _); discriminate X]]. destruct (g_rebuild g) as [[]| | | |]; cbn [after]; split; intros H; try discriminate H; try (destruct H as [_ H]; discriminate H); now split.
  - split; [intros H; exists (choose s); split; [now apply chosen_is|exact H]|]. intros (a & C & H). apply chosen_is in C. now subst a.
Qed.
Lemma known_is n : known_type n = true <-> named ".srr" n \/ named ".sfv" n \/ named ".rar" n.
Proof.
  unfold known_type. cbv zeta. replace (lower (last4 n)) with (last4 (lower n)) by (unfold last4, lower; rewrite !dropN_skipn, !lenN_length, map_length; now rewrite skipn_map).
  change (teqb (last4 (lower n)) (str ".srr")) with (ends4 (str ".srr") n). change (teqb (last4 (lower n)) (str ".sfv")) with (ends4 (str ".sfv") n). change (teqb (last4 (lower n)) (str ".rar")) with (ends4 (str ".rar") n).
  rewrite <- !ends4_spec by reflexivity. destruct (ends4 (str ".srr") n), (ends4 (str ".sfv") n), (ends4 (str ".rar") n); cbn; intuition congruence.
Qed.
Theorem start_thm ex infiles : (start_of ex false false infiles = Stop 1 <-> ~ good_input ex infiles) /\
  (start_of ex false false infiles = Manage <-> good_input ex infiles /\ exists n l, infiles = (n ++ str ".srr") :: l) /\
  (start_of ex false false infiles = Create <-> good_input ex infiles /\ ~ exists n l, infiles = (n ++ str ".srr") :: l).
Proof.
  assert (G : existsb (fun f => negb (ex f) || negb (known_type f)) infiles = false <-> forall f, In f infiles -> ex f = true /\ (named ".srr" f \/ named ".sfv" f \/ named ".rar" f)).
  { rewrite <- Bool.not_true_iff_false, existsb_exists. split.
    - intros H f I. rewrite <- known_is. destruct (ex f) eqn:E, (known_type f) eqn:K; try (now split); exfalso; apply H; exists f; (split; [exact I|]); rewrite E, K; reflexivity.
    - intros H (f & I & X). destruct (H f I) as [E K]. apply known_is in K. rewrite E, K in X. discriminate X. }
  unfold start_of, good_input. destruct (existsb _ infiles) eqn:X.
  - assert (Nf : ~ forall f, In f infiles -> ex f = true /\ (named ".srr" f \/ named ".sfv" f \/ named ".rar" f)) by (rewrite <- G; congruence).
    intuition congruence.
  - assert (Y : forall f, In f infiles -> ex f = true /\ (named ".srr" f \/ named ".sfv" f \/ named ".rar" f)) by now apply G.
    destruct infiles as [|f l]; [split; [|split]; split; intros H; try discriminate H; try (destruct H as [[H _] _]; contradiction); intuition congruence|].
    assert (S : ends_with f (str ".srr") = true <-> exists n m, f :: l = (n ++ str ".srr") :: m).
    { rewrite PartFacts.ends_with_spec. split; [intros (q & ->); now exists q, l|intros (n & m & E); injection E as -> _; now exists n]. }
    assert (Q : f :: l <> []) by discriminate. destruct (ends_with f (str ".srr")).
    + assert (T : exists n m, f :: l = (n ++ str ".srr") :: m) by now apply S. split; [|split]; split; intros H; try discriminate H; intuition congruence.
    + assert (T : ~ exists n m, f :: l = (n ++ str ".srr") :: m) by (intros T; apply S in T; discriminate T). split; [|split]; split; intros H; try discriminate H; intuition congruence.
Qed.
Theorem status_thm ex s g created infiles : exit_status (start_of ex false false infiles) (manage s g) created = 0 <->
  good_input ex infiles /\ (((exists n l, infiles = (n ++ str ".srr") :: l) /\ exists a, chosen s a /\ succeeds g a) \/
    (~ (exists n l, infiles = (n ++ str ".srr") :: l) /\ created = Ret 0)).
Proof.
  destruct (start_thm ex infiles) as (A & B & C). rewrite <- manage_is. destruct (start_of ex false false infiles) as [n| |] eqn:E.
  - assert (n = 1) as -> .
    { unfold start_of in E. destruct (existsb _ _) in E; [now injection E|]. destruct infiles as [|f l]; [now injection E|]. destruct (ends_with f _); discriminate E. }
    cbn [exit_status]. assert (~ good_input ex infiles) by now apply A. split; [discriminate|intros [K _]; contradiction].
  - assert (H : good_input ex infiles /\ exists n l, infiles = (n ++ str ".srr") :: l) by now apply B. destruct H as [Hg Hi]. cbn [exit_status].
    assert (Q : match manage s g with Ret n => n | Interrupted => 130 | _ => 99 end = 0 <-> manage s g = Ret 0) by (destruct (manage s g); split; congruence).
    rewrite Q. tauto.
  - assert (H : good_input ex infiles /\ ~ exists n l, infiles = (n ++ str ".srr") :: l) by now apply C. destruct H as [Hg Hi]. cbn [exit_status].
    assert (Q : match created with Ret n => n | Interrupted => 130 | _ => 99 end = 0 <-> created = Ret 0) by (destruct created; split; congruence).
    rewrite Q. tauto.
Qed.
(** the name shown *)
Theorem shown_thm out (cs : list text) name : normpath out = out -> out <> [] -> (forall d, out <> d ++ [47]) -> PathSpec.below cs name -> shown_name out name = name.
Proof.
  intros Hn Ne S B. unfold shown_name. rewrite Hn, (pjoin_folder _ _ _ B). unfold in_folder. destruct (rev out) as [|c r] eqn:E.
  - apply (f_equal (@rev _)) in E. rewrite rev_involutive in E. contradiction.
  - destruct (c =? 47) eqn:C.
    + apply N.eqb_eq in C. subst c. apply (f_equal (@rev _)) in E. rewrite rev_involutive in E. cbn [rev] in E. exfalso. exact (S _ E).
    + change (out ++ 47 :: name) with (out ++ [47] ++ name). rewrite app_assoc. apply dropN_app_exact. rewrite lenN_app. reflexivity.
Qed.
(** the name of the SRR file *)
Theorem name_thm wd output infolder parent infile b e d p : basename infile = b ++ e -> lenN e = 4 -> plain (b ++ str ".srr") -> infolder = d ++ 47 :: p -> plain p -> plain (p ++ str ".srr") ->
  (named ".srr" output -> srr_name wd output infolder parent infile = output) /\
  (output = [] -> srr_name wd output infolder parent infile = in_folder wd ((if parent then p else b) ++ str ".srr")) /\
  (output <> [] -> ~ named ".srr" output -> srr_name wd output infolder parent infile = in_folder output ((if parent then p else b) ++ str ".srr")).
Proof.
  intros Hb He Pb Hi Pp Ps. unfold srr_name. cbv zeta.
  replace (lower (last4 output)) with (last4 (lower output)) by (unfold last4, lower; rewrite !dropN_skipn, !lenN_length, map_length; now rewrite skipn_map).
  change (teqb (last4 (lower output)) (str ".srr")) with (ends4 (str ".srr") output).
  assert (T : takeN (lenN (basename infile) - 4) (basename infile) = b).
  { rewrite Hb, lenN_app, He. replace (lenN b + 4 - 4) with (lenN b) by lia. now apply takeN_app_exact. }
  rewrite T. assert (B : basename infolder = p) by (rewrite Hi; apply basename_sep; apply Pp). rewrite B.
  assert (J : forall o, (if parent then pjoin o (p ++ str ".srr") else pjoin o (b ++ str ".srr")) = in_folder o ((if parent then p else b) ++ str ".srr")).
  { intros o. destruct parent; [apply (pjoin_folder o [p ++ str ".srr"])|apply (pjoin_folder o [b ++ str ".srr"])]; now apply FsFacts.plain_below. }
  rewrite <- (ends4_spec ".srr" output eq_refl). split; [|split].
  - intros H. rewrite H. destruct output; [vm_compute in H; discriminate H|]. replace (lenN (n :: output) =? 0) with false by (symmetry; apply N.eqb_neq; rewrite lenN_cons; lia). reflexivity.
  - intros ->. cbn [lenN]. apply J.
  - intros H K. destruct (ends4 (str ".srr") output); [congruence|]. destruct output as [|x o]; [congruence|]. replace (lenN (x :: o) =? 0) with false by (symmetry; apply N.eqb_neq; rewrite lenN_cons; lia). cbn [negb andb]. apply J.
Qed.
Theorem stop_thm ex temp_bad both infiles : temp_bad = true \/ both = true -> start_of ex temp_bad both infiles = Stop 1.
Proof. unfold start_of. intros [->| ->]; [reflexivity|now destruct temp_bad]. Qed.
