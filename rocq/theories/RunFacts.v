(** RunFacts: proofs about going through all releases. *)
From Verif Require Import Base BaseFacts Path Sfv Run RunSpec.

Section Run.
Variables (gen : list text -> text -> gen_end).
(** the loop ends by itself just if it goes through everything *)
Lemma go_through l : forall seen missing bad, through gen seen l bad -> go gen true seen missing l = (seen ++ l, missing ++ bad, Finished).
Proof.
  induction l as [|r l IH]; intros seen missing bad H; inversion H as [|? ? ? ? E T|? ? ? ? E T]; subst; cbn [go].
  - now rewrite !app_nil_r.
  - unfold one_release. rewrite E. rewrite (IH _ _ _ T), <- app_assoc. reflexivity.
  - assert (one_release gen true seen r = inl true) as -> by (unfold one_release; destruct E as [-> | ->]; reflexivity).
    rewrite (IH _ _ _ T), <- !app_assoc. reflexivity.
Qed.
Lemma go_made rec l : forall seen missing, through gen seen l [] -> go gen rec seen missing l = (seen ++ l, missing, Finished).
Proof.
  induction l as [|r l IH]; intros seen missing H; inversion H as [|? ? ? ? E T|]; subst; cbn [go].
  - now rewrite app_nil_r.
  - unfold one_release. rewrite E. rewrite (IH _ _ T), <- app_assoc. reflexivity.
Qed.
Lemma go_inv rec l : forall seen missing seen' missing', go gen rec seen missing l = (seen', missing', Finished) ->
  exists bad, missing' = missing ++ bad /\ seen' = seen ++ l /\ through gen seen l bad.
Proof.
  induction l as [|r l IH]; intros seen missing seen' missing' H; cbn [go] in H.
  - injection H as <- <-. exists []. rewrite !app_nil_r. split; [reflexivity|]. split; [reflexivity|constructor].
  - unfold one_release in H. destruct (gen seen r) eqn:E; [apply IH in H|apply IH in H|discriminate|discriminate|].
    + destruct H as (bad & -> & -> & T). exists bad. rewrite <- app_assoc. split; [reflexivity|]. split; [reflexivity|]. now constructor.
    + destruct H as (bad & -> & -> & T). exists (r :: bad). rewrite <- !app_assoc. split; [reflexivity|]. split; [reflexivity|]. apply th_not; auto.
    + destruct e; try discriminate H. destruct rec; [|discriminate H]. apply IH in H.
      destruct H as (bad & -> & -> & T). exists (r :: bad). rewrite <- !app_assoc. split; [reflexivity|]. split; [reflexivity|]. apply th_not; auto.
Qed.
(** whatever happens the releases are taken in order *)
Lemma go_order rec l : forall seen missing seen' missing' e, go gen rec seen missing l = (seen', missing', e) -> exists a b, l = a ++ b /\ seen' = seen ++ a.
Proof.
  induction l as [|r l IH]; intros seen missing seen' missing' e H; cbn [go] in H.
  - injection H as <- <- <-. exists [], []. split; [reflexivity|now rewrite app_nil_r].
  - destruct (one_release gen rec seen r) as [m|e'].
    + apply IH in H. destruct H as (a & b & -> & ->). exists (r :: a), b. now rewrite <- app_assoc.
    + injection H as <- <- <-. exists [r], l. now split.
Qed.
Variables (abspath : text -> text) (releases : text -> list text).
Notation run := (main_run gen abspath releases).
Notation all := (todo abspath releases).
Lemma works_is rec dirs l : works abspath releases rec dirs l -> all rec dirs = l.
Proof. unfold todo. induction 1; [reflexivity| |]; cbn [map concat]; now rewrite IHworks. Qed.
Theorem works_thm rec dirs : exists l, works abspath releases rec dirs l.
Proof. induction dirs as [|d dirs (l & IH)]; [exists []; constructor|]. destruct rec; eexists; constructor; exact IH. Qed.
Theorem ok_thm rec dirs l : works abspath releases rec dirs l -> (r_status (run rec dirs) = Ok 0 <-> through gen [] l []).
Proof.
  intros W. apply works_is in W. subst l. unfold main_run. split.
  - destruct (go gen rec [] [] (all rec dirs)) as [[seen missing] e] eqn:G. destruct e as [| |x]; cbn [r_status]; [|discriminate|discriminate].
    destruct missing; [|discriminate]. intros _. apply go_inv in G. destruct G as (bad & E & _ & T). cbn [app] in E. now subst bad.
  - intros T. rewrite (go_made rec _ [] [] T). reflexivity.
Qed.
Theorem all_thm dirs l bad : works abspath releases true dirs l -> through gen [] l bad ->
  run true dirs = mkReport (Ok (match bad with [] => 0 | _ => 1 end)) l bad true.
Proof. intros W T. apply works_is in W. subst l. unfold main_run. rewrite (go_through _ [] [] bad T). reflexivity. Qed.
Theorem order_thm rec dirs l : works abspath releases rec dirs l -> exists rest, l = r_seen (run rec dirs) ++ rest.
Proof.
  intros W. apply works_is in W. subst l. unfold main_run. destruct (go gen rec [] [] (all rec dirs)) as [[seen missing] e] eqn:G. apply go_order in G. destruct G as (a & b & E & ->). exists b. now destruct e.
Qed.
Theorem kept_thm rec dirs : (r_removed (run rec dirs) = true /\ exists n, r_status (run rec dirs) = Ok n) \/
  (r_removed (run rec dirs) = false /\ r_missing (run rec dirs) = [] /\ exists e, r_status (run rec dirs) = Err e).
Proof.
  unfold main_run. destruct (go gen rec [] [] (all rec dirs)) as [[seen missing] [| |x]]; cbn; eauto 6.
Qed.
End Run.
Lemma ask_spec l b : ask l = Ok b <-> says b l.
Proof.
  split.
  - induction l as [|x l IH]; cbn [ask]; [discriminate|]. destruct (teqb (lower x) (str "y")) eqn:Y; [|destruct (teqb (lower x) (str "n")) eqn:N].
    + intros E. injection E as <-. apply teqb_eq in Y. exists [], x, l. split; [reflexivity|]. split; [exact Y|constructor].
    + intros E. injection E as <-. apply teqb_eq in N. exists [], x, l. split; [reflexivity|]. split; [exact N|constructor].
    + intros E. apply IH in E. destruct E as (a & z & c & -> & Z & F). exists (x :: a), z, c. split; [reflexivity|]. split; [exact Z|].
      apply teqb_neq in Y, N. constructor; auto.
  - intros (a & x & c & -> & X & F). induction F as [|z a [Z1 Z2] _ IH]; cbn [app ask].
    + rewrite X. destruct b; reflexivity.
    + apply teqb_neq in Z1, Z2. now rewrite Z1, Z2.
Qed.
Theorem overwrite_thm yes no file answers b : can_overwrite yes no file answers = Ok b <->
  (b = true /\ (yes = true \/ file = false)) \/ (yes = false /\ file = true /\ ((no = true /\ b = false) \/ (no = false /\ says b answers))).
Proof.
  unfold can_overwrite. rewrite <- ask_spec. destruct yes, file, no; cbn; split; intros H; try (injection H as <-); try tauto;
    try (destruct H as [(-> & _)|H]; [reflexivity|]; destruct H as (H1 & H2 & H); discriminate).
  - destruct H as [(_ & [H|H])|(_ & _ & [(_ & ->)|(H & _)])]; try discriminate; reflexivity.
  - destruct H as [(_ & [H|H])|(_ & _ & [(H & _)|(_ & H)])]; try discriminate; exact H.
Qed.
Theorem folder_thm yes there file answers r : output_dir yes there file answers = Ok r <->
  (there = true /\ r = None) \/ (there = false /\ (yes = true \/ file = false) /\ r = Some true) \/ (there = false /\ yes = false /\ file = true /\ exists b, says b answers /\ r = Some b).
Proof.
  unfold output_dir, can_create. destruct there; [split; [intros H; injection H as <-; now left|intros [(_ & ->)|[(X & _)|(X & _)]]; [reflexivity|discriminate X|discriminate X]]|].
  assert (Y : forall P Q : Prop, (false = true /\ P) \/ Q <-> Q) by (intros P Q; split; [intros [(X & _)|X]; [discriminate X|exact X]|now right]). rewrite Y.
  destruct (negb yes && file) eqn:E.
  - apply Bool.andb_true_iff in E. destruct E as [E1 E2]. apply Bool.negb_true_iff in E1. subst yes file. split.
    + destruct (ask answers) as [b|x] eqn:A; cbn [bind]; [|discriminate]. intros H. injection H as <-. right. repeat split. exists b. split; [now apply ask_spec|reflexivity].
    + intros [(_ & [X|X] & _)|(_ & _ & _ & b & S0 & ->)]; [discriminate X|discriminate X|]. apply ask_spec in S0. now rewrite S0.
  - cbn [bind]. split.
    + intros H. injection H as <-. left. split; [reflexivity|]. split; [destruct yes, file; try discriminate E; auto|reflexivity].
    + intros [(_ & _ & ->)|(_ & -> & -> & _)]; [reflexivity|discriminate E].
Qed.
