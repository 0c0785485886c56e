(** DiskFacts: lemmas about interrupted file operations. *)
From Verif Require Import Base BaseFacts Path Srr FsFacts Disk DiskSpec.

Lemma act_other f w f' w' r : act OOther f w = (f', w', r) -> f' = f.
Proof. unfold act. destruct w as [|[|n|n] w]; cbn; congruence. Qed.
Lemma act_create p f w f' w' r : act (OCreate p) f w = (f', w', r) ->
  (f' = fs_set f p [] /\ r = Done) \/ (f' = f /\ r <> Done).
Proof. unfold act. destruct w as [|[|n|n] w]; cbn; intros H; injection H as <- <- <-; auto;
  right; split; auto; discriminate. Qed.
Lemma act_unlink p f w f' w' r : act (OUnlink p) f w = (f', w', r) ->
  (f' = fs_del f p /\ r = Done) \/ (f' = f /\ r <> Done).
Proof. unfold act. destruct w as [|[|n|n] w]; cbn; try (destruct (isfile f p)); intros H;
  injection H as <- <- <-; auto; right; split; auto; discriminate. Qed.
Lemma act_rename a b f w f' w' r : act (ORename a b) f w = (f', w', r) ->
  (exists d, fs_get f a = Some d /\ f' = fs_set (fs_del f a) b d /\ r = Done) \/ (f' = f /\ r <> Done).
Proof. unfold act. destruct w as [|[|n|n] w]; cbn; try (destruct (fs_get f a) eqn:?); intros H;
  injection H as <- <- <-; eauto; right; split; auto; discriminate. Qed.
Lemma act_write p d f w f' w' r d0 : fs_get f p = Some d0 -> act (OWrite p d) f w = (f', w', r) ->
  (forall q, p <> q -> fs_get f' q = fs_get f q) /\
  exists d1 d2, fs_get f' p = Some (d0 ++ d1) /\ d = d1 ++ d2 /\ (r = Done -> d2 = []).
Proof.
  intros G. unfold act.
  assert (A : forall x, (forall q, p <> q -> fs_get (fs_append f p x) q = fs_get f q) /\
     fs_get (fs_append f p x) p = Some (d0 ++ x)).
  { intros x. split; [intros; now apply fs_append_other|]. rewrite (fs_append_some _ _ _ _ _ G).
    now rewrite teqb_refl. }
  destruct w as [|[|n|n] w]; cbn; intros H; injection H as <- <- <-;
    (split; [apply A|]).
  1,2: exists d, []; rewrite app_nil_r; split; [apply A|auto].
  all: exists (takeN n d), (dropN n d); split; [apply A|split; [now rewrite takeN_dropN|discriminate]].
Qed.

Lemma body_spec tmp ok l : forall f w f' w' r d0, fs_get f tmp = Some d0 ->
  body tmp ok l f w = (f', w', r) ->
  (forall q, tmp <> q -> fs_get f' q = fs_get f q) /\
  exists d1 d2, fs_get f' tmp = Some (d0 ++ d1) /\ written l = d1 ++ d2 /\
    (r = Done -> ok = true /\ d2 = []).
Proof.
  induction l as [|[d|] l IH]; intros f w f' w' r d0 G H.
  - cbn in H. destruct ok; injection H as <- <- <-; (split; [auto|]); exists [], [];
      rewrite app_nil_r; auto; repeat split; auto; discriminate.
  - cbn [body written] in *. unfold andthen in H.
    destruct (act _ f w) as [[f1 w1] r1] eqn:E. apply (act_write _ _ _ _ _ _ _ _ G) in E.
    destruct E as (O & d1 & d2 & G1 & D & R).
    destruct r1.
    + rewrite (R eq_refl), app_nil_r in D. subst d1.
      destruct (IH _ _ _ _ _ _ G1 H) as (O' & e1 & e2 & G2 & W & R').
      split; [intros q N; rewrite O', O; auto|].
      exists (d ++ e1), e2. rewrite G2, W, <- !app_assoc. auto.
    + injection H as <- <- <-. split; auto. exists d1, (d2 ++ written l). rewrite D, app_assoc.
      repeat split; auto; discriminate.
    + injection H as <- <- <-. split; auto. exists d1, (d2 ++ written l). rewrite D, app_assoc.
      repeat split; auto; discriminate.
  - cbn [body written] in *. unfold andthen in H.
    destruct (act _ f w) as [[f1 w1] r1] eqn:E. apply act_other in E. subst f1.
    destruct r1; [eauto| |]; injection H as <- <- <-; (split; [auto|]); exists [], (written l);
      rewrite app_nil_r; repeat split; auto; discriminate.
Qed.

Ltac run_step H :=
  unfold andthen, cleanup, ignore, ret, raise in H;
  match type of H with
  | context [act OOther ?f ?w] => let E := fresh "E" in let r := fresh "r" in
      destruct (act OOther f w) as [[? ?] r] eqn:E; apply act_other in E; subst; destruct r
  | context [act (OUnlink ?p) ?f ?w] => let E := fresh "E" in let r := fresh "r" in
      destruct (act (OUnlink p) f w) as [[? ?] r] eqn:E; apply act_unlink in E;
      destruct E as [[-> ->]|[-> E]]; [|destruct r; [congruence| |]]
  | context [act (OCreate ?p) ?f ?w] => let E := fresh "E" in let r := fresh "r" in
      destruct (act (OCreate p) f w) as [[? ?] r] eqn:E; apply act_create in E;
      destruct E as [[-> ->]|[-> E]]; [|destruct r; [congruence| |]]
  | context [act (ORename ?a ?b) ?f ?w] => let E := fresh "E" in let r := fresh "r" in
      let d := fresh "d" in let G := fresh "G" in
      destruct (act (ORename a b) f w) as [[? ?] r] eqn:E; apply act_rename in E;
      destruct E as [(d & G & -> & ->)|[-> E]]; [|destruct r; [congruence| |]]
  | context [body ?t ?o ?l ?f ?w] => let E := fresh "E" in let r := fresh "r" in
      destruct (body t o l f w) as [[? ?] r] eqn:E;
      apply (body_spec t o l _ _ _ _ _ []) in E; [|now rewrite fs_get_set_same];
      let O := fresh "O" in let d1 := fresh "d1" in let d2 := fresh "d2" in
      let G := fresh "G" in let W := fresh "W" in let R := fresh "R" in
      destruct E as (O & d1 & d2 & G & W & R); destruct r
  end.
Ltac run_all H := repeat run_step H; injection H as <- <- <-.

Section Edit.
Variables (srr tmp : text) (f : fs) (old : bytes).
Hypothesis (Hold : fs_get f srr = Some old) (Htmp : fs_get f tmp = None).
Lemma srr_tmp : tmp <> srr.
Proof. intros ->. congruence. Qed.

Lemma upd_old f1 :
  (forall q, tmp <> q -> fs_get f1 q = fs_get (fs_set f tmp []) q) ->
  fs_get f1 srr = Some old /\ (forall q, q <> srr -> q <> tmp -> fs_get f1 q = fs_get f q).
Proof.
  intros O. pose proof srr_tmp. split.
  - rewrite O by auto. now rewrite fs_get_set_other.
  - intros q A B. rewrite O by auto. rewrite fs_get_set_other; auto.
Qed.


Lemma neq_teqb (a b : text) : a <> b -> teqb a b = false.
Proof. intros. destruct (teqb a b) eqn:E; auto. apply teqb_eq in E. congruence. Qed.

(** the end of an edit *)
Definition ended (ok : bool) (new : bytes) (f' : fs) (r : outcome) : Prop :=
  untouched fs_get [srr; tmp] f f' /\
  ((fs_get f' srr = Some old /\ r <> Done) \/
   (ok = true /\ fs_get f' srr = Some new /\ fs_get f' tmp = None /\ r = Done) \/
   (ok = true /\ fs_get f' srr = None /\ fs_get f' tmp = Some new /\ r <> Done)).
Definition lost (f' : fs) (r : outcome) : Prop :=
  untouched fs_get [srr; tmp] f f' /\
  fs_get f' srr = None /\ fs_get f' tmp = None /\ r = Raised.

Lemma others_intro f' : (forall q, q <> srr -> q <> tmp -> fs_get f' q = fs_get f q) ->
  untouched fs_get [srr; tmp] f f'.
Proof. intros H q N. apply H; intros ->; apply N; cbn; auto. Qed.
Lemma ended_start ok new r : r <> Done -> ended ok new f r.
Proof. intros. split; [intros q _; reflexivity|auto]. Qed.
Lemma ended_tmp ok new f1 r :
  (forall q, tmp <> q -> fs_get f1 q = fs_get (fs_set f tmp []) q) -> r <> Done -> ended ok new f1 r.
Proof. intros O R. apply upd_old in O. destruct O. split; [now apply others_intro|auto]. Qed.
Lemma ended_clean ok new f1 r :
  (forall q, tmp <> q -> fs_get f1 q = fs_get (fs_set f tmp []) q) -> r <> Done ->
  ended ok new (fs_del f1 tmp) r.
Proof.
  intros O R. apply ended_tmp; auto. intros q N. rewrite fs_get_del, neq_teqb by auto. auto.
Qed.
Lemma ended_window new f1 r :
  (forall q, tmp <> q -> fs_get f1 q = fs_get (fs_set f tmp []) q) ->
  fs_get f1 tmp = Some new -> r <> Done -> ended true new (fs_del f1 srr) r.
Proof.
  intros O G R. apply upd_old in O. destruct O as [_ O]. pose proof srr_tmp as N. split.
  - apply others_intro. intros q A B. rewrite fs_get_del, neq_teqb by auto. auto.
  - right; right. rewrite !fs_get_del, teqb_refl, neq_teqb by auto. auto.
Qed.
Lemma ended_new new f1 :
  (forall q, tmp <> q -> fs_get f1 q = fs_get (fs_set f tmp []) q) ->
  ended true new (fs_set (fs_del (fs_del f1 srr) tmp) srr new) Done.
Proof.
  intros O. apply upd_old in O. destruct O as [_ O]. pose proof srr_tmp as N. split.
  - apply others_intro. intros q A B.
    rewrite fs_get_set_other by auto. rewrite !fs_get_del, !neq_teqb by auto. auto.
  - right; left. rewrite fs_get_set_same, fs_get_set_other by auto.
    rewrite fs_get_del, teqb_refl. auto.
Qed.
Lemma lost_both f1 :
  (forall q, tmp <> q -> fs_get f1 q = fs_get (fs_set f tmp []) q) ->
  lost (fs_del (fs_del f1 srr) tmp) Raised.
Proof.
  intros O. apply upd_old in O. destruct O as [_ O]. pose proof srr_tmp as N. split.
  - apply others_intro. intros q A B. rewrite !fs_get_del, !neq_teqb by auto. auto.
  - rewrite !fs_get_del, !teqb_refl. rewrite neq_teqb by auto. auto.
Qed.
Lemma rename_src f1 new d :
  fs_get f1 tmp = Some new -> fs_get (fs_del f1 srr) tmp = Some d -> d = new.
Proof. intros A B. pose proof srr_tmp. rewrite fs_get_del, neq_teqb in B by auto. congruence. Qed.

Ltac fin :=
  repeat match goal with
  | R : Done = Done -> _ |- _ => destruct (R eq_refl); clear R; subst
  end;
  repeat rewrite app_nil_r in *; cbn [app] in *; subst;
  repeat match goal with
  | A : fs_get ?f1 tmp = Some ?n, B : fs_get (fs_del ?f1 srr) tmp = Some ?d |- _ =>
      apply (rename_src _ _ _ A) in B; subst
  | W : written _ = _ |- _ => rewrite <- W in *; clear W
  end;
  first [ apply ended_start; discriminate
        | apply ended_clean; [assumption|discriminate]
        | apply ended_tmp; [assumption|discriminate]
        | apply ended_window; [assumption|assumption|discriminate]
        | apply ended_new; assumption
        | idtac ].

Theorem add_ended ok l w f' w' r :
  add_io srr tmp ok l f w = (f', w', r) -> ended ok (written l) f' r.
Proof. unfold add_io. intros H. run_all H; fin. Qed.
Theorem rename_ended ok l w f' w' r :
  rename_io srr tmp ok l f w = (f', w', r) -> ended ok (written l) f' r.
Proof. unfold rename_io. intros H. run_all H; fin. Qed.
Theorem remove_ended ok l w f' w' r :
  remove_io srr tmp ok l f w = (f', w', r) -> ended ok (written l) f' r \/ lost f' r.
Proof.
  unfold remove_io. intros H. run_all H; try (left; fin; fail). right.
  now apply lost_both.
Qed.
End Edit.

(** without faults *)
Definition calm (w : list fate) : Prop := Forall (eq Good) w.
Lemma act_calm o f w f1 : calm w -> apply_op o f = Some f1 ->
  exists w', calm w' /\ act o f w = (f1, w', Done).
Proof.
  intros C A. unfold act. exists (tl w). destruct C as [|a w0 Ha Hw]; subst; cbn; rewrite A; split; auto.
  constructor.
Qed.
Lemma body_calm tmp l : forall f w, calm w ->
  exists f1 w', calm w' /\ body tmp true l f w = (f1, w', Done).
Proof.
  induction l as [|[d|] l IH]; intros f w C; cbn [body]; unfold andthen.
  - unfold ret. eauto.
  - destruct (act_calm (OWrite tmp d) f w _ C eq_refl) as (w1 & C1 & ->). auto.
  - destruct (act_calm OOther f w _ C eq_refl) as (w1 & C1 & ->). auto.
Qed.

Section Calm.
Variables (srr tmp : text) (f : fs) (old : bytes) (l : list (option bytes)) (w : list fate).
Hypothesis (Hold : fs_get f srr = Some old) (Htmp : fs_get f tmp = None) (C : calm w).
Lemma calm_tail f1 w1 : calm w1 ->
  (forall q, tmp <> q -> fs_get f1 q = fs_get (fs_set f tmp []) q) ->
  (exists d, fs_get f1 tmp = Some d) ->
  exists f2 w2, calm w2 /\ (act OOther ;; act (OUnlink srr) ;; act (ORename tmp srr)) f1 w1 = (f2, w2, Done).
Proof.
  intros C1 O (d & G). pose proof (srr_tmp _ _ _ _ Hold Htmp) as N.
  destruct (upd_old _ _ _ _ Hold Htmp _ O) as [S _].
  unfold andthen. destruct (act_calm OOther f1 w1 _ C1 eq_refl) as (w2 & C2 & ->).
  assert (A : apply_op (OUnlink srr) f1 = Some (fs_del f1 srr)) by (cbn; unfold isfile; now rewrite S).
  destruct (act_calm _ _ _ _ C2 A) as (w3 & C3 & ->).
  assert (B : apply_op (ORename tmp srr) (fs_del f1 srr) = Some (fs_set (fs_del (fs_del f1 srr) tmp) srr d)).
  { cbn [apply_op]. rewrite fs_get_del, neq_teqb, G; auto. }
  destruct (act_calm _ _ _ _ C3 B) as (w4 & C4 & ->). eauto.
Qed.
Lemma calm_body w1 : calm w1 -> exists f1 w2, calm w2 /\
  body tmp true l (fs_set f tmp []) w1 = (f1, w2, Done) /\
  (forall q, tmp <> q -> fs_get f1 q = fs_get (fs_set f tmp []) q) /\
  (exists d, fs_get f1 tmp = Some d).
Proof.
  intros C1. destruct (body_calm tmp l (fs_set f tmp []) w1 C1) as (f1 & w2 & C2 & E).
  exists f1, w2. split; [auto|]. split; [auto|].
  apply (body_spec _ _ _ _ _ _ _ _ [] (fs_get_set_same _ _ _)) in E.
  destruct E as (O & d1 & d2 & G & _). eauto.
Qed.
Lemma add_calm : exists f' w', add_io srr tmp true l f w = (f', w', Done).
Proof.
  unfold add_io. destruct (act_calm (OCreate tmp) f w _ C eq_refl) as (w1 & C1 & E1).
  destruct (calm_body w1 C1) as (f2 & w2 & C2 & E2 & O & G).
  destruct (calm_tail f2 w2 C2 O G) as (f3 & w3 & _ & E3).
  exists f3, w3. unfold andthen at 1. rewrite E1. unfold andthen at 1. unfold cleanup. rewrite E2. exact E3.
Qed.
Lemma rename_calm : exists f' w', rename_io srr tmp true l f w = (f', w', Done).
Proof.
  unfold rename_io. destruct (act_calm (OCreate tmp) f w _ C eq_refl) as (w1 & C1 & E1).
  destruct (calm_body w1 C1) as (f2 & w2 & C2 & E2 & O & G).
  destruct (calm_tail f2 w2 C2 O G) as (f3 & w3 & _ & E3).
  exists f3, w3. unfold andthen at 1. rewrite E1. unfold andthen at 1. rewrite E2. exact E3.
Qed.
Lemma remove_calm : exists f' w', remove_io srr tmp true l f w = (f', w', Done).
Proof.
  unfold remove_io. destruct (act_calm (OCreate tmp) f w _ C eq_refl) as (w1 & C1 & E1).
  destruct (calm_body w1 C1) as (f2 & w2 & C2 & E2 & O & G).
  destruct (calm_tail f2 w2 C2 O G) as (f3 & w3 & _ & E3).
  exists f3, w3. unfold andthen at 1. rewrite E1. unfold cleanup. unfold andthen at 1. rewrite E2.
  rewrite E3. reflexivity.
Qed.
End Calm.

(** replace_result *)
Lemma replace_thm src dest f w f' w' r new : src <> dest -> fs_get f src = Some new ->
  replace_result src dest f w = (f', w', r) ->
  untouched fs_get [src; dest] f f' /\
  ((r = Done /\ fs_get f' dest = Some new /\ fs_get f' src = None) \/
   (r <> Done /\ fs_get f' dest = fs_get f dest /\ (fs_get f' src = Some new \/ r = Raised)) \/
   (r <> Done /\ fs_get f dest <> None /\ fs_get f' dest = None /\
    (fs_get f' src = Some new \/ r = Raised))).
Proof.
  intros N G H. unfold replace_result in H. unfold isfile at 1 in H. rewrite G in H.
  assert (U : forall f2, (forall q, q <> src -> q <> dest -> fs_get f2 q = fs_get f q) ->
            untouched fs_get [src; dest] f f2).
  { intros f2 A q B. apply A; intros ->; apply B; cbn; auto. }
  destruct (isfile f dest) eqn:D.
  - assert (D' : fs_get f dest <> None) by (unfold isfile in D; destruct (fs_get f dest); congruence).
    run_all H;
    (split; [apply U; intros q A B; repeat (rewrite fs_get_set_other by auto);
             rewrite ?fs_get_del, ?neq_teqb by auto; reflexivity|]).
    all: repeat match goal with X : fs_get (fs_del _ _) _ = Some _ |- _ =>
           rewrite fs_get_del, neq_teqb in X by auto end.
    all: rewrite ?fs_get_set_same, ?(fs_get_set_other _ dest _ src) by auto;
         rewrite ?fs_get_del, ?teqb_refl, ?(neq_teqb src dest), ?(neq_teqb dest src) by auto.
    all: rewrite ?fs_get_del, ?teqb_refl, ?(neq_teqb src dest), ?(neq_teqb dest src) by auto.
    all: first [ left; repeat split; congruence
               | right; left; repeat split; first [congruence | left; assumption | right; reflexivity]
               | right; right; repeat split; first [congruence | left; assumption | right; reflexivity] ].
  - run_all H;
    (split; [apply U; intros q A B; repeat (rewrite fs_get_set_other by auto);
             rewrite ?fs_get_del, ?neq_teqb by auto; reflexivity|]).
    all: rewrite ?fs_get_set_same, ?(fs_get_set_other _ dest _ src) by auto;
         rewrite ?fs_get_del, ?teqb_refl, ?(neq_teqb src dest), ?(neq_teqb dest src) by auto.
    all: first [ left; repeat split; congruence
               | right; left; repeat split; first [congruence | left; assumption | right; reflexivity] ].
Qed.
Lemma replace_none src dest f w : fs_get f src = None -> replace_result src dest f w = (f, w, Done).
Proof. intros G. unfold replace_result, isfile. now rewrite G. Qed.

(** create *)
Lemma create_thm srr tmp l ending f w f' w' r :
  (forall t, tmp = Some t -> t <> [] -> fs_get f t = None) ->
  create_io srr tmp l ending f w = (f', w', r) ->
  (forall q d, fs_get f q = Some d -> fs_get f' q = Some d) /\
  (forall d, fs_get f srr = Some d -> f' = f /\ r = Done).
Proof.
  intros T H. unfold create_io in H.
  destruct (can_overwrite f srr) eqn:O.
  2:{ injection H as <- <- <-. auto. }
  apply can_overwrite_true in O. split; [|congruence].
  remember (create_target srr tmp) as t.
  assert (Ft : fs_get f t = None).
  { subst t. destruct tmp as [[|c t]|]; auto. apply T; [reflexivity|discriminate]. }
  clear Heqt. intros q d G.
  assert (N : t <> q) by congruence.
  destruct ending as [[|]|]; run_all H;
    repeat match goal with A : forall q, t <> q -> fs_get ?x q = _ |- context [fs_get ?x q] => 
      rewrite (A q N) end;
    rewrite ?fs_get_del, ?(neq_teqb t q N);
    repeat match goal with A : forall q, t <> q -> fs_get ?x q = _ |- context [fs_get ?x q] => 
      rewrite (A q N) end; rewrite ?fs_get_set_other by auto; exact G.
Qed.
Lemma create_done srr tmp l ending f w f' w' :
  fs_get f srr = None -> create_io srr tmp l ending f w = (f', w', Done) ->
  ending = None /\ fs_get f' (create_target srr tmp) = Some (written l) /\
  forall q, create_target srr tmp <> q -> fs_get f' q = fs_get f q.
Proof.
  intros G H. unfold create_io in H. destruct (can_overwrite f srr) eqn:O.
  2:{ unfold can_overwrite, isfile in O. rewrite G in O. discriminate. }
  set (t := create_target srr tmp) in *. clearbody t. unfold andthen in H.
  destruct (act (OCreate t) f w) as [[f1 w1] r1] eqn:E1. destruct r1; try discriminate.
  assert (F1 : f1 = fs_set f t []) by (unfold act in E1; destruct w as [|[| |] w0]; cbn in E1; congruence).
  destruct (body t true l f1 w1) as [[f2 w2] r2] eqn:E2. destruct r2; try discriminate.
  assert (X : fs_get f1 t = Some []) by (subst f1; apply fs_get_set_same).
  destruct (body_spec t true l _ _ _ _ _ _ X E2) as (U & d1 & d2 & A & B & D). destruct (D eq_refl) as [_ ->]. rewrite app_nil_r in B.
  destruct ending as [[|]|].
  - destruct (act OOther f2 w2) as [[f3 w3] r3]. destruct r3; try discriminate. destruct (act (OUnlink t) f3 w3) as [[f4 w4] r4]. destruct r4; discriminate.
  - discriminate.
  - injection H as <- <-. split; [reflexivity|]. split; [rewrite A, B; reflexivity|]. intros q Hq. rewrite (U q Hq). subst f1. apply fs_get_set_other. auto.
Qed.
Lemma create_gone srr tmp l f w : calm w -> fs_get f srr = None -> fs_get f (create_target srr tmp) = None ->
  exists f' w', create_io srr tmp l (Some true) f w = (f', w', Raised) /\ forall q, fs_get f' q = fs_get f q.
Proof.
  intros C G T. unfold create_io. replace (can_overwrite f srr) with true by (unfold can_overwrite, isfile; now rewrite G).
  set (t := create_target srr tmp) in *. clearbody t. unfold andthen.
  destruct (act_calm (OCreate t) f w _ C eq_refl) as (w1 & C1 & ->). set (f1 := fs_set f t []).
  destruct (body_calm t l f1 w1 C1) as (f2 & w2 & C2 & E2). rewrite E2.
  assert (X : fs_get f1 t = Some []) by apply fs_get_set_same.
  destruct (body_spec t true l _ _ _ _ _ _ X E2) as (U & d1 & d2 & A & _).
  destruct (act_calm OOther f2 w2 _ C2 eq_refl) as (w3 & C3 & ->).
  assert (Y : apply_op (OUnlink t) f2 = Some (fs_del f2 t)) by (cbn; unfold isfile; now rewrite A).
  destruct (act_calm _ _ _ _ C3 Y) as (w4 & _ & ->). unfold raise. eexists _, _. split; [reflexivity|].
  intros q. rewrite fs_get_del. destruct (teqb t q) eqn:E.
  - apply teqb_eq in E. subst q. now rewrite T.
  - assert (t <> q) by (intros ->; rewrite teqb_refl in E; discriminate). rewrite U by auto. apply fs_get_set_other. auto.
Qed.
Lemma create_ok_calm srr tmp l f w : calm w -> fs_get f srr = None ->
  exists f' w', create_io srr tmp l None f w = (f', w', Done).
Proof.
  intros C G. unfold create_io. replace (can_overwrite f srr) with true by (unfold can_overwrite, isfile; now rewrite G).
  set (t := create_target srr tmp) in *. clearbody t. unfold andthen.
  destruct (act_calm (OCreate t) f w _ C eq_refl) as (w1 & C1 & ->).
  destruct (body_calm t l (fs_set f t []) w1 C1) as (f2 & w2 & C2 & E2). rewrite E2. eexists _, _. reflexivity.
Qed.
