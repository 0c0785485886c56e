(** CmdFacts: lemmas about what the commands leave on disk. *)
From Verif Require Import Base BaseFacts Path Srr FsFacts Disk DiskSpec DiskFacts Crc Cmd CmdSpec.

Definition same_but (L : list text) (f f' : fs) : Prop := forall q, ~ In q L -> fs_get f' q = fs_get f q.
Lemma same_trans L f g h : same_but L f g -> same_but L g h -> same_but L f h.
Proof. intros A B q Hq. now rewrite B, A. Qed.
Lemma same_more L L' f g : incl L L' -> same_but L f g -> same_but L' f g.
Proof. intros I A q Hq. apply A. auto. Qed.

(** writing a file *)
Lemma make_thm t ok l f w f' w' r : (act (OCreate t) ;; body t ok l) f w = (f', w', r) ->
  same_but [t] f f' /\ (r = Done -> ok = true /\ fs_get f' t = Some (written l)).
Proof.
  unfold andthen. destruct (act (OCreate t) f w) as [[f1 w1] r1] eqn:E. apply act_create in E. intros H. destruct E as [[-> ->]|[-> E]].
  - apply (body_spec t ok l _ _ _ _ _ []) in H; [|now rewrite fs_get_set_same]. destruct H as (O & d1 & d2 & G & W & R). split.
    + intros q Hq. rewrite O by (intros ->; apply Hq; now left). apply fs_get_set_other. intros ->. apply Hq. now left.
    + intros ->. destruct (R eq_refl) as [-> ->]. rewrite app_nil_r in W. now rewrite W.
  - destruct r1; [congruence| |]; injection H as <- <- <-; (split; [intros q _; reflexivity|discriminate]).
Qed.
Lemma make_calm t l f w : calm w -> exists f' w', calm w' /\ (act (OCreate t) ;; body t true l) f w = (f', w', Done).
Proof.
  intros C. unfold andthen. destruct (act_calm (OCreate t) f w _ C eq_refl) as (w1 & C1 & ->). destruct (body_calm t l (fs_set f t []) w1 C1) as (f2 & w2 & C2 & E). eauto.
Qed.
Lemma andthen_assoc (a b c : io) f w : (a ;; b ;; c) f w = ((a ;; b) ;; c) f w.
Proof. unfold andthen. destruct (a f w) as [[f1 w1] [ | | ]]; reflexivity. Qed.
(** replacing *)
Lemma replace_shape src dest f w f' w' r new : src <> dest -> fs_get f src = Some new -> replace_result src dest f w = (f', w', r) ->
  same_but [src; dest] f f' /\ (fs_get f' dest = fs_get f dest \/ fs_get f' dest = None \/ fs_get f' dest = Some new) /\
  (r = Done -> fs_get f' dest = Some new /\ fs_get f' src = None) /\
  (fs_get f' dest = fs_get f dest \/ fs_get f' dest = Some new \/ fs_get f' src = Some new \/ r = Raised).
Proof.
  intros N G H. destruct (replace_thm src dest f w f' w' r new N G H) as (U & [(-> & A & B)|[(R & A & B)|(R & A & B & C)]]).
  - split; [exact U|]. split; [auto|]. split; auto.
  - split; [exact U|]. split; [auto|]. split; [congruence|]. tauto.
  - split; [exact U|]. split; [auto|]. split; [congruence|]. tauto.
Qed.
Lemma replace_calm src dest f w new : calm w -> src <> dest -> fs_get f src = Some new -> exists f' w', calm w' /\ replace_result src dest f w = (f', w', Done).
Proof.
  intros C N G. unfold replace_result. unfold isfile at 1. rewrite G. unfold andthen, cleanup, ignore, ret. destruct (isfile f dest) eqn:D.
  - assert (apply_op (OUnlink dest) f = Some (fs_del f dest)) as A by (cbn; now rewrite D). destruct (act_calm _ f w _ C A) as (w1 & C1 & ->).
    assert (apply_op (ORename src dest) (fs_del f dest) = Some (fs_set (fs_del (fs_del f dest) src) dest new)) as B. { cbn. rewrite fs_get_del, neq_teqb, G; auto. }
    destruct (act_calm _ _ w1 _ C1 B) as (w2 & C2 & ->). eauto.
  - assert (apply_op (ORename src dest) f = Some (fs_set (fs_del f src) dest new)) as B by (cbn; now rewrite G). destruct (act_calm _ _ w _ C B) as (w2 & C2 & ->). eauto.
Qed.

(** ** srr *)
Lemma failed_thm srr f w f' w' r : failed srr f w = (f', w', r) -> same_but [srr] f f' /\ r <> Done /\ (fs_get f' srr = fs_get f srr \/ fs_get f' srr = None).
Proof.
  unfold failed, andthen, ignore, raise. destruct (act (OUnlink srr) f w) as [[f1 w1] r1] eqn:E. apply act_unlink in E. destruct E as [[-> ->]|[-> E]].
  - intros H. injection H as <- <- <-. split; [|split; [discriminate|]].
    + intros q Hq. rewrite fs_get_del, neq_teqb; [reflexivity|]. intros ->. apply Hq. now left.
    + right. now rewrite fs_get_del, teqb_refl.
  - destruct r1; [congruence| |]; intros H; injection H as <- <- <-; (split; [intros q _; reflexivity|]; split; [discriminate|now left]).
Qed.
Definition srr_now (new : option bytes) (srr : text) (f f' : fs) : Prop := fs_get f' srr = fs_get f srr \/ fs_get f' srr = None \/ (new <> None /\ fs_get f' srr = new).
Lemma handle_thm L new srr (a : io) : (forall f w f' w' r, a f w = (f', w', r) -> same_but L f f' /\ srr_now new srr f f') ->
  forall f w f' w' r, handle srr a f w = (f', w', r) -> same_but (srr :: L) f f' /\ srr_now new srr f f' /\ (r = Done -> a f w = (f', w', Done)).
Proof.
  intros Ha f w f' w' r H. unfold handle in H. destruct (a f w) as [[f1 w1] r1] eqn:E. destruct (Ha _ _ _ _ _ E) as [S N]. assert (same_but (srr :: L) f f1) as S' by (apply (same_more L); [intros x Hx; now right|exact S]). destruct r1.
  - injection H as <- <- <-. auto.
  - apply failed_thm in H. destruct H as (S2 & R & X). split; [|split; [|congruence]].
    + apply (same_trans _ f f1); [exact S'|]. apply (same_more [srr]); [|exact S2]. intros x [<- |[]]. now left.
    + destruct X as [X|X]; unfold srr_now; rewrite X; auto.
  - injection H as <- <- <-. split; [exact S'|]. split; [exact N|discriminate].
Qed.
Section SrrCreate.
Variables (may : fs -> text -> bool) (srr tmp : text) (l : list (option bytes)).
Hypothesis Ht : tmp <> srr.
Lemma create_all f w f' w' r : (act (OCreate tmp) ;; body tmp true l ;; replace_result tmp srr) f w = (f', w', r) ->
  (same_but [tmp; srr] f f' /\ srr_now (Some (written l)) srr f f') /\ (r = Done -> fs_get f' srr = Some (written l) /\ fs_get f' tmp = None).
Proof.
  rewrite andthen_assoc. intros H. unfold andthen at 1 in H. destruct ((act (OCreate tmp) ;; body tmp true l) f w) as [[f1 w1] r1] eqn:E. apply make_thm in E. destruct E as [S D]. assert (same_but [tmp; srr] f f1) as S1 by (apply (same_more [tmp]); [intros x [<- |[]]; now left|exact S]).
  assert (fs_get f1 srr = fs_get f srr) as Es by (apply S; intros [X|[]]; congruence). destruct r1.
  - destruct (D eq_refl) as [_ G]. destruct (replace_shape tmp srr f1 w1 f' w' r _ Ht G H) as (S2 & N & X & _). split; [split|exact X].
    + now apply (same_trans _ f f1).
    + unfold srr_now. rewrite <- Es. destruct N as [N|[N|N]]; auto. right. right. split; [discriminate|exact N].
  - injection H as <- <- <-. split; [split; [exact S1|now left]|discriminate].
  - injection H as <- <- <-. split; [split; [exact S1|now left]|discriminate].
Qed.
Lemma create_bad (b : bool) f w f' w' r : (act (OCreate tmp) ;; body tmp true l ;; if b then act OOther ;; act (OUnlink tmp) else ret) f w = (f', w', r) ->
  same_but [tmp; srr] f f' /\ srr_now None srr f f'.
Proof.
  rewrite andthen_assoc. intros H. unfold andthen at 1 in H. destruct ((act (OCreate tmp) ;; body tmp true l) f w) as [[f1 w1] r1] eqn:E. apply make_thm in E. destruct E as [S D].
  assert (same_but [tmp] f f' -> same_but [tmp; srr] f f' /\ srr_now None srr f f') as K.
  { intros A. split; [apply (same_more [tmp]); [intros x [<- |[]]; now left|exact A]|]. left. apply A. intros [X|[]]. congruence. }
  apply K. destruct r1; [|injection H as <- <- <-; exact S..]. destruct b; [|injection H as <- <- <-; exact S].
  unfold andthen in H. destruct (act OOther f1 w1) as [[f2 w2] r2] eqn:E2. apply act_other in E2. subst f2. destruct r2; [|injection H as <- <- <-; exact S..].
  apply act_unlink in H. destruct H as [[-> ->]|[-> _]]; [|exact S]. intros q Hq. rewrite fs_get_del, neq_teqb by (intros ->; apply Hq; now left). now apply S.
Qed.
Lemma srr_create_thm e f w f' w' r : fs_get f tmp = None -> srr_create may srr tmp l e f w = (f', w', r) ->
  untouched fs_get [srr; tmp] f f' /\
  (fs_get f' srr = fs_get f srr \/ fs_get f' srr = None \/ (e = None /\ fs_get f' srr = Some (written l))) /\
  (r = Done -> if may f srr then e = None /\ fs_get f' srr = Some (written l) /\ fs_get f' tmp = None else f' = f).
Proof.
  intros Hn H. assert (forall L f', incl L [srr; tmp] -> same_but L f f' -> untouched fs_get [srr; tmp] f f') as U by (intros L g I A q Hq; apply A; auto). unfold srr_create in H. destruct (may f srr).
  - destruct e as [e|].
    + destruct (handle srr _ f w) as [[f1 w1] r1] eqn:E. eapply handle_thm in E; [|apply create_bad]. destruct E as (S & N & _).
      assert (srr_now None srr f f' /\ same_but [srr; tmp; srr] f f' /\ r <> Done) as (N' & S' & R).
      { assert (forall g w2 r2, failed srr f1 w1 = (g, w2, r2) -> srr_now None srr f g /\ same_but [srr; tmp; srr] f g /\ r2 <> Done) as K.
        { intros g w2 r2 X. apply failed_thm in X. destruct X as (A & B & C). split; [|split; [|exact B]].
          - destruct C as [C|C]; unfold srr_now; rewrite C; auto.
          - apply (same_trans _ f f1); [exact S|]. apply (same_more [srr]); [|exact A]. intros x [<- |[]]. now left. }
        destruct r1; [destruct (caught e); [now apply K in H|]|..]; (injection H as <- <- <-; split; [exact N|]; split; [exact S|discriminate]). }
      split; [apply (U [srr; tmp; srr]); [intros x Hx; cbn in *; tauto|exact S']|]. split; [|congruence]. destruct N' as [N'|[N'|[X _]]]; auto; congruence.
    + eapply (handle_thm [tmp; srr] (Some (written l))) in H; [|intros; now apply create_all in H0]. destruct H as (S & N & D). split; [apply (U [srr; tmp; srr]); [intros x Hx; cbn in *; tauto|exact S]|]. split.
      * destruct N as [N|[N|[_ N]]]; auto.
      * intros R. apply D in R. apply create_all in R. split; [reflexivity|]. now apply R.
  - unfold handle in H. rewrite replace_none in H by exact Hn. injection H as <- <- <-. split; [intros q _; reflexivity|]. split; [now left|auto].
Qed.
Lemma srr_create_calm f w : calm w -> may f srr = true -> exists f' w', srr_create may srr tmp l None f w = (f', w', Done).
Proof.
  intros C M. unfold srr_create. rewrite M. unfold handle. rewrite andthen_assoc. unfold andthen at 1. destruct (make_calm tmp l f w C) as (f1 & w1 & C1 & E). rewrite E. apply make_thm in E. destruct E as [_ D]. destruct (D eq_refl) as [_ G].
  destruct (replace_calm tmp srr f1 w1 _ C1 Ht G) as (f2 & w2 & _ & ->). eauto.
Qed.
(** ** srs *)
Lemma srs_create_thm ok f w f' w' r : srs_create may srr tmp ok l f w = (f', w', r) ->
  untouched fs_get [srr; tmp] f f' /\
  (fs_get f' srr = fs_get f srr \/ (ok = true /\ (fs_get f' srr = Some (written l) \/ (fs_get f' srr = None /\ (fs_get f' tmp = Some (written l) \/ r = Raised))))) /\
  (r = Done -> if may f srr then ok = true /\ fs_get f' srr = Some (written l) /\ fs_get f' tmp = None else f' = f).
Proof.
  intros H. unfold srs_create in H. destruct (may f srr); [|injection H as <- <- <-; split; [intros q _; reflexivity|]; split; [now left|auto]].
  rewrite andthen_assoc in H. unfold andthen at 1 in H. destruct ((act (OCreate tmp) ;; body tmp ok l) f w) as [[f1 w1] r1] eqn:E. apply make_thm in E. destruct E as [S D].
  assert (fs_get f1 srr = fs_get f srr) as Es by (apply S; intros [X|[]]; congruence).
  assert (untouched fs_get [srr; tmp] f f1) as S1 by (intros q Hq; apply S; intros [X|[]]; apply Hq; right; now left).
  destruct r1; [|injection H as <- <- <-; split; [exact S1|]; split; [left; exact Es|discriminate]..]. destruct (D eq_refl) as [Ok G]. destruct (replace_shape tmp srr f1 w1 f' w' r _ Ht G H) as (S2 & N & X & Y). split; [|split].
  - intros q Hq. rewrite S2; [now apply S1|]. intros [<- |[<- |[]]]; apply Hq; cbn; auto.
  - rewrite <- Es. destruct N as [N|[N|N]]; [now left| |right; auto]. destruct Y as [Y|[Y|Y]]; [now left|right; auto|]. right. split; [exact Ok|]. right. auto.
  - intros R. split; [exact Ok|]. now apply X.
Qed.
End SrrCreate.

(** ** Rebuilding *)
Section Rebuild.
Variables (wanted : N) (music same keep : bool) (result : text).
Let fin := finish wanted music same keep result.
Let oth := others wanted music same keep result.
Lemma make_at a f w f' w' r : make a f w = (f', w', r) -> same_but [a_tmp a] f f' /\ (r = Done -> a_ok a = true /\ fs_get f' (a_tmp a) = Some (written (a_parts a))).
Proof. apply make_thm. Qed.
(** one of the attempts is used, in its whole, or nothing happens outside of the temporary files *)
Lemma others_thm T (l : list attempt) : incl (map a_tmp l) T -> forall before f w f' w' r,
  (forall b, before = Some b -> In (a_tmp b) T /\ fs_get f (a_tmp b) = Some (written (a_parts b)) /\ good wanted b = false) ->
  oth before l f w = (f', w', r) ->
  (exists a f1 w1, (In a l \/ before = Some a) /\ same_but T f f1 /\ fs_get f1 (a_tmp a) = Some (written (a_parts a)) /\ fin a f1 w1 = (f', w', r) /\
     (good wanted a = true \/ forall b, In b l -> good wanted b = false)) \/
  (r <> Done /\ same_but T f f').
Proof.
  induction l as [|a l IH]; intros I before f w f' w' r Hb H; subst oth fin.
  - cbn in H. destruct before as [b|].
    + left. exists b, f, w. destruct (Hb b eq_refl) as (A & B & C). split; [auto|]. split; [intros q _; reflexivity|]. split; [exact B|]. split; [exact H|]. right. intros c [].
    + right. unfold raise in H. injection H as <- <- <-. split; [discriminate|intros q _; reflexivity].
  - cbn [others] in H. unfold andthen at 1 in H. destruct ((match before with Some b => act (OUnlink (a_tmp b)) | None => ret end) f w) as [[f1 w1] r1] eqn:E1.
    assert (same_but T f f1) as S1.
    { destruct before as [b|]; [|injection E1 as <- <- <-; intros q _; reflexivity]. apply act_unlink in E1. destruct E1 as [[-> _]|[-> _]]; [|intros q _; reflexivity].
      destruct (Hb b eq_refl) as (A & _). intros q Hq. rewrite fs_get_del, neq_teqb; [reflexivity|]. intros X. subst q. contradiction. }
    assert (In (a_tmp a) T) as Ia by (apply I; now left).
    destruct r1; [|right; injection H as <- <- <-; (split; [discriminate|exact S1])..].
    unfold andthen in H. destruct (make a f1 w1) as [[f2 w2] r2] eqn:E2. apply make_at in E2. destruct E2 as [S2 D].
    assert (same_but T f f2) as S3. { apply (same_trans _ f f1); [exact S1|]. apply (same_more [a_tmp a]); [|exact S2]. intros x [<- |[]]. exact Ia. }
    destruct r2; [|right; injection H as <- <- <-; (split; [discriminate|exact S3])..]. destruct (D eq_refl) as [_ G]. destruct (good wanted a) eqn:Ga.
    + left. exists a, f2, w2. split; [left; now left|]. auto.
    + apply IH in H; [|intros x Hx; apply I; now right|intros b X; apply some_inj in X; subst b; auto]. destruct H as [(c & g & v & A & B & C & D' & F)|[R S]].
      * left. exists c, g, v. split; [destruct A as [A|A]; [left; now right|apply some_inj in A; subst c; left; now left]|]. split; [now apply (same_trans _ f f2)|]. split; [exact C|]. split; [exact D'|].
        destruct F as [F|F]; [now left|]. right. intros b [<- |Hb2]; [exact Ga|now apply F].
      * right. split; [exact R|]. now apply (same_trans _ f f2).
Qed.
Definition now_at (a : attempt) (f f' : fs) : Prop := fs_get f' result = fs_get f result \/ fs_get f' result = None \/ fs_get f' result = Some (written (a_parts a)).
Lemma fin_thm a f w f' w' r : a_tmp a <> result -> fs_get f (a_tmp a) = Some (written (a_parts a)) -> fin a f w = (f', w', r) ->
  same_but [a_tmp a; result] f f' /\ now_at a f f' /\
  (r = Done -> good wanted a = true /\ fs_get f' result = Some (written (a_parts a)) /\ fs_get f' (a_tmp a) = None) /\
  (good wanted a = false -> music = true -> same = true -> f' = f).
Proof.
  intros Ht G H. subst fin oth. unfold finish in H. destruct (good wanted a) eqn:Ga.
  { destruct (replace_shape _ _ _ _ _ _ _ _ Ht G H) as (S & N & D & _). split; [exact S|]. split; [exact N|]. split; [auto|discriminate]. }
  assert (forall f' w' r, (replace_result (a_tmp a) result ;; raise) f w = (f', w', r) -> same_but [a_tmp a; result] f f' /\ now_at a f f' /\ r <> Done) as K1.
  { intros g v o X. unfold andthen in X. destruct (replace_result _ _ f w) as [[f1 w1] r1] eqn:E. destruct (replace_shape _ _ _ _ _ _ _ _ Ht G E) as (S & N & _). destruct r1; injection X as <- <- <-; (split; [exact S|]; split; [exact N|discriminate]). }
  assert (forall f' w' r, ((replace_result (a_tmp a) result ;; act (OUnlink result)) ;; raise) f w = (f', w', r) -> same_but [a_tmp a; result] f f' /\ now_at a f f' /\ r <> Done) as K2.
  { intros g v o X. unfold andthen in X. destruct (replace_result _ _ f w) as [[f1 w1] r1] eqn:E. destruct (replace_shape _ _ _ _ _ _ _ _ Ht G E) as (S & N & _). destruct r1; [|injection X as <- <- <-; (split; [exact S|]; split; [exact N|discriminate])..].
    destruct (act (OUnlink result) f1 w1) as [[f2 w2] r2] eqn:E2. apply act_unlink in E2. destruct E2 as [[-> ->]|[-> R]].
    - injection X as <- <- <-. split; [|split; [|discriminate]].
      + apply (same_trans _ f f1); [exact S|]. intros q Hq. rewrite fs_get_del, neq_teqb; [reflexivity|]. intros ->. apply Hq. cbn. auto.
      + right. left. now rewrite fs_get_del, teqb_refl.
    - destruct r2; [congruence| |]; injection X as <- <- <-; (split; [exact S|]; split; [exact N|discriminate]). }
  assert (forall f' w' r, (ret ;; raise) f w = (f', w', r) -> same_but [a_tmp a; result] f f' /\ now_at a f f' /\ r <> Done /\ f' = f) as K3.
  { intros g v o X. injection X as <- <- <-. split; [intros q _; reflexivity|]. split; [now left|]. split; [discriminate|reflexivity]. }
  destruct keep, music, same; cbn [negb] in H; first [apply K1 in H|apply K2 in H|apply K3 in H]; destruct H as (A & B & C); (split; [exact A|]; split; [exact B|]; split; [tauto|]); try discriminate. 1,2: intros; now apply C.
Qed.
Lemma srs_rebuild_thm may first more f w f' w' r : Forall (fun a => a_tmp a <> result) (first :: more) -> srs_rebuild wanted music same keep result may first more f w = (f', w', r) ->
  untouched fs_get (result :: map a_tmp (first :: more)) f f' /\
  (fs_get f' result = fs_get f result \/ fs_get f' result = None \/ exists a, In a (first :: more) /\ fs_get f' result = Some (written (a_parts a))) /\
  (r = Done -> exists a, In a (first :: more) /\ crc32 (written (a_parts a)) = wanted /\ fs_get f' result = Some (written (a_parts a)) /\ fs_get f' (a_tmp a) = None) /\
  (may f result = false -> f' = f /\ r = Raised) /\
  (music = true -> same = true -> Forall (fun a => crc32 (written (a_parts a)) <> wanted) (first :: more) -> fs_get f' result = fs_get f result).
Proof.
  intros Ht H. rewrite Forall_forall in Ht. unfold srs_rebuild in H. set (T := map a_tmp (first :: more)) in *. assert (forall a, In a (first :: more) -> In (a_tmp a) T) as IT by (intros a Ha; now apply in_map).
  assert (~ In result T) as NT. { intros X. apply in_map_iff in X. destruct X as (a & E & Ha). now apply (Ht a). }
  assert (forall f1, same_but T f f1 -> f' = f1 -> r <> Done ->
    untouched fs_get (result :: T) f f' /\ (fs_get f' result = fs_get f result \/ fs_get f' result = None \/ exists a, In a (first :: more) /\ fs_get f' result = Some (written (a_parts a))) /\
    (r = Done -> exists a, In a (first :: more) /\ crc32 (written (a_parts a)) = wanted /\ fs_get f' result = Some (written (a_parts a)) /\ fs_get f' (a_tmp a) = None) /\
    (music = true -> same = true -> Forall (fun a => crc32 (written (a_parts a)) <> wanted) (first :: more) -> fs_get f' result = fs_get f result)) as K1.
  { intros f1 S -> R. split; [intros q Hq; apply S; intros X; apply Hq; now right|]. split; [left; now apply S|]. split; [congruence|]. intros _ _ _. now apply S. }
  assert (forall a f1 w1, In a (first :: more) -> same_but T f f1 -> fs_get f1 (a_tmp a) = Some (written (a_parts a)) -> fin a f1 w1 = (f', w', r) ->
    untouched fs_get (result :: T) f f' /\ (fs_get f' result = fs_get f result \/ fs_get f' result = None \/ exists a, In a (first :: more) /\ fs_get f' result = Some (written (a_parts a))) /\
    (r = Done -> exists a, In a (first :: more) /\ crc32 (written (a_parts a)) = wanted /\ fs_get f' result = Some (written (a_parts a)) /\ fs_get f' (a_tmp a) = None) /\
    (music = true -> same = true -> Forall (fun a => crc32 (written (a_parts a)) <> wanted) (first :: more) -> fs_get f' result = fs_get f result)) as K2.
  { intros a f1 w1 Ha S G X. apply fin_thm in X; [|now apply Ht|exact G]. destruct X as (S2 & N & D & M). assert (fs_get f1 result = fs_get f result) as E by now apply S. split; [|split; [|split]].
    - intros q Hq. rewrite S2; [apply S; intros X; apply Hq; now right|]. intros [<- |[<- |[]]]; apply Hq; [right; now apply IT|now left].
    - unfold now_at in N. rewrite E in N. destruct N as [N|[N|N]]; eauto.
    - intros R. destruct (D R) as (A & B & C). exists a. split; [exact Ha|]. split; [unfold good in A; lia|auto].
    - intros A B C. rewrite Forall_forall in C. specialize (C a Ha). rewrite M; auto. unfold good. lia. }
  destruct (may f result).
  2: { injection H as <- <- <-. assert (same_but T f f) as S0 by (intros q _; reflexivity). assert (Raised <> Done) as X by discriminate. destruct (K1 f S0 eq_refl X) as (A & B & C & D). split; [exact A|]. split; [exact B|]. split; [exact C|]. split; [auto|exact D]. }
  assert (true = false -> f' = f /\ r = Raised) as Z by discriminate. cut (untouched fs_get (result :: T) f f' /\ (fs_get f' result = fs_get f result \/ fs_get f' result = None \/ exists a, In a (first :: more) /\ fs_get f' result = Some (written (a_parts a))) /\
    (r = Done -> exists a, In a (first :: more) /\ crc32 (written (a_parts a)) = wanted /\ fs_get f' result = Some (written (a_parts a)) /\ fs_get f' (a_tmp a) = None) /\
    (music = true -> same = true -> Forall (fun a => crc32 (written (a_parts a)) <> wanted) (first :: more) -> fs_get f' result = fs_get f result)); [intros (A & B & C & D); split; [exact A|]; split; [exact B|]; split; [exact C|]; split; [exact Z|exact D]|].
  unfold andthen in H. destruct (make first f w) as [[f1 w1] r1] eqn:E. apply make_at in E. destruct E as [S D]. assert (same_but T f f1) as S1 by (apply (same_more [a_tmp first]); [intros x [<- |[]]; now left|exact S]).
  destruct r1; [|apply (K1 f1 S1); [now injection H|injection H as _ _ <-; discriminate]..]. destruct (D eq_refl) as [_ G].
  destruct (good wanted first); [apply (K2 first f1 w1); auto; now left|]. destruct more as [|a more]; [apply (K2 first f1 w1); auto; now left|].
  apply (others_thm T) in H; [|intros x Hx; now right|discriminate]. destruct H as [(c & f2 & w2 & A & B & C & D' & _)|[R S2]].
  - destruct A as [A|A]; [|discriminate A]. apply (K2 c f2 w2); [now right|now apply (same_trans _ f f1)|exact C|exact D'].
  - apply (K1 f'); [now apply (same_trans _ f f1)|reflexivity|exact R].
Qed.
End Rebuild.
Section RebuildCalm.
Lemma make_at_calm a f w : calm w -> a_ok a = true -> exists f' w', calm w' /\ make a f w = (f', w', Done).
Proof. intros C Ok. unfold make. rewrite Ok. now apply make_calm. Qed.
Variables (wanted : N) (music same keep : bool) (result : text).
Lemma fin_calm a f w : calm w -> good wanted a = true -> a_tmp a <> result -> fs_get f (a_tmp a) = Some (written (a_parts a)) ->
  exists f' w', finish wanted music same keep result a f w = (f', w', Done) /\ fs_get f' result = Some (written (a_parts a)).
Proof.
  intros C Ga N G. unfold finish. rewrite Ga. destruct (replace_calm _ _ f w _ C N G) as (f' & w' & _ & E). exists f', w'. split; [exact E|]. apply replace_shape with (new := written (a_parts a)) in E; auto. now apply E.
Qed.
Lemma others_calm a l : Forall (fun b => a_ok b = true /\ a_tmp b <> result) l -> find (good wanted) l = Some a -> forall before f w, calm w ->
  (forall b, before = Some b -> fs_get f (a_tmp b) <> None) ->
  exists f' w', others wanted music same keep result before l f w = (f', w', Done) /\ fs_get f' result = Some (written (a_parts a)).
Proof.
  induction l as [|b l IH]; intros F Hf before f w C Hb; [discriminate Hf|]. inversion F as [|? ? [Ok N] F']; subst. cbn [others].
  assert (exists f1 w1, calm w1 /\ (match before with Some b => act (OUnlink (a_tmp b)) | None => ret end) f w = (f1, w1, Done)) as (f1 & w1 & C1 & E1).
  { destruct before as [p|]; [|exists f, w; auto]. assert (apply_op (OUnlink (a_tmp p)) f = Some (fs_del f (a_tmp p))) as A. { cbn. unfold isfile. specialize (Hb p eq_refl). destruct (fs_get f (a_tmp p)); [reflexivity|congruence]. }
    destruct (act_calm _ f w _ C A) as (w1 & C1 & E). eauto. }
  unfold andthen at 1. rewrite E1. destruct (make_at_calm b f1 w1 C1 Ok) as (f2 & w2 & C2 & E2). unfold andthen at 1. rewrite E2.
  apply make_at in E2. destruct E2 as [_ D]. destruct (D eq_refl) as [_ G]. cbn in Hf. destruct (good wanted b) eqn:Gb.
  - apply some_inj in Hf. subst b. now apply fin_calm.
  - apply IH; auto. intros c X. apply some_inj in X. subst c. congruence.
Qed.
Lemma srs_rebuild_calm may first more a f w : calm w -> may f result = true -> Forall (fun b => a_ok b = true /\ a_tmp b <> result) (first :: more) ->
  find (fun b => crc32 (written (a_parts b)) =? wanted) (first :: more) = Some a ->
  exists f' w', srs_rebuild wanted music same keep result may first more f w = (f', w', Done) /\ fs_get f' result = Some (written (a_parts a)).
Proof.
  intros C M F Hf. unfold srs_rebuild. rewrite M. inversion F as [|? ? [Ok N] F']; subst. destruct (make_at_calm first f w C Ok) as (f2 & w2 & C2 & E2). unfold andthen at 1. rewrite E2.
  apply make_at in E2. destruct E2 as [_ D]. destruct (D eq_refl) as [_ G]. cbn in Hf. fold (good wanted first) in Hf. destruct (good wanted first) eqn:Gb.
  - apply some_inj in Hf. subst a. now apply fin_calm.
  - destruct more as [|b more]; [discriminate Hf|]. apply others_calm; auto. discriminate.
Qed.
End RebuildCalm.

(** ** With the question *)
Lemma srr_may_spec yes no answer f p : srr_may yes no answer f p = true <-> allowed yes no answer (fs_get f p).
Proof.
  unfold srr_may, allowed, isfile. destruct (fs_get f p); destruct yes, no, answer; cbn; split; intros H; try reflexivity; try discriminate; auto; destruct H as [H|[H [X|X]]]; discriminate.
Qed.
Lemma srs_may_spec yes answer f p : srs_may yes answer f p = true <-> allowed yes false answer (fs_get f p).
Proof.
  unfold srs_may, allowed, isfile. destruct (fs_get f p); destruct yes, answer; cbn; split; intros H; try reflexivity; try discriminate; auto; destruct H as [H|[H [X|X]]]; discriminate.
Qed.
Lemma srr_created yes no answer srr tmp l e f w f' w' r : tmp <> srr -> fs_get f tmp = None -> srr_create (srr_may yes no answer) srr tmp l e f w = (f', w', r) ->
  untouched fs_get [srr; tmp] f f' /\
  (fs_get f' srr = fs_get f srr \/ fs_get f' srr = None \/ (e = None /\ fs_get f' srr = Some (written l))) /\
  (~ allowed yes no answer (fs_get f srr) -> f' = f /\ r = Done) /\
  (allowed yes no answer (fs_get f srr) -> r = Done -> e = None /\ fs_get f' srr = Some (written l) /\ fs_get f' tmp = None).
Proof.
  intros Ht Hn H. pose proof (srr_create_thm _ srr tmp l Ht e f w f' w' r Hn H) as (A & B & C). split; [exact A|]. split; [exact B|]. rewrite <- srr_may_spec. split.
  - intros X. apply not_true_is_false in X. unfold srr_create in H. rewrite X in H. unfold handle in H. rewrite replace_none in H by exact Hn. injection H as <- _ <-. now split.
  - intros X R. specialize (C R). now rewrite X in C.
Qed.
Lemma srr_created_calm yes no answer srr tmp l f w : Forall (eq Good) w -> tmp <> srr -> allowed yes no answer (fs_get f srr) -> exists f' w', srr_create (srr_may yes no answer) srr tmp l None f w = (f', w', Done).
Proof. intros C T A. apply srr_create_calm; auto. now apply srr_may_spec. Qed.
Lemma srs_created yes answer srs tmp ok l f w f' w' r : tmp <> srs -> srs_create (srs_may yes answer) srs tmp ok l f w = (f', w', r) ->
  untouched fs_get [srs; tmp] f f' /\
  (fs_get f' srs = fs_get f srs \/ (ok = true /\ (fs_get f' srs = Some (written l) \/ (fs_get f' srs = None /\ (fs_get f' tmp = Some (written l) \/ r = Raised))))) /\
  (~ allowed yes false answer (fs_get f srs) -> f' = f /\ r = Done) /\
  (allowed yes false answer (fs_get f srs) -> r = Done -> ok = true /\ fs_get f' srs = Some (written l) /\ fs_get f' tmp = None).
Proof.
  intros Ht H. pose proof (srs_create_thm _ srs tmp l Ht ok f w f' w' r H) as (A & B & C). split; [exact A|]. split; [exact B|]. rewrite <- srs_may_spec. split.
  - intros X. apply not_true_is_false in X. unfold srs_create in H. rewrite X in H. injection H as <- _ <-. now split.
  - intros X R. specialize (C R). now rewrite X in C.
Qed.
Lemma srs_created_calm yes answer srs tmp l f w : Forall (eq Good) w -> tmp <> srs -> allowed yes false answer (fs_get f srs) -> exists f' w', srs_create (srs_may yes answer) srs tmp true l f w = (f', w', Done).
Proof.
  intros C T A. apply srs_may_spec in A. unfold srs_create. rewrite A. rewrite andthen_assoc. unfold andthen at 1. destruct (make_calm tmp l f w C) as (f1 & w1 & C1 & E). rewrite E. apply make_thm in E. destruct E as [_ D]. destruct (D eq_refl) as [_ G].
  destruct (replace_calm tmp srs f1 w1 _ C1 T G) as (f2 & w2 & _ & ->). eauto.
Qed.
Lemma srs_rebuilt wanted music same keep result yes answer first more f w f' w' r : Forall (fun a => a_tmp a <> result) (first :: more) -> srs_rebuild wanted music same keep result (srs_may yes answer) first more f w = (f', w', r) ->
  untouched fs_get (result :: map a_tmp (first :: more)) f f' /\
  (fs_get f' result = fs_get f result \/ fs_get f' result = None \/ exists a, In a (first :: more) /\ fs_get f' result = Some (written (a_parts a))) /\
  (r = Done -> exists a, In a (first :: more) /\ crc32 (written (a_parts a)) = wanted /\ fs_get f' result = Some (written (a_parts a)) /\ fs_get f' (a_tmp a) = None) /\
  (~ allowed yes false answer (fs_get f result) -> f' = f /\ r = Raised) /\
  (music = true -> same = true -> Forall (fun a => crc32 (written (a_parts a)) <> wanted) (first :: more) -> fs_get f' result = fs_get f result).
Proof.
  intros Ht H. apply srs_rebuild_thm in H; [|exact Ht]. destruct H as (A & B & C & D & E). split; [exact A|]. split; [exact B|]. split; [exact C|]. split; [|exact E]. intros X. apply D. rewrite <- srs_may_spec in X. now apply not_true_is_false.
Qed.
Lemma srs_rebuilt_calm wanted music same keep result yes answer first more a f w : Forall (eq Good) w -> allowed yes false answer (fs_get f result) -> Forall (fun b => a_ok b = true /\ a_tmp b <> result) (first :: more) ->
  find (fun b => crc32 (written (a_parts b)) =? wanted) (first :: more) = Some a ->
  exists f' w', srs_rebuild wanted music same keep result (srs_may yes answer) first more f w = (f', w', Done) /\ fs_get f' result = Some (written (a_parts a)).
Proof. intros C A. apply srs_rebuild_calm; auto. now apply srs_may_spec. Qed.
