(** MoveSceneFacts: proofs about moving releases. *)
From Verif Require Import Base BaseFacts Path SrrFacts MoveScene MoveSceneSpec.

Lemma starts_is (p t : text) : starts_with N.eqb p t = true <-> exists r, t = p ++ r.
Proof.
  revert t. induction p as [|x p IH]; intros t; cbn [starts_with app]; [split; [intros _; now exists t|reflexivity]|].
  destruct t as [|y t]; [split; [discriminate|intros (r & E); discriminate E]|]. rewrite Bool.andb_true_iff, N.eqb_eq, IH. split.
  - intros (-> & r & ->). now exists r.
  - intros (r & E). injection E as -> ->. split; [reflexivity|now exists r].
Qed.
Lemma cut_skip s t : forall k, cut s k t = cut s O (skipn k t).
Proof. induction t as [|c t IH]; intros [|k]; try reflexivity. cbn [cut skipn]. apply IH. Qed.
Lemma cut_hit s r : s <> [] -> cut s O (s ++ r) = cut s O r.
Proof.
  intros H. destruct s as [|c s]; [contradiction|]. cbn [app cut]. assert (E : starts_with N.eqb (c :: s) (c :: s ++ r) = true) by (apply starts_is; now exists r). rewrite E. rewrite cut_skip. cbn [length]. f_equal.
  replace (S (length s) - 1)%nat with (length s) by lia. rewrite skipn_app, skipn_all, Nat.sub_diag. reflexivity.
Qed.
Lemma cut_is s : s <> [] -> forall t u, cuts s t u <-> u = cut s O t.
Proof.
  intros Hs t u. split.
  - induction 1 as [|r u _ IH|c r u M _ IH]; [reflexivity|now rewrite cut_hit|]. cbn [cut]. destruct (starts_with N.eqb s (c :: r)) eqn:E; [apply starts_is in E; destruct E as (b & E); destruct (M b E)|now rewrite IH].
  - intros ->. assert (X : forall n t, (length t <= n)%nat -> cuts s t (cut s O t)); [|now apply (X (length t))]. clear t. induction n as [|n IH]; intros t L.
    + destruct t; [constructor|cbn [length] in L; lia].
    + destruct t as [|c t]; [constructor|]. destruct (starts_with N.eqb s (c :: t)) eqn:E.
      * apply starts_is in E. destruct E as (b & E). rewrite E, cut_hit by exact Hs. apply cu_hit. apply IH. apply (f_equal (@length N)) in E. rewrite app_length in E. destruct s; [contradiction|]. cbn [length] in *. lia.
      * cbn [cut]. rewrite E. apply cu_miss; [|apply IH; cbn [length] in L; lia]. intros b X. assert (starts_with N.eqb s (c :: t) = true) by (apply starts_is; now exists b). congruence.
Qed.
Lemma last_is t x : after_dash t x <-> x = last_part t.
Proof.
  unfold last_part. assert (A : after_dash t (fold_left (fun (x : text) c => if c =? 45 then [] else x ++ [c]) t [])).
  { induction t as [|c t (N0 & H)] using rev_ind; [split; [intros []|now left]|]. rewrite fold_left_app. cbn [fold_left]. set (y := fold_left (fun (x : text) c => if c =? 45 then [] else x ++ [c]) t []) in *. destruct (c =? 45) eqn:E.
    - apply N.eqb_eq in E. subst c. split; [intros []|]. right. now exists t.
    - apply N.eqb_neq in E. split; [intros I; apply in_app_or in I; destruct I as [I|[I|[]]]; [contradiction|congruence]|]. destruct H as [H|(a & H)]; [left; now rewrite <- H|right; exists a; rewrite H, <- app_assoc; reflexivity]. }
  split; [|intros ->; exact A]. intros B. set (y := fold_left (fun (x : text) c => if c =? 45 then [] else x ++ [c]) t []) in *. clearbody y. destruct A as (Na & A), B as (Nb & B).
  assert (U : forall a b (x y : text), ~ In 45 x -> ~ In 45 y -> a ++ 45 :: x = b ++ 45 :: y -> x = y).
  { induction a as [|c a IH]; intros [|k b] u v Nu Nv E; cbn [app] in E; apply (f_equal (@tl N)) in E; cbn [tl] in E; [exact E| | |exact (IH b u v Nu Nv E)].
    - exfalso. apply Nu. rewrite E. apply in_or_app. right. now left.
    - exfalso. apply Nv. rewrite <- E. apply in_or_app. right. now left. }
  destruct A as [A|(a & A)], B as [B|(b & B)].
  - congruence.
  - exfalso. apply Na. rewrite <- A, B. apply in_or_app. right. now left.
  - exfalso. apply Nb. rewrite <- B, A. apply in_or_app. right. now left.
  - apply (U b a x y Nb Na). congruence.
Qed.
Theorem group_thm r x : group_of r x <-> x = get_groupname r.
Proof.
  unfold group_of, get_groupname. assert (N1 : str ".nzb" <> []) by discriminate. assert (N2 : str ".srr" <> []) by discriminate. split.
  - intros (a & b & A & B & C). apply (cut_is _ N1) in A. apply (cut_is _ N2) in B. apply last_is in C. now rewrite <- A, <- B.
  - intros ->. eexists. eexists. split; [apply (cut_is _ N1); reflexivity|]. split; [apply (cut_is _ N2); reflexivity|]. now apply last_is.
Qed.
Lemma line_is lines x : In x (get_groups lines) <-> group_line lines x.
Proof.
  unfold get_groups, group_line. rewrite in_map_iff. split.
  - intros (l & <- & I). exists l, (get_groupname l). split; [exact I|]. split; [now apply group_thm|reflexivity].
  - intros (l & y & I & G & ->). apply group_thm in G. subst y. now exists l.
Qed.
Lemma tested_is e : tested e = true <-> looks e.
Proof.
  unfold tested, looks. rewrite !Bool.andb_true_iff, !Bool.negb_true_iff. assert (S0 : existsb (N.eqb 32) e = false <-> ~ In 32 e).
  { assert (X : existsb (N.eqb 32) e = true <-> In 32 e) by (rewrite existsb_exists; split; [intros (c & I & E); apply N.eqb_eq in E; now subst c|intros I; exists 32; now rewrite N.eqb_refl]). rewrite <- X. now destruct (existsb (N.eqb 32) e); split; intros; congruence. }
  assert (T : forall a b, teqb a b = false <-> a <> b) by (intros a b; rewrite <- teqb_eq; destruct (teqb a b); split; intros; congruence). rewrite S0, !T. split.
  - intros (((A & B) & C) & D). split; [exact A|]. split; [exact B|]. exists (get_groupname e). split; [now apply group_thm|]. split; [congruence|exact D].
  - intros (A & B & x & G & C & D). apply group_thm in G. subst x. repeat split; congruence.
Qed.
Theorem scene_thm lines e : tested e && mem_text (get_groupname e) (get_groups lines) = true <-> scene lines e.
Proof.
  unfold scene. rewrite Bool.andb_true_iff, tested_is. assert (M : mem_text (get_groupname e) (get_groups lines) = true <-> exists x, group_of e x /\ group_line lines x).
  { unfold mem_text. rewrite existsb_exists. split.
    - intros (x & I & E). apply teqb_eq in E. subst x. exists (get_groupname e). split; [now apply group_thm|now apply line_is].
    - intros (x & G & L). apply group_thm in G. subst x. exists (get_groupname e). split; [now apply line_is|apply teqb_refl]. }
  now rewrite M.
Qed.
Lemma put_same k c d : put k c d k = Some c.
Proof. unfold put. now rewrite teqb_refl. Qed.
Lemma put_other k c d q : q <> k -> put k c d q = d q.
Proof. intros H. unfold put. destruct (teqb k q) eqn:E; [apply teqb_eq in E; congruence|reflexivity]. Qed.
Lemma del_same k d : del k d k = None.
Proof. unfold del. now rewrite teqb_refl. Qed.
Lemma del_other k d q : q <> k -> del k d q = d q.
Proof. intros H. unfold del. destruct (teqb k q) eqn:E; [apply teqb_eq in E; congruence|reflexivity]. Qed.
Lemma loop_is g l : forall d0, NoDup (map (fun x => fst (snd x)) l) ->
  (forall e p q, In (e, (p, q)) l -> tested e && mem_text (get_groupname e) g = true -> d0 p <> None /\ d0 q = None) ->
  (forall e p q e' p' q', In (e, (p, q)) l -> In (e', (p', q')) l -> tested e && mem_text (get_groupname e) g = true -> tested e' && mem_text (get_groupname e') g = true -> p <> p' -> q <> q') ->
  exists d', loop (Some g) l d0 = (d', None) /\
    (forall e p q, In (e, (p, q)) l -> tested e && mem_text (get_groupname e) g = true -> d' p = None /\ d' q = d0 p) /\
    (forall x, (forall e p q, In (e, (p, q)) l -> tested e && mem_text (get_groupname e) g = true -> x <> p /\ x <> q) -> d' x = d0 x).
Proof.
  induction l as [|[e [p q]] l IH]; intros d0 ND H1 H2; cbn [loop].
  { exists d0. split; [reflexivity|]. split; [intros e p q []|reflexivity]. }
  cbn [map fst snd] in ND. inversion ND as [|? ? Np ND']; subst.
  assert (Skip : tested e && mem_text (get_groupname e) g = false -> exists d', loop (Some g) l d0 = (d', None) /\
    (forall e0 p0 q0, In (e0, (p0, q0)) ((e, (p, q)) :: l) -> tested e0 && mem_text (get_groupname e0) g = true -> d' p0 = None /\ d' q0 = d0 p0) /\
    (forall x, (forall e0 p0 q0, In (e0, (p0, q0)) ((e, (p, q)) :: l) -> tested e0 && mem_text (get_groupname e0) g = true -> x <> p0 /\ x <> q0) -> d' x = d0 x)).
  { intros F. destruct (IH d0 ND') as (d' & A & B & C); [intros e0 p0 q0 I; apply (H1 e0); now right|intros e0 p0 q0 e1 p1 q1 I J; apply (H2 e0 p0 q0 e1); now right|]. exists d'. split; [exact A|]. split.
    - intros e0 p0 q0 [I|I] T; [apply pair_equal_spec in I; destruct I as [<- _]; congruence|exact (B e0 p0 q0 I T)].
    - intros x Hx. apply C. intros e0 p0 q0 I. apply (Hx e0). now right. }
  destruct (tested e) eqn:T; [|exact (Skip eq_refl)]. destruct (mem_text (get_groupname e) g) eqn:M; [|exact (Skip eq_refl)]. clear Skip.
  assert (X : tested e && mem_text (get_groupname e) g = true) by now rewrite T, M. cbn [andb] in *.
  destruct (H1 e p q (or_introl eq_refl) X) as [Dp Dq]. unfold renames. destruct (d0 p) as [i|] eqn:Di; [|contradiction]. assert (PQ : p <> q) by congruence.
  replace (teqb p q) with false by (symmetry; destruct (teqb p q) eqn:E; [apply teqb_eq in E; contradiction|reflexivity]). rewrite Dq.
  assert (Tail : forall e' p' q', In (e', (p', q')) l -> tested e' && mem_text (get_groupname e') g = true -> (p' <> p /\ p' <> q) /\ (q' <> p /\ q' <> q)).
  { intros e' p' q' I Y. destruct (H1 e' p' q' (or_intror I) Y) as [Dp' Dq']. assert (N1 : p' <> p).
    { intros ->. apply Np. apply in_map_iff. exists (e', (p, q')). split; [reflexivity|exact I]. }
    split; split; [exact N1|congruence|congruence|]. intros E. symmetry in E. revert E. apply (H2 e p q e' p' q'); [now left|now right|exact X|exact Y|congruence]. }
  destruct (IH (put q i (del p d0)) ND') as (d' & A & B & C).
  - intros e' p' q' I Y. destruct (Tail e' p' q' I Y) as ((N1 & N2) & N3 & N4). rewrite !put_other, !del_other by assumption. exact (H1 e' p' q' (or_intror I) Y).
  - intros e1 p1 q1 e2 p2 q2 I J. apply (H2 e1 p1 q1 e2); now right.
  - exists d'. split; [exact A|]. split.
    + intros e' p' q' [I|I] Y.
      * apply pair_equal_spec in I. destruct I as [<- I]. apply pair_equal_spec in I. destruct I as [<- <-]. split.
        -- rewrite C; [rewrite put_other by exact PQ; apply del_same|]. intros e1 p1 q1 I1 Y1. destruct (Tail e1 p1 q1 I1 Y1) as ((N1 & N2) & N3 & N4). split; congruence.
        -- rewrite C; [rewrite Di; apply put_same|]. intros e1 p1 q1 I1 Y1. destruct (Tail e1 p1 q1 I1 Y1) as ((N1 & N2) & N3 & N4). split; congruence.
      * destruct (B e' p' q' I Y) as [B1 B2]. split; [exact B1|]. rewrite B2. destruct (Tail e' p' q' I Y) as ((N1 & N2) & _). now rewrite put_other, del_other.
    + intros x Hx. destruct (Hx e p q (or_introl eq_refl) X) as [N1 N2]. rewrite C; [now rewrite put_other, del_other|]. intros e' p' q' I. apply (Hx e'). now right.
Qed.
Lemma todo_in out dirs e p q : In (e, (p, q)) (flat_map (todo out) dirs) <-> exists dir names, In (dir, Some names) dirs /\ In e names /\ p = pjoin dir e /\ (out = [] /\ q = pjoin_all dir [str "scene"; e] \/ out <> [] /\ q = pjoin out e).
Proof.
  rewrite in_flat_map. split.
  - intros ((dir & o) & I & J). unfold todo in J. cbn [fst snd] in J. destruct o as [names|]; [|destruct J]. apply in_map_iff in J. destruct J as (e0 & E & J). apply pair_equal_spec in E. destruct E as [-> E]. apply pair_equal_spec in E. destruct E as [<- <-].
    exists dir, names. split; [exact I|]. split; [exact J|]. split; [reflexivity|]. destruct out; [left|right]; split; congruence.
  - intros (dir & names & I & J & -> & H). exists (dir, Some names). split; [exact I|]. unfold todo. cbn [fst snd]. apply in_map_iff. exists e. split; [|exact J]. destruct H as [(-> & ->)|(N0 & ->)]; [reflexivity|destruct out; [contradiction|reflexivity]].
Qed.
Lemma paths_is out dirs : map (fun x => fst (snd x)) (flat_map (todo out) dirs) = paths dirs.
Proof.
  unfold paths. induction dirs as [|[dir o] dirs IH]; [reflexivity|]. cbn [flat_map]. rewrite map_app, IH. f_equal. unfold todo. cbn [fst snd]. destruct o; [|reflexivity]. rewrite map_map. reflexivity.
Qed.
Lemma moves_is lines out dirs p q : moves lines out dirs p q <-> exists e, In (e, (p, q)) (flat_map (todo out) dirs) /\ tested e && mem_text (get_groupname e) (get_groups lines) = true.
Proof.
  unfold moves. split.
  - intros (dir & names & e & A & B & C & D & E). exists e. split; [apply todo_in; exists dir, names; auto|now apply scene_thm].
  - intros (e & I & S0). apply todo_in in I. destruct I as (dir & names & A & B & D & E). exists dir, names, e. apply scene_thm in S0. auto.
Qed.
Theorem main_thm lines out dirs d : clear lines out dirs d -> exists d', main (Some lines) out dirs d = (d', None) /\
  (forall p q, moves lines out dirs p q -> d' p = None /\ d' q = d p) /\
  (forall x, (forall p q, moves lines out dirs p q -> x <> p /\ x <> q) -> d' x = d x).
Proof.
  intros (ND & H1 & H2). unfold main. cbn [option_map]. rewrite <- (paths_is out) in ND. destruct (loop_is (get_groups lines) (flat_map (todo out) dirs) d ND) as (d' & A & B & C).
  - intros e p q I T. apply H1. apply moves_is. now exists e.
  - intros e p q e' p' q' I J T T'. apply H2; apply moves_is; eauto.
  - exists d'. split; [exact A|]. split.
    + intros p q M. apply moves_is in M. destruct M as (e & I & T). exact (B e p q I T).
    + intros x Hx. apply C. intros e p q I T. apply Hx. apply moves_is. now exists e.
Qed.
(** nothing else is ever touched *)
Theorem keep_thm ls out dirs d x : (forall lines p q, ls = Some lines -> moves lines out dirs p q -> x <> p /\ x <> q) -> fst (main ls out dirs d) x = d x.
Proof.
  intros H. unfold main. destruct ls as [lines|]; cbn [option_map].
  - assert (K : forall e p q, In (e, (p, q)) (flat_map (todo out) dirs) -> tested e && mem_text (get_groupname e) (get_groups lines) = true -> x <> p /\ x <> q) by (intros e p q I T; apply (H lines); [reflexivity|apply moves_is; now exists e]).
    clear H. revert d K. generalize (flat_map (todo out) dirs). intros l. induction l as [|[e [p q]] l IH]; intros d K; [reflexivity|]. cbn [loop].
    assert (K' : forall e p q, In (e, (p, q)) l -> tested e && mem_text (get_groupname e) (get_groups lines) = true -> x <> p /\ x <> q) by (intros e0 p0 q0 I; apply (K e0); now right).
    destruct (tested e) eqn:T; [|now apply IH]. destruct (mem_text (get_groupname e) (get_groups lines)) eqn:M; [|now apply IH].
    destruct (K e p q (or_introl eq_refl)) as [N1 N2]; [now rewrite T, M|]. unfold renames. destruct (d p) as [i|]; [|reflexivity]. destruct (teqb p q); [now apply IH|].
    destruct (d q) as [j|]; [destruct (i_dir i || i_dir j); [reflexivity|]|]; rewrite IH by exact K'; now rewrite put_other, del_other.
  - generalize (flat_map (todo out) dirs). intros l. induction l as [|[e [p q]] l IH]; [reflexivity|]. cbn [loop]. destruct (tested e); [reflexivity|exact IH].
Qed.
Theorem nolist_thm out dirs d : main None out dirs d = (d, Some UnboundLocal) /\ (exists dir names e, In (dir, Some names) dirs /\ In e names /\ looks e) \/
  main None out dirs d = (d, None) /\ (forall dir names e, In (dir, Some names) dirs -> In e names -> ~ looks e).
Proof.
  unfold main. cbn [option_map]. assert (L : forall l, loop None l d = (d, Some UnboundLocal) /\ (exists e p q, In (e, (p, q)) l /\ looks e) \/ loop None l d = (d, None) /\ (forall e p q, In (e, (p, q)) l -> ~ looks e)).
  { induction l as [|[e [p q]] l IH]; [right; split; [reflexivity|intros e p q []]|]. cbn [loop]. destruct (tested e) eqn:T.
    - left. split; [reflexivity|]. exists e, p, q. split; [now left|now apply tested_is].
    - destruct IH as [(A & e0 & p0 & q0 & I & K)|(A & B)]; [left; split; [exact A|]; exists e0, p0, q0; split; [now right|exact K]|right; split; [exact A|]]. intros e0 p0 q0 [I|I]; [|exact (B e0 p0 q0 I)]. apply pair_equal_spec in I. destruct I as [<- _]. rewrite <- tested_is. congruence. }
  destruct (L (flat_map (todo out) dirs)) as [(A & e & p & q & I & K)|(A & B)].
  - left. split; [exact A|]. apply todo_in in I. destruct I as (dir & names & I & J & _). exists dir, names, e. auto.
  - right. split; [exact A|]. intros dir names e I J. apply (B e (pjoin dir e) (match out with [] => pjoin_all dir [str "scene"; e] | _ => pjoin out e end)). apply todo_in. exists dir, names. split; [exact I|]. split; [exact J|]. split; [reflexivity|]. destruct out; [left|right]; split; congruence.
Qed.
(** folders are never overwritten *)
Lemma renames_dir p q d d1 i : renames p q d = Ok d1 -> i_dir i = true -> (exists y, d y = Some i) -> exists y, d1 y = Some i.
Proof.
  intros R Hi (y & Y). unfold renames in R. destruct (d p) as [k|] eqn:Dp; [|discriminate R]. destruct (teqb p q) eqn:E; [injection R as <-; now exists y|].
  assert (M : d q <> Some i -> exists z, put q k (del p d) z = Some i).
  { intros Nq. destruct (teqb y p) eqn:Ep; [apply teqb_eq in Ep; subst y; exists q; rewrite put_same; congruence|]. exists y. rewrite put_other, del_other; [exact Y|intros ->; rewrite teqb_refl in Ep; discriminate Ep|intros ->; contradiction]. }
  destruct (d q) as [j|].
  - destruct (i_dir k || i_dir j) eqn:O; [discriminate R|]. apply Bool.orb_false_iff in O. injection R as <-. apply M. intros X. injection X as ->. destruct O. congruence.
  - injection R as <-. apply M. discriminate.
Qed.
Theorem folder_thm ls out dirs d i : i_dir i = true -> (exists y, d y = Some i) -> exists y, fst (main ls out dirs d) y = Some i.
Proof.
  intros Hi. unfold main. generalize (option_map get_groups ls). intros g. generalize (flat_map (todo out) dirs). intros l. revert d. induction l as [|[e [p q]] l IH]; intros d H; [exact H|]. cbn [loop]. destruct (tested e); [|now apply IH]. destruct g as [g|]; [|exact H]. destruct (mem_text (get_groupname e) g); [|now apply IH].
  destruct (renames p q d) as [d1|x] eqn:R; [|exact H]. apply IH. exact (renames_dir p q d d1 i R Hi H).
Qed.
(** a release that is not there stops the program *)
Lemma loop_done g l : forall d, snd (loop (Some g) l d) = None -> forall e p q, In (e, (p, q)) l -> tested e && mem_text (get_groupname e) g = true ->
  d p <> None \/ exists e' p', In (e', (p', p)) l /\ tested e' && mem_text (get_groupname e') g = true.
Proof.
  induction l as [|[e0 [p0 q0]] l IH]; intros d H e p q I T; [destruct I|]. cbn [loop] in H.
  assert (Skip : tested e0 && mem_text (get_groupname e0) g = false -> snd (loop (Some g) l d) = None -> d p <> None \/ exists e' p', In (e', (p', p)) ((e0, (p0, q0)) :: l) /\ tested e' && mem_text (get_groupname e') g = true).
  { intros F S0. destruct I as [I|I]; [apply pair_equal_spec in I; destruct I as [-> _]; congruence|]. destruct (IH d S0 e p q I T) as [A|(e' & p' & A & B)]; [now left|right; exists e', p'; split; [now right|exact B]]. }
  destruct (tested e0) eqn:T0; [|exact (Skip eq_refl H)]. destruct (mem_text (get_groupname e0) g) eqn:M0; [|exact (Skip eq_refl H)]. clear Skip.
  destruct (renames p0 q0 d) as [d1|x] eqn:R; [|discriminate H]. destruct I as [I|I].
  - apply pair_equal_spec in I. destruct I as [_ I]. apply pair_equal_spec in I. destruct I as [<- _]. left. unfold renames in R. destruct (d p0); [discriminate|discriminate R].
  - destruct (IH d1 H e p q I T) as [A|(e' & p' & A & B)]; [|right; exists e', p'; split; [now right|exact B]].
    destruct (teqb p q0) eqn:E; [apply teqb_eq in E; subst q0; right; exists e0, p0; split; [now left|now rewrite T0, M0]|]. left. intros Dp. apply A.
    assert (Nq : p <> q0) by (intros ->; rewrite teqb_refl in E; discriminate E). assert (P1 : forall k, put q0 k (del p0 d) p = None) by (intros k; rewrite put_other by exact Nq; unfold del; destruct (teqb p0 p); [reflexivity|exact Dp]).
    unfold renames in R. destruct (d p0) as [k|]; [|discriminate R]. destruct (teqb p0 q0); [injection R as <-; exact Dp|]. destruct (d q0) as [j|]; [destruct (i_dir k || i_dir j); [discriminate R|]|]; injection R as <-; apply P1.
Qed.
Theorem done_thm lines out dirs d : snd (main (Some lines) out dirs d) = None -> forall p q, moves lines out dirs p q -> d p <> None \/ exists p', moves lines out dirs p' p.
Proof.
  intros H p q M. apply moves_is in M. destruct M as (e & I & T). destruct (loop_done _ _ d H e p q I T) as [A|(e' & p' & A & B)]; [now left|right; exists p'; apply moves_is; now exists e'].
Qed.
