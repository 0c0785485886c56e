(** NzbSplitFacts: lemmas for NzbSplit. *)
From Verif Require Import VolName Base BaseFacts Path NzbSplit NzbSplitSpec.

(** Names *)
Lemma repl_in a b t c : b <> a -> In c (repl a b t) -> c <> a.
Proof. intros D I ->. unfold repl in I. apply in_map_iff in I. destruct I as (x & E & _). destruct (x =? a) eqn:X; [congruence|]. apply N.eqb_neq in X. congruence. Qed.
Definition under (c : N) : N := if existsb (N.eqb c) FORBIDDEN then 95 else c.
Lemma under_spec c : cleaned c (under c).
Proof.
  unfold under, cleaned. destruct (existsb _ _) eqn:E.
  - left. split; [|reflexivity]. apply existsb_exists in E. destruct E as (x & I & X). apply N.eqb_eq in X. now subst.
  - right. split; [|reflexivity]. intros I. assert (X : existsb (N.eqb c) FORBIDDEN = true) by (apply existsb_exists; exists c; split; [exact I|apply N.eqb_refl]). congruence.
Qed.
Lemma repls_under t : repl 92 95 (repl 47 95 (repl 124 95 (repl 62 95 (repl 60 95 (repl 34 95 (repl 58 95 (repl 42 95 (repl 63 95 t)))))))) = map under t.
Proof.
  unfold repl. rewrite !map_map. apply map_ext. intros c. unfold under. change FORBIDDEN with [63; 42; 58; 60; 62; 124; 47; 92; 34]. cbn [existsb].
  repeat match goal with |- context [c =? ?k] => destruct (N.eqb_spec c k); [subst c; reflexivity|]; cbn [orb] end. 
  repeat match goal with H : c <> ?k |- _ => apply N.eqb_neq in H; rewrite ?H; revert H end. reflexivity.
Qed.
Lemma lstrip_spec t : exists a, t = repeat 95 a ++ lstrip_us t /\ forall x, lstrip_us t <> 95 :: x.
Proof.
  induction t as [|c t IH]; [exists 0%nat; split; [reflexivity|discriminate]|]. cbn [lstrip_us]. destruct (N.eqb_spec c 95) as [->|N].
  - destruct IH as (a & E & H). exists (S a). split; [cbn [repeat app]; now rewrite <- E|exact H].
  - exists 0%nat. split; [reflexivity|]. intros x X. congruence.
Qed.
Lemma rev_repeat {A} (x : A) n : rev (repeat x n) = repeat x n.
Proof. induction n as [|n IH]; [reflexivity|]. cbn [repeat rev]. rewrite IH. symmetry. clear. induction n as [|n IH]; [reflexivity|]. cbn [repeat app]. now rewrite <- IH. Qed.
Theorem rel_name_spec base : clean_name base (rel_name base).
Proof.
  unfold rel_name, clean_name. rewrite repls_under. destruct (lstrip_spec (map under base)) as (a & E & H). set (t := lstrip_us (map under base)) in *.
  destruct (lstrip_spec (rev t)) as (b & E' & H'). exists a, b.
  assert (T : t = rev (lstrip_us (rev t)) ++ repeat 95 b) by (rewrite <- (rev_involutive t) at 1; rewrite E' at 1; now rewrite rev_app_distr, rev_repeat).
  split; [|split].
  - rewrite <- T, <- E. clear. induction base as [|c l IH]; constructor; [apply under_spec|exact IH].
  - intros x X. rewrite X in T. apply (H (x ++ repeat 95 b)). rewrite T at 1. reflexivity.
  - intros x X. apply (f_equal (@rev N)) in X. rewrite rev_involutive, rev_app_distr in X. exact (H' _ X).
Qed.

(** Words *)
Definition sp (c : N) : N := if existsb (N.eqb c) SEPARATORS then 32 else c.
Lemma sp_sep c : In c SEPARATORS <-> sp c = 32.
Proof.
  unfold sp. destruct (existsb _ _) eqn:E.
  - split; [reflexivity|]. intros _. apply existsb_exists in E. destruct E as (x & I & X). apply N.eqb_eq in X. now subst.
  - split; [|intros ->; discriminate E]. intros I. assert (X : existsb (N.eqb c) SEPARATORS = true) by (apply existsb_exists; exists c; split; [exact I|apply N.eqb_refl]). congruence.
Qed.
Lemma sp_not c : ~ In c SEPARATORS -> sp c = c.
Proof. intros N. unfold sp. destruct (existsb _ _) eqn:E; [|reflexivity]. exfalso. apply N. apply existsb_exists in E. destruct E as (x & I & X). apply N.eqb_eq in X. now subst. Qed.
Lemma spaced_sp s : spaced s = map sp s.
Proof.
  unfold spaced, repl. rewrite !map_map. apply map_ext. intros c. unfold sp. change SEPARATORS with [32; 91; 93; 63; 42; 58; 60; 62; 124; 47; 92; 34]. cbn [existsb].
  repeat match goal with |- context [c =? ?k] => destruct (N.eqb_spec c k); [subst c; reflexivity|]; cbn [orb] end.
  repeat match goal with H : c <> ?k |- _ => apply N.eqb_neq in H; rewrite ?H; revert H end. reflexivity.
Qed.
Definition wordy (w : text) : Prop := forall c, In c w -> ~ In c SEPARATORS.
Definition stops (b : text) : Prop := b = [] \/ exists c b', b = c :: b' /\ In c SEPARATORS.
Lemma prefix_unique w b w' b' : w ++ b = w' ++ b' -> wordy w -> wordy w' -> stops b -> stops b' -> w = w'.
Proof.
  revert w'. induction w as [|c w IH]; intros [|c' w'] E W W' S S'; cbn [app] in E.
  - reflexivity.
  - exfalso. destruct S as [->|(d & x & -> & I)]; [discriminate|]. injection E as -> _. apply (W' c'); [now left|exact I].
  - exfalso. destruct S' as [->|(d & x & -> & I)]; [discriminate|]. injection E as -> _. apply (W d); [now left|exact I].
  - injection E as -> E. f_equal. apply IH; auto; intros z Z; [apply W|apply W']; now right.
Qed.
Lemma groups_words s : exists g gs, groups (map sp s) = g :: gs /\ (exists b, s = g ++ b /\ wordy g /\ stops b) /\
  forall w, In w gs <-> exists a c b, s = a ++ c :: w ++ b /\ In c SEPARATORS /\ wordy w /\ stops b.
Proof.
  induction s as [|c s IH].
  - exists [], []. split; [reflexivity|]. split; [exists []; split; [reflexivity|]; split; [intros c []|now left]|]. intros w. split; [intros []|]. intros (a & c & b & E & _). destruct a; discriminate.
  - destruct IH as (g & gs & G & (b & E & W & S) & H). cbn [map groups]. rewrite G. destruct (N.eqb_spec (sp c) 32) as [X|X].
    + apply sp_sep in X. exists [], (g :: gs). split; [reflexivity|]. split; [exists (c :: s); split; [reflexivity|]; split; [intros z []|right; exists c, s; auto]|].
      intros w. split.
      * intros [<-|I]; [exists [], c, b; cbn [app]; rewrite <- E; auto|]. apply H in I. destruct I as (a & d & b' & -> & I). exists (c :: a), d, b'. auto.
      * intros (a & d & b' & E' & D & W' & S'). destruct a as [|x a]; cbn [app] in E'; injection E' as -> E'.
        -- left. rewrite E in E'. eapply prefix_unique; eauto.
        -- right. apply H. exists a, d, b'. auto.
    + assert (X' : ~ In c SEPARATORS) by (intros I; apply sp_sep in I; auto). rewrite (sp_not c X'). exists (c :: g), gs. split; [reflexivity|]. split.
      * exists b. split; [cbn [app]; now rewrite <- E|]. split; [|exact S]. intros z [<-|Z]; [exact X'|now apply W].
      * intros w. rewrite H. split.
        -- intros (a & d & b' & -> & I). exists (c :: a), d, b'. auto.
        -- intros (a & d & b' & E' & D & I). destruct a as [|x a]; cbn [app] in E'; injection E' as -> E'; [contradiction|]. exists a, d, b'. auto.
Qed.
Lemma groups_word s w : In w (groups (spaced s)) <-> word s w.
Proof.
  rewrite spaced_sp. destruct (groups_words s) as (g & gs & -> & (b & E & W & S) & H). unfold word. split.
  - intros [<-|I]; [exists [], b; split; [exact E|]; split; [exact W|]; split; [now left|exact S]|]. apply H in I. destruct I as (a & c & b' & -> & C & W' & S').
    exists (a ++ [c]), b'. rewrite <- app_assoc. split; [reflexivity|]. split; [exact W'|]. split; [right; exists a, c; auto|exact S'].
  - intros (a & b' & E' & W' & [->|(a' & c & -> & C)] & S').
    + left. cbn [app] in E'. rewrite E in E'. eapply prefix_unique; eauto.
    + right. apply H. exists a', c, b'. rewrite <- app_assoc in E'. auto.
Qed.

Lemma prefix_n p : forall l, starts_with N.eqb p l = true <-> exists y, l = p ++ y.
Proof.
  induction p as [|c p IH]; intros l; [split; [exists l; reflexivity|reflexivity]|]. destruct l as [|d l]; cbn [starts_with]; [split; [discriminate|intros (y & E); discriminate]|].
  rewrite andb_true_iff, IH, N.eqb_eq. split; [intros (-> & y & ->); exists y; reflexivity|intros (y & E); injection E as -> ->; split; [reflexivity|now exists y]].
Qed.
Lemma contains_spec a b : contains a b = true <-> inside a b.
Proof.
  unfold contains, inside. induction b as [|c b IH]; cbn [find_sub].
  - destruct (starts_with N.eqb a []) eqn:E; [split; [|reflexivity]; intros _; apply prefix_n in E; destruct E as (y & E); exists [], y; exact E|].
    split; [discriminate|]. intros (x & y & X). destruct x; [|discriminate]. assert (starts_with N.eqb a [] = true) by (apply prefix_n; now exists y). congruence.
  - destruct (starts_with N.eqb a (c :: b)) eqn:E; [split; [|reflexivity]; intros _; apply prefix_n in E; destruct E as (y & E); exists [], y; exact E|].
    destruct (find_sub N.eqb a b); (split; [intros X; try discriminate X|intros (x & y & X)]).
    + destruct (proj1 IH eq_refl) as (x & y & ->). now exists (c :: x), y.
    + reflexivity.
    + exfalso. destruct x as [|d x]; cbn [app] in X; [assert (starts_with N.eqb a (c :: b) = true) by (apply prefix_n; now exists y); congruence|]. injection X as -> X.
      assert (false = true) by (apply IH; exists x, y; exact X). discriminate.
Qed.
Theorem longest_spec s fn w : longest_name s fn = w ->
  (w = [] \/ (word s w /\ ~ inside fn w)) /\ forall v, word s v -> ~ inside fn v -> (length v <= length w)%nat.
Proof.
  intros <-. unfold longest_name.
  assert (G : forall gs r, (fold_left (longer fn) gs r = r \/ (In (fold_left (longer fn) gs r) gs /\ ~ inside fn (fold_left (longer fn) gs r))) /\ (length r <= length (fold_left (longer fn) gs r))%nat /\
    forall v, In v gs -> ~ inside fn v -> (length v <= length (fold_left (longer fn) gs r))%nat).
  { induction gs as [|g gs IH]; intros r; cbn [fold_left]; [split; [now left|]; split; [lia|intros v []]|].
    destruct (IH (longer fn r g)) as (H1 & H2 & H3). set (q := fold_left _ _ _) in *. clearbody q. unfold longer in H1, H2. rewrite !lenN_length in H1, H2.
    destruct (contains fn g) eqn:C.
    - rewrite andb_false_r in H1, H2. split; [destruct H1 as [H1|(H1 & H1')]; [now left|right; split; [now right|exact H1']]|]. split; [exact H2|].
      intros v [<-|I] N; [apply contains_spec in C; contradiction|auto].
    - assert (NC : ~ inside fn g) by (intros X; apply contains_spec in X; congruence). cbn [negb] in H1, H2. rewrite andb_true_r in H1, H2.
      destruct (N.ltb_spec (N.of_nat (length r)) (N.of_nat (length g))) as [L|L].
      + split; [right; destruct H1 as [->|(H1 & H1')]; [split; [now left|exact NC]|split; [now right|exact H1']]|]. split; [lia|]. intros v [<-|I] N; [lia|auto].
      + split; [destruct H1 as [H1|(H1 & H1')]; [now left|right; split; [now right|exact H1']]|]. split; [lia|]. intros v [<-|I] N; [lia|auto]. }
  destruct (G (groups (spaced s)) []) as (H1 & _ & H3). split.
  - destruct H1 as [H1|(H1 & H1')]; [now left|right]. split; [now apply groups_word|exact H1'].
  - intros v V. apply H3. now apply groups_word.
Qed.

(** The loop *)
Section Loop.
Variable A : Type.
Variable subject : A -> text.
Variable parse_name : text -> text.
Variable grab_base_name : text -> option text.
Variable relname : text -> option text.
Variable substring : bool.
Variable out : text.
Notation rel := (release_of A subject parse_name grab_base_name relname substring).
Notation loop := (split_loop A subject parse_name grab_base_name relname substring out).
Lemma rel_clean f r : rel f = Some r -> exists base, clean_name base r.
Proof.
  unfold release_of. destruct (lenN _ =? 0); [discriminate|]. destruct (grab_base_name _); [|discriminate]. intros E. apply some_inj in E. subst r. eexists. apply rel_name_spec.
Qed.
Definition fine (r : text) : Prop := forall c, In c r -> ~ In c FORBIDDEN.
Lemma clean_fine base r : clean_name base r -> fine r.
Proof.
  intros (a & b & F & _) c I J. assert (X : In c (repeat 95 a ++ r ++ repeat 95 b)) by (rewrite !in_app_iff; auto).
  clear I. induction F as [|x y l m H F IH]; [destruct X|]. destruct X as [<-|X]; [|auto]. destruct H as [(_ & ->)|(H & ->)]; [|contradiction]. vm_compute in J. intuition discriminate.
Qed.
Lemma fine_path r : fine r -> nzb_path out r = nzb_of out r.
Proof.
  intros F. unfold nzb_path, nzb_of. do 2 f_equal. induction r as [|c r IH]; [reflexivity|]. cbn [filter]. destruct (N.eqb_spec c 34) as [->|N].
  - exfalso. apply (F 34); [now left|]. vm_compute. tauto.
  - cbn [negb]. f_equal. apply IH. intros z Z. apply F. now right.
Qed.
Lemma fine_inj r q : fine r -> fine q -> nzb_of out r = nzb_of out q -> r = q.
Proof.
  intros R Q E. unfold nzb_of, pjoin in E.
  assert (S : forall x, fine x -> first_is SLASH (x ++ str ".nzb") = false).
  { intros [|c x] X; [reflexivity|]. cbn. apply N.eqb_neq. intros ->. apply (X 47); [now left|]. vm_compute. tauto. }
  rewrite (S _ R), (S _ Q) in E. destruct ((lenN out =? 0) || last_is SLASH out); apply app_inv_head in E; [|injection E as E]; now apply app_inv_tail in E.
Qed.
Definition oldf (d : disk A) (p : text) : list A := match d p with Some (Some l) => l | _ => [] end.
Lemma upd_same d p v : upd A d p v p = Some v.
Proof. unfold upd. now rewrite teqb_refl. Qed.
Lemma upd_other d p v q : q <> p -> upd A d p v q = d q.
Proof. intros N. unfold upd. destruct (teqb q p) eqn:E; [apply teqb_eq in E; contradiction|reflexivity]. Qed.
Lemma files_app r (a b : list (text * A)) : files_of r (a ++ b) = files_of r a ++ files_of r b.
Proof. unfold files_of. rewrite filter_app. apply map_app. Qed.
Lemma files_same r (l : list A) : files_of r (map (pair r) l) = l.
Proof. unfold files_of. induction l as [|x l IH]; [reflexivity|]. cbn [map filter fst]. rewrite teqb_refl. cbn [map snd]. now rewrite IH. Qed.
Lemma files_diff r q (l : list A) : q <> r -> files_of r (map (pair q) l) = [].
Proof. intros N. unfold files_of. induction l as [|x l IH]; [reflexivity|]. cbn [map filter fst]. destruct (teqb q r) eqn:E; [apply teqb_eq in E; contradiction|exact IH]. Qed.
Definition grown (d d' : disk A) (before : list (text * A)) : Prop :=
  (forall r, fine r -> d' (nzb_of out r) = match files_of r before with [] => d (nzb_of out r) | l => Some (Some (oldf d (nzb_of out r) ++ l)) end) /\
  (forall q, (forall x, In x before -> q <> nzb_of out (fst x)) -> d' q = d q).
Lemma loop_spec fs : forall cur run d, fine cur -> cur <> [] -> run <> [] -> d (nzb_of out cur) <> Some None -> (forall x, In x (tagged rel fs) -> fst x <> [] /\ d (nzb_of out (fst x)) <> Some None) ->
  exists before l run' d', last_run (map (pair cur) run ++ tagged rel fs) before l run' /\ loop fs cur ([(cur, run)], d) = Ok (l, ([(l, run')], d')) /\ grown d d' before /\ fine l.
Proof.
  induction fs as [|f fs IH]; intros cur run d Fc Nc Nr Rc Rx.
  - exists [], cur, run, d. split; [|split; [reflexivity|split; [split; reflexivity|exact Fc]]]. cbn [tagged flat_map app]. rewrite app_nil_r. split; [reflexivity|]. split; [exact Nr|]. intros b x X. destruct b; discriminate.
  - cbn [split_loop]. unfold tagged in *. cbn [flat_map] in *. fold (tagged rel fs) in *. destruct (rel f) as [r|] eqn:R.
    + destruct (rel_clean _ _ R) as (base & C). apply clean_fine in C. destruct (teqb r cur) eqn:E.
      * apply teqb_eq in E. subst r. cbn [bind]. change (fst ([(cur, run)], d)) with [(cur, run)]. cbn [dadd snd]. rewrite teqb_refl.
        destruct (IH cur (run ++ [f]) d Fc Nc) as (before & l & run' & d' & H); [destruct run; discriminate|exact Rc|intros x I; apply Rx; right; exact I|].
        exists before, l, run', d'. rewrite map_app, <- app_assoc in H. exact H.
      * assert (Nq : r <> cur) by (intros ->; rewrite teqb_refl in E; discriminate).
        destruct (Rx (r, f) (or_introl eq_refl)) as (Nn & Rr). cbn [fst] in Nn, Rr.
        assert (W : change_rel A out cur ([(cur, run)], d) = Ok ([], upd A d (nzb_of out cur) (Some (oldf d (nzb_of out cur) ++ run)))).
        { unfold change_rel, write_rel, oldf. cbn [fst snd dpop]. rewrite teqb_refl, (fine_path _ Fc). destruct (d (nzb_of out cur)) as [[o|]|]; [reflexivity|contradiction|]. rewrite lenN_length. destruct cur; [contradiction|]. reflexivity. }
        rewrite W. clear W. cbn [bind fst snd dadd]. set (d1 := upd A d _ _).
        assert (D1 : d1 (nzb_of out cur) = Some (Some (oldf d (nzb_of out cur) ++ run))) by apply upd_same.
        assert (D2 : forall q, q <> nzb_of out cur -> d1 q = d q) by (intros q Q; now apply upd_other).
        assert (P : r <> cur -> nzb_of out r <> nzb_of out cur) by (intros _ X; apply fine_inj in X; auto).
        destruct (IH r [f] d1 C Nn) as (before & l & run' & d' & (B1 & B2 & B3) & H & (G1 & G2) & Fl); [discriminate|rewrite D2 by auto; exact Rr| |].
        { intros x I. destruct (Rx x (or_intror I)) as (X1 & X2). split; [exact X1|]. unfold d1, upd. destruct (teqb (nzb_of out (fst x)) (nzb_of out cur)); [discriminate|exact X2]. }
        exists (map (pair cur) run ++ before), l, run', d'. split; [|split; [exact H|split; [|exact Fl]]].
        -- split; [rewrite <- app_assoc, <- B1; reflexivity|]. split; [exact B2|]. intros b x X. destruct before as [|y before] using rev_ind.
           ++ rewrite app_nil_r in X. destruct run' as [|z run']; [contradiction|]. cbn [app map] in B1. injection B1 as B1 _ _. subst l. 
              assert (I : In x (map (pair cur) run)) by (rewrite X, in_app_iff; right; now left). apply in_map_iff in I. destruct I as (? & <- & _). cbn [fst]. auto.
           ++ rewrite app_assoc in X. apply app_inj_tail in X. destruct X as (_ & <-). eapply B3. reflexivity.
        -- split.
           ++ intros q Q. rewrite files_app. destruct (list_eq_dec N.eq_dec q cur) as [->|Nq'].
              ** assert (O : oldf d1 (nzb_of out cur) = oldf d (nzb_of out cur) ++ run) by (unfold oldf at 1; now rewrite D1). rewrite files_same, (G1 _ Q), D1, O. destruct run as [|z run]; [contradiction|]. cbn [app]. destruct (files_of cur before); [now rewrite app_nil_r|]. now rewrite <- app_assoc.
              ** rewrite files_diff by auto. cbn [app]. assert (X : nzb_of out q <> nzb_of out cur) by (intros X; apply fine_inj in X; auto). rewrite (G1 _ Q), (D2 _ X). unfold oldf. now rewrite (D2 _ X).
           ++ intros q Q. rewrite G2 by (intros x I; apply Q; rewrite in_app_iff; auto). apply D2. destruct run as [|z run]; [contradiction|]. apply (Q (cur, z)). now left.
    + apply IH; auto.
Qed.
Theorem split_spec fs d : tagged rel fs <> [] -> d (nzb_of out []) = None -> (forall x, In x (tagged rel fs) -> fst x <> [] /\ d (nzb_of out (fst x)) <> Some None) ->
  exists before l run d', last_run (tagged rel fs) before l run /\ nzb_split A subject parse_name grab_base_name relname substring out fs d = Ok d' /\
    d' (nzb_of out l) = Some (Some run) /\
    (forall x, In x before -> fst x <> l -> d' (nzb_of out (fst x)) = Some (Some (oldf d (nzb_of out (fst x)) ++ files_of (fst x) before))) /\
    (forall q, (forall x, In x (tagged rel fs) -> q <> nzb_of out (fst x)) -> d' q = d q).
Proof.
  intros N E R. unfold nzb_split.
  assert (L : exists before l run d', last_run (tagged rel fs) before l run /\ loop fs [] ([], d) = Ok (l, ([(l, run)], d')) /\ grown d d' before /\ fine l).
  { induction fs as [|f fs IH]; [contradiction|]. cbn [split_loop]. unfold tagged in *. cbn [flat_map] in *. fold (tagged rel fs) in *. destruct (rel f) as [r|] eqn:Q; [|apply IH; auto].
    clear IH. destruct (rel_clean _ _ Q) as (base & C). apply clean_fine in C. destruct (R (r, f) (or_introl eq_refl)) as (Nn & Rr). cbn [fst] in Nn, Rr.
    destruct (teqb r []) eqn:T; [apply teqb_eq in T; contradiction|]. unfold change_rel. cbn [snd fst]. rewrite (fine_path []) by (intros c []). rewrite E. cbn [lenN N.eqb bind fst snd dadd].
    destruct (loop_spec fs r [f] d C Nn) as (before & l & run & d' & H); [discriminate|exact Rr|intros x I; apply R; right; exact I|]. exists before, l, run, d'. exact H. }
  destruct L as (before & l & run & d' & (B1 & B2 & B3) & H & (G1 & G2) & Fl). 
  assert (K : (do s <- loop fs [] ([], d); Ok (snd (write_rel A out (fst s) [] (snd s)))) = Ok (upd A d' (nzb_of out l) (Some run))).
  { etransitivity; [exact (f_equal (fun z => bind z (fun s => Ok (snd (write_rel A out (fst s) [] (snd s))))) H)|]. cbn [bind fst snd]. unfold write_rel. cbn [fst snd dpop]. rewrite teqb_refl. cbn [snd app]. now rewrite (fine_path _ Fl). }

  assert (FX : forall x, In x (tagged rel fs) -> fine (fst x)).
  { intros x I. unfold tagged in I. apply in_flat_map in I. destruct I as (f & _ & I). destruct (rel f) as [r|] eqn:Q; [|destruct I]. destruct I as [<-|[]]. destruct (rel_clean _ _ Q) as (base & C). exact (clean_fine _ _ C). }
  exists before, l, run, (upd A d' (nzb_of out l) (Some run)). split; [split; [exact B1|split; [exact B2|exact B3]]|]. split; [exact K|]. split; [apply upd_same|]. split.
  - intros x I Nx. assert (I' : In x (tagged rel fs)) by (rewrite B1, in_app_iff; auto). rewrite upd_other by (intros X; apply fine_inj in X; auto). rewrite (G1 _ (FX _ I')).
    destruct (files_of (fst x) before) eqn:Z; [|reflexivity]. exfalso. assert (Y : In (snd x) (files_of (fst x) before)) by (unfold files_of; apply in_map_iff; exists x; split; [reflexivity|]; apply filter_In; split; [exact I|apply teqb_refl]). rewrite Z in Y. destruct Y.
  - intros q Q. rewrite upd_other.
    + apply G2. intros x I. apply Q. rewrite B1, in_app_iff. auto.
    + destruct run as [|z run]; [contradiction|]. apply (Q (l, z)). rewrite B1, in_app_iff. right. now left.
Qed.
Theorem together_spec fs d : tagged rel fs <> [] -> d (nzb_of out []) = None -> (forall x, In x (tagged rel fs) -> fst x <> [] /\ d (nzb_of out (fst x)) = None) -> together (tagged rel fs) ->
  exists d', nzb_split A subject parse_name grab_base_name relname substring out fs d = Ok d' /\
    (forall x, In x (tagged rel fs) -> d' (nzb_of out (fst x)) = Some (Some (files_of (fst x) (tagged rel fs)))) /\
    (forall q, (forall x, In x (tagged rel fs) -> q <> nzb_of out (fst x)) -> d' q = d q).
Proof.
  intros N E R T. destruct (split_spec fs d N E) as (before & l & run & d' & (B1 & B2 & B3) & H & H1 & H2 & H3).
  { intros x I. destruct (R x I) as (X1 & X2). split; [exact X1|]. rewrite X2. discriminate. }
  exists d'. split; [exact H|]. split; [|exact H3].
  assert (Z : forall x, In x before -> fst x <> l).
  { intros x I X. apply in_split in I. destruct I as (a & b & ->). destruct run as [|f run]; [contradiction|]. destruct b as [|z b _] using rev_ind; [exact (B3 a x eq_refl X)|].
    apply (B3 (a ++ x :: b) z); [now rewrite <- app_assoc|]. rewrite <- X. apply (T a x (b ++ [z]) (l, f) (map (pair l) run)); [rewrite B1; rewrite <- !app_assoc; cbn [app map]; now rewrite <- !app_assoc|exact X|]. rewrite in_app_iff. right. now left. }
  intros x I. rewrite B1, in_app_iff in I. rewrite B1, files_app. destruct I as [I|I].
  - rewrite files_diff by (intros X; apply (Z x I); auto). rewrite app_nil_r, (H2 x I (Z x I)). unfold oldf. assert (I' : In x (tagged rel fs)) by (rewrite B1, in_app_iff; auto). destruct (R x I') as (_ & ->). reflexivity.
  - apply in_map_iff in I. destruct I as (f & <- & _). cbn [fst]. rewrite files_same, H1. assert (Q : files_of l before = []); [|now rewrite Q].
    unfold files_of. clear - Z. induction before as [|x before IH]; [reflexivity|]. cbn [filter]. destruct (teqb (fst x) l) eqn:Q; [exfalso; apply (Z x); [now left|now apply teqb_eq]|]. apply IH. intros y Y. apply Z. now right.
Qed.
End Loop.

(** ** The release of a file *)
Lemma hyphen_spec q : contains [45] (last_part 10 q) = true <-> near_hyphen q.
Proof.
  rewrite contains_spec. unfold last_part, inside, near_hyphen. assert (E : q = rev (dropN 10 (rev q)) ++ rev (takeN 10 (rev q))) by (rewrite <- rev_app_distr, takeN_dropN, rev_involutive; reflexivity). split.
  - intros (x & y & H). exists (rev (dropN 10 (rev q)) ++ x), y. split; [rewrite E at 1; rewrite H, <- app_assoc; reflexivity|]. assert (L : (length (rev (takeN 10 (rev q))) <= 10)%nat). { rewrite rev_length. rewrite takeN_firstn, firstn_length. lia. }
    rewrite H, !app_length in L. cbn [length] in L. lia.
  - intros (a & b & -> & L). rewrite rev_app_distr. cbn [rev]. rewrite <- app_assoc. cbn [app]. rewrite takeN_firstn. rewrite firstn_app, rev_length. rewrite firstn_all2 by (rewrite rev_length; lia).
    destruct (N.to_nat 10 - length b)%nat as [|k] eqn:K; [lia|]. cbn [firstn]. rewrite rev_app_distr, rev_involutive. cbn [rev]. exists (rev (firstn k (rev a))), b. rewrite <- app_assoc. reflexivity.
Qed.
Lemma longest_same s fn v w : longest s fn v -> longest s fn w -> length v = length w.
Proof.
  intros [[->|[V V']] VM] [[->|[W W']] WM]; [reflexivity| | |].
  - specialize (VM w W W'). cbn in *. lia.
  - specialize (WM v V V'). cbn in *. lia.
  - specialize (VM w W W'). specialize (WM v V V'). lia.
Qed.
Lemma longest_quote s fn w : longest s fn w -> contains [34] w = false.
Proof.
  intros [H _]. destruct (contains [34] w) eqn:C; [|reflexivity]. exfalso. apply contains_spec in C as (x & y & ->). destruct H as [H|[H _]]; [now destruct x|]. destruct H as (a & b & _ & N & _). apply (N 34); [apply in_app_iff; right; now left|]. vm_compute. tauto.
Qed.
Lemma release_spec A subject parse_name grab_base_name relname substring (f : A) :
  let rel := release_of A subject parse_name grab_base_name relname substring in let fn := parse_name (subject f) in
  (rel f = None <-> fn = [] \/ grab_base_name fn = None) /\
  forall r, rel f = Some r -> exists base x, grab_base_name fn = Some base /\ clean_name x r /\ chosen (subject f) fn base (relname (subject f)) substring x.
Proof.
  cbn zeta. unfold release_of. set (fn := parse_name (subject f)). pose proof (longest_spec (subject f) fn _ eq_refl) as L. fold (longest (subject f) fn (longest_name (subject f) fn)) in L. set (ln := longest_name (subject f) fn) in *.
  split.
  - destruct fn as [|c fn']; [cbn; tauto|]. destruct (N.eqb_spec (lenN (c :: fn')) 0) as [E|_]; [rewrite lenN_length in E; cbn [length] in E; lia|]. destruct (grab_base_name (c :: fn')); split; try discriminate; auto. intros [|]; discriminate.
  - intros r H. destruct (lenN fn =? 0); [discriminate|]. destruct (grab_base_name fn) as [base|]; [|discriminate]. injection H as <-. exists base. eexists. split; [reflexivity|]. split; [apply rel_name_spec|]. unfold chosen. destruct (relname (subject f)) as [q|].
    + destruct substring; [right; auto|]. destruct (contains [45] (last_part 10 q)) eqn:C; cbn [negb]; [left; split; [reflexivity|]; split; [now apply hyphen_spec|reflexivity]|]. right. split; [|exact L]. right. intros X. apply hyphen_spec in X. congruence.
    + rewrite (longest_quote _ _ _ L). cbn [negb]. rewrite andb_true_r, !lenN_length. destruct (N.ltb_spec (N.of_nat (length base)) (N.of_nat (length ln))) as [X|X]; [left; split; [exact L|lia]|]. right. split; [reflexivity|]. intros w W. rewrite (longest_same _ _ _ _ W L). lia.
Qed.
