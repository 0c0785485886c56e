(** NzbAgeFacts: proofs about the age of NZB files. *)
From Verif Require Import Base BaseFacts SrrFacts MoveSceneFacts NzbAge NzbAgeSpec.

Lemma digit_is c : digit c = true <-> 48 <= c <= 57.
Proof. unfold digit. rewrite Bool.andb_true_iff, !N.leb_le. reflexivity. Qed.
Lemma number_is t : forall some v w, number some v t = Some w <-> exists ds b, t = ds ++ 34 :: b /\ (ds <> [] \/ some = true) /\ (forall c, In c ds -> 48 <= c <= 57) /\ w = fold_left (fun v c => v * 10 + (c - 48)) ds v.
Proof.
  induction t as [|c t IH]; intros some v w; cbn [number].
  { split; [discriminate|]. intros (ds & b & E & _). destruct ds; discriminate E. }
  destruct (digit c) eqn:D.
  - rewrite IH. apply digit_is in D. split.
    + intros (ds & b & -> & _ & H & ->). exists (c :: ds), b. split; [reflexivity|]. split; [left; discriminate|]. split; [intros x [<-|I]; [exact D|now apply H]|reflexivity].
    + intros (ds & b & E & _ & H & ->). destruct ds as [|x ds]; cbn [app] in E; injection E as E1 E2; [lia|]. subst x t. exists ds, b. split; [reflexivity|]. split; [now right|]. split; [intros y I; apply H; now right|reflexivity].
  - assert (Nil : forall ds b, c :: t = ds ++ 34 :: b -> (forall c, In c ds -> 48 <= c <= 57) -> ds = [] /\ c = 34).
    { intros [|x ds] b E H; cbn [app] in E; injection E as E1 E2; [now split|]. exfalso. subst x. assert (K : digit c = true) by (apply digit_is, H; now left). congruence. }
    destruct ((c =? 34) && some) eqn:S0.
    + apply Bool.andb_true_iff in S0. destruct S0 as [C S0]. apply N.eqb_eq in C. subst c. split.
      * intros E. injection E as <-. exists [], t. split; [reflexivity|]. split; [now right|]. split; [intros x []|reflexivity].
      * intros (ds & b & E & _ & H & ->). destruct (Nil ds b E H) as [-> _]. reflexivity.
    + split; [discriminate|]. intros (ds & b & E & O & H & ->). destruct (Nil ds b E H) as [-> ->]. destruct O as [O|O]; [now destruct O|]. rewrite O in S0. discriminate S0.
Qed.
Lemma here_is line v : (if starts_with N.eqb key line then number false 0 (skipn (length key) line) else None) = Some v <-> date_at line [] v.
Proof.
  unfold date_at. cbn [app]. fold key. destruct (starts_with N.eqb key line) eqn:S0.
  - apply starts_is in S0. destruct S0 as (r & ->). rewrite skipn_app, skipn_all, Nat.sub_diag. cbn [app skipn]. rewrite number_is. split.
    + intros (ds & b & -> & [O|O] & H & ->); [|discriminate O]. exists ds, b. repeat split; auto; now apply H.
    + intros (ds & b & E & O & H & ->). apply app_inv_head in E. exists ds, b. repeat split; auto; now apply H.
  - split; [discriminate|]. intros (ds & b & E & _). assert (X : starts_with N.eqb key line = true) by (apply starts_is; eexists; exact E). congruence.
Qed.
Lemma at_cons c r a v : date_at (c :: r) a v <-> (a = [] /\ date_at (c :: r) [] v) \/ exists a', a = c :: a' /\ date_at r a' v.
Proof.
  split.
  - intros (ds & b & E & H). destruct a as [|x a]; [left; split; [reflexivity|now exists ds, b]|]. cbn [app] in E. injection E as <- E. right. exists a. split; [reflexivity|now exists ds, b].
  - intros [(-> & H)|(a' & -> & ds & b & -> & H)]; [exact H|now exists ds, b].
Qed.
Lemma at_nil a v : ~ date_at [] a v.
Proof. intros (ds & b & E & _). destruct a; discriminate E. Qed.
Theorem date_thm line : (forall v, date_in line = Some v <-> dated line v) /\ (date_in line = None <-> no_date line).
Proof.
  induction line as [|c r (IH1 & IH2)].
  - split; [|split; [intros _ a v; apply at_nil|reflexivity]]. intros v. split; [discriminate|]. intros (a & H & _). destruct (at_nil a v H).
  - cbn [date_in]. destruct (date_in r) as [d|] eqn:R.
    + destruct (proj1 (IH1 d) eq_refl) as (a & A & M). assert (Mc : forall a' v', date_at (c :: r) a' v' -> (length a' <= length (c :: a))%nat) by (intros a' v' H; apply at_cons in H; destruct H as [(-> & _)|(a1 & -> & H)]; [cbn [length]; lia|specialize (M a1 v' H); cbn [length]; lia]). split.
      * intros v. split.
        -- intros E. injection E as <-. exists (c :: a). split; [apply at_cons; right; now exists a|exact Mc].
        -- intros (a0 & H & M0). apply at_cons in H. destruct H as [(-> & _)|(a1 & -> & H)].
           ++ assert (X : date_at (c :: r) (c :: a) d) by (apply at_cons; right; now exists a). specialize (M0 _ _ X). cbn [length] in M0. lia.
           ++ apply IH1. exists a1. split; [exact H|]. intros a' v' H'. assert (X : date_at (c :: r) (c :: a') v') by (apply at_cons; right; now exists a'). specialize (M0 _ _ X). cbn [length] in M0. lia.
      * split; [discriminate|]. intros H. exfalso. apply (H (c :: a) d). apply at_cons. right. now exists a.
    + pose proof (proj1 IH2 eq_refl) as NR. assert (Only : forall a v, date_at (c :: r) a v -> a = [] /\ date_at (c :: r) [] v) by (intros a v H; apply at_cons in H; destruct H as [H|(a1 & _ & H)]; [exact H|destruct (NR a1 v H)]). split.
      * intros v. rewrite here_is. split.
        -- intros H. exists []. split; [exact H|]. intros a' v' H'. destruct (Only a' v' H') as [-> _]. reflexivity.
        -- intros (a & H & _). now destruct (Only a v H).
      * split.
        -- intros E a v H. destruct (Only a v H) as [_ K]. apply here_is in K. congruence.
        -- intros H. destruct (if starts_with N.eqb key (c :: r) then number false 0 (skipn (length key) (c :: r)) else None) as [v|] eqn:E; [|reflexivity]. apply here_is in E. destruct (H [] v E).
Qed.
Theorem first_thm lines : (forall v, first_date lines = Some v <-> file_date lines v) /\ (first_date lines = None <-> forall l, In l lines -> no_date l).
Proof.
  induction lines as [|l r (IH1 & IH2)]; cbn [first_date].
  - split; [|split; [intros _ l []|reflexivity]]. intros v. split; [discriminate|]. intros (a & l & b & E & _). destruct a; discriminate E.
  - destruct (date_thm l) as (D1 & D2). destruct (date_in l) as [d|] eqn:E.
    + assert (Dl : dated l d) by now apply D1. assert (NN : ~ no_date l) by (intros N0; apply D2 in N0; discriminate N0). split.
      * intros v. split; [intros X; injection X as <-; exists [], l, r; split; [reflexivity|split; [exact Dl|intros x []]]|]. intros (a & x & b & X & Dx & Na). destruct a as [|y a]; cbn [app] in X; injection X as X1 X2; subst.
        -- now apply D1.
        -- exfalso. apply NN. apply Na. now left.
      * split; [discriminate|]. intros H. destruct (NN (H l (or_introl eq_refl))).
    + assert (ND : no_date l) by now apply D2. split.
      * intros v. rewrite IH1. split.
        -- intros (a & x & b & -> & Dx & Na). exists (l :: a), x, b. split; [reflexivity|]. split; [exact Dx|]. intros y [<-|I]; [exact ND|now apply Na].
        -- intros (a & x & b & X & Dx & Na). destruct a as [|y a]; cbn [app] in X; injection X as X1 X2; subst; [apply D1 in Dx; discriminate Dx|]. exists a, x, b. split; [reflexivity|]. split; [exact Dx|]. intros z I. apply Na. now right.
      * rewrite IH2. split; [intros H y [<-|I]; [exact ND|now apply H]|intros H y I; apply H; now right].
Qed.
Lemma ends_is e t : ends e t = true <-> exists b, t = b ++ e.
Proof.
  unfold ends. rewrite starts_is. split.
  - intros (r & E). exists (rev r). rewrite <- (rev_involutive t), E, rev_app_distr, rev_involutive. reflexivity.
  - intros (b & ->). exists (rev b). apply rev_app_distr.
Qed.
Lemma matched_is s e now d : matched s e now d = true <-> between s e now d.
Proof.
  unfold matched, between. cbv zeta. rewrite Bool.andb_true_iff, !Z.ltb_lt. pose proof (Z.div_mod (Z.of_N now - Z.of_N d) 86400 ltac:(lia)) as Q. pose proof (Z.mod_pos_bound (Z.of_N now - Z.of_N d) 86400 ltac:(lia)) as B. set (q := ((Z.of_N now - Z.of_N d) / 86400)%Z) in *. set (m := ((Z.of_N now - Z.of_N d) mod 86400)%Z) in *. clearbody q m. lia.
Qed.
Lemma date_fun c d : file_date c d -> first_date c = Some d.
Proof. apply first_thm. Qed.
(** what the loop looks at *)
Lemma want_no s e now n c : ends (str ".nzb") n = false -> ~ wanted s e now n c.
Proof. intros E ((b & ->) & _). assert (X : ends (str ".nzb") (b ++ str ".nzb") = true) by (apply ends_is; now exists b). congruence. Qed.
Lemma want_none s e now n c : first_date c = None -> ~ wanted s e now n c.
Proof. intros E (_ & d & F & _). apply date_fun in F. congruence. Qed.
Lemma want_some s e now n c d : ends (str ".nzb") n = true -> first_date c = Some d -> wanted s e now n c <-> matched s e now d = true.
Proof.
  intros E F. rewrite matched_is. split.
  - intros (_ & d' & F' & B). apply date_fun in F'. congruence.
  - intros B. split; [now apply ends_is|]. exists d. split; [now apply first_thm|exact B].
Qed.
Definition bad (n : text) (c : list text) : Prop := ends (str ".nzb") n = true /\ first_date c = None.
Lemma bad_is n c : bad n c <-> is_nzb n /\ forall l, In l c -> no_date l.
Proof. unfold bad. rewrite ends_is. destruct (first_thm c) as (_ & H). now rewrite H. Qed.
Lemma fine_tail x f : fine (x :: f) -> fine f.
Proof. intros H n c d I. apply (H n c d). now right. Qed.
Lemma fine_head n c f d : fine ((n, c) :: f) -> ends (str ".nzb") n = true -> first_date c = Some d -> (max_date <? d) = false.
Proof. intros H E F. apply N.ltb_ge. apply (H n c d (or_introl eq_refl)); [now apply ends_is|now apply first_thm]. Qed.
Theorem show_thm s e now f out : fine f -> let st := main s e now false f out in
  s_exn st = None /\ s_left st = f /\ s_out st = out /\
  (forall n, In (Shown n) (s_lines st) <-> exists c, In (n, c) f /\ wanted s e now n c) /\
  (forall n, In (Bad n) (s_lines st) <-> exists c, In (n, c) f /\ is_nzb n /\ forall l, In l c -> no_date l).
Proof.
  cbv zeta. induction f as [|[n c] f IH]; intros Fi.
  { cbn. repeat split; try tauto; intros (c & [] & _). }
  destruct (IH (fine_tail _ _ Fi)) as (A & B & C & D & E). clear IH.
  assert (K : forall m, (forall k, In (Shown k) m <-> k = n /\ wanted s e now n c) -> (forall k, In (Bad k) m <-> k = n /\ bad n c) ->
    let st := main s e now false f out in let t := mkState (m ++ s_lines st) ((n, c) :: s_left st) (s_out st) (s_exn st) in
    s_exn t = None /\ s_left t = (n, c) :: f /\ s_out t = out /\ (forall k, In (Shown k) (s_lines t) <-> exists x, In (k, x) ((n, c) :: f) /\ wanted s e now k x) /\
    (forall k, In (Bad k) (s_lines t) <-> exists x, In (k, x) ((n, c) :: f) /\ is_nzb k /\ forall l, In l x -> no_date l)).
  { intros m H1 H2. cbn [s_exn s_left s_out s_lines]. split; [exact A|]. split; [now rewrite B|]. split; [exact C|]. split; intros k; rewrite in_app_iff; [rewrite H1, D|rewrite H2, E, bad_is]; (split; [intros [(-> & W)|(x & I & W)]; [exists c; split; [now left|exact W]|exists x; split; [now right|exact W]]|]);
    intros (x & [I|I] & W); try (right; exists x; now split); apply pair_equal_spec in I; destruct I as [<- <-]; left; now split. }
  cbn [main]. destruct (ends (str ".nzb") n) eqn:En.
  - destruct (first_date c) as [d|] eqn:Fd.
    + rewrite (fine_head n c f d Fi En Fd). pose proof (want_some s e now n c d En Fd) as W. destruct (matched s e now d); apply K; intros k; unfold bad; rewrite ?W; cbn [In]; intuition congruence.
    + pose proof (want_none s e now n c Fd) as W. apply K; intros k; unfold bad; cbn [In]; intuition congruence.
  - pose proof (want_no s e now n c En) as W. apply K; intros k; unfold bad; cbn [In]; intuition congruence.
Qed.
Theorem move_thm s e now f : forall out, fine f -> NoDup (map fst f) -> let st := main s e now true f out in
  s_exn st = None /\ (forall n c, In (n, c) (s_left st) <-> In (n, c) f /\ ~ wanted s e now n c) /\
  (forall n c, In (n, c) f -> wanted s e now n c -> s_out st n = Some c) /\
  (forall n, (forall c, In (n, c) f -> ~ wanted s e now n c) -> s_out st n = out n).
Proof.
  cbv zeta. induction f as [|[n c] f IH]; intros out Fi ND.
  { cbn. repeat split; tauto. }
  cbn [map fst] in ND. inversion ND as [|? ? Nn ND']; subst. pose proof (fun o => IH o (fine_tail _ _ Fi) ND') as G. clear IH.
  assert (Other : forall x, In (n, x) f -> False) by (intros x I; apply Nn; now apply (in_map fst) in I).
  assert (K : forall m, ~ wanted s e now n c ->
    let st := main s e now true f out in let t := mkState (m ++ s_lines st) ((n, c) :: s_left st) (s_out st) (s_exn st) in
    s_exn t = None /\ (forall k x, In (k, x) (s_left t) <-> In (k, x) ((n, c) :: f) /\ ~ wanted s e now k x) /\
    (forall k x, In (k, x) ((n, c) :: f) -> wanted s e now k x -> s_out t k = Some x) /\
    (forall k, (forall x, In (k, x) ((n, c) :: f) -> ~ wanted s e now k x) -> s_out t k = out k)).
  { intros m W. cbn [s_exn s_left s_out s_lines]. destruct (G out) as (A & B & C & D). split; [exact A|]. split; [|split].
    - intros k x. cbn [In]. rewrite B. split; [intros [I|(I & H)]; [|now split; [right|]]|intros ([I|I] & H); [now left|right; now split]]. split; [now left|]. apply pair_equal_spec in I. now destruct I as [<- <-].
    - intros k x [I|I] H; [apply pair_equal_spec in I; destruct I as [<- <-]; contradiction|now apply C].
    - intros k H. apply D. intros x I. apply H. now right. }
  cbn [main]. destruct (ends (str ".nzb") n) eqn:En; [|apply K; now apply want_no].
  destruct (first_date c) as [d|] eqn:Fd; [|apply K; now apply want_none]. rewrite (fine_head n c f d Fi En Fd). pose proof (want_some s e now n c d En Fd) as W. destruct (matched s e now d); [|apply K; rewrite W; discriminate].
  assert (Wn : wanted s e now n c) by now apply W. clear K. destruct (G (fun q => if teqb n q then Some c else out q)) as (A & B & C & D). split; [exact A|]. split; [|split].
  - intros k x. rewrite B. split; [intros (I & H); split; [now right|exact H]|]. intros ([I|I] & H); [apply pair_equal_spec in I; destruct I as [<- <-]; contradiction|now split].
  - intros k x [I|I] H; [|now apply C]. apply pair_equal_spec in I. destruct I as [<- <-]. rewrite D; [now rewrite teqb_refl|]. intros y J. destruct (Other y J).
  - intros k H. rewrite D by (intros x I; apply H; now right). destruct (teqb n k) eqn:E; [|reflexivity]. apply teqb_eq in E. subst k. destruct (H c (or_introl eq_refl) Wn).
Qed.
(** no file is lost, also when the program stops *)
Theorem kept_thm s e now mv f : forall out, NoDup (map fst f) -> forall n c, In (n, c) f -> In (n, c) (s_left (main s e now mv f out)) \/ s_out (main s e now mv f out) n = Some c.
Proof.
  assert (Out : forall f out n, ~ In n (map fst f) -> s_out (main s e now mv f out) n = out n).
  { clear f. induction f as [|[n c] f IH]; intros out k H; [reflexivity|]. cbn [map fst In] in H. cbn [main]. destruct (ends _ n); [|cbn [s_out]; apply IH; tauto]. destruct (first_date c) as [d|]; [|cbn [s_out]; apply IH; tauto]. destruct (max_date <? d); [reflexivity|]. destruct (matched s e now d); [|cbn [s_out]; apply IH; tauto]. destruct mv; [|cbn [s_out]; apply IH; tauto].
    rewrite IH by tauto. destruct (teqb n k) eqn:E; [apply teqb_eq in E; tauto|reflexivity]. }
  induction f as [|[n c] f IH]; intros out ND k x I; [destruct I|]. cbn [map fst] in ND. inversion ND as [|? ? Nn ND']; subst.
  assert (K : forall m, let st := main s e now mv f out in let t := mkState (m ++ s_lines st) ((n, c) :: s_left st) (s_out st) (s_exn st) in In (k, x) (s_left t) \/ s_out t k = Some x).
  { intros m. cbn [s_left s_out]. destruct I as [I|I]; [left; now left|]. destruct (IH out ND' k x I) as [H|H]; [left; now right|now right]. }
  cbn [main]. destruct (ends _ n); [|apply K]. destruct (first_date c) as [d|]; [|apply K]. destruct (max_date <? d); [left; exact I|]. destruct (matched s e now d); [|apply K]. destruct mv; [|apply K].
  destruct I as [I|I]; [|now apply IH]. apply pair_equal_spec in I. destruct I as [<- <-]. right. rewrite Out by exact Nn. now rewrite teqb_refl.
Qed.
