(** GlobFacts: an escaped path matches the path itself only. *)
From Verif Require Import Base BaseFacts Path PathSpec PathFacts Glob GlobSpec.

(** ** Escaping *)
Definition magic1 (c : N) : bool := (c =? 91) || (c =? 93) || (c =? 42) || (c =? 63).
Definition magic (t : text) : bool := existsb magic1 t.
Lemma escape1_plain c : magic1 c = false -> escape1 c = [c].
Proof. unfold magic1, escape1. destruct (c =? 91), (c =? 93), (c =? 42), (c =? 63); cbn; congruence. Qed.
Lemma escape1_magic c : magic1 c = true -> escape1 c = [91; c; 93].
Proof.
  unfold magic1, escape1. destruct (N.eqb_spec c 91) as [->|]; [reflexivity|]. destruct (N.eqb_spec c 93) as [->|]; [reflexivity|].
  destruct (N.eqb_spec c 42) as [->|]; [reflexivity|]. destruct (N.eqb_spec c 63) as [->|]; [reflexivity|discriminate].
Qed.
Lemma escape_app (a b : text) : escape_glob (a ++ b) = escape_glob a ++ escape_glob b.
Proof. apply flat_map_app. Qed.
Lemma escape_cons c (t : text) : escape_glob (c :: t) = escape1 c ++ escape_glob t. Proof. reflexivity. Qed.
Lemma escape_same (t : text) : magic t = false -> escape_glob t = t.
Proof.
  induction t as [|c t IH]; [reflexivity|]. unfold magic. cbn [existsb]. intros H. apply orb_false_iff in H as [H1 H2]. rewrite escape_cons, escape1_plain, (IH H2) by exact H1. reflexivity.
Qed.
Lemma has_magic_escape (t : text) : has_magic (escape_glob t) = magic t.
Proof.
  unfold has_magic, magic. induction t as [|c t IH]; [reflexivity|]. rewrite escape_cons, existsb_app, IH. cbn [existsb]. f_equal.
  destruct (magic1 c) eqn:E; [rewrite escape1_magic by exact E; reflexivity|]. rewrite escape1_plain by exact E. cbn [existsb]. rewrite orb_false_r.
  unfold magic1 in E. destruct (c =? 91), (c =? 93), (c =? 42), (c =? 63); cbn in *; congruence.
Qed.
Lemma escape_in (t : text) : In 47 (escape_glob t) <-> In 47 t.
Proof.
  induction t as [|c t IH]; [tauto|]. rewrite escape_cons, in_app_iff, IH. cbn [In].
  assert (E : In 47 (escape1 c) <-> c = 47); [|tauto]. destruct (magic1 c) eqn:E.
  - rewrite escape1_magic by exact E. cbn [In]. split; [intros [H|[H|[H|[]]]]; [discriminate H|exact H|discriminate H]|]. intros ->. discriminate E.
  - rewrite escape1_plain by exact E. cbn [In]. tauto.
Qed.
Lemma escape_first x (t : text) : x <> 91 -> magic1 x = false -> first_is x (escape_glob t) = first_is x t.
Proof.
  intros H1 H2. destruct t as [|c t]; [reflexivity|]. rewrite escape_cons. destruct (magic1 c) eqn:E.
  - rewrite escape1_magic by exact E. cbn [app first_is]. destruct (N.eqb_spec 91 x); [lia|]. destruct (N.eqb_spec c x); [congruence|reflexivity].
  - rewrite escape1_plain by exact E. reflexivity.
Qed.
Lemma escape_nil (t : text) : escape_glob t = [] <-> t = [].
Proof.
  destruct t as [|c t]; [tauto|]. rewrite escape_cons. split; [|discriminate]. destruct (magic1 c) eqn:E; [rewrite escape1_magic by exact E|rewrite escape1_plain by exact E]; discriminate.
Qed.
Lemma escape_rev_drop (t : text) : drop_slashes (rev (escape_glob t)) = rev (escape_glob (rev (drop_slashes (rev t)))).
Proof.
  rewrite <- (rev_involutive t). generalize (rev t) as r. clear t. intros r. rewrite rev_involutive. induction r as [|c r IH]; [reflexivity|].
  cbn [rev]. rewrite escape_app, rev_app_distr. cbn [drop_slashes]. destruct (N.eqb_spec c SLASH) as [->|Hn].
  - cbn [escape_glob flat_map app rev]. change (escape1 SLASH ++ []) with [SLASH]. cbn [rev app drop_slashes]. exact IH.
  - cbn [rev]. rewrite escape_app, rev_app_distr. unfold escape_glob at 1. cbn [flat_map]. rewrite app_nil_r.
    replace (escape_glob [c]) with (escape1 c) by (cbn; now rewrite app_nil_r).
    destruct (magic1 c) eqn:E; [rewrite escape1_magic by exact E; reflexivity|]. rewrite escape1_plain by exact E. cbn [rev app drop_slashes].
    apply N.eqb_neq in Hn. now rewrite Hn.
Qed.
Lemma escape_rstrip (t : text) : rstrip_slash (escape_glob t) = escape_glob (rstrip_slash t).
Proof. unfold rstrip_slash. rewrite escape_rev_drop, rev_involutive. reflexivity. Qed.
Lemma escape_slashes (t : text) : forallb (N.eqb SLASH) (escape_glob t) = forallb (N.eqb SLASH) t.
Proof.
  induction t as [|c t IH]; [reflexivity|]. rewrite escape_cons, forallb_app, IH. cbn [forallb]. destruct (magic1 c) eqn:E.
  - rewrite escape1_magic by exact E. cbn [forallb]. destruct (N.eqb_spec SLASH c) as [<-|]; [discriminate E|reflexivity].
  - rewrite escape1_plain by exact E. cbn [forallb]. now rewrite andb_true_r.
Qed.

(** ** Directory and base name *)
Definition ends (h : text) : Prop := h = [] \/ exists h', h = h' ++ [SLASH].
Definition strip_dir (h : text) : text := if forallb (N.eqb SLASH) h then h else rstrip_slash h.
Lemma base_dir (h b : text) : ends h -> ~ In 47 b -> basename (h ++ b) = b /\ dirname (h ++ b) = strip_dir h.
Proof.
  intros [->|[h' ->]] Hb; unfold basename, dirname, strip_dir.
  - cbn [app]. rewrite split_tail_nosep by now rewrite <- in_rev. cbn [fst snd rev forallb]. now rewrite rev_involutive.
  - rewrite rev_app_distr, rev_app_distr. cbn [rev app]. rewrite split_tail_sep by now rewrite <- in_rev. cbn [fst snd rev]. now rewrite !rev_involutive.
Qed.
Lemma cut_path (t : text) : exists h b : text, t = h ++ b /\ ends h /\ ~ In 47 b.
Proof.
  destruct (in_dec N.eq_dec 47 (rev t)) as [H|H].
  - destruct (split_tail_in _ H) as (x & y & E & Hx). exists (rev y ++ [47]), (rev x). split; [|split; [right; now exists (rev y)|now rewrite <- in_rev]].
    assert (G : forall r a c, split_tail r = (a, c) -> r = a ++ c).
    { clear. induction r as [|z r IH]; intros a c E; cbn [split_tail] in E; [now injection E as <- <-|].
      destruct (z =? SLASH); [now injection E as <- <-|]. destruct (split_tail r) as [u v]. injection E as <- <-. cbn [app]. f_equal. now apply IH. }
    apply G in E. rewrite <- (rev_involutive t), E, rev_app_distr. cbn [rev]. reflexivity.
  - exists [], t. split; [reflexivity|]. split; [now left|]. now rewrite in_rev.
Qed.
Lemma ends_escape (h : text) : ends h -> ends (escape_glob h).
Proof. intros [->|[h' ->]]; [now left|]. right. exists (escape_glob h'). now rewrite escape_app. Qed.
Lemma strip_escape (h : text) : strip_dir (escape_glob h) = escape_glob (strip_dir h).
Proof. unfold strip_dir. rewrite escape_slashes, escape_rstrip. now destruct (forallb _ h). Qed.

(** ** Components *)
Lemma comps_nil : comps [] = []. Proof. reflexivity. Qed.
Lemma split_app_slash (a b : text) : split SLASH (a ++ SLASH :: b) = split SLASH a ++ split SLASH b.
Proof.
  induction a as [|c a IH].
  - cbn [app split]. destruct (split_cons_nonempty SLASH b) as (w & ws & E). rewrite E. reflexivity.
  - cbn [app split]. rewrite IH. destruct (split_cons_nonempty SLASH a) as (w & ws & E). rewrite E. cbn [app]. now destruct (c =? SLASH).
Qed.
Lemma comps_app_slash (a b : text) : comps (a ++ SLASH :: b) = comps a ++ comps b.
Proof. unfold comps. now rewrite split_app_slash, filter_app. Qed.
Lemma comps_one (b : text) : ~ In 47 b -> comps b = match b with [] => [] | _ => [b] end.
Proof. intros H. unfold comps. rewrite split_nosep by exact H. now destruct b. Qed.
Lemma comps_ends (h b : text) : ends h -> comps (h ++ b) = comps h ++ comps b.
Proof.
  intros [->|[h' ->]]; [reflexivity|]. rewrite <- app_assoc. cbn [app]. rewrite comps_app_slash, comps_app_slash. now rewrite comps_nil, app_nil_r.
Qed.
Lemma rstrip_app (t : text) : exists n, t = rstrip_slash t ++ repeat SLASH n.
Proof.
  unfold rstrip_slash. assert (G : forall r : text, exists n, r = repeat SLASH n ++ drop_slashes r).
  { induction r as [|c r [n IH]]; [exists O; reflexivity|]. cbn [drop_slashes]. destruct (N.eqb_spec c SLASH) as [->|]; [exists (S n); cbn [repeat app]; now f_equal|exists O; reflexivity]. }
  destruct (G (rev t)) as [n E]. exists n. apply (f_equal (@rev N)) in E. rewrite rev_involutive, rev_app_distr in E. etransitivity; [exact E|]. f_equal.
  clear. induction n as [|n IH]; [reflexivity|]. cbn [repeat rev]. rewrite IH. clear. induction n; [reflexivity|]. cbn [repeat app]. now f_equal.
Qed.
Lemma comps_slashes (t : text) n : comps (t ++ repeat SLASH n) = comps t.
Proof.
  revert t. induction n as [|n IH]; intros t; [cbn [repeat]; now rewrite app_nil_r|]. cbn [repeat].
  replace (t ++ SLASH :: repeat SLASH n) with ((t ++ [SLASH]) ++ repeat SLASH n) by now rewrite <- app_assoc. rewrite IH, comps_app_slash, comps_nil. apply app_nil_r.
Qed.
Lemma strip_comps (h : text) : comps (strip_dir h) = comps h.
Proof. unfold strip_dir. destruct (forallb _ h); [reflexivity|]. destruct (rstrip_app h) as [n E]. rewrite E at 2. now rewrite comps_slashes. Qed.
Lemma rstrip_nonempty (h : text) : forallb (N.eqb SLASH) h = false -> rstrip_slash h <> [].
Proof.
  intros H X. destruct (rstrip_app h) as [n E]. rewrite X in E. cbn [app] in E. rewrite E in H. clear -H. induction n as [|n IH]; [discriminate H|]. cbn in H. auto.
Qed.
Lemma strip_first (h : text) : first_is SLASH (strip_dir h) = first_is SLASH h.
Proof.
  unfold strip_dir. destruct (forallb _ h) eqn:F; [reflexivity|]. pose proof (rstrip_nonempty h F). destruct (rstrip_app h) as [n E]. rewrite E at 2. now destruct (rstrip_slash h).
Qed.
Lemma strip_nil (h : text) : strip_dir h = [] <-> h = [].
Proof.
  unfold strip_dir. destruct (forallb _ h) eqn:F; [tauto|]. pose proof (rstrip_nonempty h F). split; [contradiction|]. intros ->. discriminate F.
Qed.
Lemma strip_len (h : text) : ends h -> forallb (N.eqb SLASH) h = false -> (length (strip_dir h) < length h)%nat.
Proof.
  intros [->|[h' ->]] F; [discriminate F|]. unfold strip_dir. rewrite F. unfold rstrip_slash. rewrite rev_length, rev_app_distr. cbn [rev app drop_slashes].
  change (SLASH =? SLASH) with true. cbv iota. rewrite app_length. cbn [length].
  assert (G : forall r, (length (drop_slashes r) <= length r)%nat) by (induction r as [|c r IH]; cbn [drop_slashes length]; [lia|destruct (c =? SLASH); cbn [length]; lia]).
  specialize (G (rev h')). rewrite rev_length in G. lia.
Qed.

(** ** Matching *)
Lemma class_single c : magic1 c = true -> forall r, class_end (c :: 93 :: r) = Some ([c], r).
Proof.
  intros H r. unfold class_end. unfold magic1 in H. cbn [take_if].
  destruct (c =? 33) eqn:E1; [apply N.eqb_eq in E1; subst c; discriminate H|]. destruct (c =? 93) eqn:E2; [apply N.eqb_eq in E2; subst c; reflexivity|]. cbn [take_if]. rewrite E2. cbn [cut_at]. rewrite E2. reflexivity.
Qed.
Lemma class_is c x : magic1 c = true -> in_class [c] x = (x =? c).
Proof.
  intros H. unfold in_class. destruct (N.eqb_spec c 33) as [->|_]; [discriminate H|]. cbn [length in_set]. rewrite orb_false_r. apply N.eqb_sym.
Qed.
Lemma imatch_escape (b : text) : forall n x, (length (escape_glob b) <= n)%nat -> imatch (translate n (escape_glob b)) x = teqb x b.
Proof.
  induction b as [|c b IH]; intros n x Hn.
  - destruct n, x; reflexivity.
  - rewrite escape_cons in Hn |- *. destruct (magic1 c) eqn:E.
    + rewrite escape1_magic in Hn |- * by exact E. cbn [app length] in Hn. destruct n as [|n]; [lia|]. cbn [app translate]. cbn [N.eqb Pos.eqb].
      rewrite (class_single c E). cbn [imatch]. destruct x as [|y x]; [reflexivity|]. rewrite class_is by exact E. rewrite IH by lia. reflexivity.
    + rewrite escape1_plain in Hn |- * by exact E. cbn [app length] in Hn. destruct n as [|n]; [lia|]. cbn [app translate].
      unfold magic1 in E. apply orb_false_iff in E as [E E4]. apply orb_false_iff in E as [E E3]. apply orb_false_iff in E as [E1 E2]. rewrite E1, E3, E4.
      cbn [imatch]. destruct x as [|y x]; [reflexivity|]. rewrite IH by lia. reflexivity.
Qed.
Lemma fnmatch_escape (x b : text) : fnmatch x (escape_glob b) = teqb x b.
Proof. unfold fnmatch. now apply imatch_escape. Qed.

(** ** Searching *)
Section Os.
Variables (look : bool -> list text -> option node) (entries : bool -> list text -> list text).
Hypothesis tree : tree_ok look entries.
Notation lookup := (lookup look). Notation lexists := (lexists look). Notation isdir := (isdir look). Notation isfile := (isfile look).
Notation glob1 := (glob1 look entries). Notation glob0 := (glob0 look). Notation iglob := (iglob look entries). Notation iterdir := (iterdir look entries).

Lemma isdir_spec (p : text) : isdir p = true <-> p <> [] /\ look (first_is SLASH p) (comps p) = Some NDir.
Proof.
  unfold Glob.isdir, Glob.lookup. destruct p as [|c p]; [split; [discriminate|now intros [X _]]|].
  destruct (look _ _) as [[]|]; destruct (last_is SLASH (c :: p)); intuition congruence.
Qed.
Lemma lexists_spec (p : text) : lexists p = true <-> p <> [] /\ (if last_is SLASH p then look (first_is SLASH p) (comps p) = Some NDir else look (first_is SLASH p) (comps p) <> None).
Proof.
  unfold Glob.lexists, Glob.lookup. destruct p as [|c p]; [split; [discriminate|now intros [X _]]|].
  destruct (look _ _) as [[]|]; destruct (last_is SLASH (c :: p)); intuition congruence.
Qed.
Lemma filter_only {A} (f : A -> bool) (l : list A) b : NoDup l -> (forall x, In x l -> f x = true <-> x = b) -> filter f l = [] /\ ~ In b l \/ filter f l = [b] /\ In b l.
Proof.
  induction l as [|x l IH]; intros Hn H; [left; auto|]. apply NoDup_cons_iff in Hn as [Hx Hn]. cbn [filter].
  assert (H' : forall y, In y l -> f y = true <-> y = b) by (intros y Hy; apply H; now right). destruct (f x) eqn:E.
  - apply (H x) in E as ->; [|now left]. right. split; [|now left]. f_equal. destruct (IH Hn H') as [[-> _]|[_ X]]; [reflexivity|contradiction].
  - assert (Nx : x <> b) by (intros X; apply (H x) in X; [congruence|now left]). destruct (IH Hn H') as [[-> X]|[-> X]]; [left|right]; (split; [reflexivity|]); [intros [Y|Y]; auto|now right].
Qed.
Lemma iterdir_spec (d : text) dironly : NoDup (iterdir d dironly) /\ forall b, In b (iterdir d dironly) <->
  plain b /\ look (first_is SLASH d) (comps d ++ [b]) <> None /\ (dironly = true -> look (first_is SLASH d) (comps d ++ [b]) = Some NDir).
Proof.
  assert (E : forall b, In b (match d with [] => entries false [] | _ => if isdir d then entries (first_is SLASH d) (comps d) else [] end) <-> plain b /\ look (first_is SLASH d) (comps d ++ [b]) <> None).
  { intros b. destruct (tree (first_is SLASH d) (comps d)) as (_ & T2 & T3). destruct d as [|c d]; [exact (T2 b)|].
    destruct (isdir (c :: d)) eqn:Ed; [exact (T2 b)|]. split; [intros []|]. intros [_ X]. apply T3 in X. assert (isdir (c :: d) = true); [|congruence]. apply isdir_spec. split; [discriminate|exact X]. }
  assert (N : NoDup (match d with [] => entries false [] | _ => if isdir d then entries (first_is SLASH d) (comps d) else [] end)).
  { destruct d as [|c d]; [apply (tree false [])|]. destruct (isdir (c :: d)); [apply tree|constructor]. }
  unfold Glob.iterdir. destruct dironly.
  - split; [now apply NoDup_filter|]. intros b. rewrite filter_In, E. destruct (look _ _) as [[]|]; intuition congruence.
  - split; [exact N|]. intros b. rewrite E. intuition discriminate.
Qed.
Lemma magic_plain (b : text) : magic b = true -> ~ In 47 b -> plain b.
Proof. intros H1 H2. repeat split; [intros ->; discriminate H1|intros ->; discriminate H1|intros ->; discriminate H1|exact H2]. Qed.
Lemma glob1_escape (d b : text) dironly : magic b = true -> ~ In 47 b ->
  let there := look (first_is SLASH d) (comps d ++ [b]) <> None /\ (dironly = true -> look (first_is SLASH d) (comps d ++ [b]) = Some NDir) in
  glob1 d (escape_glob b) dironly = [] /\ ~ there \/ glob1 d (escape_glob b) dironly = [b] /\ there.
Proof.
  intros Hm Hs there. destruct (iterdir_spec d dironly) as [N I]. pose proof (magic_plain b Hm Hs) as Hp.
  assert (J : In b (iterdir d dironly) <-> there) by (rewrite I; unfold there; tauto).
  unfold Glob.glob1. assert (Eh : ishidden (escape_glob b) = ishidden b) by (apply escape_first; [discriminate|reflexivity]). rewrite Eh.
  set (names := if ishidden b then iterdir d dironly else filter (fun x => negb (ishidden x)) (iterdir d dironly)).
  assert (Nn : NoDup names) by (unfold names; destruct (ishidden b); [exact N|now apply NoDup_filter]).
  assert (Jn : In b names <-> In b (iterdir d dironly)).
  { unfold names. destruct (ishidden b) eqn:E; [tauto|]. rewrite filter_In, E. cbn. tauto. }
  destruct (filter_only (fun x => fnmatch x (escape_glob b)) names b Nn) as [[E X]|[E X]].
  - intros x _. rewrite fnmatch_escape. apply teqb_eq.
  - left. split; [exact E|]. rewrite <- J, <- Jn. exact X.
  - right. split; [exact E|]. rewrite <- J, <- Jn. exact X.
Qed.
Lemma last_ends (h b : text) : ~ In 47 b -> last_is SLASH (h ++ b) = match b with [] => last_is SLASH h | _ => false end.
Proof.
  intros H. destruct b as [|c b]; [now rewrite app_nil_r|]. destruct (exists_last (l := c :: b)) as (u & x & E); [discriminate|]. rewrite E in *. rewrite app_assoc, last_is_app.
  apply N.eqb_neq. intros ->. apply H. apply in_or_app. right. now left.
Qed.
Lemma pjoin_comps (q b : text) : q <> [] -> ~ In 47 b ->
  first_is SLASH (pjoin q b) = first_is SLASH q /\ comps (pjoin q b) = comps q ++ comps b /\ last_is SLASH (pjoin q b) = (match b with [] => true | _ => false end) /\ pjoin q b <> [].
Proof.
  intros Hq Hb. unfold pjoin. assert (F : first_is SLASH b = false). { destruct b as [|c b]; [reflexivity|]. cbn. apply N.eqb_neq. intros ->. apply Hb. now left. }
  rewrite F. assert (L : lenN q =? 0 = false) by (destruct q; [contradiction|unfold lenN; cbn [length]; apply N.eqb_neq; lia]). rewrite L. cbn [orb].
  destruct (last_is SLASH q) eqn:El.
  - assert (En : ends q). { right. unfold last_is in El. destruct (rev q) as [|x r] eqn:Er; [discriminate El|]. apply N.eqb_eq in El as ->. exists (rev r). rewrite <- (rev_involutive q), Er. reflexivity. }
    split; [now destruct q|]. split; [now apply comps_ends|]. split; [rewrite last_ends by exact Hb; now destruct b|]. now destruct q.
  - split; [now destruct q|]. split; [apply comps_app_slash|]. split; [|now destruct q].
    replace (q ++ SLASH :: b) with ((q ++ [SLASH]) ++ b) by now rewrite <- app_assoc. rewrite last_ends by exact Hb. destruct b; [apply last_is_app|reflexivity].
Qed.

(** the result for the escaped path [t] *)
Definition same_path (q t : text) : Prop := q <> [] /\ first_is SLASH q = first_is SLASH t /\ comps q = comps t /\ last_is SLASH q = last_is SLASH t.
Definition good (dironly : bool) (t : text) (r : list text) : Prop :=
  (r = [] \/ exists q, r = [q] /\ same_path q t) /\
  (isdir t = true -> r <> []) /\ (r <> [] -> lexists t = true) /\ (dironly = false -> lexists t = true -> r <> []).
Lemma isdir_lexists (t : text) : isdir t = true -> lexists t = true.
Proof. rewrite isdir_spec, lexists_spec. intros [H1 H2]. split; [exact H1|]. rewrite H2. destruct (last_is _ _); [reflexivity|discriminate]. Qed.
Lemma good_one dironly t q : same_path q t -> lexists t = true -> good dironly t [q].
Proof. intros H1 H2. split; [right; now exists q|]. split; [discriminate|]. split; [intros _; exact H2|discriminate]. Qed.
Lemma good_none dironly t : lexists t = false -> good dironly t [].
Proof.
  intros H. split; [now left|]. split; [intros X; apply isdir_lexists in X; congruence|]. split; [intros X; contradiction|congruence].
Qed.
Lemma good_nodir t : isdir t = false -> good true t [].
Proof. intros H. split; [now left|]. split; [congruence|]. split; [intros X; contradiction|discriminate]. Qed.
Lemma bool_no (b : bool) : b <> true -> b = false. Proof. now destruct b. Qed.

Lemma glob_good fuel : forall (t : text) dironly, (length (escape_glob t) < fuel)%nat -> exists r, iglob fuel (escape_glob t) dironly = Ok r /\ good dironly t r.
Proof.
  induction fuel as [|fuel IH]; intros t dironly Hf; [lia|]. cbn [Glob.iglob]. rewrite has_magic_escape.
  destruct (cut_path t) as (h & b & Et & Hh & Hb).
  assert (Eb : basename (escape_glob t) = escape_glob b /\ dirname (escape_glob t) = escape_glob (strip_dir h)).
  { rewrite Et, escape_app, <- strip_escape. apply base_dir; [now apply ends_escape|now rewrite escape_in]. }
  destruct Eb as [-> ->].
  assert (Ct : comps t = comps h ++ comps b) by (rewrite Et; now apply comps_ends).
  assert (Cd : comps (strip_dir h) = comps h) by apply strip_comps. assert (Fd : first_is SLASH (strip_dir h) = first_is SLASH h) by apply strip_first.
  destruct (magic t) eqn:Em; cbn [negb].
  2:{ (* no magic characters *)
    rewrite (escape_same t Em). assert (Ems : magic h = false /\ magic b = false) by (unfold magic in *; rewrite Et, existsb_app in Em; now apply orb_false_iff in Em).
    destruct Ems as [Emh Emb]. rewrite (escape_same b Emb).
    assert (Emd : magic (strip_dir h) = false).
    { unfold strip_dir. destruct (forallb _ h); [exact Emh|]. destruct (rstrip_app h) as [n E]. unfold magic in *. rewrite E, existsb_app in Emh. now apply orb_false_iff in Emh. }
    rewrite (escape_same _ Emd). eexists. split; [reflexivity|].
    assert (S : t <> [] -> same_path t t) by (intros X; repeat split; exact X).
    destruct b as [|c b].
    - rewrite app_nil_r in Et. subst h. destruct (isdir (strip_dir t)) eqn:E.
      + apply isdir_spec in E as [E1 E2]. rewrite Cd, Fd in E2. assert (Nt : t <> []) by (intros ->; now apply E1). apply good_one; [now apply S|]. apply lexists_spec. split; [exact Nt|]. rewrite E2. destruct (last_is _ _); [reflexivity|discriminate].
      + apply good_none. apply bool_no. intros X. apply lexists_spec in X as [X1 X2]. destruct Hh as [->|[h' Eh]]; [contradiction|]. assert (L : last_is SLASH t = true) by (rewrite Eh; apply last_is_app). rewrite L in X2.
        assert (isdir (strip_dir t) = true); [|congruence]. apply isdir_spec. rewrite Cd, Fd. split; [now rewrite strip_nil|exact X2].
    - destruct (lexists t) eqn:E; [|now apply good_none]. apply good_one; [|exact E]. apply S. intros ->. discriminate E. }
  destruct (escape_glob (strip_dir h)) as [|dc dd] eqn:Ed.
  { (* one component *)
    rewrite escape_nil, strip_nil in Ed. subst h. cbn [app] in Et. subst b. eexists. split; [reflexivity|].
    assert (Ct' : comps t = [t]) by (rewrite comps_one by exact Hb; destruct t; [discriminate Em|reflexivity]).
    assert (Nt : t <> []) by (intros ->; discriminate Em).
    assert (Ft : first_is SLASH t = false). { destruct t as [|c t]; [reflexivity|]. cbn. apply N.eqb_neq. intros ->. apply Hb. now left. }
    assert (Lt : last_is SLASH t = false). { pose proof (last_ends [] t Hb) as X. cbn [app] in X. rewrite X. now destruct t. }
    assert (Lx : lexists t = true <-> look false [t] <> None). { rewrite lexists_spec, Lt, Ft, Ct'. tauto. }
    assert (Dx : isdir t = true <-> look false [t] = Some NDir). { rewrite isdir_spec, Ft, Ct'. tauto. }
    assert (Sx : same_path t t) by (repeat split; exact Nt).
    destruct (glob1_escape [] t dironly Em Hb) as [[-> X]|[-> [X1 X2]]]; cbn [comps first_is] in *; change (comps [] ++ [t]) with [t] in *.
    - destruct dironly; [apply good_nodir; apply bool_no; rewrite Dx; intros Y; apply X; split; [now rewrite Y|auto]|].
      apply good_none. apply bool_no. rewrite Lx. intros Y. apply X. split; [exact Y|discriminate].
    - apply good_one; [exact Sx|now apply Lx]. }
  rewrite <- Ed in *.
  assert (Nd : strip_dir h <> []) by (intros X; rewrite X in Ed; discriminate Ed).
  assert (Nh : h <> []) by now rewrite <- strip_nil.
  assert (Nt : t <> []) by (rewrite Et; now destruct h).
  assert (Ft : first_is SLASH t = first_is SLASH h) by (rewrite Et; now destruct h).
  assert (Lt : last_is SLASH t = match b with [] => true | _ => false end).
  { rewrite Et, last_ends by exact Hb. destruct b; [|reflexivity]. destruct Hh as [->|[h' ->]]; [contradiction|apply last_is_app]. }
  assert (Len : (length (escape_glob (strip_dir h)) < length (escape_glob t))%nat).
  { rewrite Et, escape_app, app_length. destruct (forallb (N.eqb SLASH) h) eqn:F.
    - unfold strip_dir. rewrite F. destruct b as [|c b]; [|assert (X : escape_glob (c :: b) <> []) by (rewrite escape_nil; discriminate); destruct (escape_glob (c :: b)); [contradiction|cbn [length]; lia]].
      exfalso. rewrite app_nil_r in Et. rewrite Et in Em. clear -Em F. unfold magic in Em. induction h as [|c h IH]; [discriminate Em|]. cbn [forallb existsb] in *. apply andb_true_iff in F as [F1 F2]. apply N.eqb_eq in F1. subst c. change (magic1 SLASH) with false in Em. cbn [orb] in Em. auto.
    - rewrite <- strip_escape. assert (X : (length (strip_dir (escape_glob h)) < length (escape_glob h))%nat) by (apply strip_len; [now apply ends_escape|now rewrite escape_slashes]). lia. }
  assert (Dne : teqb (escape_glob (strip_dir h)) (escape_glob t) = false). { destruct (teqb _ _) eqn:X; [|reflexivity]. apply teqb_eq in X. rewrite X in Len. lia. }
  rewrite Dne. cbn [negb andb]. rewrite has_magic_escape.
  assert (G : exists dirs, (if magic (strip_dir h) then iglob fuel (escape_glob (strip_dir h)) true else Ok [escape_glob (strip_dir h)]) = Ok dirs /\
     (dirs = [] /\ isdir (strip_dir h) = false \/ exists q, dirs = [q] /\ q <> [] /\ first_is SLASH q = first_is SLASH h /\ comps q = comps h)).
  { destruct (magic (strip_dir h)) eqn:Emd.
    - destruct (IH (strip_dir h) true) as (r & E & [D|(q & -> & Sq)] & G2 & _); [lia| |].
      + exists r. split; [exact E|]. left. split; [exact D|]. apply bool_no. intros X. now apply G2.
      + exists [q]. split; [exact E|]. right. exists q. destruct Sq as (S1 & S2 & S3 & _). rewrite <- Fd, <- Cd. auto.
    - eexists. split; [reflexivity|]. right. exists (strip_dir h). rewrite (escape_same _ Emd). auto. }
  destruct G as (dirs & -> & HD). unfold bind.
  assert (Lb : b <> [] -> lexists t = true <-> look (first_is SLASH h) (comps h ++ [b]) <> None).
  { intros Hn. rewrite lexists_spec, Lt, Ft, Ct, (comps_one b Hb). destruct b; [contradiction|tauto]. }
  assert (L0 : b = [] -> lexists t = true <-> look (first_is SLASH h) (comps h) = Some NDir).
  { intros ->. rewrite lexists_spec, Lt, Ft, Ct. cbn. rewrite app_nil_r. tauto. }
  assert (Ln : look (first_is SLASH h) (comps h) <> Some NDir -> lexists t = false).
  { intros X. apply bool_no. destruct b as [|c b]; [now rewrite L0|]. rewrite Lb by discriminate. intros Y. apply X. apply (tree (first_is SLASH h) (comps h)) in Y. exact Y. }
  destruct HD as [[-> Hd]|(q & -> & Nq & Fq & Cq)].
  { eexists. split; [reflexivity|]. cbn [flat_map]. apply good_none. apply Ln. intros X. assert (isdir (strip_dir h) = true); [|congruence]. apply isdir_spec. rewrite Fd, Cd. auto. }
  eexists. split; [reflexivity|]. cbn [flat_map]. rewrite app_nil_r, has_magic_escape.
  destruct (pjoin_comps q b Nq Hb) as (J1 & J2 & J3 & J4).
  assert (Sq : same_path (pjoin q b) t) by (repeat split; [exact J4|now rewrite J1, Fq, Ft|now rewrite J2, Cq, Ct|now rewrite J3, Lt]).
  destruct (magic b) eqn:Emb.
  - assert (Nb : b <> []) by (intros ->; discriminate Emb). specialize (Lb Nb).
    assert (Dx : isdir t = true <-> look (first_is SLASH h) (comps h ++ [b]) = Some NDir). { rewrite isdir_spec, Ft, Ct, (comps_one b Hb). destruct b; [contradiction|tauto]. }
    pose proof (glob1_escape q b dironly Emb Hb) as G1. cbv zeta in G1. rewrite Fq, Cq in G1. destruct G1 as [[-> X]|[-> [X1 X2]]]; cbn [map].
    + destruct dironly; [apply good_nodir; apply bool_no; rewrite Dx; intros Y; apply X; split; [now rewrite Y|auto]|].
      apply good_none. apply bool_no. rewrite Lb. intros Y. apply X. split; [exact Y|discriminate].
    + apply good_one; [exact Sq|now apply Lb].
  - rewrite (escape_same b Emb). unfold Glob.glob0. destruct b as [|c b].
    + destruct (isdir q) eqn:E; cbn [map].
      * apply good_one; [exact Sq|]. apply L0; [reflexivity|]. apply isdir_spec in E as [_ E]. now rewrite Fq, Cq in E.
      * apply good_none. apply Ln. intros X. assert (isdir q = true); [|congruence]. apply isdir_spec. rewrite Fq, Cq. auto.
    + assert (Jx : lexists (pjoin q (c :: b)) = lexists t).
      { destruct Sq as (_ & S2 & S3 & S4). apply eq_true_iff_eq. rewrite !lexists_spec, S2, S3, S4. tauto. }
      rewrite Jx. destruct (lexists t) eqn:E; cbn [map]; [now apply good_one|now apply good_none].
Qed.

Lemma escape_last (t : text) : last_is SLASH (escape_glob t) = last_is SLASH t.
Proof.
  destruct t as [|c t]; [reflexivity|]. assert (N : c :: t <> []) by discriminate. destruct (exists_last N) as (f & a & E). rewrite E, escape_app.
  change (escape_glob [a]) with (escape1 a ++ []). rewrite app_nil_r. transitivity (a =? SLASH); [|symmetry; apply (last_is_app SLASH f a)]. destruct (magic1 a) eqn:Ea.
  - rewrite escape1_magic by exact Ea. change [91; a; 93] with ([91; a] ++ [93]). rewrite app_assoc. transitivity (93 =? SLASH); [apply last_is_app|].
    symmetry. apply N.eqb_neq. intros ->. discriminate Ea.
  - rewrite escape1_plain by exact Ea. apply last_is_app.
Qed.
Lemma search_name_escape (folder name : text) : search_name (escape_glob folder) (escape_glob name) = escape_glob (search_name folder name).
Proof.
  unfold search_name. rewrite escape_first by (discriminate || reflexivity).
  assert (E : starts_with N.eqb DOTDOT (escape_glob name) = starts_with N.eqb DOTDOT name).
  { change DOTDOT with [46; 46]. destruct name as [|a name]; [reflexivity|]. rewrite escape_cons. destruct (magic1 a) eqn:Ea.
    - rewrite escape1_magic by exact Ea. cbn [app starts_with]. destruct (N.eqb_spec 46 a) as [<-|]; [discriminate Ea|reflexivity].
    - rewrite escape1_plain by exact Ea. cbn [app starts_with]. f_equal. destruct name as [|b name]; [reflexivity|]. rewrite escape_cons. destruct (magic1 b) eqn:Eb.
      + rewrite escape1_magic by exact Eb. cbn [app]. destruct (N.eqb_spec 46 b) as [<-|]; [discriminate Eb|reflexivity].
      + rewrite escape1_plain by exact Eb. reflexivity. }
  rewrite E. destruct (first_is SLASH name || starts_with N.eqb DOTDOT name); [reflexivity|]. unfold pjoin. rewrite escape_first by (discriminate || reflexivity).
  destruct (first_is SLASH name); [reflexivity|].
  assert (L : last_is SLASH (escape_glob folder) = last_is SLASH folder).
  { apply escape_last. }
  assert (Z : (lenN (escape_glob folder) =? 0) = (lenN folder =? 0)).
  { destruct folder as [|c f]; [reflexivity|]. assert (X : escape_glob (c :: f) <> []) by (rewrite escape_nil; discriminate). destruct (escape_glob (c :: f)); [contradiction|]. rewrite !lenN_cons. transitivity false; [|symmetry]; apply N.eqb_neq; lia. }
  rewrite L, Z. destruct ((lenN folder =? 0) || last_is SLASH folder); rewrite escape_app; [reflexivity|]. now rewrite escape_cons.
Qed.
Lemma same_isfile q t : t <> [] -> same_path q t -> isfile q = isfile t.
Proof.
  intros Nt (S1 & S2 & S3 & S4). unfold Glob.isfile, Glob.lookup. rewrite <- S2, <- S3, <- S4. destruct q; [contradiction|]. destruct t; [contradiction|]. reflexivity.
Qed.
Lemma search1_spec folder name : let t := search_name folder name in
  exists o, search1 look entries (escape_glob folder) name = Ok [o] /\
  (isfile t = true /\ (exists q, o = Found q /\ same_path q t) \/ isfile t = false /\ o = FileNotFound (escape_glob t)).
Proof.
  intros t. unfold search1. rewrite search_name_escape. fold t. unfold glob. destruct (glob_good (S (length (escape_glob t))) t false) as (r & E & G1 & _ & G3 & G4); [lia|].
  rewrite E. unfold bind. assert (FL : isfile t = true -> lexists t = true) by (unfold Glob.isfile, Glob.lexists; destruct (Glob.lookup _ _) as [[]|]; congruence).
  destruct G1 as [->|(q & -> & Sq)]; cbn [filter].
  - eexists. split; [reflexivity|]. right. split; [|reflexivity]. apply bool_no. intros X. now apply G4; [|apply FL|].
  - assert (Nt : t <> []). { intros X. assert (Y : lexists t = true) by (apply G3; discriminate). rewrite X in Y. discriminate Y. }
    rewrite (same_isfile q t Nt Sq). destruct (isfile t); eexists; (split; [reflexivity|]); [left|right]; (split; [reflexivity|]); [exists q; auto|reflexivity].
Qed.
End Os.

(** ** With the specification *)
Lemma stands_spec p a cs : stands_for p a cs <-> a = first_is SLASH p /\ cs = comps p.
Proof.
  assert (F : forall l : list text, filter (fun c : text => match c with [] => false | _ => true end) l = filter (fun c => negb (teqb c [])) l).
  { intros l. apply filter_ext. now intros [|x c]. }
  assert (A : (exists r, p = 47 :: r) <-> first_is SLASH p = true).
  { destruct p as [|c p]; cbn; [split; [intros [r X]; discriminate X|discriminate]|]. rewrite N.eqb_eq. split; [intros [r X]; now injection X|intros ->; now exists p]. }
  unfold stands_for. rewrite A. split.
  - intros (H1 & l & H2 & ->). split; [destruct a, (first_is SLASH p); intuition congruence|]. rewrite F. unfold comps. now rewrite (joined_split _ _ _ H2).
  - intros [-> ->]. split; [tauto|]. exists (split SLASH p). split; [apply split_joined|]. now rewrite F.
Qed.
Lemma last_is_iff c (p : text) : last_is c p = true <-> exists q, p = q ++ [c].
Proof.
  unfold last_is. split.
  - destruct (rev p) as [|x r] eqn:E; [discriminate|]. intros X. apply N.eqb_eq in X as ->. exists (rev r). rewrite <- (rev_involutive p), E. reflexivity.
  - intros [q ->]. rewrite rev_app_distr. cbn. apply N.eqb_refl.
Qed.
Lemma file_spec look p : Glob.isfile look p = true <-> file_at look p.
Proof.
  unfold file_at, isfile, lookup. split.
  - destruct p as [|c p]; [discriminate|]. set (P := c :: p) in *. intros H. split; [discriminate|]. exists (first_is SLASH P), (comps P). split; [now apply stands_spec|]. rewrite <- last_is_iff.
    destruct (look (first_is SLASH P) (comps P)) as [[]|]; destruct (last_is SLASH P) eqn:L; try discriminate H. split; [reflexivity|]. unfold SLASH in L. congruence.
  - intros (H0 & a & cs & H1 & H2 & H3). apply stands_spec in H1 as [-> ->]. rewrite <- last_is_iff in H3. destruct p as [|c p]; [contradiction|]. rewrite H2. destruct (last_is SLASH (c :: p)) eqn:L; [now destruct H3|reflexivity].
Qed.
Lemma wanted_spec folder name p : wanted folder name p <-> p = search_name folder name.
Proof.
  unfold wanted, search_name.
  assert (A : (exists r, name = 47 :: r) <-> first_is SLASH name = true).
  { destruct name as [|c n]; cbn; [split; [intros [r X]; discriminate X|discriminate]|]. rewrite N.eqb_eq. split; [intros [r X]; now injection X|intros ->; now exists n]. }
  assert (B : (exists r, name = str ".." ++ r) <-> starts_with N.eqb DOTDOT name = true).
  { change DOTDOT with [46; 46]. change (str "..") with [46; 46]. destruct name as [|a [|b n]]; cbn [starts_with app]; try (split; [intros [r X]; discriminate X|intros X; try discriminate X; apply andb_true_iff in X as [_ X]; discriminate X]).
    rewrite !andb_true_iff, !N.eqb_eq. split; [intros [r X]; injection X; auto|]. intros (<- & <- & _). now exists n. }
  rewrite A, B. destruct (first_is SLASH name) eqn:E1; cbn [orb].
  - intuition congruence.
  - destruct (starts_with N.eqb DOTDOT name); [intuition congruence|].
    assert (E : pjoin folder name = in_folder folder name).
    { unfold pjoin, in_folder, last_is. rewrite E1. destruct folder as [|x f] using rev_ind; [reflexivity|]. rewrite rev_app_distr. cbn [rev app].
      destruct (x =? SLASH) eqn:Ex; [rewrite orb_true_r; unfold SLASH in Ex; now rewrite Ex|]. unfold SLASH in Ex. rewrite Ex. rewrite orb_false_r.
      assert (L : lenN (f ++ [x]) =? 0 = false) by (apply N.eqb_neq; rewrite lenN_app; unfold lenN; cbn [length]; lia). now rewrite L. }
    rewrite E. intuition congruence.
Qed.

(** Each file name gives one result: the file itself, or a message that it is missing. *)
Theorem search_exact look entries files folder : tree_ok look entries ->
  exists os, search look entries files folder = Ok os /\
  Forall2 (fun name o => forall p, wanted folder name p ->
     (file_at look p -> exists q, o = Found q /\ (forall a cs, stands_for q a cs <-> stands_for p a cs)) /\
     (~ file_at look p -> exists m, o = FileNotFound m)) files os.
Proof.
  intros T. unfold search. induction files as [|f files (os & E & IH)]; [exists []; split; [reflexivity|constructor]|].
  cbn [search_all]. destruct (search1_spec look entries T folder f) as (o & Eo & Ho). rewrite Eo, E. unfold bind. eexists. split; [reflexivity|]. cbn [app]. constructor; [|exact IH].
  intros p Hp. apply wanted_spec in Hp. subst p. rewrite <- (file_spec look). destruct Ho as [(H1 & q & -> & (S1 & S2 & S3 & _))|(H1 & ->)].
  - split; [|intros X; contradiction]. intros _. exists q. split; [reflexivity|]. intros a cs. rewrite !stands_spec, S2, S3. tauto.
  - split; [congruence|]. intros _. eexists. reflexivity.
Qed.
Theorem name_only (b x : text) : fnmatch x (escape_glob b) = true <-> x = b.
Proof. rewrite fnmatch_escape. apply teqb_eq. Qed.

(** ** An example: directory "d[1]" with the files "f*.nfo" and "fx.nfo" *)
Definition ex_dir := str "d[1]". Definition ex_a := str "f*.nfo". Definition ex_b := str "fx.nfo".
Fixpoint ex_find (l : list (list text * node)) (cs : list text) : option node :=
  match l with [] => None | (p, k) :: l => if list_eqb teqb p cs then Some k else ex_find l cs end.
Definition ex_nodes : list (list text * node) := [([], NDir); ([ex_dir], NDir); ([ex_dir; ex_a], NFile); ([ex_dir; ex_b], NFile)].
Definition ex_look (a : bool) (cs : list text) : option node := if a then None else ex_find ex_nodes cs.
Definition ex_entries (a : bool) (d : list text) : list text :=
  if a then [] else if list_eqb teqb d [] then [ex_dir] else if list_eqb teqb d [ex_dir] then [ex_a; ex_b] else [].
Lemma leqb_spec (a b : list text) : list_eqb teqb a b = true <-> a = b.
Proof.
  revert b. induction a as [|x a IH]; intros [|y b]; cbn; try (split; congruence). rewrite andb_true_iff, IH, teqb_eq. split; [intros [-> ->]; reflexivity|intros X; injection X; auto].
Qed.
Lemma ex_find_in l cs : ex_find l cs <> None <-> In cs (map fst l).
Proof.
  induction l as [|[p k] l IH]; [cbn; tauto|]. cbn [ex_find map fst In]. destruct (list_eqb teqb p cs) eqn:E.
  - apply leqb_spec in E. split; [auto|discriminate].
  - rewrite IH. split; [auto|]. intros [X|X]; [|exact X]. apply leqb_spec in X. congruence.
Qed.
Lemma ex_child d x : ex_look false (d ++ [x]) <> None <-> d = [] /\ x = ex_dir \/ d = [ex_dir] /\ (x = ex_a \/ x = ex_b).
Proof.
  unfold ex_look. rewrite ex_find_in. cbn [map fst ex_nodes In]. split.
  - intros [H|[H|[H|[H|[]]]]].
    + now destruct d.
    + apply (app_inj_tail [] d) in H as [<- <-]. auto.
    + apply (app_inj_tail [ex_dir] d) in H as [<- <-]. auto.
    + apply (app_inj_tail [ex_dir] d) in H as [<- <-]. auto.
  - intros [[-> ->]|[-> [->| ->]]]; cbn [app]; auto.
Qed.
Lemma ex_tree : tree_ok ex_look ex_entries.
Proof.
  intros a d. destruct a.
  - split; [constructor|]. split; [|intros x X; now cbn in X]. intros x. cbn. tauto.
  - unfold ex_entries. destruct (list_eqb teqb d []) eqn:E1.
    + apply leqb_spec in E1 as ->. split; [constructor; [intros []|constructor]|]. split; [|intros x _; reflexivity].
      intros x. rewrite ex_child. cbn [In]. split; [intros [<-|[]]|intros (_ & [[_ ->]|[X _]]); [now left|discriminate X]].
      split; [|auto]. apply magic_plain; [reflexivity|]. cbn. intuition discriminate.
    + assert (N1 : d <> []) by (intros X; apply leqb_spec in X; congruence). destruct (list_eqb teqb d [ex_dir]) eqn:E2.
      * apply leqb_spec in E2 as ->. split; [constructor; [intros [X|[]]; discriminate X|constructor; [intros []|constructor]]|]. split; [|intros x _; reflexivity].
        intros x. rewrite ex_child. cbn [In]. split.
        -- intros X. split; [|right; split; [reflexivity|destruct X as [X|[X|[]]]; auto]].
           destruct X as [<-|[<-|[]]]; (split; [discriminate|]; split; [discriminate|]; split; [discriminate|]; cbn; intuition discriminate).
        -- intros (_ & [[X _]|[_ [->| ->]]]); [discriminate X|auto|auto].
      * assert (N2 : d <> [ex_dir]) by (intros X; apply leqb_spec in X; congruence). split; [constructor|]. split; [|intros x X; apply ex_child in X; tauto].
        intros x. rewrite ex_child. cbn [In]. tauto.
Qed.
Lemma ex_search : search ex_look ex_entries [ex_a; str "*.nfo"; str "fy.nfo"] ex_dir =
  Ok [Found (str "d[1]/f*.nfo"); FileNotFound (str "d[[]1[]]/[*].nfo"); FileNotFound (str "d[[]1[]]/fy.nfo")].
Proof. vm_compute. reflexivity. Qed.
Lemma wildcard_missing : exists look entries folder ending name m, tree_ok look entries /\ file_at look (in_folder folder (name ++ ending)) /\
  search look entries [42 :: ending] folder = Ok [FileNotFound m].
Proof.
  exists ex_look, ex_entries, ex_dir, (str ".nfo"), (str "fx"), (str "d[[]1[]]/[*].nfo"). split; [exact ex_tree|]. split; [|vm_compute; reflexivity].
  split; [discriminate|]. exists false, [ex_dir; ex_b]. split; [|split; [reflexivity|]].
  - split; [split; [discriminate|intros [r X]; discriminate X]|]. exists [ex_dir; ex_b]. split; [|reflexivity]. change (in_folder ex_dir (str "fx" ++ str ".nfo")) with (ex_dir ++ 47 :: ex_b).
    apply joined_more; [|now left|apply joined_one]; (intros s [<-|[]] X; cbn in X; repeat destruct X as [X|X]; try discriminate X; exact X).
  - intros [q X]. apply (f_equal (fun t : text => last t 0)) in X. rewrite last_last in X. discriminate X.
Qed.
