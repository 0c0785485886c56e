(** YencFacts: decoding of yEnc articles. *)
From Coq Require Import Permutation.
From Verif Require Import Base BaseFacts Crc Yenc YencSpec.

(** ** Escapes *)
Inductive tok := Lit (o : byte) | Esc (o : N).
Definition tok_ok (t : tok) : Prop := match t with Lit o => o <> x3d | Esc o => In o yescapes end.
Definition mem (S : list N) (o : N) : bool := existsb (N.eqb o) S.
Definition show (S : list N) (t : tok) : bytes :=
  match t with
  | Lit o => [o]
  | Esc o => if mem S o then [n2b o] else [x3d; n2b (o + 64)]
  end.
Lemma replace2_cons a b c x l : x <> a -> replace2 a b c (x :: l) = x :: replace2 a b c l.
Proof.
  intros H. destruct l as [|y l]; [reflexivity|]. cbn [replace2].
  destruct (Byte.eqb x a) eqn:E; [apply beqb_spec' in E; contradiction|]. reflexivity.
Qed.
Lemma replace2_two a b c y l : replace2 a b c (a :: y :: l) = if Byte.eqb y b then c :: replace2 a b c l else a :: replace2 a b c (y :: l).
Proof. change (replace2 a b c (a :: y :: l)) with (if Byte.eqb a a && Byte.eqb y b then c :: replace2 a b c l else a :: replace2 a b c (y :: l)). now rewrite (proj2 (beqb_spec' a a) eq_refl). Qed.
Lemma esc_case o : In o yescapes -> o = 0 \/ o = 9 \/ o = 10 \/ o = 13 \/ o = 27 \/ o = 32 \/ o = 46 \/ o = 61.
Proof. cbn. intuition. Qed.
Lemma replace_step S i ts : Forall tok_ok ts -> In i yescapes -> mem S 61 = false ->
  replace2 x3d (n2b (i + 64)) (n2b i) (concat (map (show S) ts)) = concat (map (show (i :: S)) ts).
Proof.
  intros Ht Hi HS. induction Ht as [|t ts H Ht IH]; [reflexivity|]. cbn [map concat].
  destruct t as [o|o]; cbn [tok_ok show] in *.
  - cbn [app]. rewrite replace2_cons by exact H. now rewrite IH.
  - change (mem (i :: S) o) with ((o =? i) || mem S o)%bool. destruct (mem S o) eqn:M.
    + rewrite orb_true_r. cbn [app]. rewrite replace2_cons, IH; [reflexivity|].
      intros E. assert (o = 61).
      { apply esc_case in H. destruct H as [->|[->|[->|[->|[->|[->|[->| ->]]]]]]]; try discriminate E. reflexivity. }
      congruence.
    + rewrite orb_false_r. destruct (N.eqb_spec o i) as [->|Hn].
      * cbn [app]. rewrite replace2_two, (proj2 (beqb_spec' _ _) eq_refl). now rewrite IH.
      * cbn [app]. rewrite replace2_two.
        replace (Byte.eqb (n2b (o + 64)) (n2b (i + 64))) with false.
        -- f_equal. rewrite replace2_cons, IH; [reflexivity|].
           apply esc_case in H. destruct H as [->|[->|[->|[->|[->|[->|[->| ->]]]]]]]; discriminate.
        -- symmetry. destruct (Byte.eqb (n2b (o + 64)) (n2b (i + 64))) eqn:E; [|reflexivity]. apply beqb_spec' in E.
           apply (f_equal b2n) in E. rewrite !b2n_n2b_small in E; [lia| |]; apply esc_case in H, Hi; lia.
Qed.
Lemma unescape_toks ts : Forall tok_ok ts -> unescape (concat (map (show []) ts)) = concat (map (show (rev yescapes)) ts).
Proof.
  intros H. unfold unescape. change yescapes with ([0; 9; 10; 13; 27; 32; 46; 61]). cbn [fold_left rev app].
  rewrite !replace_step; [reflexivity|..]; try exact H; try reflexivity; cbn; tauto.
Qed.
Lemma all_shown t : tok_ok t -> show (rev yescapes) t = [match t with Lit o => o | Esc o => n2b o end].
Proof.
  destruct t as [o|o]; intros H; [reflexivity|]. cbn [show]. replace (mem (rev yescapes) o) with true; [reflexivity|]. symmetry.
  apply existsb_exists. exists o. split; [|apply N.eqb_refl]. rewrite <- in_rev. exact H.
Qed.

Definition tok_of (b : byte) (e : bytes) : tok := match e with [_] => Lit (n2b (moved b)) | _ => Esc (moved b) end.
Lemma ychar_tok b e : ychar b e -> tok_ok (tok_of b e) /\ e = show [] (tok_of b e) /\ n2b (moved b) = (match tok_of b e with Lit o => o | Esc o => n2b o end).
Proof.
  intros H. destruct H as [b H|b H]; cbn [tok_of tok_ok show mem existsb].
  - split; [|split; reflexivity]. intros E. apply H. apply (f_equal b2n) in E. rewrite b2n_n2b_small in E by (unfold moved; apply N.mod_lt; lia).
    rewrite E. cbn. tauto.
  - split; [exact H|]. split; reflexivity.
Qed.
Lemma ydec_moved b : ydec (n2b (moved b)) = b.
Proof.
  unfold ydec, moved. apply b2n_inj. rewrite b2n_n2b, b2n_n2b. pose proof (b2n_lt b). 
  rewrite N.mod_mod by lia. replace (((b2n b + 42) mod 256 + 214) mod 256) with ((b2n b + 42 + 214) mod 256) by (rewrite (N.add_mod (b2n b + 42) 214) by lia; rewrite N.add_mod_idemp_r by lia; reflexivity).
  replace (b2n b + 42 + 214) with (b2n b + 1 * 256) by lia. rewrite N.mod_add by lia. apply N.mod_small. lia.
Qed.
Theorem decode_body d e ls : yencoded d e -> concat ls = e -> decode_lines ls = d.
Proof.
  intros (es & H & ->) Hl. unfold decode_lines. rewrite Hl. clear Hl ls.
  assert (Q : exists ts, Forall tok_ok ts /\ concat es = concat (map (show []) ts) /\ map ydec (concat (map (show (rev yescapes)) ts)) = d).
  { induction H as [|b e d es H _ (ts & A & B & C)]; [exists []; repeat split; constructor|].
    apply ychar_tok in H as (X & Y & Z). exists (tok_of b e :: ts). split; [constructor; assumption|]. split.
    - cbn [map concat]. rewrite <- Y, B. reflexivity.
    - cbn [map concat]. rewrite (all_shown _ X). cbn [map app]. rewrite <- Z, ydec_moved. now rewrite C. }
  destruct Q as (ts & A & B & C). rewrite B, unescape_toks by exact A. exact C.
Qed.

(** ** Dots and empty lines *)
Lemma undot_dotted l : undot (dotted l) = l.
Proof.
  unfold undot. destruct l as [|x l]; [reflexivity|].
  destruct (Byte.eqb x x2e) eqn:E.
  - apply beqb_spec' in E as ->. cbn [dotted]. change (bstr "..") with [x2e; x2e]. cbn [starts_with].
    rewrite (proj2 (beqb_spec' x2e x2e) eq_refl). cbn [andb]. cbn [dropN]. change (1 =? 0) with false. cbn iota. now rewrite dropN_0.
  - assert (Hd : dotted (x :: l) = x :: l) by (destruct x; try reflexivity; discriminate E).
    rewrite Hd. change (bstr "..") with [x2e; x2e]. cbn [starts_with].
    assert (F : Byte.eqb x2e x = false) by (destruct (Byte.eqb x2e x) eqn:F; [apply beqb_spec' in F as <-; discriminate E|reflexivity]).
    now rewrite F.
Qed.
Lemma undot_other l : (forall r, l <> x2e :: x2e :: r) -> undot l = l.
Proof.
  intros H. unfold undot. change (bstr "..") with [x2e; x2e]. destruct l as [|x [|y l]]; try reflexivity.
  - cbn [starts_with]. now rewrite andb_false_r.
  - cbn [starts_with]. destruct (Byte.eqb x2e x) eqn:E; [|reflexivity]. apply beqb_spec' in E as <-.
    destruct (Byte.eqb x2e y) eqn:F; [|reflexivity]. apply beqb_spec' in F as <-. now destruct (H l).
Qed.
Lemma pop_empty_app (a l : list bytes) (x : bytes) : x <> [] -> exists a', pop_empty (a ++ x :: l) = a' ++ x :: l /\ (length a' <= length a)%nat /\ incl a' a.
Proof.
  intros Hx. induction a as [|y a (a' & E & L & I)]; cbn [app].
  - exists []. destruct x; [contradiction|]. split; [reflexivity|]. split; [auto|apply incl_refl].
  - destruct y as [|b y].
    + exists a'. cbn [pop_empty]. split; [exact E|]. split; [cbn; lia|]. now apply incl_tl.
    + exists ((b :: y) :: a). split; [reflexivity|]. split; [auto|apply incl_refl].
Qed.
Lemma strip_article (pre mid post : list bytes) (x y : bytes) : x <> [] -> y <> [] ->
  exists pre' post', strip (pre ++ x :: mid ++ y :: post) = map undot pre' ++ undot x :: map undot mid ++ undot y :: map undot post' /\
    (length pre' <= length pre)%nat /\ incl pre' pre /\ (length post' <= length post)%nat /\ incl post' post.
Proof.
  intros Hx Hy. unfold strip. destruct (pop_empty_app pre (mid ++ y :: post) x Hx) as (pre' & -> & L1 & I1).
  assert (R : rev (pre' ++ x :: mid ++ y :: post) = rev post ++ y :: rev (pre' ++ x :: mid)).
  { rewrite !rev_app_distr. cbn [rev]. rewrite !rev_app_distr. cbn [rev]. rewrite <- !app_assoc. reflexivity. }
  destruct (pop_empty_app (rev post) (rev (pre' ++ x :: mid)) y Hy) as (p2 & E2 & L2 & I2).
  rewrite R, E2.
  exists pre', (rev p2). split; [|split; [exact L1|split; [exact I1|split]]].
  - rewrite rev_app_distr. cbn [rev]. rewrite rev_involutive, <- !app_assoc. cbn [app]. rewrite !map_app. cbn [map]. rewrite map_app. reflexivity.
  - rewrite rev_length in *. lia.
  - intros z Hz. apply in_rev in Hz. apply I2 in Hz. now apply in_rev.
Qed.

(** ** No control line inside the body *)
Fixpoint calm (l : bytes) : Prop :=
  match l with x :: l1 => (match l1 with y :: _ => x = x3d -> y <> x79 | [] => True end) /\ calm l1 | [] => True end.
Lemma calm_app a b : calm (a ++ b) -> calm b.
Proof. induction a as [|x a IH]; [auto|]. intros [_ H]. now apply IH. Qed.
Lemma esc_not_y b : In (moved b) yescapes -> n2b (moved b + 64) <> x79 /\ n2b (moved b + 64) <> x3d.
Proof. intros H. apply esc_case in H. destruct H as [->|[->|[->|[->|[->|[->|[->| ->]]]]]]]; split; discriminate. Qed.
Lemma yencoded_calm d e : yencoded d e -> calm e.
Proof.
  intros (es & H & ->). induction H as [|b e d es H _ IH]; [exact I|]. cbn [concat].
  destruct H as [b H|b H]; cbn [app calm].
  - split; [|exact IH]. destruct (concat es); [exact I|]. intros E. exfalso. apply H. apply (f_equal b2n) in E. rewrite b2n_n2b_small in E by (unfold moved; apply N.mod_lt; lia).
    rewrite E. cbn. tauto.
  - apply esc_not_y in H as [A B]. split; [intros _; exact A|]. split; [|exact IH]. destruct (concat es); [exact I|]. intros E. contradiction.
Qed.
Lemma calm_lines ls : calm (concat ls) -> Forall (fun l => forall r, l <> x3d :: x79 :: r) ls.
Proof.
  induction ls as [|l ls IH]; intros H; [constructor|]. cbn [concat] in H. constructor; [|apply IH; eapply calm_app; exact H].
  intros r ->. destruct H as [H _]. now apply H.
Qed.
Lemma bstarts_spec l p : bstarts l p = true <-> exists r, l = p ++ r.
Proof.
  unfold bstarts. revert l. induction p as [|x p IH]; intros l; cbn [starts_with]; [split; [now exists l|reflexivity]|].
  destruct l as [|y l]; [split; [discriminate|intros [r H]; discriminate]|].
  rewrite andb_true_iff, beqb_spec', IH. split; [intros [-> [r ->]]; now exists r|intros [r H]; injection H as -> ->; eauto].
Qed.
Lemma bstarts_app p r : bstarts (p ++ r) p = true.
Proof. apply bstarts_spec. eauto. Qed.
Lemma not_y l q : (forall r, l <> x3d :: x79 :: r) -> bstarts l (x3d :: x79 :: q) = false.
Proof. intros H. destruct (bstarts l (x3d :: x79 :: q)) eqn:E; [|reflexivity]. apply bstarts_spec in E as [r ->]. now destruct (H (q ++ r)). Qed.

(** ** Head and tail *)
Lemma head_found pre : forall fuel all b rest, (length pre < fuel)%nat -> Forall (fun l => bstarts l (bstr "=ybegin ") = false) pre -> bstarts b (bstr "=ybegin ") = true -> rest <> [] ->
  ycheck_head fuel (pre ++ b :: rest) all =
  match rest with
  | next :: rest' => if bstarts next (bstr "=ypart ") then (Some (ybegin_dict b), Some (ySplit next (no_limit next)), rest') else (Some (ybegin_dict b), None, rest)
  | [] => (None, None, all) end.
Proof.
  induction pre as [|x pre IH]; intros [|fuel] all b rest Hf Hp Hb Hr; try (cbn in Hf; lia).
  - cbn [app ycheck_head]. rewrite Hb. destruct rest; [congruence|reflexivity].
  - apply Forall_cons_iff in Hp as [Hx Hp]. cbn [app ycheck_head]. rewrite Hx. apply IH; auto. cbn in Hf. lia.
Qed.
Lemma tail_found post : forall fuel all e rest, (length post < fuel)%nat -> Forall (fun l => bstarts l (bstr "=yend ") = false) post -> bstarts e (bstr "=yend ") = true ->
  ycheck_tail fuel (post ++ e :: rest) all = (Some (ySplit e (no_limit e)), rev rest).
Proof.
  induction post as [|x post IH]; intros [|fuel] all e rest Hf Hp He; try (cbn in Hf; lia).
  - cbn [app ycheck_tail]. now rewrite He.
  - apply Forall_cons_iff in Hp as [Hx Hp]. cbn [app ycheck_tail]. rewrite Hx. apply IH; auto. cbn in Hf. lia.
Qed.
Lemma undot_no p l : (exists q, p = x3d :: q) -> bstarts l p = false -> bstarts (undot l) p = false.
Proof.
  intros [q ->] H. unfold undot. destruct (starts_with Byte.eqb (bstr "..") l) eqn:E; [|exact H].
  change (starts_with Byte.eqb (bstr "..") l) with (bstarts l (bstr "..")) in E. apply bstarts_spec in E as [r ->].
  change (bstr ".." ++ r) with (x2e :: x2e :: r). cbn [dropN]. change (1 =? 0) with false. cbn iota. rewrite dropN_0. reflexivity.
Qed.
Definition opt_line (p : option bytes) : list bytes := match p with Some p => [p] | None => [] end.
Lemma check_article (pre body post : list bytes) (b e : bytes) (p : option bytes) :
  (length pre < 10)%nat -> (length post < 10)%nat ->
  Forall (fun l => bstarts l (bstr "=ybegin ") = false) pre -> Forall (fun l => bstarts l (bstr "=yend ") = false) post ->
  bstarts b (bstr "=ybegin ") = true -> bstarts e (bstr "=yend ") = true ->
  (match p with Some p => bstarts p (bstr "=ypart ") = true | None => True end) ->
  calm (concat body) ->
  exists x y, strip (pre ++ b :: (opt_line p ++ map dotted body) ++ e :: post) = x :: y /\
   yCheck (x :: y) = ((Some (ybegin_dict b), match p with Some p => Some (ySplit p (no_limit p)) | None => None end, Some (ySplit e (no_limit e))), body).
Proof.
  intros Lp Lq Hpre Hpost Hb He Hp Hc.
  assert (Nb : b <> []) by (intros ->; discriminate Hb). assert (Ne : e <> []) by (intros ->; discriminate He).
  assert (U : forall l k, bstarts l (x3d :: k) = true -> undot l = l).
  { intros l k H. apply undot_other. apply bstarts_spec in H as [r ->]. discriminate. }
  destruct (strip_article pre (opt_line p ++ map dotted body) post b e Nb Ne) as (pre' & post' & Es & L1 & I1 & L2 & I2).
  rewrite Es. rewrite (U b _ Hb), (U e _ He).
  assert (M : map undot (opt_line p ++ map dotted body) = opt_line p ++ body).
  { rewrite map_app, map_map. f_equal.
    - destruct p as [p|]; [|reflexivity]. cbn [opt_line map]. now rewrite (U p _ Hp).
    - rewrite <- (map_id body) at 2. apply map_ext. exact undot_dotted. }
  rewrite M.
  assert (Hpre' : Forall (fun l => bstarts l (bstr "=ybegin ") = false) (map undot pre')).
  { apply Forall_map. apply Forall_forall. intros l Hl. apply undot_no; [eexists; reflexivity|]. rewrite Forall_forall in Hpre. now apply Hpre, I1. }
  assert (Hpost' : Forall (fun l => bstarts l (bstr "=yend ") = false) (map undot post')).
  { apply Forall_map. apply Forall_forall. intros l Hl. apply undot_no; [eexists; reflexivity|]. rewrite Forall_forall in Hpost. now apply Hpost, I2. }
  set (whole := map undot pre' ++ b :: (opt_line p ++ body) ++ e :: map undot post').
  assert (W : whole <> []) by (unfold whole; destruct (map undot pre'); discriminate).
  assert (C : yCheck whole = ((Some (ybegin_dict b), match p with Some p => Some (ySplit p (no_limit p)) | None => None end, Some (ySplit e (no_limit e))), body)).
  { unfold yCheck. unfold whole at 1. rewrite head_found; [|rewrite map_length; lia|exact Hpre'|exact Hb|destruct p; destruct body; discriminate].
    assert (T : forall all, ycheck_tail 10 (rev (body ++ e :: map undot post')) all = (Some (ySplit e (no_limit e)), body)).
    { intros all. rewrite rev_app_distr. cbn [rev]. rewrite <- app_assoc. cbn [app]. rewrite tail_found; [now rewrite rev_involutive| |now apply Forall_rev|exact He].
      rewrite rev_length, map_length. lia. }
    destruct p as [p|]; cbn [opt_line app].
    - rewrite Hp. rewrite T. reflexivity.
    - destruct body as [|l body]; cbn [app].
      + assert (Q : bstarts e (bstr "=ypart ") = false).
        { apply bstarts_spec in He as [r ->]. reflexivity. }
        rewrite Q. specialize (T (e :: map undot post')). cbn [app] in T. rewrite T. reflexivity.
      + assert (Q : bstarts l (bstr "=ypart ") = false).
        { apply not_y. apply calm_lines in Hc. apply Forall_inv in Hc. exact Hc. }
        rewrite Q. specialize (T (l :: body ++ e :: map undot post')). cbn [app] in T. rewrite T. reflexivity. }
  destruct whole as [|x y] eqn:E; [contradiction|]. exists x, y. split; [reflexivity|exact C].
Qed.

(** ** Fields *)
Lemma alnum_spec b : alnum b = true <-> key_b b.
Proof. unfold alnum, key_b. rewrite !orb_true_iff, !andb_true_iff, !N.leb_le. tauto. Qed.
Lemma bspace_spec b : bspace b = true <-> space_b b.
Proof. unfold bspace, space_b. cbn [In]. rewrite orb_true_iff, andb_true_iff, N.eqb_eq, !N.leb_le. lia. Qed.
Lemma key_not_eq b : key_b b -> b <> x3d.
Proof. intros H ->. unfold key_b in H. change (b2n x3d) with 61 in H. lia. Qed.
Lemma key_not_space b : key_b b -> b <> x20.
Proof. intros H ->. unfold key_b in H. change (b2n x20) with 32 in H. lia. Qed.
Lemma eqb_ne (a b : byte) : a <> b -> Byte.eqb a b = false.
Proof. intros H. destruct (Byte.eqb a b) eqn:E; [|reflexivity]. apply beqb_spec' in E. contradiction. Qed.
Lemma ykey_key k r : k <> [] -> Forall key_b k -> ykey (k ++ x3d :: r) = Some (k, r).
Proof.
  intros Hn H. induction H as [|x k Hx H IH]; [contradiction|]. cbn [app ykey]. rewrite (proj2 (alnum_spec x) Hx).
  destruct k as [|y k]; cbn [app].
  - rewrite (proj2 (beqb_spec' x3d x3d) eq_refl). reflexivity.
  - apply Forall_inv in H as Hy. rewrite (eqb_ne y x3d) by now apply key_not_eq. cbn [app] in IH. rewrite IH by discriminate. reflexivity.
Qed.
Lemma ykey_none v c r : Forall (fun b => b <> x3d) v -> alnum c = false -> c <> x3d -> ykey (v ++ c :: r) = None.
Proof.
  intros H Hc Hc'. induction H as [|x v Hx H IH]; cbn [app ykey]; [now rewrite Hc|]. destruct (alnum x); [|reflexivity].
  destruct v as [|y v]; cbn [app] in *.
  - rewrite (eqb_ne c x3d) by exact Hc'. rewrite IH. reflexivity.
  - apply Forall_inv in H as Hy. rewrite (eqb_ne y x3d) by exact Hy. rewrite IH. reflexivity.
Qed.
Lemma yfind_here k r : k <> [] -> Forall key_b k -> yfind (k ++ x3d :: r) = Some ([], k, r).
Proof. intros Hn H. pose proof (ykey_key k r Hn H) as E. destruct (k ++ x3d :: r) eqn:El; cbn [yfind]; rewrite E; reflexivity. Qed.
Lemma yfind_skip v c k r : Forall (fun b => b <> x3d) v -> alnum c = false -> c <> x3d -> k <> [] -> Forall key_b k ->
  yfind (v ++ c :: k ++ x3d :: r) = Some (v ++ [c], k, r).
Proof.
  intros Hv Hc Hc' Hn Hk. induction Hv as [|x v Hx Hv IH].
  - cbn [app yfind]. cbn [ykey]. rewrite Hc. rewrite yfind_here by assumption. reflexivity.
  - assert (Hxv : Forall (fun b => b <> x3d) (x :: v)) by now constructor.
    pose proof (ykey_none (x :: v) c (k ++ x3d :: r) Hxv Hc Hc') as E. cbn [app] in E |- *. cbn [yfind]. rewrite E, IH. reflexivity.
Qed.
Lemma ykey_word v : Forall (fun b => b <> x3d) v -> ykey v = None.
Proof.
  induction 1 as [|x v Hx H IH]; [reflexivity|]. cbn [ykey]. destruct (alnum x); [|reflexivity]. destruct v as [|y v]; [reflexivity|].
  apply Forall_inv in H as Hy. rewrite (eqb_ne y x3d) by exact Hy. now rewrite IH.
Qed.
Lemma yfind_word v : Forall (fun b => b <> x3d) v -> yfind v = None.
Proof. intros H. induction H as [|x v Hx H IH]; [reflexivity|]. assert (Hxv : Forall (fun b => b <> x3d) (x :: v)) by now constructor. pose proof (ykey_word (x :: v) Hxv) as E. cbn [yfind]. rewrite E, IH. reflexivity. Qed.
Lemma lstrip_id v : (forall x r, v = x :: r -> ~ space_b x) -> lstrip v = v.
Proof. intros H. destruct v as [|x v]; [reflexivity|]. cbn [lstrip]. destruct (bspace x) eqn:E; [|reflexivity]. apply bspace_spec in E. now destruct (H x v eq_refl). Qed.
Lemma bstrip_trimmed v : trimmed v -> bstrip v = v.
Proof.
  intros [A B]. unfold bstrip. rewrite (lstrip_id v A). rewrite lstrip_id; [apply rev_involutive|].
  intros x r E. apply (B x (rev r)). rewrite <- (rev_involutive v), E. reflexivity.
Qed.
Lemma word_trimmed v : word v -> trimmed v.
Proof.
  intros H. unfold word in H. rewrite Forall_forall in H. split; intros x r ->; apply H; [now left|]. apply in_or_app. right. now left.
Qed.
Lemma bstrip_word v : word v -> bstrip (v ++ [x20]) = v.
Proof.
  intros H. unfold bstrip. destruct v as [|x v]; [reflexivity|].
  assert (E : lstrip ((x :: v) ++ [x20]) = (x :: v) ++ [x20]).
  { apply lstrip_id. intros y r E. injection E as <- _. apply Forall_inv in H. apply H. }
  rewrite E, rev_app_distr. cbn [rev app lstrip]. change (bspace x20) with true. cbn iota.
  pose proof (bstrip_trimmed _ (word_trimmed _ H)) as Q. unfold bstrip in Q. rewrite (lstrip_id (x :: v)) in Q by apply (word_trimmed _ H). exact Q.
Qed.
Definition vb (kv : bytes * bytes) : bytes * yval := (fst kv, VB (snd kv)).
Lemma word_noeq v : word v -> Forall (fun b => b <> x3d) v.
Proof. apply Forall_impl. tauto. Qed.
Lemma ypairs_fields (fs : list (bytes * bytes)) : forall n key v acc (k w : bytes),
  word v -> Forall (fun kv => fst kv <> [] /\ Forall key_b (fst kv) /\ word (snd kv)) fs ->
  k <> [] -> Forall key_b k -> trimmed w -> n = S (length fs) \/ (word w /\ (S (length fs) <= n)%nat) ->
  ypairs n key (v ++ concat (map field fs) ++ field (k, w)) acc = (k, VB w) :: rev (map vb ((key, v) :: fs)) ++ acc.
Proof.
  induction fs as [|[k1 v1] fs IH]; intros n key v acc k w Hv Hfs Hk Hk' Hw Hn.
  - cbn [map concat app]. change (field (k, w)) with (x20 :: k ++ x3d :: w). destruct n as [|n]; [exfalso; cbn [length] in Hn; lia|]. cbn [ypairs].
    rewrite yfind_skip; [|now apply word_noeq|reflexivity|discriminate|exact Hk|exact Hk']. rewrite bstrip_word by exact Hv.
    destruct n as [|n]; cbn [ypairs]; [rewrite bstrip_trimmed by exact Hw; reflexivity|].
    destruct Hn as [Hn|[Hw' _]]; [discriminate|]. rewrite yfind_word by now apply word_noeq. rewrite bstrip_trimmed by exact Hw. reflexivity.
  - apply Forall_cons_iff in Hfs as [(A & B & C) Hfs]. cbn [fst snd] in *. destruct n as [|n]; [exfalso; cbn [length] in Hn; lia|].
    cbn [map concat]. unfold field at 1. cbn [fst snd].
    replace (v ++ ((x20 :: k1 ++ x3d :: v1) ++ concat (map field fs)) ++ field (k, w)) with (v ++ x20 :: k1 ++ x3d :: (v1 ++ concat (map field fs) ++ field (k, w)))
      by (cbn [app]; rewrite <- !app_assoc; reflexivity).
    cbn [ypairs]. rewrite yfind_skip; [|now apply word_noeq|reflexivity|discriminate|exact A|exact B]. rewrite bstrip_word by exact Hv.
    rewrite IH; [|exact C|exact Hfs|exact Hk|exact Hk'|exact Hw|cbn [length] in Hn; destruct Hn as [Hn|[X Y]]; [left; lia|right; split; [exact X|lia]]].
    cbn [map rev vb fst snd]. rewrite <- !app_assoc. reflexivity.
Qed.
Lemma ySplit_fields (q : bytes) (fs : list (bytes * bytes)) n (k w : bytes) :
  Forall (fun b => b <> x3d) q ->
  Forall (fun kv => fst kv <> [] /\ Forall key_b (fst kv) /\ word (snd kv)) (fs ++ [(k, [])]) -> trimmed w ->
  n = S (length fs) \/ (word w /\ (S (length fs) <= n)%nat) ->
  ySplit (x3d :: q ++ concat (map field fs) ++ field (k, w)) n = rev (map vb (fs ++ [(k, w)])).
Proof.
  intros Hq Hfs Hw Hn. apply Forall_app in Hfs as [Hfs Hk]. apply Forall_inv in Hk as (K1 & K2 & _). cbn [fst] in *.
  destruct n as [|n]; [exfalso; lia|]. unfold ySplit.
  assert (F : forall l m, yfind l = Some m -> yfind (x3d :: l) = Some (x3d :: fst (fst m), snd (fst m), snd m)) by (intros l m E; cbn [yfind]; change (ykey (x3d :: l)) with (@None (bytes * bytes)); now rewrite E).
  destruct fs as [|[k1 v1] fs].
  - cbn [map concat app]. change (field (k, w)) with (x20 :: k ++ x3d :: w). rewrite (F _ _ (yfind_skip q x20 k w Hq eq_refl ltac:(discriminate) K1 K2)). cbn [fst snd].
    destruct n as [|n]; cbn [ypairs]; [rewrite bstrip_trimmed by exact Hw; reflexivity|].
    destruct Hn as [Hn|[Hw' _]]; [discriminate|]. rewrite yfind_word by now apply word_noeq. rewrite bstrip_trimmed by exact Hw. reflexivity.
  - apply Forall_cons_iff in Hfs as [(A & B & C) Hfs]. cbn [fst snd] in *. cbn [map concat]. unfold field at 1. cbn [fst snd].
    replace (q ++ ((x20 :: k1 ++ x3d :: v1) ++ concat (map field fs)) ++ field (k, w)) with (q ++ x20 :: k1 ++ x3d :: (v1 ++ concat (map field fs) ++ field (k, w)))
      by (cbn [app]; rewrite <- !app_assoc; reflexivity).
    rewrite (F _ _ (yfind_skip q x20 k1 _ Hq eq_refl ltac:(discriminate) A B)). cbn [fst snd].
    rewrite ypairs_fields; [|exact C|exact Hfs|exact K1|exact K2|exact Hw|cbn [length] in Hn; destruct Hn as [Hn|[X Y]]; [left; lia|right; split; [exact X|lia]]].
    rewrite app_nil_r, (map_app vb), rev_app_distr. reflexivity.
Qed.

(** ** The number of fields looked for in the first line *)
Lemma find_sub_none p l : find_sub Byte.eqb p l = None <-> ~ holds_in p l.
Proof.
  induction l as [|x l IH].
  - cbn [find_sub]. destruct p as [|y p]; cbn [starts_with].
    + split; [discriminate|]. intros H. exfalso. apply H. now exists [], [].
    + split; [|reflexivity]. intros _ (a & b & E). destruct a; discriminate.
  - cbn [find_sub]. change (starts_with Byte.eqb p (x :: l)) with (bstarts (x :: l) p). destruct (bstarts (x :: l) p) eqn:E.
    + apply bstarts_spec in E as [r E]. split; [discriminate|]. intros H. exfalso. apply H. exists [], r. exact E.
    + assert (Q : find_sub Byte.eqb p (x :: l) = find_sub Byte.eqb p (x :: l)) by reflexivity. clear Q.
      split.
      * intros H (a & b & El). destruct a as [|y a].
        -- cbn [app] in El. rewrite El, bstarts_app in E. discriminate.
        -- injection El as -> El. destruct (find_sub Byte.eqb p l); [discriminate|]. apply (proj1 IH eq_refl). now exists a, b.
      * intros H. rewrite (proj2 IH); [reflexivity|]. intros (a & b & ->). apply H. now exists (x :: a), b.
Qed.
Lemma finds_spec l p : (forall r, l <> p ++ r) -> finds l p = true <-> holds_in p l.
Proof.
  intros H. unfold finds. destruct (find_sub Byte.eqb p l) as [n|] eqn:E.
  - split; intros _.
    + destruct (find_sub_none p l) as [_ X]. assert (Q : ~ ~ holds_in p l) by (intros Y; rewrite X in E by exact Y; discriminate).
      clear -E. revert n E. induction l as [|x l IH]; intros n E; cbn [find_sub] in E.
      * destruct (starts_with Byte.eqb p []) eqn:S; [|discriminate]. change (bstarts [] p = true) in S. apply bstarts_spec in S as [r S]. now exists [], r.
      * destruct (starts_with Byte.eqb p (x :: l)) eqn:S.
        -- change (bstarts (x :: l) p = true) in S. apply bstarts_spec in S as [r S]. now exists [], r.
        -- destruct (find_sub Byte.eqb p l) as [m|]; [|discriminate]. destruct (IH m eq_refl) as (a & b & ->). now exists (x :: a), b.
    + apply N.ltb_lt. destruct n as [|n]; [|reflexivity]. exfalso. destruct l as [|x l]; cbn [find_sub] in E.
      * destruct (starts_with Byte.eqb p []) eqn:S; [|discriminate]. change (bstarts [] p = true) in S. apply bstarts_spec in S as [r S]. now apply (H r).
      * destruct (starts_with Byte.eqb p (x :: l)) eqn:S.
        -- change (bstarts (x :: l) p = true) in S. apply bstarts_spec in S as [r S]. now apply (H r).
        -- destruct (find_sub Byte.eqb p l) as [m|]; [|discriminate]. cbn [option_map] in E. injection E as E. lia.
  - split; [discriminate|]. intros X. now apply find_sub_none in E.
Qed.
Lemma holds_cons p x l : ~ (exists r, x :: l = p ++ r) -> holds_in p (x :: l) <-> holds_in p l.
Proof.
  intros H. split.
  - intros (a & b & E). destruct a as [|y a]; [exfalso; apply H; now exists b|]. injection E as -> ->. now exists a, b.
  - intros (a & b & ->). now exists (x :: a), b.
Qed.
Lemma holds_skip q v l : Forall (fun b => b <> x20) v -> holds_in (x20 :: q) (v ++ l) <-> holds_in (x20 :: q) l.
Proof.
  induction 1 as [|x v Hx H IH]; [reflexivity|]. cbn [app]. rewrite holds_cons; [exact IH|]. intros [r E]. injection E as -> _. now apply Hx.
Qed.
Definition fkey (k : bytes) : bytes := x20 :: k ++ [x3d].
Lemma key_prefix k k' r r' : Forall key_b k -> Forall key_b k' -> k ++ x3d :: r = k' ++ x3d :: r' -> k = k'.
Proof.
  intros H. revert k'. induction H as [|x k Hx H IH]; intros [|y k'] H' E; auto; cbn [app] in E; injection E as E1 E2.
  - apply Forall_inv in H'. subst y. now apply key_not_eq in H'.
  - subst x. now apply key_not_eq in Hx.
  - subst y. f_equal. apply IH; [now apply Forall_inv_tail in H'|exact E2].
Qed.
Lemma word_nospace v : word v -> Forall (fun b => b <> x20) v.
Proof. apply Forall_impl. intros b [H _] ->. apply H. cbn. tauto. Qed.
Lemma keys_nospace k : Forall key_b k -> Forall (fun b => b <> x20) k.
Proof. apply Forall_impl. intros b. apply key_not_space. Qed.
Lemma holds_field k k' v l : Forall key_b k -> Forall key_b k' -> word v ->
  holds_in (fkey k) (field (k', v) ++ l) <-> k = k' \/ holds_in (fkey k) l.
Proof.
  intros Hk Hk' Hv. unfold field. cbn [fst snd]. destruct (list_eq_dec Byte.byte_eq_dec k k') as [->|Hne].
  - split; [now left|]. intros _. exists [], (v ++ l). unfold fkey. cbn [app]. rewrite <- !app_assoc. reflexivity.
  - unfold fkey. cbn [app]. rewrite holds_cons.
    + rewrite <- app_assoc. cbn [app]. rewrite (holds_skip _ k') by now apply keys_nospace.
      change (x3d :: v ++ l) with ((x3d :: v) ++ l). rewrite holds_skip; [tauto|]. constructor; [discriminate|now apply word_nospace].
    + intros [r E]. injection E as E. rewrite <- !app_assoc in E. cbn [app] in E. apply key_prefix in E; auto.
Qed.
Lemma holds_fields k fs l : Forall key_b k -> Forall (fun kv => fst kv <> [] /\ Forall key_b (fst kv) /\ word (snd kv)) fs ->
  holds_in (fkey k) (concat (map field fs) ++ l) <-> In k (map fst fs) \/ holds_in (fkey k) l.
Proof.
  intros Hk H. induction H as [|[k' v] fs (A & B & C) H IH]; [cbn; tauto|]. cbn [map concat fst snd In] in *. rewrite <- app_assoc, holds_field, IH by assumption.
  split; [intros [X|[X|X]]|intros [[X|X]|X]]; auto.
Qed.
Lemma lit_key (s : string) : forallb alnum (bstr s) = true -> Forall key_b (bstr s).
Proof. intros H. rewrite forallb_forall in H. apply Forall_forall. intros b Hb. apply alnum_spec. now apply H. Qed.
Lemma begin_dict part total fs name : begin_ok part total fs name -> ybegin_dict (begin_line fs name) = rev (map vb (fs ++ [(bstr "name", name)])).
Proof.
  intros ((Hf & Hnd) & Hp & Ht & Hnp & Hnt).
  assert (F : forall k b, Forall key_b (bstr k) -> In (bstr k) (map fst fs) <-> b = true -> bstr k <> bstr "name" -> (b = false -> ~ holds_in (fkey (bstr k)) name) ->
     finds (begin_line fs name) (fkey (bstr k)) = b).
  { intros k b Hk Hi Hkn Hno. assert (E : finds (begin_line fs name) (fkey (bstr k)) = true <-> holds_in (fkey (bstr k)) (begin_line fs name)) by (apply finds_spec; discriminate).
    assert (E2 : holds_in (fkey (bstr k)) (begin_line fs name) <-> In (bstr k) (map fst fs) \/ holds_in (fkey (bstr k)) name).
    { unfold begin_line, fkey. rewrite holds_skip by (repeat constructor; discriminate). fold (fkey (bstr k)). rewrite holds_fields by assumption.
      change (bstr " name=" ++ name) with (field (bstr "name", []) ++ name). rewrite holds_field; [|exact Hk|now apply lit_key|constructor]. split; [intros [X|[X|X]]; auto; contradiction|intros [X|X]; auto]. }
    destruct b.
    - apply E, E2. left. now apply Hi.
    - destruct (finds _ _); [|reflexivity]. destruct (proj1 E2 (proj1 E eq_refl)) as [X|X]; [now apply Hi in X|now apply Hno in X]. }
  assert (Ki : forall k, In k (map fst fs) <-> In k ([bstr "line"; bstr "size"] ++ (if part then [bstr "part"] else []) ++ (if total then [bstr "total"] else []))).
  { intros k. split; intros H; [eapply Permutation_in; eauto|eapply Permutation_in; [apply Permutation_sym|]; eauto]. }
  unfold ybegin_dict. change (bstr " part=") with (fkey (bstr "part")). change (bstr " total=") with (fkey (bstr "total")).
  rewrite (F "part"%string part), (F "total"%string total).
  - assert (L : length fs = (2 + (if part then 1 else 0) + (if total then 1 else 0))%nat).
    { rewrite <- (map_length fst). rewrite (Permutation_length Hp). destruct part, total; reflexivity. }
    unfold begin_line. change (bstr "=ybegin" ++ concat (map field fs) ++ bstr " name=" ++ name) with (x3d :: bstr "ybegin" ++ concat (map field fs) ++ field (bstr "name", name)).
    apply ySplit_fields.
    + repeat constructor; discriminate.
    + apply Forall_app. split; [exact Hf|]. constructor; [|constructor]. split; [discriminate|]. split; [now apply lit_key|constructor].
    + exact Ht.
    + left. lia.
  - now apply lit_key.
  - rewrite Ki. destruct part, total; cbn [app In]; split; intros H; try discriminate H; try tauto; repeat (destruct H as [H|H]; [discriminate H|]); contradiction.
  - discriminate.
  - exact Hnt.
  - now apply lit_key.
  - rewrite Ki. destruct part, total; cbn [app In]; split; intros H; try discriminate H; try tauto; repeat (destruct H as [H|H]; [discriminate H|]); contradiction.
  - discriminate.
  - exact Hnp.
Qed.
Lemma other_dict (q : bytes) (fs : list (bytes * bytes)) : Forall (fun b => b <> x3d) q -> fields_ok fs -> fs <> [] ->
  ySplit (x3d :: q ++ concat (map field fs)) (no_limit (x3d :: q ++ concat (map field fs))) = rev (map vb fs).
Proof.
  intros Hq (Hf & _) Hne. destruct (exists_last Hne) as (fs' & [k w] & ->). apply Forall_app in Hf as [Hf Hl]. apply Forall_inv in Hl as (A & B & C). cbn [fst snd] in *.
  rewrite map_app, concat_app. cbn [map concat]. rewrite app_nil_r. apply ySplit_fields.
  - exact Hq.
  - apply Forall_app. split; [exact Hf|]. constructor; [|constructor]. cbn [fst snd]. split; [exact A|]. split; [exact B|constructor].
  - now apply word_trimmed.
  - right. split; [exact C|]. unfold no_limit. cbn [length]. rewrite !app_length.
    assert (L : (length fs' <= length (concat (map field fs')))%nat).
    { clear. induction fs' as [|[a b] fs IH]; [auto|]. cbn [map concat length]. rewrite app_length. change (length (field (a, b))) with (S (length (a ++ x3d :: b))). cbn [Nat.add]. apply le_n_S. etransitivity; [exact IH|]. apply Nat.le_add_l. }
    lia.
Qed.
Lemma dget_in (k v : bytes) (fs : list (bytes * bytes)) : NoDup (map fst fs) -> In (k, v) fs -> dget k (rev (map vb fs)) = Some (VB v).
Proof.
  intros Hnd Hi.
  assert (G : forall d : dict, NoDup (map fst d) -> In (k, VB v) d -> dget k d = Some (VB v)).
  { clear. induction d as [|[a b] d IH]; intros Hd H; [contradiction|]. cbn [map fst] in Hd. apply NoDup_cons_iff in Hd as [H1 H2]. cbn [dget].
    destruct H as [E|H].
    - injection E as -> ->. now rewrite beqb_refl.
    - destruct (beqb k a) eqn:E; [|now apply IH]. apply beqb_eq in E as ->. exfalso. apply H1. apply in_map_iff. now exists (a, VB v). }
  apply G.
  - rewrite map_rev. apply NoDup_rev. rewrite map_map. exact Hnd.
  - rewrite <- in_rev. apply in_map_iff. now exists (k, v).
Qed.
Lemma dget_out (k : bytes) (fs : list (bytes * bytes)) : ~ In k (map fst fs) -> dget k (rev (map vb fs)) = None.
Proof.
  intros H. assert (G : forall d : dict, ~ In k (map fst d) -> dget k d = None).
  { clear. induction d as [|[a b] d IH]; intros H; [reflexivity|]. cbn [dget]. cbn [map fst In] in H. destruct (beqb k a) eqn:E; [apply beqb_eq in E as ->; exfalso; apply H; now left|]. apply IH. tauto. }
  apply G. rewrite map_rev, map_map. intros X. apply in_rev in X. now apply H.
Qed.

(** ** Whole articles *)
Section Article.
Variables (int10 int16 : bytes -> option Z).
Lemma article_core (pre post : list bytes) (bf : list (bytes * bytes)) (name : bytes) (pf : option (list (bytes * bytes))) (ef : list (bytes * bytes)) (ls : list bytes) (d : bytes) part total ignore :
  (length pre < 10)%nat -> (length post < 10)%nat ->
  Forall (fun l => forall r, l <> bstr "=ybegin " ++ r) pre -> Forall (fun l => forall r, l <> bstr "=yend " ++ r) post ->
  begin_ok part total bf name -> (match pf with Some pf => fields_ok pf /\ pf <> [] | None => True end) -> fields_ok ef -> ef <> [] ->
  yencoded d (concat ls) ->
  decode int10 int16 (pre ++ begin_line bf name :: (opt_line (option_map part_line pf) ++ map dotted ls) ++ end_line ef :: post) false ignore =
  sbind
    (if negb ignore then
       match match dget (if truthy (option_map (fun pf => rev (map vb pf)) pf) then bstr "pcrc32" else bstr "crc32") (rev (map vb ef)) with Some (VB v) => int16 v | _ => None end with
       | Some w => if Z.eqb w (Z.of_N (crc32 d)) then inr (d, rev (map vb (bf ++ [(bstr "name", name)]))) else inl CrcError
       | None => inl CrcError
       end
     else inr (d, rev (map vb (bf ++ [(bstr "name", name)]))))
    (fun '(d, b) =>
         sbind
           (if truthy (option_map (fun pf => rev (map vb pf)) pf) then inr (match option_map (fun pf => rev (map vb pf)) pf with Some p => p | None => [] end, b)
            else match dget (bstr "size") b with
                 | None => inl (Other KeyError)
                 | Some v => inr ([(bstr "begin", VI 1); (bstr "end", v)],
                     match dget (bstr "part") b with Some _ => b | None => (bstr "part", VI 1) :: b end)
                 end)
           (fun '(p, b) =>
         sbind (to_int int10 (dget (bstr "part") b)) (fun num =>
         sbind (to_int int10 (dget (bstr "begin") p)) (fun beg =>
         sbind (to_int int10 (dget (bstr "end") p)) (fun en =>
         sbind (to_int int10 (dget (bstr "size") b)) (fun size =>
         match dget (bstr "name") b with
         | None => inl (Other KeyError)
         | Some name => inr (mkY d num beg en (en - beg + 1) size name)
         end)))))).
Proof.
  intros Lp Lq Hpre Hpost Hb Hp He Hne Hd.
  assert (E1 : Forall (fun l => bstarts l (bstr "=ybegin ") = false) pre).
  { eapply Forall_impl; [|exact Hpre]. intros l H. destruct (bstarts l (bstr "=ybegin ")) eqn:E; [|reflexivity]. apply bstarts_spec in E as [r ->]. now destruct (H r). }
  assert (E2 : Forall (fun l => bstarts l (bstr "=yend ") = false) post).
  { eapply Forall_impl; [|exact Hpost]. intros l H. destruct (bstarts l (bstr "=yend ")) eqn:E; [|reflexivity]. apply bstarts_spec in E as [r ->]. now destruct (H r). }
  assert (S1 : bstarts (begin_line bf name) (bstr "=ybegin ") = true).
  { unfold begin_line. destruct bf as [|[k v] bf]; cbn [map concat field app fst snd]; reflexivity. }
  assert (S2 : bstarts (end_line ef) (bstr "=yend ") = true).
  { unfold end_line. destruct ef as [|[k v] ef]; [contradiction|]. reflexivity. }
  assert (S3 : match option_map part_line pf with Some p => bstarts p (bstr "=ypart ") = true | None => True end).
  { destruct pf as [pf|]; [|exact I]. destruct Hp as [_ Hp]. cbn [option_map]. unfold part_line. destruct pf as [|[k v] pf]; [contradiction|]. reflexivity. }
  destruct (check_article pre ls post (begin_line bf name) (end_line ef) (option_map part_line pf) Lp Lq E1 E2 S1 S2 S3 (yencoded_calm _ _ Hd)) as (x & y & Es & Ec).
  unfold decode. rewrite Es, Ec. rewrite (begin_dict _ _ _ _ Hb).
  assert (D2 : ySplit (end_line ef) (no_limit (end_line ef)) = rev (map vb ef)).
  { apply (other_dict (bstr "yend")); [repeat constructor; discriminate|exact He|exact Hne]. }
  rewrite D2.
  assert (D3 : (match option_map part_line pf with Some p => Some (ySplit p (no_limit p)) | None => None end) = option_map (fun pf => rev (map vb pf)) pf).
  { destruct pf as [pf|]; [|reflexivity]. destruct Hp as [Hp1 Hp2]. cbn [option_map]. f_equal. apply (other_dict (bstr "ypart")); [repeat constructor; discriminate|exact Hp1|exact Hp2]. }
  rewrite D3.
  assert (T1 : truthy (Some (rev (map vb (bf ++ [(bstr "name", name)])))) = true).
  { rewrite map_app, rev_app_distr. reflexivity. }
  assert (T2 : truthy (Some (rev (map vb ef))) = true).
  { cbn [truthy]. destruct (rev (map vb ef)) eqn:E; [|reflexivity]. apply (f_equal (@length _)) in E. rewrite rev_length, map_length in E. destruct ef; [contradiction|discriminate]. }
  match goal with |- context [negb (truthy ?x)] => change (truthy x) with (truthy (Some (rev (map vb (bf ++ [(bstr "name", name)]))))) end.
  match goal with |- context [(truthy ?x || false)%bool] => change (truthy x) with (truthy (Some (rev (map vb ef)))) end.
  rewrite T1, T2. cbn [negb orb andb]. rewrite (decode_body d (concat ls) ls Hd eq_refl). reflexivity.
Qed.
End Article.

Lemma truthy_fields (fs : list (bytes * bytes)) : fs <> [] -> truthy (Some (rev (map vb fs))) = true.
Proof.
  intros H. cbn [truthy]. destruct (rev (map vb fs)) eqn:E; [|reflexivity]. apply (f_equal (@length _)) in E. rewrite rev_length, map_length in E. destruct fs; [contradiction|discriminate].
Qed.
Lemma name_nodup part total bf name : begin_ok part total bf name -> NoDup (map fst (bf ++ [(bstr "name", name)])).
Proof.
  intros ((_ & Hnd) & Hp & _). rewrite map_app. cbn [map fst]. eapply Permutation_NoDup; [apply Permutation_cons_append|]. constructor; [|exact Hnd].
  intros H. eapply Permutation_in in H; [|exact Hp]. destruct part, total; cbn [app In] in H; repeat (destruct H as [H|H]; [discriminate H|]); contradiction.
Qed.

(** one part of a file *)
Theorem part_article int10 int16 (pre post : list bytes) (bf : list (bytes * bytes)) total (name : bytes) (pf ef : list (bytes * bytes)) (ls : list bytes) (d num size from to : bytes) n s f t w (crc : bytes) ignore :
  (length pre < 10)%nat -> (length post < 10)%nat ->
  Forall (fun l => forall r, l <> bstr "=ybegin " ++ r) pre -> Forall (fun l => forall r, l <> bstr "=yend " ++ r) post ->
  begin_ok true total bf name -> In (bstr "part", num) bf -> In (bstr "size", size) bf -> int10 num = Some n -> int10 size = Some s ->
  fields_ok pf -> In (bstr "begin", from) pf -> In (bstr "end", to) pf -> int10 from = Some f -> int10 to = Some t ->
  fields_ok ef -> In (bstr "pcrc32", crc) ef -> int16 crc = Some w ->
  yencoded d (concat ls) ->
  decode int10 int16 (pre ++ [begin_line bf name] ++ [part_line pf] ++ map dotted ls ++ [end_line ef] ++ post) false ignore =
  if (ignore || (w =? Z.of_N (crc32 d))%Z)%bool then inr (mkY d n f t (t - f + 1) s (VB name)) else inl CrcError.
Proof.
  intros Lp Lq Hpre Hpost Hb Hn Hs In_ Is Hp Hf Ht If It He Hc Ic Hd.
  assert (Np : pf <> []) by (intros ->; contradiction). assert (Ne : ef <> []) by (intros ->; contradiction).
  change (pre ++ [begin_line bf name] ++ [part_line pf] ++ map dotted ls ++ [end_line ef] ++ post) with (pre ++ begin_line bf name :: (opt_line (option_map part_line (Some pf)) ++ map dotted ls) ++ end_line ef :: post).
  rewrite (article_core int10 int16 pre post bf name (Some pf) ef ls d true total ignore); try assumption; [|split; assumption].
  cbn [option_map]. rewrite (truthy_fields pf Np). cbv iota.
  rewrite (dget_in (bstr "pcrc32") crc ef) by (try exact Hc; apply He). rewrite Ic.
  pose proof (name_nodup _ _ _ _ Hb) as Nb.
  assert (G : forall k v, In (k, v) bf -> dget k (rev (map vb (bf ++ [(bstr "name", name)]))) = Some (VB v)).
  { intros k v H. apply dget_in; [exact Nb|]. apply in_or_app. now left. }
  assert (Gn : dget (bstr "name") (rev (map vb (bf ++ [(bstr "name", name)]))) = Some (VB name)).
  { apply dget_in; [exact Nb|]. apply in_or_app. right. now left. }
  assert (Fin : sbind (inr (d, rev (map vb (bf ++ [(bstr "name", name)])))) (fun '(d, b) =>
         sbind (inr (rev (map vb pf), b)) (fun '(p, b) =>
         sbind (to_int int10 (dget (bstr "part") b)) (fun num =>
         sbind (to_int int10 (dget (bstr "begin") p)) (fun beg =>
         sbind (to_int int10 (dget (bstr "end") p)) (fun en =>
         sbind (to_int int10 (dget (bstr "size") b)) (fun size =>
         match dget (bstr "name") b with
         | None => inl (Other KeyError)
         | Some name => inr (mkY d num beg en (en - beg + 1) size name)
         end)))))) = inr (mkY d n f t (t - f + 1) s (VB name))).
  { cbn [sbind]. rewrite (G _ _ Hn), (G _ _ Hs), Gn, (dget_in (bstr "begin") from pf), (dget_in (bstr "end") to pf) by (assumption || apply Hp).
    cbn [to_int]. rewrite In_, Is, If, It. reflexivity. }
  destruct ignore; cbn [negb orb]; [exact Fin|]. destruct (w =? Z.of_N (crc32 d))%Z; [exact Fin|reflexivity].
Qed.
(** a file in one article *)
Theorem whole_article int10 int16 (pre post : list bytes) (bf : list (bytes * bytes)) part total (name : bytes) (ef : list (bytes * bytes)) (ls : list bytes) (d num size : bytes) n s w (crc : bytes) ignore :
  (length pre < 10)%nat -> (length post < 10)%nat ->
  Forall (fun l => forall r, l <> bstr "=ybegin " ++ r) pre -> Forall (fun l => forall r, l <> bstr "=yend " ++ r) post ->
  begin_ok part total bf name -> (if part then In (bstr "part", num) bf /\ int10 num = Some n else n = 1%Z) ->
  In (bstr "size", size) bf -> int10 size = Some s ->
  fields_ok ef -> In (bstr "crc32", crc) ef -> int16 crc = Some w ->
  yencoded d (concat ls) ->
  decode int10 int16 (pre ++ [begin_line bf name] ++ map dotted ls ++ [end_line ef] ++ post) false ignore =
  if (ignore || (w =? Z.of_N (crc32 d))%Z)%bool then inr (mkY d n 1 s s s (VB name)) else inl CrcError.
Proof.
  intros Lp Lq Hpre Hpost Hb Hn Hs Is He Hc Ic Hd.
  assert (Ne : ef <> []) by (intros ->; contradiction).
  change (pre ++ [begin_line bf name] ++ map dotted ls ++ [end_line ef] ++ post) with (pre ++ begin_line bf name :: (opt_line (option_map part_line None) ++ map dotted ls) ++ end_line ef :: post).
  rewrite (article_core int10 int16 pre post bf name None ef ls d part total ignore); try assumption; [|exact I].
  cbn [option_map truthy]. cbv iota.
  rewrite (dget_in (bstr "crc32") crc ef) by (try exact Hc; apply He). rewrite Ic.
  pose proof (name_nodup _ _ _ _ Hb) as Nb.
  set (B := rev (map vb (bf ++ [(bstr "name", name)]))) in *.
  assert (G : forall k v, In (k, v) bf -> dget k B = Some (VB v)).
  { intros k v H. apply dget_in; [exact Nb|]. apply in_or_app. now left. }
  assert (Gn : dget (bstr "name") B = Some (VB name)).
  { apply dget_in; [exact Nb|]. apply in_or_app. right. now left. }
  assert (Gp : exists B', match dget (bstr "part") B with Some _ => B | None => (bstr "part", VI 1) :: B end = B' /\
     to_int int10 (dget (bstr "part") B') = inr n /\ dget (bstr "size") B' = Some (VB size) /\ dget (bstr "name") B' = Some (VB name)).
  { destruct part.
    - destruct Hn as [Hn1 Hn2]. rewrite (G _ _ Hn1). exists B. split; [reflexivity|]. rewrite (G _ _ Hn1). cbn [to_int]. rewrite Hn2. auto.
    - assert (X : dget (bstr "part") B = None).
      { apply dget_out. destruct Hb as (_ & Hp & _). rewrite map_app. cbn [map fst]. intros H. apply in_app_or in H as [H|[H|[]]]; [|discriminate H].
        eapply Permutation_in in H; [|exact Hp]. destruct total; cbn [app In] in H; repeat (destruct H as [H|H]; [discriminate H|]); contradiction. }
      rewrite X. eexists. split; [reflexivity|]. subst n. split; [reflexivity|]. split; [exact (G _ _ Hs)|exact Gn]. }
  destruct Gp as (B' & EB & P1 & P2 & P3).
  assert (Fin : sbind (inr (d, B)) (fun '(d, b) =>
         sbind (match dget (bstr "size") b with
                 | None => inl (Other KeyError)
                 | Some v => inr ([(bstr "begin", VI 1); (bstr "end", v)],
                     match dget (bstr "part") b with Some _ => b | None => (bstr "part", VI 1) :: b end)
                 end) (fun '(p, b) =>
         sbind (to_int int10 (dget (bstr "part") b)) (fun num =>
         sbind (to_int int10 (dget (bstr "begin") p)) (fun beg =>
         sbind (to_int int10 (dget (bstr "end") p)) (fun en =>
         sbind (to_int int10 (dget (bstr "size") b)) (fun size =>
         match dget (bstr "name") b with
         | None => inl (Other KeyError)
         | Some name => inr (mkY d num beg en (en - beg + 1) size name)
         end)))))) = inr (mkY d n 1 s s s (VB name))).
  { cbn [sbind]. rewrite (G _ _ Hs). cbn [sbind]. rewrite EB, P1. cbn [sbind]. change (dget (bstr "begin") _) with (Some (VI 1)). change (dget (bstr "end") _) with (Some (VB size)).
    rewrite P2, P3. cbn [to_int sbind]. rewrite Is. cbn [sbind]. do 2 f_equal. lia. }
  destruct ignore; cbn [negb orb]; [exact Fin|]. destruct (w =? Z.of_N (crc32 d))%Z; [exact Fin|reflexivity].
Qed.

(** ** Witnesses *)
Definition bf1 : list (bytes * bytes) := [(bstr "line", bstr "128"); (bstr "size", bstr "1")].
Definition ef1 : list (bytes * bytes) := [(bstr "size", bstr "1")].
Ltac noins := intros H; cbn in H; repeat (destruct H as [H|H]; [discriminate H|]); contradiction.
Ltac byte_ok := first [ right; right; split; vm_compute; discriminate | right; left; split; vm_compute; discriminate | left; split; vm_compute; discriminate ].
Ltac words := repeat (apply Forall_cons; [split; [discriminate|split; [repeat (apply Forall_cons; [byte_ok|]); apply Forall_nil|repeat (apply Forall_cons; [split; [unfold space_b; noins|discriminate]|]); apply Forall_nil]]|]); apply Forall_nil.
Ltac nodups := repeat (apply NoDup_cons; [noins|]); apply NoDup_nil.
Lemma bf1_ok : fields_ok bf1. Proof. split; [words|cbn [map fst bf1]; nodups]. Qed.
Lemma ef1_ok : fields_ok ef1. Proof. split; [words|cbn [map fst ef1]; nodups]. Qed.
Ltac trims := split; intros x r E; [injection E as <- _; unfold space_b; noins|];
  destruct r as [|? r]; [try (injection E as <-; unfold space_b; noins); discriminate E|].
Lemma last_eq (l r : bytes) x y : l = r ++ [x] -> last l y = x.
Proof. intros ->. now rewrite last_last. Qed.
Lemma no_hold (p l : bytes) : finds l p = false -> (forall r, l <> p ++ r) -> ~ holds_in p l.
Proof. intros H Hp X. apply finds_spec in X; [|exact Hp]. congruence. Qed.
Lemma trim_of (l : bytes) : match l with [] => True | x :: _ => ~ space_b x end -> (forall y, l <> [] -> ~ space_b (last l y)) -> trimmed l.
Proof.
  intros H1 H2. split.
  - intros x r ->. exact H1.
  - intros x r E. specialize (H2 x). rewrite (last_eq _ _ _ x E) in H2. apply H2. rewrite E. now destruct r.
Qed.
Ltac trimt := apply trim_of; [unfold space_b; cbn; noins|intros y _; unfold space_b; cbn; noins].
Lemma escape_wrong : exists bf name ef (e : bytes) d (r : bytes), begin_ok false false bf name /\ fields_ok ef /\
  (exists es, Forall2 ychar_any d es /\ e = concat es) /\ r <> d /\
  forall int10 int16, int10 (bstr "1") = Some 1%Z ->
  decode int10 int16 [begin_line bf name; e; end_line ef] false true = inr (mkY r 1 1 1 1 1 (VB name)).
Proof.
  exists bf1, (bstr "a"), ef1, [x3d; n2b (moved x41 + 64)], [x41], [x13; x81]. split; [|split; [exact ef1_ok|split; [|split; [discriminate|]]]].
  - split; [exact bf1_ok|]. split; [apply Permutation_refl|]. split; [trimt|]. split; intros _; (apply no_hold; [reflexivity|discriminate]).
  - exists [[x3d; n2b (moved x41 + 64)]]. split; [|reflexivity]. constructor; [apply ya_escape|constructor].
  - intros int10 int16 H. vm_compute in H. vm_compute. rewrite H. reflexivity.
Qed.
Lemma name_cut : exists bf name ef (e : bytes) d r,
  fields_ok bf /\ map fst bf = [bstr "line"; bstr "size"] /\ trimmed name /\ fields_ok ef /\ yencoded d e /\ r <> name /\
  forall int10 int16, int10 (bstr "1") = Some 1%Z -> int10 (bstr "2") = Some 2%Z ->
  decode int10 int16 [begin_line bf name; e; end_line ef] false true = inr (mkY d 2 1 1 1 1 (VB r)).
Proof.
  exists bf1, (bstr "a part=2"), ef1, [n2b (moved x41)], [x41], (bstr "a"). repeat split; try apply bf1_ok; try apply ef1_ok.
  - apply trim_of; [unfold space_b; cbn; noins|intros y _; unfold space_b; cbn; noins].
  - apply trim_of; [unfold space_b; cbn; noins|intros y _; unfold space_b; cbn; noins].
  - exists [[n2b (moved x41)]]. split; [|reflexivity]. constructor; [apply yc_plain|constructor]. vm_compute. noins.
  - discriminate.
  - intros int10 int16 H1 H2. vm_compute in H1, H2. vm_compute. rewrite H1, H2. reflexivity.
Qed.
Definition bf2 : list (bytes * bytes) := [(bstr "part", bstr "2"); (bstr "total", bstr "3"); (bstr "line", bstr "128"); (bstr "size", bstr "9")].
Definition pf2 : list (bytes * bytes) := [(bstr "begin", bstr "4"); (bstr "end", bstr "6")].
Definition ef2 : list (bytes * bytes) := [(bstr "size", bstr "3"); (bstr "part", bstr "2"); (bstr "pcrc32", bstr "f0")].
Lemma article_example : exists bf pf ef (d : bytes) (ls : list bytes),
  begin_ok true true bf (bstr "-=a b=-") /\ In (bstr "part", bstr "2") bf /\ In (bstr "size", bstr "9") bf /\
  fields_ok pf /\ In (bstr "begin", bstr "4") pf /\ In (bstr "end", bstr "6") pf /\ fields_ok ef /\ In (bstr "pcrc32", bstr "f0") ef /\
  yencoded d (concat ls) /\ ls = [[x2e; x3d]; [x7d; x3d; x40]] /\ map dotted ls = [[x2e; x2e; x3d]; [x7d; x3d; x40]] /\ d = [x04; x13; xd6] /\
  forall int10 int16, int10 (bstr "2") = Some 2%Z -> int10 (bstr "9") = Some 9%Z -> int10 (bstr "4") = Some 4%Z -> int10 (bstr "6") = Some 6%Z ->
  decode int10 int16 ([] ++ [begin_line bf (bstr "-=a b=-")] ++ [part_line pf] ++ map dotted ls ++ [end_line ef] ++ []) false true =
   inr (mkY d 2 4 6 3 9 (VB (bstr "-=a b=-"))).
Proof.
  exists bf2, pf2, ef2, [x04; x13; xd6], [[x2e; x3d]; [x7d; x3d; x40]].
  split. { split; [split; [words|cbn [map fst bf2]; nodups]|]. split; [|split; [trimt|split; discriminate]].
    cbn [map fst bf2 app]. apply (Permutation_app_comm [bstr "part"; bstr "total"] [bstr "line"; bstr "size"]). }
  split; [cbn; tauto|]. split; [cbn; tauto|].
  split. { split; [words|cbn [map fst pf2]; nodups]. }
  split; [cbn; tauto|]. split; [cbn; tauto|].
  split. { split; [words|cbn [map fst ef2]; nodups]. }
  split; [cbn; tauto|].
  split. { exists [[x2e]; [x3d; x7d]; [x3d; x40]]. split; [|reflexivity].
    constructor; [|constructor; [|constructor; [|constructor]]].
    - change [x2e] with [n2b (moved x04)]. apply yc_plain. vm_compute. noins.
    - change [x3d; x7d] with [x3d; n2b (moved x13 + 64)]. apply yc_escape. vm_compute. tauto.
    - change [x3d; x40] with [x3d; n2b (moved xd6 + 64)]. apply yc_escape. vm_compute. tauto. }
  split; [reflexivity|]. split; [reflexivity|]. split; [reflexivity|].
  intros int10 int16 H1 H2 H3 H4. vm_compute in H1, H2, H3, H4. vm_compute. rewrite H1, H2, H3, H4. reflexivity.
Qed.
