(** InfoListFacts: proofs about archived files and SFV sums in the listing. *)
From Verif Require Import Base BaseFacts Path Rar Sfv Info InfoFacts InfoListSpec.

Lemma get_none {A} k (d : list (text * A)) : dict_get k d = None <-> ~ In k (map fst d).
Proof.
  induction d as [|[q w] d IH]; cbn [dict_get map fst In]; [split; [intros _ []|reflexivity]|]. destruct (teqb q k) eqn:E.
  - apply teqb_eq in E. subst q. split; [discriminate|]. intros H. destruct H. now left.
  - rewrite IH. split; [intros H [->|I]; [rewrite teqb_refl in E; discriminate E|contradiction]|intros H I; apply H; now right].
Qed.
Lemma keys_set {A} k (v : A) d : dict_get k d <> None -> map fst (dict_set k v d) = map fst d.
Proof. induction d as [|[q w] d IH]; cbn [dict_get dict_set map fst]; intros H; [now destruct H|]. destruct (teqb q k) eqn:E; [reflexivity|]. cbn [map fst]. now rewrite IH. Qed.
Theorem sums_thm lowf upf es : forall d d' rest, add_sums lowf upf es d = (d', rest) ->
  rest = filter (fun e => negb (mem_text (lowf (basename (e_name e))) (map fst d))) es /\ map fst d' = map fst d /\
  forall k r, dict_get k d = Some r -> exists c, dict_get k d' = Some (mkRar (ri_name r) (ri_size r) (ri_start r) (ri_end r) c) /\ sum_listed lowf upf es k (ri_crc r) c.
Proof.
  induction es as [|e es IH]; intros d d' rest H; cbn [add_sums] in H.
  - injection H as <- <-. split; [reflexivity|]. split; [reflexivity|]. intros k r G. exists (ri_crc r). split; [rewrite G; now destruct r|]. right. split; [intros x []|reflexivity].
  - set (key := lowf (basename (e_name e))) in *. assert (M : mem_text key (map fst d) = true <-> In key (map fst d)).
    { unfold mem_text. rewrite existsb_exists. split; [intros (x & I & E); apply teqb_eq in E; now subst x|intros I; exists key; split; [exact I|apply teqb_refl]]. }
    assert (Tail : forall k old c, sum_listed lowf upf es k old c -> key <> k -> sum_listed lowf upf (e :: es) k old c).
    { intros k old c [(a & x & b & -> & S0)|(N0 & ->)] Nk; [left; exists (e :: a), x, b; split; [reflexivity|exact S0]|]. right. split; [|reflexivity]. intros x [<-|I]; [exact Nk|now apply N0]. }
    destruct (dict_get key d) as [r0|] eqn:G.
    + assert (NN : dict_get key d <> None) by congruence. destruct (IH _ _ _ H) as (A & B & C). rewrite (keys_set _ _ d NN) in A, B. split; [|split; [exact B|]].
      * cbn [filter]. fold key. assert (I : In key (map fst d)) by (destruct (in_dec (list_eq_dec N.eq_dec) key (map fst d)) as [I|I]; [exact I|apply get_none in I; congruence]). apply M in I. rewrite I. exact A.
      * intros k r Gk. destruct (teqb key k) eqn:Ek.
        -- apply teqb_eq in Ek. subst k. rewrite G in Gk. injection Gk as ->. destruct (C key _ (get_set_same _ _ _)) as (c & D & S0). cbn [ri_name ri_size ri_start ri_end ri_crc] in *. exists c. split; [exact D|]. left. destruct S0 as [(a & x & b & -> & S0)|(N0 & ->)].
           ++ exists (e :: a), x, b. split; [reflexivity|exact S0].
           ++ exists [], e, es. split; [reflexivity|]. split; [reflexivity|]. split; [exact N0|reflexivity].
        -- assert (Nk : key <> k) by (intros ->; rewrite teqb_refl in Ek; discriminate Ek). destruct (C k r) as (c & D & S0); [rewrite get_set_other by exact Nk; exact Gk|]. exists c. split; [exact D|now apply Tail].
    + destruct (add_sums lowf upf es d) as [d1 r1] eqn:E1. injection H as <- <-. destruct (IH _ _ _ E1) as (A & B & C). split; [|split; [exact B|]].
      * cbn [filter]. fold key. apply get_none in G. destruct (mem_text key (map fst d)) eqn:Mk; [destruct (G (proj1 M eq_refl))|]. cbn [negb]. now rewrite A.
      * intros k r Gk. destruct (C k r Gk) as (c & D & S0). exists c. split; [exact D|]. apply Tail; [exact S0|]. intros <-. congruence.
Qed.
(** archived files: what one block does to its file *)
Definition upd (o : option arch_info) (f : file_info) : arch_info :=
  let f0 := match o with
            | Some a => a
            | None => mkArch (f_name f) (if negb (f_unpacked f =? 0xffffffffffffffff) && negb (f_unpacked f =? 0xffffffff) then f_unpacked f else 0) (negb (f_method f =? COMPR_STORING)) 0
            end in
  let size := if (f_unpacked f =? 0xffffffff) && negb (ai_compressed f0) then ai_size f0 + f_packed f else ai_size f0 in
  let size := if negb (f_unpacked f =? 0xffffffffffffffff) && (size =? 0) then f_unpacked f else size in
  mkArch (ai_name f0) size (ai_compressed f0) (f_crc f).
Lemma step_get s f n : dict_get n (i_files (arch_step s f)) = if teqb (f_name f) n then Some (upd (dict_get n (i_files s)) f) else dict_get n (i_files s).
Proof.
  unfold arch_step, info_files. cbn [i_files]. destruct (teqb (f_name f) n) eqn:E.
  - apply teqb_eq in E. subst n. now rewrite get_set_same.
  - apply get_set_other. intros X. rewrite X, teqb_refl in E. discriminate E.
Qed.
Lemma fold_get n fs : forall s, dict_get n (i_files (fold_left arch_step fs s)) = fold_left (fun o f => Some (upd o f)) (parts fs n) (dict_get n (i_files s)).
Proof.
  unfold parts. induction fs as [|f fs IH]; intros s; [reflexivity|]. cbn [fold_left filter]. rewrite IH, step_get. destruct (teqb (f_name f) n); reflexivity.
Qed.
Lemma upd_first f r : exists a, fold_left (fun o f => Some (upd o f)) (f :: r) None = Some a /\ ai_name a = f_name f /\ ai_compressed a = negb (f_method f =? COMPR_STORING) /\ ai_crc a = f_crc (last r f).
Proof.
  induction r as [|g r (a & A & B & C & D)] using rev_ind; [eexists; split; [reflexivity|]; repeat split|]. change (f :: r ++ [g]) with ((f :: r) ++ [g]). rewrite fold_left_app, A. cbn [fold_left]. eexists. split; [reflexivity|]. cbn [upd ai_name ai_compressed ai_crc]. split; [exact B|]. split; [exact C|]. now rewrite last_last.
Qed.
Theorem files_thm fs n : match parts fs n with
  | [] => dict_get n (i_files (fold_left arch_step fs info0)) = None
  | f :: r => exists a, dict_get n (i_files (fold_left arch_step fs info0)) = Some a /\ ai_name a = n /\ ai_compressed a = negb (f_method f =? COMPR_STORING) /\ ai_crc a = f_crc (last r f)
  end.
Proof.
  rewrite fold_get. change (dict_get n (i_files info0)) with (@None arch_info). destruct (parts fs n) as [|f r] eqn:E; [reflexivity|]. destruct (upd_first f r) as (a & A & B & C). exists a. split; [exact A|]. split; [|exact C]. rewrite B. assert (I : In f (parts fs n)) by (rewrite E; now left). apply filter_In in I. now apply teqb_eq.
Qed.
Theorem known_thm fs n f r a : parts fs n = f :: r -> f_unpacked f <> 0 -> (forall g, In g (f :: r) -> f_unpacked g <> 0xffffffff /\ f_unpacked g <> 0xffffffffffffffff) ->
  dict_get n (i_files (fold_left arch_step fs info0)) = Some a -> ai_size a = f_unpacked f.
Proof.
  intros E Z K. rewrite fold_get, E. change (dict_get n (i_files info0)) with (@None arch_info). clear E. revert a. induction r as [|g r IH] using rev_ind; intros a H.
  - cbn [fold_left] in H. injection H as <-. destruct (K f (or_introl eq_refl)) as [K1 K2]. apply N.eqb_neq in K1, K2. apply N.eqb_neq in Z. cbn [upd ai_size ai_compressed]. rewrite K1, K2. cbn [negb andb ai_size]. now rewrite Z.
  - change (f :: r ++ [g]) with ((f :: r) ++ [g]) in H. rewrite fold_left_app in H. cbn [fold_left] in H. destruct (K g) as [K1 K2]; [right; apply in_or_app; right; now left|]. apply N.eqb_neq in K1, K2.
    destruct (upd_first f r) as (b & B & _). cbn [fold_left] in B. rewrite B in H. injection H as <-. assert (Sb : ai_size b = f_unpacked f) by (apply IH; [intros x [I|I]; apply K; [now left|right; apply in_or_app; now left]|exact B]).
    cbn [upd ai_size ai_compressed]. rewrite K1, Sb. cbn [andb]. apply N.eqb_neq in Z. rewrite Z. now rewrite Bool.andb_false_r.
Qed.
Theorem unknown_thm fs n f r a : parts fs n = f :: r -> f_method f = COMPR_STORING -> f_packed f <> 0 -> (forall g, In g (f :: r) -> f_unpacked g = 0xffffffff) ->
  dict_get n (i_files (fold_left arch_step fs info0)) = Some a -> ai_size a = sum_packed (f :: r).
Proof.
  intros E Ms Z K. rewrite fold_get, E. change (dict_get n (i_files info0)) with (@None arch_info). clear E.
  assert (App : forall x y, sum_packed (x ++ y) = sum_packed x + sum_packed y) by (intros x y; induction x as [|z x IHx]; [reflexivity|]; cbn [app sum_packed fold_right]; fold (sum_packed (x ++ y)); fold (sum_packed x); rewrite IHx; apply N.add_assoc).
  revert a. induction r as [|g r IH] using rev_ind; intros a H.
  - cbn [fold_left] in H. injection H as <-. pose proof (K f (or_introl eq_refl)) as K1. unfold upd. rewrite K1, Ms. cbn [sum_packed fold_right]. rewrite N.add_0_r. apply N.eqb_neq in Z. change (COMPR_STORING =? COMPR_STORING) with true. change (0xffffffff =? 0xffffffff) with true. cbn [negb ai_compressed ai_size ai_name]. rewrite !Bool.andb_false_r. cbn [andb]. rewrite N.add_0_l, Z. now rewrite Bool.andb_false_r.
  - change (f :: r ++ [g]) with ((f :: r) ++ [g]) in *. rewrite fold_left_app in H. destruct (upd_first f r) as (b & B & _ & Cb & _). rewrite B in H. cbn [fold_left] in H. injection H as <-.
    assert (Sb : ai_size b = sum_packed (f :: r)) by (apply IH; [intros x I; apply K; apply in_or_app; now left|exact B]). assert (K1 : f_unpacked g = 0xffffffff) by (apply K; apply in_or_app; right; now left). rewrite Ms, N.eqb_refl in Cb. cbn [negb] in Cb.
    unfold upd. rewrite K1, Cb, Sb, App. assert (Sg : sum_packed [g] = f_packed g) by (cbn; apply N.add_0_r). rewrite Sg. cbn [negb andb ai_size].
    assert (P : sum_packed (f :: r) + f_packed g <> 0) by (cbn [sum_packed fold_right]; intros X; apply N.eq_add_0 in X; destruct X as [X _]; apply N.eq_add_0 in X; now destruct X). apply N.eqb_neq in P. change (0xffffffff =? 0xffffffff) with true. cbn [andb]. rewrite P. now rewrite Bool.andb_false_r.
Qed.
