(** InfoFacts: lemmas about info and content_hash. *)
From Coq Require Import Permutation Sorted.
From Verif Require Import Base BaseFacts Path VolName Crc Rar RarSpec ReadSpec SrrSpec RecovSpec FsSpec SetSpec Sfv SfvSpec SfvFacts SfvSortFacts
  Srr ReadAllFacts CreateFacts Info InfoSpec.

(** ** Dictionaries *)
Lemma teqb_ne a b : a <> b -> teqb a b = false.
Proof. apply teqb_neq. Qed.
Section Dict.
Context {A : Type}.
Implicit Types (d : list (text * A)).
Lemma get_set_same k v d : dict_get k (dict_set k v d) = Some v.
Proof. induction d as [|[q w] d IH]; cbn [dict_set dict_get]; [now rewrite teqb_refl|]. destruct (teqb q k) eqn:E; cbn [dict_get]; rewrite E; [reflexivity|exact IH]. Qed.
Lemma get_set_other k q v d : k <> q -> dict_get q (dict_set k v d) = dict_get q d.
Proof.
  intros H. induction d as [|[p w] d IH]; cbn [dict_set dict_get].
  - now rewrite teqb_ne.
  - destruct (teqb p k) eqn:E; cbn [dict_get]; [apply teqb_eq in E; subst p; now rewrite teqb_ne|]. now rewrite IH.
Qed.
Lemma set_set k v w d : dict_set k w (dict_set k v d) = dict_set k w d.
Proof. induction d as [|[q x] d IH]; cbn [dict_set]; [now rewrite teqb_refl|]. destruct (teqb q k) eqn:E; cbn [dict_set]; rewrite E; [reflexivity|now rewrite IH]. Qed.
Lemma set_new k v d : ~ In k (map fst d) -> dict_set k v d = d ++ [(k, v)].
Proof.
  induction d as [|[q x] d IH]; intros H; [reflexivity|]. cbn [dict_set app map fst] in *. rewrite teqb_ne by (intros ->; apply H; now left).
  f_equal. apply IH. intros X. apply H. now right.
Qed.
Lemma set_keys k v d : In k (map fst d) -> map fst (dict_set k v d) = map fst d.
Proof.
  induction d as [|[q x] d IH]; intros H; [destruct H|]. cbn [dict_set map fst] in *. destruct (teqb q k) eqn:E; [reflexivity|].
  cbn [map fst]. f_equal. apply IH. destruct H as [->|H]; [now rewrite teqb_refl in E|exact H].
Qed.
Lemma get_in k v d : dict_get k d = Some v -> In (k, v) d.
Proof. induction d as [|[q x] d IH]; [discriminate|]. cbn [dict_get]. destruct (teqb q k) eqn:E; [intros [= ->]; apply teqb_eq in E as ->; now left|right; auto]. Qed.
Lemma in_keys_get k d : In k (map fst d) <-> exists v, dict_get k d = Some v.
Proof.
  split; [|intros [v H]; apply get_in in H; now apply (in_map fst) in H].
  induction d as [|[q x] d IH]; [intros []|]. cbn [map fst dict_get]. intros H. destruct (teqb q k) eqn:E; [eauto|]. apply IH. destruct H as [->|H]; [now rewrite teqb_refl in E|exact H].
Qed.
Lemma in_set k v d q : In q (map fst (dict_set k v d)) <-> q = k \/ In q (map fst d).
Proof.
  rewrite !in_keys_get. destruct (list_eq_dec N.eq_dec k q) as [->|Hn].
  - rewrite get_set_same. split; [now left|eauto].
  - rewrite get_set_other by exact Hn. split; [now right|intros [->|H]; [congruence|exact H]].
Qed.
Lemma nodup_set k v d : NoDup (map fst d) -> NoDup (map fst (dict_set k v d)).
Proof.
  intros H. destruct (in_dec (list_eq_dec N.eq_dec) k (map fst d)) as [I|I]; [now rewrite set_keys|]. rewrite set_new by exact I. rewrite map_app.
  apply Permutation_NoDup with (k :: map fst d); [|now constructor]. cbn [map fst]. apply Permutation_cons_append.
Qed.
End Dict.

Section Run.
Variables (lowf upf : text -> text).
Variable (file : bytes).
Notation key := (rar_key lowf).
Notation step := (info_step lowf file).

(** ** One block *)
Lemma neutral_step s pos i : neutral i = true -> exists s', step s (sblk pos i) = Ok s' /\ i_rars s' = i_rars s /\ i_current s' = None.
Proof.
  unfold info_step, info_kind, info_count. destruct i as [c f n e|c f n d e|c f n e|c f sz h n e|c f d e|hd]; try discriminate; intros _; cbn [sblk b_type b_kind s_ty s_kind].
  - change (0x69 =? T_SrrHeader) with true. cbv iota. cbn [bind info_app i_current]. eexists. repeat split.
  - change (0x6A =? T_SrrHeader) with false. change (0x6A =? T_SrrStored) with true. cbv iota. destruct (teqb _ _).
    + match goal with |- context [parse_sfv_data ?x] => destruct (sfv_thm x) as (es & cs & rs & ls & -> & _) end. cbn [bind info_stored i_current]. eexists. repeat split.
    + cbn [bind info_stored i_current]. eexists. repeat split.
  - change (0x6B =? T_SrrHeader) with false. change (0x6B =? T_SrrStored) with false. change (0x6B =? T_SrrRarFile) with false. change (0x6B =? T_RarFile) with false.
    change (0x6B =? T_RarNewSub) with false. change (0x6B =? T_RarOldRec) with false. change (0x6B =? T_SrrOso) with true. cbv iota. cbn [bind info_oso i_current]. eexists. repeat split.
Qed.
Lemma rar_step s pos n : step s (sblk pos (rar_item n)) =
  Ok (info_rars s (dict_set (key n) (mkRar n 0 (pos + lenN (ser_sitem (rar_item n))) (pos + lenN (ser_sitem (rar_item n))) None) (i_rars s)) (Some (key n))).
Proof.
  unfold info_step, info_kind. cbn [sblk b_type s_ty rar_item b_kind s_kind b_pos b_hsize].
  change (0x71 =? T_SrrHeader) with false. change (0x71 =? T_SrrStored) with false. change (0x71 =? T_SrrRarFile) with true. cbv iota. cbn [bind].
  unfold info_count. cbn [info_rars i_current i_rars]. rewrite get_set_same. cbn [b_type]. change (0x71 =? T_SrrRarFile) with true. cbv iota.
  cbn [ri_name ri_size ri_start ri_crc b_pos b_hsize]. rewrite set_set.
  assert (E : lenN (ser_sitem (SRar 0x7171 1 n [])) = 7 + lenN (s_body (SRar 0x7171 1 n []))).
  { unfold ser_sitem, hdr. cbn [s_data]. rewrite app_nil_r, !lenN_app, !lenN_le. change (N.of_nat 2) with 2. change (N.of_nat 1) with 1. lia. }
  unfold rar_item. rewrite E. reflexivity.
Qed.
Lemma count_step s b k r : i_current s = Some k -> dict_get k (i_rars s) = Some r -> b_type b <> 0x71 ->
  info_count s b = info_rars s (dict_set k (mkRar (ri_name r) ((if b_type b =? 0x6C then ri_size r else ri_size r + b_hsize b) + b_add b) (ri_start r) (b_pos b + b_hsize b) (ri_crc r)) (i_rars s)) (Some k).
Proof.
  intros Hc Hg Ht. unfold info_count. rewrite Hc, Hg. replace (b_type b =? T_SrrRarFile) with false by (symmetry; now apply N.eqb_neq). reflexivity.
Qed.
Lemma head_kind_step s pos hd : head_ok hd -> rr_size_ok (hd, []) ->
  exists s', info_kind lowf file s (sblk pos (SHead hd)) = Ok s' /\ i_rars s' = i_rars s /\ i_current s' = i_current s.
Proof.
  intros Hok Hr. unfold info_kind. cbn [sblk b_type s_ty b_kind s_kind b_add s_add].
  destruct hd as [h p|h m rs ds p|c f v rs ds p e|h d|c ty f body d]; cbn [head_ty head_kind].
  - change (0x74 =? T_SrrHeader) with false. change (0x74 =? T_SrrStored) with false. change (0x74 =? T_SrrRarFile) with false. change (0x74 =? T_RarFile) with true. cbv iota.
    eexists. split; [reflexivity|]. split; reflexivity.
  - change (0x7A =? T_SrrHeader) with false. change (0x7A =? T_SrrStored) with false. change (0x7A =? T_SrrRarFile) with false. change (0x7A =? T_RarFile) with false. change (0x7A =? T_RarNewSub) with true. cbv iota.
    cbn [file_info_of f_name head_add head_packed]. cbn [rr_size_ok fst] in Hr. rewrite Hr, N.eqb_refl. destruct (teqb _ _); [|eexists; split; [reflexivity|split; reflexivity]].
    eexists. split; [reflexivity|]. unfold add_recovery. destruct (i_recovery s) as [[? ?]|]; split; reflexivity.
  - change (0x78 =? T_SrrHeader) with false. change (0x78 =? T_SrrStored) with false. change (0x78 =? T_SrrRarFile) with false. change (0x78 =? T_RarFile) with false. change (0x78 =? T_RarNewSub) with false. change (0x78 =? T_RarOldRec) with true. cbv iota.
    eexists. split; [reflexivity|]. unfold add_recovery. destruct (i_recovery s) as [[? ?]|]; split; reflexivity.
  - change (0x7A =? T_SrrHeader) with false. change (0x7A =? T_SrrStored) with false. change (0x7A =? T_SrrRarFile) with false. change (0x7A =? T_RarFile) with false. change (0x7A =? T_RarNewSub) with true. cbv iota.
    cbn [file_info_of f_name]. destruct Hok as (_ & _ & _ & _ & Hn). rewrite teqb_ne by exact Hn. eexists. split; [reflexivity|split; reflexivity].
  - destruct Hok as (_ & Hn & _). cbn [In] in Hn.
    assert (Q : forall k, In k [0x69; 0x6A; 0x6B; 0x6C; 0x71; 0x74; 0x78; 0x7A] -> (ty =? k) = false).
    { intros k Hk. apply N.eqb_neq. intros ->. apply Hn. exact Hk. }
    rewrite (Q T_SrrHeader), (Q T_SrrStored), (Q T_SrrRarFile), (Q T_RarFile), (Q T_RarNewSub), (Q T_RarOldRec), (Q T_SrrOso) by (cbn; tauto).
    eexists. split; [reflexivity|split; reflexivity].
Qed.
Lemma head_ty_not hd k : head_ok hd -> k = 0x71 \/ k = 0x6C -> head_ty hd <> k.
Proof.
  intros Hok Hk E. destruct hd; cbn [head_ty] in E; try (destruct Hk; subst; discriminate). destruct Hok as (_ & Hn & _). apply Hn. subst ty. destruct Hk as [->| ->]; cbn; tauto.
Qed.
Definition grown (s : info_t) (k : text) (n : text) (start size fin : N) : Prop :=
  i_current s = Some k /\ dict_get k (i_rars s) = Some (mkRar n size start fin None).
Lemma head_step s pos hd k n start size fin : head_ok hd -> rr_size_ok (hd, []) -> grown s k n start size fin ->
  exists s', step s (sblk pos (SHead hd)) = Ok s' /\ i_current s' = Some k /\
    i_rars s' = dict_set k (mkRar n (size + (7 + lenN (head_body hd)) + head_add hd) start (pos + (7 + lenN (head_body hd))) None) (i_rars s).
Proof.
  intros Hok Hr [Hc Hg]. destruct (head_kind_step s pos hd Hok Hr) as (s1 & E & R & C). unfold info_step. rewrite E. cbn [bind].
  eexists. split; [reflexivity|]. rewrite (count_step s1 _ k (mkRar n size start fin None)) by (congruence || (cbn; apply head_ty_not; auto)).
  cbn [sblk b_type s_ty b_hsize b_add b_pos s_body s_add ri_name ri_size ri_start ri_crc]. replace (head_ty hd =? 0x6C) with false by (symmetry; apply N.eqb_neq, head_ty_not; auto).
  cbn [info_rars i_current i_rars]. rewrite R. split; reflexivity.
Qed.
Lemma pad_step s pos d k n start size fin : grown s k n start size fin ->
  exists s', step s (sblk pos (SPad 0x6C6C 0x8000 d [])) = Ok s' /\ i_current s' = Some k /\
    i_rars s' = dict_set k (mkRar n (size + lenN d) start (pos + 11) None) (i_rars s).
Proof.
  intros [Hc Hg]. unfold info_step, info_kind. cbn [sblk b_type s_ty].
  change (0x6C =? T_SrrHeader) with false. change (0x6C =? T_SrrStored) with false. change (0x6C =? T_SrrRarFile) with false. change (0x6C =? T_RarFile) with false.
  change (0x6C =? T_RarNewSub) with false. change (0x6C =? T_RarOldRec) with false. change (0x6C =? T_SrrOso) with false. cbv iota. cbn [bind].
  eexists. split; [reflexivity|]. rewrite (count_step s _ k (mkRar n size start fin None)) by (assumption || discriminate).
  cbn [b_type]. change (0x6C =? 0x6C) with true. cbv iota. cbn [b_hsize b_add b_pos s_body s_add ri_name ri_size ri_start ri_crc info_rars i_current i_rars].
  split; [reflexivity|]. cbn [sblk b_type s_ty b_hsize b_add b_pos s_body s_add]. rewrite app_nil_r, lenN_le. reflexivity.
Qed.

(** ** The blocks of a volume *)
Lemma lenN_hdr c t f b : lenN (hdr c t f b) = 7 + lenN b.
Proof. unfold hdr. rewrite !lenN_app, !lenN_le. change (N.of_nat 2) with 2. change (N.of_nat 1) with 1. lia. Qed.
Lemma lenN_head hd : lenN (ser_head hd) = 7 + lenN (head_body hd) + lenN (head_data hd).
Proof. unfold ser_head. rewrite lenN_app, lenN_hdr. reflexivity. Qed.
Lemma head_add_len i : item_ok i -> 7 + lenN (head_body (fst i)) + head_add (fst i) = lenN (ser_item i).
Proof.
  intros [Hok Hl]. unfold ser_item. rewrite lenN_app, lenN_head, Hl. destruct (fst i); cbn [head_add head_data head_packed]; change (lenN (@nil byte)) with 0; lia.
Qed.
Lemma sblks_app a : forall b pos, sblks pos (a ++ b) = sblks pos a ++ sblks (pos + lenN (ser_srr a)) b.
Proof.
  induction a as [|i a IH]; intros b pos; [unfold ser_srr; cbn; now rewrite N.add_0_r|]. cbn [app sblks]. rewrite IH. f_equal. f_equal. f_equal.
  unfold ser_srr. cbn [map concat]. rewrite lenN_app. lia.
Qed.
Lemma foldR_app {X S} (f : S -> X -> result S) a : forall b s, foldR f (a ++ b) s = (do s' <- foldR f a s; foldR f b s').
Proof. induction a as [|x a IH]; intros b s; [reflexivity|]. cbn [app foldR]. destruct (f s x) as [s'|]; [|reflexivity]. cbn [bind]. apply IH. Qed.

Lemma removelast_cons {A} (x : A) m : m <> [] -> removelast (x :: m) = x :: removelast m.
Proof. destruct m; [congruence|reflexivity]. Qed.
Lemma last_cons {A} (x d : A) m : m <> [] -> last (x :: m) d = last m d.
Proof. destruct m; [congruence|reflexivity]. Qed.
Lemma items_run l : forall s pos k n start size fin, Forall item_ok l -> Forall rr_size_ok l -> l <> [] -> grown s k n start size fin ->
  exists s', foldR step (sblks pos (map (fun i => SHead (fst i)) l)) s = Ok s' /\ i_current s' = Some k /\
    i_rars s' = dict_set k (mkRar n (size + lenN (ser_items l)) start
                  (pos + lenN (ser_srr (removelast (map (fun i => SHead (fst i)) l)) ++ s_hdr (last (map (fun i => SHead (fst i)) l) (SHead MARKER)))) None) (i_rars s).
Proof.
  induction l as [|i l IH]; intros s pos k n start size fin Hok Hr Hne Hg; [congruence|]. apply Forall_cons_iff in Hok as [Hi Hok]. apply Forall_cons_iff in Hr as [Hri Hr].
  destruct (head_step s pos (fst i) k n start size fin (proj1 Hi) Hri Hg) as (s1 & E1 & C1 & R1).
  cbn [map sblks foldR]. rewrite E1. cbn [bind]. destruct l as [|j l].
  - cbn [map sblks foldR removelast last]. exists s1. split; [reflexivity|]. split; [exact C1|]. rewrite R1. unfold ser_items. cbn [map concat]. rewrite app_nil_r.
    rewrite <- (head_add_len i Hi). unfold ser_srr, s_hdr. cbn [map concat app s_body]. rewrite lenN_hdr, !N.add_assoc. reflexivity.
  - assert (G1 : grown s1 k n start (size + (7 + lenN (head_body (fst i))) + head_add (fst i)) (pos + (7 + lenN (head_body (fst i))))).
    { split; [exact C1|]. rewrite R1. apply get_set_same. }
    destruct (IH s1 (pos + lenN (ser_sitem (SHead (fst i)))) k n start _ _ Hok Hr ltac:(discriminate) G1) as (s2 & E2 & C2 & R2).
    exists s2. split; [exact E2|]. split; [exact C2|]. rewrite R2, R1, set_set.
    assert (Ea : size + (7 + lenN (head_body (fst i))) + head_add (fst i) + lenN (ser_items (j :: l)) = size + lenN (ser_items (i :: j :: l))).
    { pose proof (head_add_len i Hi) as Q. change (ser_items (i :: j :: l)) with (ser_item i ++ ser_items (j :: l)). rewrite lenN_app. lia. }
    rewrite Ea. f_equal. f_equal. cbn [map].
    match goal with |- context [removelast (SHead (fst i) :: ?m)] => assert (Hm : m <> []) by discriminate; revert Hm; clear; generalize m end. intros ms Hm. rewrite removelast_cons, last_cons by exact Hm.
    change (ser_srr (SHead (fst i) :: removelast ms)) with (ser_sitem (SHead (fst i)) ++ ser_srr (removelast ms)). rewrite !lenN_app. lia.
Qed.
Lemma removelast_snoc {A} (l : list A) x : removelast (l ++ [x]) = l.
Proof. rewrite removelast_app by discriminate. cbn. apply app_nil_r. Qed.
Lemma MARKER_head_ok : head_ok MARKER.
Proof. split; [repeat split; reflexivity|]. cbn. split; [intros H; repeat (destruct H as [H|H]; [discriminate|]); exact H|]. split; [reflexivity|]. split; discriminate. Qed.

Lemma volume_run v n s pos : volume_ok v -> Forall rr_size_ok (v_items v) ->
  let start := pos + lenN (ser_sitem (rar_item n)) in
  exists s', foldR step (sblks pos (vol_items n v)) s = Ok s' /\ i_current s' = Some (key n) /\
    i_rars s' = dict_set (key n) (mkRar n (lenN (ser_volume v)) start (start + lenN (vol_meta v)) None) (i_rars s).
Proof.
  intros Hv Hr start. unfold vol_items. remember (SHead MARKER :: map (fun i => SHead (fst i)) (v_items v) ++ pad_item (v_pad v)) as items eqn:Eit.
  cbn [sblks foldR]. rewrite rar_step. cbn [bind]. fold start.
  set (s0 := info_rars s _ _).
  assert (G0 : grown s0 (key n) n start 0 start) by (split; [reflexivity|apply get_set_same]).
  assert (Hok : Forall item_ok ((MARKER, []) :: v_items v)) by (constructor; [split; [exact MARKER_head_ok|reflexivity]|apply Hv]).
  assert (Hr' : Forall rr_size_ok ((MARKER, []) :: v_items v)) by (constructor; [exact I|exact Hr]).
  destruct (items_run _ s0 start (key n) n start 0 start Hok Hr' ltac:(discriminate) G0) as (s1 & E1 & C1 & R1).
  cbn [map fst] in E1, R1.
  subst items. rewrite app_comm_cons.
  rewrite sblks_app, foldR_app, E1. cbn [bind].
  assert (L : 0 + lenN (ser_items ((MARKER, []) :: v_items v)) + lenN (v_pad v) = lenN (ser_volume v)).
  { unfold ser_volume, ser_items. cbn [map concat]. unfold ser_item at 1. cbn [fst snd]. rewrite !lenN_app. cbn [lenN]. lia. }
  unfold s0 in R1. cbn [info_rars i_rars] in R1. rewrite set_set in R1. unfold pad_item. destruct (v_pad v) as [|x p] eqn:Ep.
  - cbn [sblks foldR]. exists s1. split; [reflexivity|]. split; [exact C1|]. rewrite R1. unfold vol_meta, kept_items, pad_item. rewrite Ep, app_nil_r.
    f_equal. f_equal. rewrite <- L. cbn [lenN]. lia.
  - rewrite <- Ep in *. cbn [sblks foldR].
    assert (G1 : grown s1 (key n) n start (0 + lenN (ser_items ((MARKER, []) :: v_items v)))
       (start + lenN (ser_srr (removelast (SHead MARKER :: map (fun i : item => SHead (fst i)) (v_items v))) ++ s_hdr (last (SHead MARKER :: map (fun i : item => SHead (fst i)) (v_items v)) (SHead MARKER))))).
    { split; [exact C1|]. rewrite R1. apply get_set_same. }
    destruct (pad_step s1 (start + lenN (ser_srr (SHead MARKER :: map (fun i => SHead (fst i)) (v_items v)))) (v_pad v) _ _ _ _ _ G1) as (s2 & E2 & C2 & R2).
    rewrite E2. cbn [bind]. exists s2. split; [reflexivity|]. split; [exact C2|]. rewrite R2, R1, set_set, L. f_equal. f_equal.
    unfold vol_meta, kept_items, pad_item. rewrite Ep. rewrite app_comm_cons, removelast_snoc, last_last, <- Ep.
    rewrite !lenN_app. unfold s_hdr. rewrite lenN_hdr. cbn [s_body]. rewrite app_nil_r, lenN_le. change (N.of_nat 4) with 4. lia.
Qed.

(** ** All blocks *)
Definition listed (nv : text * volume) (r : rar_info) : Prop :=
  ri_name r = fst nv /\ ri_size r = lenN (ser_volume (snd nv)) /\ sub (ri_start r) (ri_end r - ri_start r) file = vol_meta (snd nv).
Definition set_all (l : list (text * rar_info)) d : list (text * rar_info) := fold_left (fun d kr => dict_set (fst kr) (snd kr) d) l d.
Lemma meta_prefix v : exists r, ser_srr (kept_items v) = vol_meta v ++ r.
Proof.
  unfold vol_meta. exists (s_data (last (kept_items v) (SHead MARKER))). assert (E : kept_items v <> []) by discriminate.
  rewrite (app_removelast_last (SHead MARKER) E) at 1. unfold ser_srr. rewrite map_app, concat_app. cbn [map concat]. rewrite app_nil_r, <- app_assoc. reflexivity.
Qed.
Lemma run_all l vs : holds_volumes l vs -> Forall (fun nv => volume_ok (snd nv) /\ Forall rr_size_ok (v_items (snd nv))) vs ->
  forall pre s, file = pre ++ ser_srr l -> exists s' es,
  foldR step (sblks (lenN pre) l) s = Ok s' /\ Forall2 listed vs es /\
  i_rars s' = set_all (combine (map (fun nv => key (fst nv)) vs) es) (i_rars s).
Proof.
  induction 1 as [|i l vs Hi Hl IH|n v l vs Hl IH]; intros Hv pre s Hf.
  - exists s, []. split; [reflexivity|]. split; [constructor|reflexivity].
  - destruct (neutral_step s (lenN pre) i Hi) as (s1 & E1 & R1 & _). cbn [sblks foldR]. rewrite E1. cbn [bind].
    change (ser_srr (i :: l)) with (ser_sitem i ++ ser_srr l) in Hf. rewrite app_assoc in Hf.
    destruct (IH Hv _ s1 Hf) as (s2 & es & E2 & F2 & R2). rewrite lenN_app in E2. exists s2, es. split; [exact E2|]. split; [exact F2|]. now rewrite R2, R1.
  - apply Forall_cons_iff in Hv as [[Hv1 Hr1] Hv]. cbn [snd] in Hv1, Hr1. rewrite sblks_app, foldR_app.
    destruct (volume_run v n s (lenN pre) Hv1 Hr1) as (s1 & E1 & _ & R1). rewrite E1. cbn [bind].
    assert (Es : ser_srr (vol_items n v ++ l) = ser_srr (vol_items n v) ++ ser_srr l) by (unfold ser_srr; now rewrite map_app, concat_app).
    rewrite Es in Hf. pose proof Hf as Hf'. rewrite app_assoc in Hf'. destruct (IH Hv _ s1 Hf') as (s2 & es & E2 & F2 & R2). rewrite lenN_app in E2.
    eexists s2, (_ :: es). split; [exact E2|]. split.
    + constructor; [|exact F2]. split; [|split]; [| |].
      3:{ instantiate (1 := mkRar n (lenN (ser_volume v)) (lenN pre + lenN (ser_sitem (rar_item n))) (lenN pre + lenN (ser_sitem (rar_item n)) + lenN (vol_meta v)) None).
          cbn [ri_start ri_end snd]. destruct (meta_prefix v) as [r Er]. change (vol_items n v) with (rar_item n :: kept_items v) in Hf.
          change (ser_srr (rar_item n :: kept_items v)) with (ser_sitem (rar_item n) ++ ser_srr (kept_items v)) in Hf. rewrite Er in Hf. rewrite Hf.
          replace (pre ++ (ser_sitem (rar_item n) ++ vol_meta v ++ r) ++ ser_srr l) with ((pre ++ ser_sitem (rar_item n)) ++ vol_meta v ++ (r ++ ser_srr l)) by (rewrite <- !app_assoc; reflexivity).
          apply sub_app_exact; [now rewrite lenN_app|lia]. }
      * reflexivity.
      * reflexivity.
    + rewrite R2, R1. reflexivity.
Qed.
End Run.

(** ** Dictionaries of volumes *)
Lemma set_all_new l : forall d, NoDup (map fst d ++ map fst l) -> set_all l d = d ++ l.
Proof.
  induction l as [|[k r] l IH]; intros d H; [cbn; now rewrite app_nil_r|]. cbn [set_all fold_left fst snd map] in *. fold (set_all l (dict_set k r d)).
  assert (Hk : ~ In k (map fst d)). { apply NoDup_remove_2 in H. intros X. apply H, in_or_app. now left. }
  rewrite set_new by exact Hk. rewrite IH; [now rewrite <- app_assoc|]. rewrite map_app, <- app_assoc. exact H.
Qed.
Lemma set_all_keep l : forall d k, ~ In k (map fst l) -> dict_get k (set_all l d) = dict_get k d.
Proof.
  induction l as [|[q r] l IH]; intros d k H; [reflexivity|]. cbn [set_all fold_left fst snd map] in *. fold (set_all l (dict_set q r d)).
  rewrite IH by (intros X; apply H; now right). apply get_set_other. intros X. apply H. now left.
Qed.
Lemma set_all_last a k r b d : ~ In k (map fst b) -> dict_get k (set_all (a ++ (k, r) :: b) d) = Some r.
Proof.
  intros H. unfold set_all. rewrite fold_left_app. cbn [fold_left fst snd]. fold (set_all a d). fold (set_all b (dict_set k r (set_all a d))).
  rewrite set_all_keep by exact H. apply get_set_same.
Qed.
Lemma set_all_nodup l : forall d, NoDup (map fst d) -> NoDup (map fst (set_all l d)).
Proof. induction l as [|[q r] l IH]; intros d H; [exact H|]. cbn [set_all fold_left]. apply IH. now apply nodup_set. Qed.
Lemma set_all_keys l : forall d k, In k (map fst (set_all l d)) <-> In k (map fst l) \/ In k (map fst d).
Proof.
  induction l as [|[q r] l IH]; intros d k; [cbn; tauto|]. cbn [set_all fold_left fst snd map]. fold (set_all l (dict_set q r d)). rewrite IH, in_set. cbn [In]. intuition congruence.
Qed.
Definition same_rar (a b : rar_info) : Prop := ri_name a = ri_name b /\ ri_size a = ri_size b /\ ri_start a = ri_start b /\ ri_end a = ri_end b.
Definition same_dict (a b : list (text * rar_info)) : Prop := Forall2 (fun x y => fst x = fst y /\ same_rar (snd x) (snd y)) a b.
Lemma same_refl d : same_dict d d.
Proof. induction d as [|x d IH]; constructor; [repeat split|exact IH]. Qed.
Lemma same_trans a b c : same_dict a b -> same_dict b c -> same_dict a c.
Proof.
  intros H. revert c. induction H as [|x y a b [E (A & B & C & D)] H IH]; intros c G; inversion G as [|y' z b' c' [E' (A' & B' & C' & D')] G']; subst; constructor; [|now apply IH].
  unfold same_rar. repeat split; congruence.
Qed.
Lemma same_set k r' d : forall r, dict_get k d = Some r -> same_rar r r' -> same_dict d (dict_set k r' d).
Proof.
  induction d as [|[q w] d IH]; intros r H S; [discriminate|]. cbn [dict_get dict_set] in *. destruct (teqb q k).
  - injection H as ->. constructor; [split; [reflexivity|exact S]|apply same_refl].
  - constructor; [repeat split|]. now apply (IH r).
Qed.
Lemma sums_same lowf upf es : forall d d' rest, add_sums lowf upf es d = (d', rest) -> same_dict d d'.
Proof.
  induction es as [|e es IH]; intros d d' rest H; [injection H as <- _; apply same_refl|]. cbn [add_sums] in H.
  destruct (dict_get (lowf (basename (e_name e))) d) as [r|] eqn:E.
  - apply IH in H. refine (same_trans _ _ _ _ H). apply (same_set _ _ _ r E). repeat split.
  - destruct (add_sums lowf upf es d) as [d1 r1] eqn:E1. injection H as <- _. now apply (IH _ _ _ E1).
Qed.
Lemma same_keys a b : same_dict a b -> map fst a = map fst b.
Proof. induction 1 as [|x y a b [E _] H IH]; [reflexivity|]. cbn. now rewrite E, IH. Qed.
Lemma same_get a b k r : same_dict a b -> dict_get k a = Some r -> exists r', dict_get k b = Some r' /\ same_rar r r'.
Proof.
  induction 1 as [|[q x] [p y] a b [E S] H IH]; [discriminate|]. cbn [fst snd dict_get] in *. subst p. destruct (teqb q k); [intros [= ->]; eauto|exact IH].
Qed.
Lemma listed_same file nv a b : listed file nv a -> same_rar a b -> listed file nv b.
Proof. intros (A & B & C) (D & E & F & G). unfold listed. rewrite <- D, <- E, <- F, <- G. auto. Qed.

(** ** The listing *)
Section Listing.
Variables (lowf upf : text -> text) (l : list sitem) (vs : list (text * volume)).
Hypotheses (Hok : srr_ok l) (Hl : holds_volumes l vs) (Hv : Forall (fun nv => volume_ok (snd nv) /\ Forall rr_size_ok (v_items (snd nv))) vs).
Notation key := (rar_key lowf).
Lemma info_ok : exists i es, info lowf upf (ser_srr l) = Ok i /\ Forall2 (listed (ser_srr l)) vs es /\
  same_dict (set_all (combine (map (fun nv => key (fst nv)) vs) es) []) (i_rars i).
Proof.
  unfold info. rewrite read_all_srr by exact Hok. cbn [bind]. destruct (run_all lowf upf (ser_srr l) l vs Hl Hv [] info0 eq_refl) as (s & es & E & F & R).
  change (lenN (@nil byte)) with 0 in E. rewrite E. cbn [bind]. destruct (add_sums lowf upf (i_sfv s) (i_rars s)) as [d rest] eqn:A. apply sums_same in A. rewrite R in A.
  eexists _, es. split; [reflexivity|]. split; [exact F|exact A].
Qed.
Lemma fst_combine {A B} (a : list A) : forall b : list B, length a = length b -> map fst (combine a b) = a.
Proof. induction a as [|x a IH]; intros [|y b] H; try discriminate; [reflexivity|]. cbn. f_equal. apply IH. now injection H. Qed.
Lemma F2_len {A B} (R : A -> B -> Prop) a b : Forall2 R a b -> length a = length b.
Proof. induction 1; cbn; congruence. Qed.
Theorem listing_all : NoDup (map (fun nv => key (fst nv)) vs) -> exists i, info lowf upf (ser_srr l) = Ok i /\
  Forall2 (fun nv kr => fst kr = key (fst nv) /\ listed (ser_srr l) nv (snd kr)) vs (i_rars i).
Proof.
  intros Hd. destruct info_ok as (i & es & E & F & S). exists i. split; [exact E|].
  rewrite set_all_new in S by (rewrite fst_combine by (rewrite map_length; now apply F2_len in F); exact Hd). cbn [app] in S.
  clear - F S. revert S. generalize (i_rars i). clear i. induction F as [|nv r vs es Hr F IH]; intros d S; cbn [map combine] in S; inversion S as [|x y a b [K Sr] S']; subst; constructor.
  - cbn [fst snd] in *. split; [now symmetry|]. now apply (listed_same _ _ r).
  - now apply IH.
Qed.
Theorem listing_last a n v b : vs = a ++ (n, v) :: b -> ~ In (key n) (map (fun nv => key (fst nv)) b) ->
  exists i r, info lowf upf (ser_srr l) = Ok i /\ dict_get (key n) (i_rars i) = Some r /\ listed (ser_srr l) (n, v) r.
Proof.
  intros Ev Hb. destruct info_ok as (i & es & E & F & S). exists i. rewrite Ev in F, S. apply Forall2_app_inv_l in F as (ea & eb & Fa & Fb & ->).
  inversion Fb as [|nv r vs' eb' Hr Fb']; subst. 
  assert (La : length (map (fun nv => key (fst nv)) a) = length ea) by (rewrite map_length; now apply F2_len in Fa).
  assert (C : combine (map (fun nv => key (fst nv)) (a ++ (n, v) :: b)) (ea ++ r :: eb') =
              combine (map (fun nv => key (fst nv)) a) ea ++ (key n, r) :: combine (map (fun nv => key (fst nv)) b) eb').
  { rewrite map_app. cbn [map fst]. clear - La. revert ea La. generalize (map (fun nv : text * volume => key (fst nv)) a). intros ks. induction ks as [|k ks IH]; intros [|e ea] La; try discriminate; [reflexivity|].
    cbn [app combine]. f_equal. apply IH. now injection La. }
  rewrite C in S. assert (G := set_all_last (combine (map (fun nv => key (fst nv)) a) ea) (key n) r (combine (map (fun nv => key (fst nv)) b) eb') []).
  rewrite fst_combine in G by (rewrite map_length; now apply F2_len in Fb'). specialize (G Hb).
  destruct (same_get _ _ _ _ S G) as (r' & Gr & Sr). exists r'. split; [exact E|]. split; [exact Gr|]. now apply (listed_same _ _ r).
Qed.
Theorem listing_keys : exists i, info lowf upf (ser_srr l) = Ok i /\ NoDup (map fst (i_rars i)) /\
  forall k, In k (map fst (i_rars i)) <-> In k (map (fun nv => key (fst nv)) vs).
Proof.
  destruct info_ok as (i & es & E & F & S). exists i. split; [exact E|]. rewrite <- (same_keys _ _ S).
  split; [apply set_all_nodup; constructor|]. intros k. rewrite set_all_keys, fst_combine by (rewrite map_length; now apply F2_len in F). cbn. tauto.
Qed.
End Listing.

(** ** Sorting *)
Lemma before_lt a : forall b, text_lt a b = true <-> text_before a b.
Proof.
  induction a as [|x a IH]; intros [|y b].
  - split; [discriminate|]. intros (p & [(x & t & <- & H)|(x & z & t & u & H & _)]); [discriminate|destruct p; discriminate].
  - split; [|reflexivity]. intros _. exists []. left. exists y, b. split; reflexivity.
  - split; [discriminate|]. intros (p & [(z & t & <- & H)|(z & w & t & u & _ & H & _)]); [discriminate|destruct p; discriminate].
  - cbn [text_lt]. rewrite orb_true_iff, andb_true_iff, N.ltb_lt, N.eqb_eq, IH. split.
    + intros [H|[-> (p & H)]]; [exists []; right; exists x, y, a, b; auto|]. exists (y :: p). destruct H as [(z & t & -> & ->)|(z & w & t & u & -> & -> & H)]; [left|right].
      * exists z, t. split; reflexivity.
      * exists z, w, t, u. auto.
    + intros (p & [(z & t & E & E')|(z & w & t & u & E & E' & H)]).
      * destruct p as [|q p]; [discriminate|]. injection E as -> ->. injection E' as -> ->. right. split; [reflexivity|]. exists p. left. eauto.
      * destruct p as [|q p]; cbn [app] in E, E'; injection E as -> ->; injection E' as -> ->; [now left|]. right. split; [reflexivity|]. exists p. right. exists z, w, t, u. auto.
Qed.
Lemma text_lt_trans a : forall b c, text_lt a b = true -> text_lt b c = true -> text_lt a c = true.
Proof.
  induction a as [|x a IH]; intros [|y b] [|z c] H G; try discriminate; [reflexivity|]. cbn [text_lt] in *.
  rewrite orb_true_iff, andb_true_iff, N.ltb_lt, N.eqb_eq in *. destruct H as [H|[-> H]], G as [G|[-> G]]; try (left; lia). right. split; [reflexivity|]. now apply (IH b).
Qed.
Lemma insert_perm t l : Permutation (t :: l) (insert_text t l).
Proof. induction l as [|q l IH]; [apply Permutation_refl|]. cbn [insert_text]. destruct (text_lt t q); [apply Permutation_refl|]. rewrite perm_swap. now constructor. Qed.
Lemma sort_perm l : Permutation l (sort_text l).
Proof. induction l as [|t l IH]; [constructor|]. cbn [sort_text fold_right]. fold (sort_text l). rewrite IH at 1. apply insert_perm. Qed.
Lemma insert_sorted t l : ~ In t l -> StronglySorted text_before l -> StronglySorted text_before (insert_text t l).
Proof.
  induction l as [|q l IH]; intros Hn H; [constructor; constructor|]. cbn [insert_text]. inversion H as [|q' l' Hs Hf]; subst.
  destruct (text_lt t q) eqn:E.
  - constructor; [exact H|]. constructor; [now apply before_lt|]. eapply Forall_impl; [|exact Hf]. intros x Hx. apply before_lt. apply before_lt in Hx. now apply (text_lt_trans _ q).
  - constructor; [apply IH; [|exact Hs]; intros X; apply Hn; now right|].
    apply Forall_forall. intros x Hx. apply (Permutation_in _ (Permutation_sym (insert_perm t l))) in Hx. destruct Hx as [->|Hx].
    + apply before_lt. destruct (text_lt_total q x) as [?|?]; [intros ->; apply Hn; now left|assumption|congruence].
    + rewrite Forall_forall in Hf. now apply Hf.
Qed.
Lemma sort_sorted l : NoDup l -> StronglySorted text_before (sort_text l).
Proof.
  induction 1 as [|t l Hn H IH]; [constructor|]. cbn [sort_text fold_right]. fold (sort_text l). apply insert_sorted; [|exact IH].
  intros X. apply Hn. now apply (Permutation_in _ (Permutation_sym (sort_perm l))).
Qed.
Lemma sorted_unique a : forall b, StronglySorted text_before a -> StronglySorted text_before b -> Permutation a b -> a = b.
Proof.
  induction a as [|x a IH]; intros [|y b] Ha Hb P; [reflexivity|now apply Permutation_nil in P|apply Permutation_sym, Permutation_nil in P; discriminate|].
  inversion Ha as [|? ? Ha1 Ha2]; inversion Hb as [|? ? Hb1 Hb2]; subst. rewrite Forall_forall in Ha2, Hb2.
  assert (E : x = y).
  { pose proof (Permutation_in x P (or_introl eq_refl)) as [?|X]; [now symmetry|]. pose proof (Permutation_in y (Permutation_sym P) (or_introl eq_refl)) as [?|Y]; [assumption|].
    apply Hb2, before_lt in X. apply Ha2, before_lt in Y. rewrite (text_lt_asym _ _ X) in Y. discriminate. }
  subst y. f_equal. apply IH; [assumption|assumption|]. now apply Permutation_cons_inv in P.
Qed.

(** ** The hashed bytes *)
Section Content.
Variables (lowf upf : text -> text) (l : list sitem) (vs : list (text * volume)).
Hypotheses (Hok : srr_ok l) (Hl : holds_volumes l vs) (Hv : Forall (fun nv => volume_ok (snd nv) /\ Forall rr_size_ok (v_items (snd nv))) vs).
Hypothesis (Hd : NoDup (map (fun nv => rar_key lowf (fst nv)) vs)).
Notation key := (rar_key lowf).
Theorem content_thm : exists vs', Permutation vs vs' /\ StronglySorted text_before (map (fun nv => key (fst nv)) vs') /\
  content_bytes lowf upf (ser_srr l) = Ok (concat (map (fun nv => vol_meta (snd nv)) vs')).
Proof.
  destruct (listing_all lowf upf l vs Hok Hl Hv Hd) as (i & E & F). unfold content_bytes. rewrite E. cbn [bind].
  assert (K : map fst (i_rars i) = map (fun nv => key (fst nv)) vs). { clear - F. induction F as [|nv kr vs d [H _] F IH]; [reflexivity|]. cbn [map]. now rewrite H, IH. }
  rewrite K. destruct (Permutation_map_inv _ _ (Permutation_sym (sort_perm (map (fun nv => key (fst nv)) vs)))) as (vs' & Es & P).
  exists vs'. split; [exact P|]. rewrite <- Es. split; [now apply sort_sorted|]. rewrite Es, map_map. do 2 f_equal. apply map_ext_in. intros nv Hin.
  apply (Permutation_in _ (Permutation_sym P)) in Hin.
  assert (G : exists r, dict_get (key (fst nv)) (i_rars i) = Some r /\ listed (ser_srr l) nv r).
  { clear - F Hin Hd. induction F as [|nv0 [k r] vs d [H R] F IH]; [destruct Hin|]. cbn [map fst snd] in *. apply NoDup_cons_iff in Hd as [Hn Hd]. cbn [dict_get]. subst k.
    destruct Hin as [->|Hin]; [rewrite teqb_refl; eauto|]. rewrite teqb_ne; [now apply IH|]. intros X. apply Hn. rewrite X. now apply (in_map (fun nv => key (fst nv))). }
  destruct G as (r & -> & _ & _ & R). exact R.
Qed.
End Content.
Theorem content_same lowf upf l1 l2 vs1 vs2 :
  srr_ok l1 -> srr_ok l2 -> holds_volumes l1 vs1 -> holds_volumes l2 vs2 ->
  Forall (fun nv => volume_ok (snd nv) /\ Forall rr_size_ok (v_items (snd nv))) vs1 ->
  Forall (fun nv => volume_ok (snd nv) /\ Forall rr_size_ok (v_items (snd nv))) vs2 ->
  NoDup (map (fun nv => rar_key lowf (fst nv)) vs1) ->
  Permutation (map (fun nv => (rar_key lowf (fst nv), vol_meta (snd nv))) vs1) (map (fun nv => (rar_key lowf (fst nv), vol_meta (snd nv))) vs2) ->
  exists b, content_bytes lowf upf (ser_srr l1) = Ok b /\ content_bytes lowf upf (ser_srr l2) = Ok b.
Proof.
  intros O1 O2 H1 H2 V1 V2 D1 P.
  assert (Km : forall vs : list (text * volume), map (fun nv => rar_key lowf (fst nv)) vs = map fst (map (fun nv => (rar_key lowf (fst nv), vol_meta (snd nv))) vs)) by (intros vs; now rewrite map_map).
  assert (D2 : NoDup (map (fun nv => rar_key lowf (fst nv)) vs2)). { rewrite Km in D1 |- *. apply (Permutation_NoDup (Permutation_map fst P) D1). }
  destruct (content_thm lowf upf l1 vs1 O1 H1 V1 D1) as (w1 & P1 & S1 & C1). destruct (content_thm lowf upf l2 vs2 O2 H2 V2 D2) as (w2 & P2 & S2 & C2).
  exists (concat (map (fun nv => vol_meta (snd nv)) w1)). split; [exact C1|]. rewrite C2. do 2 f_equal.
  set (g := fun nv : text * volume => (rar_key lowf (fst nv), vol_meta (snd nv))) in *.
  assert (Q : Permutation (map g w1) (map g w2)). { rewrite <- (Permutation_map g P1), <- (Permutation_map g P2). exact P. }
  assert (E : map g w1 = map g w2).
  { rewrite Km in S1, S2. fold g in S1, S2.
    assert (E : map fst (map g w1) = map fst (map g w2)) by (apply sorted_unique; [exact S1|exact S2|now apply Permutation_map]).
    assert (D : NoDup (map fst (map g w1))). { apply (Permutation_NoDup (Permutation_map fst (Permutation_map g P1))). unfold g. now rewrite <- Km. }
    clear - Q E D. revert Q E D. generalize (map g w1), (map g w2). clear. induction l as [|[k a] l IH]; intros [|[k' b] m] Q E D; try discriminate; [reflexivity|].
    cbn [map fst] in *. injection E as <- E. apply NoDup_cons_iff in D as [Dn D].
    assert (X : a = b). { pose proof (Permutation_in _ Q (or_introl eq_refl)) as [H|H]; [now injection H|]. exfalso. apply Dn. rewrite E. now apply (in_map fst) in H. }
    subst b. f_equal. apply IH; [now apply Permutation_cons_inv in Q|exact E|exact D]. }
  apply (f_equal (map snd)) in E. rewrite !map_map in E. unfold g in E. cbn [snd] in E. now symmetry.
Qed.
