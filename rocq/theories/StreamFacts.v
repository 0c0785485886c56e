(** StreamFacts: the stream over volumes answers like a file. *)
From Verif Require Import Base BaseFacts Rar RarSpec ReadSpec SetSpec ReadFacts ReadAllFacts Path VolName VolSpec VolFacts Srr Oso Stream StreamSpec.

Definition zlen (d : bytes) : Z := Z.of_N (lenN d).
(** consecutive parts *)
Inductive tiled (f : fs) : Z -> list vol -> bytes -> Prop :=
| tl_nil p : tiled f p [] []
| tl_cons p v vs d c D : w_start v = p -> w_end v = (p + zlen d - 1)%Z -> fs_get f (w_path v) = Some D ->
    sub (w_off v) (lenN d) D = d -> tiled f (p + zlen d) vs c -> tiled f p (v :: vs) (d ++ c).
Lemma zlen_app a b : zlen (a ++ b) = (zlen a + zlen b)%Z.
Proof. unfold zlen. rewrite lenN_app. lia. Qed.
Lemma zlen_nonneg a : (0 <= zlen a)%Z.
Proof. unfold zlen. lia. Qed.
Lemma tiled_app f vs : forall p c ws d, tiled f p vs c -> tiled f (p + zlen c) ws d -> tiled f p (vs ++ ws) (c ++ d).
Proof.
  induction vs as [|v vs IH]; intros p c ws d H1 H2; inversion H1; subst.
  - cbn [app]. unfold zlen in H2. cbn in H2. now rewrite Z.add_0_r in H2.
  - cbn [app]. rewrite <- app_assoc. econstructor; eauto. apply IH; [assumption|]. rewrite zlen_app in H2. now rewrite Z.add_assoc in H2.
Qed.
Lemma tiled_find f vs : forall p c x, tiled f p vs c -> (p <= x < p + zlen c)%Z -> find (vol_has x) vs <> None.
Proof.
  induction vs as [|v vs IH]; intros p c x H Hx; inversion H; subst.
  - change (zlen []) with 0%Z in Hx. lia.
  - cbn [find]. destruct (vol_has x v) eqn:E; [discriminate|]. rewrite zlen_app in Hx. apply (IH (w_start v + zlen d)%Z c0); [assumption|].
    unfold vol_has in E. lia.
Qed.
Lemma tiled_In f vs : forall p c v, tiled f p vs c -> In v vs -> exists pre d post D,
  c = pre ++ d ++ post /\ w_start v = (p + zlen pre)%Z /\ w_end v = (w_start v + zlen d - 1)%Z /\
  fs_get f (w_path v) = Some D /\ sub (w_off v) (lenN d) D = d.
Proof.
  induction vs as [|w vs IH]; intros p c v H Hv; [destruct Hv|]. inversion H; subst. destruct Hv as [<-|Hv].
  - exists [], d, c0, D. cbn [app]. change (zlen []) with 0%Z. repeat split; try assumption; lia.
  - match goal with X : tiled _ _ vs _ |- _ => destruct (IH _ _ _ X Hv) as (pre & d' & post & D' & -> & A & B & C & E) end. exists (d ++ pre), d', post, D'.
    rewrite <- app_assoc, zlen_app. repeat split; try assumption. lia.
Qed.

Definition rem (pos : Z) (vs : list vol) : nat := length (filter (fun v => (pos <=? w_end v)%Z) vs).
Lemma filter_le {A} (p q : A -> bool) l : (forall x, p x = true -> q x = true) -> (length (filter p l) <= length (filter q l))%nat.
Proof.
  intros H. induction l as [|x l IH]; [cbn; lia|]. cbn [filter]. specialize (H x). destruct (p x), (q x); cbn [length]; lia.
Qed.
Lemma filter_lt {A} (p q : A -> bool) l x : (forall x, p x = true -> q x = true) -> In x l -> p x = false -> q x = true ->
  (length (filter p l) < length (filter q l))%nat.
Proof.
  intros H. induction l as [|y l IH]; intros Hi P Q; [destruct Hi|]. cbn [filter]. destruct Hi as [->|Hi].
  - rewrite P, Q. cbn [length]. pose proof (filter_le p q l H). lia.
  - specialize (IH Hi P Q). specialize (H y). destruct (p y), (q y); cbn [length]; lia.
Qed.

Definition sized (v : vol) (d : bytes) : Prop := w_end v = (w_start v + zlen d - 1)%Z.

Section Reading.
Variable f : fs.
Variable c : bytes.
(** what holds between operations *)
Definition placed (t : stream) : Prop :=
  match t_cur t with
  | Some v => In v (t_vols t) /\ (vol_has (t_pos t) v = true \/ (c = [] /\ t_pos t = 0%Z))
  | None => (zlen c <= t_pos t)%Z
  end.
Definition inv (t : stream) : Prop :=
  tiled f 0 (t_vols t) c /\ t_len t = zlen c /\ (0 <= t_pos t)%Z /\ placed t.

Definition dest (t : stream) (off : Z) (origin : N) : Z :=
  if origin =? 0 then off else if origin =? 1 then (t_pos t + off)%Z else if origin =? 2 then (t_len t + off)%Z else 0%Z.
Lemma seek_ok t off origin : inv t -> (0 <= dest t off origin)%Z -> exists t', seek t off origin = Ok (t', dest t off origin) /\ inv t' /\
  t_vols t' = t_vols t /\ t_pos t' = dest t off origin /\ (forall v, t_cur t' = Some v -> vol_has (t_pos t') v = true).
Proof.
  intros (T & L & P & C) Hd. unfold seek. fold (dest t off origin). set (x := dest t off origin) in *.
  replace (x <? 0)%Z with false by lia. eexists. split; [reflexivity|]. unfold inv, placed. cbn [t_vols t_pos t_len t_cur].
  set (stay := match t_cur t with Some v => vol_has x v | None => false end).
  assert (G : forall v, (if stay then t_cur t else find (vol_has x) (t_vols t)) = Some v -> In v (t_vols t) /\ vol_has x v = true).
  { intros v. destruct stay eqn:S.
    - intros E. unfold stay in S. rewrite E in S. unfold placed in C. rewrite E in C. tauto.
    - intros E. now apply find_some in E. }
  split; [|split; [reflexivity|split; [reflexivity|intros v Hv; now apply G]]]. split; [exact T|]. split; [exact L|]. split; [exact Hd|].
  destruct (if stay then _ else _) as [v|] eqn:E.
  - destruct (G v eq_refl) as [A B]. split; [exact A|now left].
  - destruct stay eqn:S; [unfold stay in S; rewrite E in S; discriminate|].
    destruct (Z.le_gt_cases (zlen c) x) as [|Hlt]; [assumption|]. exfalso. apply (tiled_find f (t_vols t) 0 c x T); [lia|exact E].
Qed.
Lemma seek_bad t off origin : (dest t off origin < 0)%Z -> seek t off origin = Err IndexError.
Proof. intros H. unfold seek. fold (dest t off origin). replace (_ <? _)%Z with true by lia. reflexivity. Qed.

(** data at [pos] in the current volume *)
Lemma cur_data t v n : inv t -> In v (t_vols t) -> vol_has (t_pos t) v = true -> (0 <= n <= w_end v - t_pos t + 1)%Z ->
  exists D, fs_get f (w_path v) = Some D /\
    sub (Z.to_N (Z.of_N (w_off v) + (t_pos t - w_start v))) (Z.to_N n) D = sub (Z.to_N (t_pos t)) (Z.to_N n) c /\
    (t_pos t + n <= zlen c)%Z.
Proof.
  intros (T & L & P & C) Hv Hh Hn. destruct (tiled_In _ _ _ _ _ T Hv) as (pre & d & post & D & -> & A & B & E & G).
  exists D. split; [exact E|]. unfold vol_has in Hh. set (x := t_pos t) in *. rewrite !zlen_app. pose proof (zlen_nonneg post). split; [|lia].
  unfold zlen in *. set (k := Z.to_N (x - w_start v)).
  replace (Z.to_N (Z.of_N (w_off v) + (x - w_start v))) with (k + w_off v) by lia.
  replace (Z.to_N x) with (k + lenN pre) by lia. unfold sub in *.
  rewrite <- !dropN_dropN. rewrite dropN_app_exact by reflexivity.
  set (E1 := dropN (w_off v) D) in *. assert (Hk : k + Z.to_N n <= lenN d) by lia.
  rewrite <- G. rewrite <- (takeN_dropN (lenN d) E1) at 1. rewrite G.
  transitivity (takeN (Z.to_N n) (dropN k d)).
  - rewrite dropN_app. rewrite takeN_app_le by (rewrite lenN_dropN; lia). reflexivity.
  - rewrite dropN_app. rewrite takeN_app_le by (rewrite lenN_dropN; lia). reflexivity.
Qed.

Definition wanted (pos size : Z) (ss : bool) : bytes :=
  if ss then sub (Z.to_N pos) (Z.to_N size) c else dropN (Z.to_N pos) c.
Lemma read_loop_ok fuel : forall t size ss buf v, inv t -> t_cur t = Some v -> vol_has (t_pos t) v = true ->
  (rem (t_pos t) (t_vols t) < fuel)%nat -> (ss = true -> (0 <= size)%Z) ->
  exists t', read_from fuel f t size ss buf = Ok (t', buf ++ wanted (t_pos t) size ss) /\ inv t' /\
    t_vols t' = t_vols t /\ t_pos t' = (t_pos t + zlen (wanted (t_pos t) size ss))%Z.
Proof.
  induction fuel as [|fuel IH]; intros t size ss buf v I Hc Hh Hf Hs; [lia|].
  assert (Hv : In v (t_vols t)) by (destruct I as (_ & _ & _ & C); unfold placed in C; rewrite Hc in C; tauto).
  assert (Hx : (0 <= t_pos t)%Z) by apply I. assert (Hl : t_len t = zlen c) by apply I.
  set (x := t_pos t) in *. set (m := (w_end v - x + 1)%Z). assert (Hm : (0 < m)%Z) by (unfold vol_has in Hh; lia).
  set (n := if ss then Z.min size m else m). assert (Hn : (0 <= n <= m)%Z) by (unfold n; destruct ss; [specialize (Hs eq_refl)|]; lia).
  destruct (cur_data t v n I Hv Hh) as (D & HD & Hsub & Hend); [unfold m in Hn; fold x; lia|]. fold x in Hsub, Hend.
  destruct (seek_ok t n 1 I) as (t1 & Hseek & I1 & Hv1 & Hp1 & Hc1).
  { unfold dest. cbn [N.eqb Pos.eqb]. fold x. lia. }
  assert (Ed : dest t n 1 = (x + n)%Z) by reflexivity. rewrite Ed in *.
  cbn [read_from]. rewrite Hc, HD. fold x. fold m. fold n. rewrite Hsub, Hseek. cbn [bind fst].
  assert (Hlen : lenN (sub (Z.to_N x) (Z.to_N n) c) = Z.to_N n).
  { rewrite lenN_sub. unfold zlen in Hend. lia. }
  destruct ((n <=? 0)%Z || ((if ss then (size - n)%Z else size) <=? 0)%Z && ss || (t_len t1 <=? t_pos t1)%Z) eqn:Stop.
  - exists t1. destruct I1 as (T1 & L1 & P1 & C1). rewrite L1, Hp1 in Stop.
    assert (W : wanted x size ss = sub (Z.to_N x) (Z.to_N n) c).
    { unfold wanted. destruct ss.
      - specialize (Hs eq_refl). destruct (Z.le_gt_cases size m) as [Hle|Hgt].
        + replace n with size by (unfold n; lia). reflexivity.
        + assert (n = m) by (unfold n; lia). assert (Hxx : (zlen c <= x + n)%Z) by lia.
          unfold sub. rewrite !takeN_all; [reflexivity| |]; rewrite lenN_dropN; unfold zlen in *; lia.
      - assert (n = m) by reflexivity. assert (Hxx : (zlen c <= x + n)%Z) by lia. unfold sub. rewrite takeN_all; [reflexivity|]. rewrite lenN_dropN. unfold zlen in *. lia. }
    rewrite W. split; [reflexivity|]. split; [repeat split; try assumption; try lia|]. split; [exact Hv1|]. rewrite Hp1. unfold zlen. rewrite Hlen. lia.
  - assert (Hnm : n = m).
    { unfold n in *. destruct ss; [|reflexivity]. destruct (Z.le_gt_cases size m); [|lia]. rewrite Z.min_l in Stop by lia. lia. }
    assert (Hlt : (x + n < zlen c)%Z) by (destruct I1 as (T1 & L1 & P1 & C1); rewrite L1, Hp1 in Stop; lia).
    destruct (t_cur t1) as [v1|] eqn:Ec1.
    2:{ destruct I1 as (_ & _ & _ & C1). unfold placed in C1. rewrite Ec1 in C1. rewrite Hp1 in C1. lia. }
    assert (Hs' : ss = true -> (0 <= (if ss then size - n else size))%Z).
    { intros ->. specialize (Hs eq_refl). unfold n. lia. }
    assert (Hr : (rem (t_pos t1) (t_vols t1) < fuel)%nat).
    { rewrite Hv1, Hp1. unfold rem in *. assert (X : (length (filter (fun v => (x + n <=? w_end v)%Z) (t_vols t)) < length (filter (fun v => (x <=? w_end v)%Z) (t_vols t)))%nat).
      { apply (filter_lt _ _ _ v); [intros w Hw; lia|exact Hv|unfold m in Hnm; lia|unfold m in Hm; lia]. }
      lia. }
    destruct (IH t1 (if ss then (size - n)%Z else size) ss (buf ++ sub (Z.to_N x) (Z.to_N n) c) v1 I1 Ec1 (Hc1 _ eq_refl) Hr Hs') as (t2 & E2 & I2 & V2 & P2).
    exists t2. rewrite E2, Hp1.
    assert (W : sub (Z.to_N x) (Z.to_N n) c ++ wanted (x + n) (if ss then (size - n)%Z else size) ss = wanted x size ss).
    { unfold wanted, sub. replace (Z.to_N (x + n)) with (Z.to_N n + Z.to_N x) by lia. rewrite <- dropN_dropN. set (r := dropN (Z.to_N x) c).
      destruct ss; [|apply takeN_dropN]. replace (Z.to_N size) with (Z.to_N n + Z.to_N (size - n)) by (specialize (Hs eq_refl); unfold n; lia). symmetry. apply takeN_add. }
    split; [f_equal; f_equal; rewrite <- app_assoc; f_equal; exact W|]. split; [exact I2|]. split; [congruence|]. rewrite P2, Hp1, <- W, zlen_app. unfold zlen at 2. rewrite Hlen. lia.
Qed.

Lemma read_ok t size : inv t -> exists t', read f t size = Ok (t', wanted (t_pos t) size (0 <=? size)%Z) /\ inv t' /\
  t_vols t' = t_vols t /\ t_pos t' = (t_pos t + zlen (wanted (t_pos t) size (0 <=? size)%Z))%Z.
Proof.
  intros I. unfold read. destruct (t_cur t) as [v|] eqn:Ec.
  - assert (P : placed t) by apply I. unfold placed in P. rewrite Ec in P. destruct P as [Hv [Hh|[E0 P0]]].
    + apply (read_loop_ok _ t size (0 <=? size)%Z [] v I Ec Hh); [|lia]. unfold rem. pose proof (filter_le (fun v => (t_pos t <=? w_end v)%Z) (fun _ => true) (t_vols t) (fun _ _ => eq_refl)) as Hle.
      assert (Ft : forall l : list vol, filter (fun _ => true) l = l) by (induction l; cbn; congruence). rewrite Ft in Hle. lia.
    + (* an empty file: the first part has no bytes *)
      assert (W : forall ss, wanted (t_pos t) size ss = []).
      { intros ss. unfold wanted, sub. rewrite E0. destruct ss; reflexivity. }
      rewrite W. destruct (tiled_In _ _ _ _ _ (proj1 I) Hv) as (pre & d & post & D & Ecc & A & B & E & G).
      assert (Hd : d = [] /\ pre = []) by (rewrite E0 in Ecc; symmetry in Ecc; apply app_eq_nil in Ecc as [X Y]; apply app_eq_nil in Y as [Y _]; auto).
      destruct Hd as [-> ->]. change (zlen []) with 0%Z in *. cbn [read_from]. rewrite Ec, E, P0.
      replace (w_end v - 0 + 1)%Z with 0%Z by lia.
      destruct (seek_ok t 0 1 I) as (t1 & Hseek & I1 & Hv1 & Hp1 & Hc1); [unfold dest; cbn [N.eqb Pos.eqb]; lia|].
      assert (Hmin : (if (0 <=? size)%Z then Z.min size 0 else 0%Z) = 0%Z) by (destruct (0 <=? size)%Z eqn:Es; lia). rewrite Hmin, Hseek. cbn [bind fst Z.leb Z.compare orb].
      exists t1. split; [f_equal; f_equal; unfold sub; change (Z.to_N 0) with 0; now rewrite takeN_0|].
      split; [exact I1|]. split; [exact Hv1|]. rewrite Hp1. unfold dest. cbn [N.eqb Pos.eqb]. lia.
  - exists t. assert (P : placed t) by apply I. unfold placed in P. rewrite Ec in P. assert (W : forall ss, wanted (t_pos t) size ss = []).
    { intros ss. unfold wanted, sub, zlen in *. rewrite dropN_all by lia. now destruct ss. }
    rewrite W. split; [reflexivity|]. split; [exact I|]. split; [reflexivity|]. change (zlen []) with 0%Z. lia.
Qed.
End Reading.

Lemma op_ok f c t o : inv f c t -> exists t', stream_op f t o = (t', snd (flat_op c (Z.to_N (t_pos t)) o)) /\ inv f c t' /\
  Z.to_N (t_pos t') = fst (flat_op c (Z.to_N (t_pos t)) o).
Proof.
  intros I. assert (Hx : (0 <= t_pos t)%Z) by apply I. assert (Hl : t_len t = zlen c) by apply I. destruct o as [off w| |size]; cbn [stream_op flat_op].
  - set (d := (match w with FromStart => 0 | FromHere => Z.of_N (Z.to_N (t_pos t)) | FromEnd => Z.of_N (lenN c) end + off)%Z).
    assert (E : dest t off (origin_of w) = d) by (unfold dest, d, zlen in *; destruct w; cbn [origin_of N.eqb Pos.eqb]; lia).
    destruct (Z.ltb_spec d 0) as [Hd|Hd].
    + rewrite seek_bad by lia. exists t. cbn [fst snd]. auto.
    + destruct (seek_ok f c t off (origin_of w) I) as (t' & Es & I' & _ & Hp & _); [lia|]. rewrite Es, E. exists t'. cbn [fst snd]. rewrite Hp, E. auto.
  - exists t. cbn [fst snd]. unfold tell. rewrite Z2N.id by exact Hx. auto.
  - destruct (read_ok f c t size I) as (t' & Er & I' & _ & Hp). rewrite Er. exists t'. 
    assert (W : wanted c (t_pos t) size (0 <=? size)%Z = if (size <? 0)%Z then dropN (Z.to_N (t_pos t)) c else takeN (Z.to_N size) (dropN (Z.to_N (t_pos t)) c)).
    { unfold wanted, sub. destruct (Z.leb_spec 0 size), (Z.ltb_spec size 0); try lia; reflexivity. }
    cbv zeta. cbn [fst snd]. match goal with |- context[if (size <? 0)%Z then ?a else ?b] => replace (if (size <? 0)%Z then a else b) with (wanted c (t_pos t) size (0 <=? size)%Z) by exact W end.
    split; [reflexivity|]. split; [exact I'|]. rewrite Hp. unfold zlen. lia.
Qed.
Lemma run_ok f c l : forall t, inv f c t -> stream_run f t l = flat_run c (Z.to_N (t_pos t)) l.
Proof.
  induction l as [|o l IH]; intros t I; [reflexivity|]. cbn [stream_run flat_run]. destruct (op_ok f c t o I) as (t' & E & I' & P).
  rewrite E. destruct (flat_op c (Z.to_N (t_pos t)) o) as [p a]. cbn [fst snd] in *. rewrite IH by exact I'. now rewrite P.
Qed.

(** ** Opening *)
Definition named (name : text) (ps : list (fhead * bytes)) : list bytes :=
  map snd (filter (fun p => if list_eq_dec N.eq_dec (h_text (fst p)) name then true else false) ps).
Lemma named_app n a b : named n (a ++ b) = named n a ++ named n b.
Proof. unfold named. now rewrite filter_app, map_app. Qed.
Definition item_pieces (l : list item) : list (fhead * bytes) := concat (map piece_of l).
Definition old_items (l : list item) : bool := existsb (fun i => (head_ty (fst i) =? 0x73) && negb (has (head_flags (fst i)) 0x10)) l.

(** the name looked for: known, or that of the first part to come *)
Definition looking (nm : option text) (n : text) (ps : list (fhead * bytes)) : Prop :=
  nm = Some n \/ (nm = None /\ match ps with [] => True | (h, _) :: _ => h_text h = n end).

Lemma process_items f path any n D tail rest : fs_get f path = Some D -> n <> [] ->
  forall l pre nm vols len old, D = pre ++ ser_items l ++ tail -> Forall item_ok l -> Forall (readable any) l -> looking nm n (item_pieces l) ->
  exists nm' ws, looking nm' n [] /\ tiled f len ws (concat (named n (item_pieces l))) /\ Forall2 sized ws (named n (item_pieces l)) /\
    process_blocks path any (vblks (lenN pre) l ++ rest) nm vols len old =
    process_blocks path any rest nm' (vols ++ ws) (len + zlen (concat (named n (item_pieces l))))%Z (old || old_items l).
Proof.
  intros HD Hn. induction l as [|i l IH]; intros pre nm vols len old ED Hok Hrd Hlook.
  - exists nm, []. cbn [item_pieces map concat named filter vblks app old_items existsb]. change (zlen []) with 0%Z.
    rewrite app_nil_r, Z.add_0_r, orb_false_r. split; [destruct Hlook as [->|[-> _]]; [now left|right; auto]|]. split; [constructor|]. split; [constructor|reflexivity].
  - apply Forall_cons_iff in Hok as [Hi Hok]. apply Forall_cons_iff in Hrd as [Ri Hrd].
    cbn [vblks app process_blocks]. rewrite ser_items_cons, <- app_assoc in ED.
    assert (ED2 : D = (pre ++ ser_item i) ++ ser_items l ++ tail) by now rewrite <- app_assoc.
    unfold item_pieces in *. cbn [map concat]. cbn [map concat] in Hlook.
    assert (Old : old_items (i :: l) = ((head_ty (fst i) =? 0x73) && negb (has (head_flags (fst i)) 0x10)) || old_items l) by reflexivity. rewrite Old.
    replace (lenN pre + lenN (ser_item i)) with (lenN (pre ++ ser_item i)) by apply lenN_app.
    destruct i as [hd dat]. cbn [fst snd] in *. cbn [hblk sblk b_type b_kind b_flags b_pos b_hsize s_ty s_kind s_flags s_body].
    assert (Hstep : forall h p, hd = HFile h p -> b_type (hblk (lenN pre) hd) = 0x74) by (intros h p ->; reflexivity).
    destruct hd as [h p|h mark rs ds p|crc fl ver rs ds p ex|h sd|crc ty fl body sd].
    + (* a file *)
      cbn [head_ty head_kind piece_of fst snd head_flags]. change (0x74 =? T_RarVolume) with false. change (0x74 =? T_RarFile) with true. change (0x74 =? 0x73) with false.
      cbn [bind andb orb]. cbn [file_info_of f_method f_name f_packed].
      assert (Hm : negb (h_method h =? COMPR_STORING) && negb any = false).
      { unfold readable in Ri. cbn [fst] in Ri. destruct Ri as [->| ->]; [apply andb_false_r|reflexivity]. }
      rewrite Hm. unfold piece_of in *. cbn [fst snd app] in *.
      set (nn := match nm with Some n0 => n0 | None => h_text h end).
      assert (En : nn = n) by (unfold nn; destruct Hlook as [->|[-> E]]; [reflexivity|exact E]). rewrite En.
      replace (lenN n =? 0) with false by (destruct n; [congruence|rewrite lenN_cons; lia]).
      assert (Hlen : lenN dat = p) by (destruct Hi as [_ X]; exact X).
      assert (Nm : named n ((h, dat) :: concat (map piece_of l)) = (if list_eq_dec N.eq_dec (h_text h) n then [dat] else []) ++ named n (concat (map piece_of l))).
      { unfold named. cbn [filter fst]. destruct (list_eq_dec _ _ _); reflexivity. }
      unfold piece_of in Nm. rewrite Nm.
      destruct (list_eq_dec N.eq_dec (h_text h) n) as [Eh|Eh].
      * replace (teqb n (h_text h)) with true by (symmetry; apply teqb_eq; congruence).
        set (v := mkVol _ _ _ _).
        destruct (IH (pre ++ ser_item (HFile h p, dat)) (Some n) (vols ++ [v]) (len + Z.of_N p)%Z old ED2 Hok Hrd (or_introl eq_refl)) as (nm' & ws & A & B & B2 & C).
        exists nm', (v :: ws). split; [exact A|]. unfold piece_of in *. cbn [app concat length].
        assert (Zd : zlen dat = Z.of_N p) by (unfold zlen; now rewrite Hlen). split; [|split; [constructor; [unfold sized; cbn [w_end w_start v]; rewrite Zd; reflexivity|exact B2]|]].
        -- econstructor; [reflexivity|cbn [w_end v]; rewrite Zd; reflexivity|exact HD| |rewrite Zd; exact B].
           cbn [w_off v]. rewrite ED. unfold ser_item. cbn [fst snd]. unfold ser_head. cbn [head_data]. rewrite app_nil_r.
           rewrite <- app_assoc. rewrite !app_assoc. rewrite <- (app_assoc _ (ser_items l)). rewrite <- (app_assoc _ dat). apply sub_app_exact; [|reflexivity].
           rewrite lenN_app. f_equal. unfold hdr. rewrite !lenN_app, !lenN_le. lia.
        -- etransitivity; [exact C|]. rewrite zlen_app, Zd. rewrite <- app_assoc. cbn [app]. f_equal. lia.
      * replace (teqb n (h_text h)) with false by (symmetry; apply teqb_neq; congruence).
        destruct (IH (pre ++ ser_item (HFile h p, dat)) (Some n) vols len old ED2 Hok Hrd (or_introl eq_refl)) as (nm' & ws & A & B & B2 & C).
        exists nm', ws. split; [exact A|]. cbn [app]. split; [exact B|]. split; [exact B2|exact C].
    + cbn [head_ty head_flags]. change (0x7A =? T_RarVolume) with false. change (0x7A =? T_RarFile) with false. cbn [bind]. change (0x7A =? 0x73) with false. cbn [andb orb].
      apply (IH _ nm vols len old ED2 Hok Hrd Hlook).
    + cbn [head_ty head_flags]. change (0x78 =? T_RarVolume) with false. change (0x78 =? T_RarFile) with false. cbn [bind]. change (0x78 =? 0x73) with false. cbn [andb orb].
      apply (IH _ nm vols len old ED2 Hok Hrd Hlook).
    + cbn [head_ty head_flags]. change (0x7A =? T_RarVolume) with false. change (0x7A =? T_RarFile) with false. cbn [bind]. change (0x7A =? 0x73) with false. cbn [andb orb].
      apply (IH _ nm vols len old ED2 Hok Hrd Hlook).
    + cbn [head_ty head_flags]. destruct Hi as [[_ (Hty & _)] _].
      assert (E74 : (ty =? T_RarFile) = false).
      { apply N.eqb_neq. intros ->. apply Hty. cbn [In]. unfold T_RarFile. auto 10. }
      rewrite E74. change T_RarVolume with 0x73. destruct (N.eqb_spec ty 0x73) as [->|E73].
      * unfold readable in Ri. cbn [fst] in Ri. specialize (Ri eq_refl).
        destruct body as [|b0 body]; [congruence|]. cbn [head_kind]. change (115 =? 115) with true. cbv iota. cbn [bind andb].
        destruct (IH _ nm vols len (if has fl F_NEW_NUMBERING then old else true) ED2 Hok Hrd Hlook) as (nm' & ws & A & B & B2 & C).
        exists nm', ws. split; [exact A|]. split; [exact B|]. split; [exact B2|]. etransitivity; [exact C|]. f_equal. change F_NEW_NUMBERING with 0x10. destruct (has fl 0x10); cbn [negb orb]; [reflexivity|]. now rewrite orb_true_r.
      * cbn [bind andb orb]. apply (IH _ nm vols len old ED2 Hok Hrd Hlook).
Qed.

Lemma process_volume f path any n v nm vols len : fs_get f path = Some (ser_volume v) -> n <> [] -> volume_ok v -> Forall (readable any) (v_items v) ->
  looking nm n (pieces v) ->
  exists ws, tiled f len ws (concat (named n (pieces v))) /\ Forall2 sized ws (named n (pieces v)) /\
    process_blocks path any (volume_blocks v) nm vols len false =
    Ok (vols ++ ws, (len + zlen (concat (named n (pieces v))))%Z, old_numbering v).
Proof.
  intros HD Hn Hv Hr Hl. unfold volume_blocks. cbn [vblks app process_blocks]. change (b_type (hblk 0 (fst (MARKER, [])))) with 0x72.
  change (0x72 =? T_RarVolume) with false. change (0x72 =? T_RarFile) with false. cbn [bind].
  change (0 + lenN (ser_item (MARKER, []))) with (lenN (ser_head MARKER)).
  assert (Hi : Forall item_ok (v_items v)) by apply Hv.
  destruct (process_items f path any n (ser_volume v) (v_pad v) (padblks (7 + lenN (ser_items (v_items v))) (v_pad v)) HD Hn (v_items v) (ser_head MARKER) nm vols len false eq_refl Hi Hr Hl) as (nm' & ws & _ & B & B2 & C).
  exists ws. split; [exact B|]. split; [exact B2|]. etransitivity; [exact C|]. unfold padblks. destruct (v_pad v) as [|x r]; cbn [process_blocks]; [reflexivity|].
  cbn [b_type]. change (0x6C =? T_RarVolume) with false. change (0x6C =? T_RarFile) with false. reflexivity.
Qed.
Lemma isfile_get f p d : fs_get f p = Some d -> isfile f p = true.
Proof. unfold isfile. now intros ->. Qed.
Lemma isfile_none f p : fs_get f p = None -> isfile f p = false.
Proof. unfold isfile. now intros ->. Qed.
Definition norm_name (name : option text) : option text :=
  match name with Some n => if lenN n =? 0 then None else Some (replace1 SLASH BACKSLASH n) | None => None end.
Lemma open_ok f s any name n : style_ok s -> n <> [] -> forall rest i fuel vols len,
  i + N.of_nat (length rest) < vol_limit s -> (length rest <= fuel)%nat ->
  Forall (fun v => volume_ok v /\ Forall (readable any) (v_items v) /\ told s (old_numbering v)) rest ->
  Forall (fun v => looking (norm_name name) n (pieces v)) rest ->
  (forall j v, nth_error rest j = Some v -> fs_get f (vol_name s (i + N.of_nat j)) = Some (ser_volume v)) ->
  fs_get f (vol_name s (i + N.of_nat (length rest))) = None ->
  exists ws, tiled f len ws (concat (parts_of n rest)) /\ Forall2 sized ws (parts_of n rest) /\
    open_loop fuel f (vol_name s i) name any vols len = Ok (vols ++ ws, (len + zlen (concat (parts_of n rest)))%Z).
Proof.
  intros Hs Hn. induction rest as [|v rest IH]; intros i fuel vols len Hlim Hf Hok Hlook Hd He.
  - exists []. cbn [length] in He. rewrite N.add_0_r in He. split; [constructor|]. split; [constructor|].
    change (zlen (concat (parts_of n []))) with 0%Z. rewrite app_nil_r, Z.add_0_r. destruct fuel; cbn [open_loop]; rewrite (isfile_none _ _ He); reflexivity.
  - cbn [length] in *. destruct fuel as [|fuel]; [lia|]. apply Forall_cons_iff in Hok as [(V1 & V2 & V3) Hok]. apply Forall_cons_iff in Hlook as [Lk Hlook].
    pose proof (Hd 0%nat v eq_refl) as H0. cbn [N.of_nat] in H0. rewrite N.add_0_r in H0.
    destruct (process_volume f (vol_name s i) any n v (norm_name name) vols len H0 Hn V1 V2 Lk) as (ws & A & A2 & B).
    destruct (IH (i + 1) fuel (vols ++ ws) (len + zlen (concat (named n (pieces v))))%Z) as (ws' & A' & A2' & B'); try assumption; try lia.
    { intros j w Hj. replace (i + 1 + N.of_nat j) with (i + N.of_nat (S j)) by lia. now apply Hd. }
    { replace (i + 1 + N.of_nat (length rest)) with (i + N.of_nat (S (length rest))) by lia. exact He. }
    assert (P : parts_of n (v :: rest) = named n (pieces v) ++ parts_of n rest).
    { unfold parts_of. cbn [map concat]. apply named_app. }
    rewrite P, concat_app, zlen_app. exists (ws ++ ws'). split; [now apply tiled_app|]. split; [now apply Forall2_app|].
    cbn [open_loop]. rewrite (isfile_get _ _ _ H0). unfold process. fold (norm_name name). unfold read_archive. rewrite H0, read_all_volume by exact V1. cbn [bind]. rewrite B. cbn [bind].
    rewrite (next_name s (old_numbering v) i Hs V3) by lia. cbn [bind]. rewrite B', app_assoc. do 2 f_equal. lia.
Qed.

Lemma fs_get_In f p d : fs_get f p = Some d -> In p (map (@fst text bytes) f).
Proof.
  induction f as [|[q e] f IH]; [discriminate|]. cbn [fs_get map fst]. destruct (teqb q p) eqn:E; [apply teqb_eq in E; now left|]. right. auto.
Qed.
Lemma fuel_ok f s i m : style_ok s -> i + N.of_nat m < vol_limit s -> (forall j, (j < m)%nat -> In (vol_name s (i + N.of_nat j)) (map (@fst text bytes) f)) -> (m <= length f)%nat.
Proof.
  intros Hs Hlim H. rewrite <- (map_length (@fst text bytes) f). set (l := map (fun j => vol_name s (i + N.of_nat j)) (seq 0 m)).
  replace m with (length l) by (unfold l; now rewrite map_length, seq_length). apply NoDup_incl_length.
  - unfold l. assert (G : forall m a, i + N.of_nat (a + m) < vol_limit s -> NoDup (map (fun j => vol_name s (i + N.of_nat j)) (seq a m))).
    { clear m l Hlim H. induction m as [|m IH]; intros a H; [constructor|]. cbn [seq map]. constructor; [|apply IH; lia].
      rewrite in_map_iff. intros (j & E & Hj). apply in_seq in Hj. apply vol_name_inj in E; [lia|exact Hs|lia|lia]. }
    apply G. exact Hlim.
  - intros x Hx. unfold l in Hx. apply in_map_iff in Hx as (j & <- & Hj). apply in_seq in Hj. apply H. lia.
Qed.

Lemma check_vblks l : forall pos rest, Forall item_ok l -> check_blocks (vblks pos l ++ rest) =
  match item_pieces l with (h, _) :: _ => if has (h_flags h) F_SPLIT_BEFORE then Err AttributeError else Ok true | [] => check_blocks rest end.
Proof.
  induction l as [|i l IH]; intros pos rest Hok; [reflexivity|]. apply Forall_cons_iff in Hok as [Hi Hok]. cbn [vblks app check_blocks].
  unfold item_pieces. cbn [map concat]. destruct i as [hd dat]. cbn [fst]. destruct hd as [h p|h mark rs ds p|crc fl ver rs ds p ex|h sd|crc ty fl body sd]; cbn [hblk sblk b_type s_ty head_ty piece_of fst snd app];
    try (change (0x7A =? T_RarFile) with false; cbv iota; now apply IH).
  - reflexivity.
  - destruct Hi as [[_ (Hty & _)] _]. replace (ty =? T_RarFile) with false; [now apply IH|]. symmetry. apply N.eqb_neq. intros ->. apply Hty. cbn [In]. unfold T_RarFile. auto 10.
Qed.
Lemma check_ok f p v r : fs_get f p = Some (ser_volume v) -> volume_ok v -> starts_file (v :: r) -> check f p = Ok true.
Proof.
  intros H Hv Hs. unfold check, read_archive. rewrite H, read_all_volume by exact Hv. cbn [bind]. unfold volume_blocks.
  rewrite check_vblks by (constructor; [exact marker_ok|apply Hv]). unfold item_pieces. cbn [map concat]. change (piece_of (MARKER, [])) with (@nil (fhead * bytes)). cbn [app].
  unfold starts_file, pieces in Hs. destruct (concat (map piece_of (v_items v))) as [|[h d] ps]; [destruct Hs|]. change F_SPLIT_BEFORE with 1. now rewrite Hs.
Qed.

Lemma asks_looking name n vols : asks name n vols -> n <> [] /\ Forall (fun v => looking (norm_name name) n (pieces v)) vols.
Proof.
  unfold asks, norm_name. destruct name as [m|].
  - intros [Hm ->]. split; [now destruct m|]. apply Forall_forall. intros v _. left. destruct m; [congruence|]. rewrite lenN_cons. replace (1 + lenN m =? 0) with false by lia. reflexivity.
  - intros [Hn Ho]. split; [exact Hn|]. eapply Forall_impl; [|exact Ho]. intros v Hv. cbv beta in Hv. right. split; [reflexivity|]. destruct (pieces v) as [|[h d] r]; auto.
Qed.

Lemma stream_inv f s first name n middle any vols : on_disk f s first any vols -> asks name n vols -> (middle = true \/ starts_file vols) ->
  parts_of n vols <> [] -> exists t, rar_stream f (vol_name s first) name middle any = Ok t /\
    tiled f 0 (t_vols t) (concat (parts_of n vols)) /\ t_len t = zlen (concat (parts_of n vols)) /\ t_pos t = 0%Z /\
    exists v r, t_vols t = v :: r /\ t_cur t = Some v /\ w_start v = 0%Z /\ Forall2 sized (t_vols t) (parts_of n vols).
Proof.
  intros (Hs & Hlim & Hok & Hd & He) Ha Hst Hp. apply asks_looking in Ha as [Hn Hl].
  assert (Hfuel : (length vols <= length f)%nat).
  { apply (fuel_ok f s first); [exact Hs|exact Hlim|]. intros j Hj. destruct (nth_error vols j) as [v|] eqn:E; [|apply nth_error_None in E; lia]. eapply fs_get_In. apply Hd. exact E. }
  destruct (open_ok f s any name n Hs Hn vols first (length f) [] 0%Z Hlim Hfuel Hok Hl Hd He) as (ws & A & A2 & B). cbn [app] in B.
  assert (Hck : (if middle then Ok true else check f (vol_name s first)) = Ok true).
  { destruct middle; [reflexivity|]. destruct Hst as [|Hst]; [discriminate|]. destruct vols as [|v r]; [destruct Hst|].
    apply (check_ok f _ v r); [|apply Forall_inv in Hok; apply Hok|exact Hst]. rewrite <- (Hd 0%nat v eq_refl). f_equal. f_equal. cbn. lia. }
  unfold rar_stream. rewrite Hck. cbn [bind negb]. rewrite B. cbn [bind]. destruct ws as [|v r].
  - inversion A2. congruence.
  - eexists. split; [reflexivity|]. cbn [t_vols t_len t_pos t_cur]. split; [exact A|]. split; [reflexivity|]. split; [reflexivity|]. exists v, r. split; [reflexivity|]. split; [reflexivity|]. split; [now inversion A|exact A2].
Qed.

Theorem stream_thm f s first name n middle any vols : on_disk f s first any vols -> asks name n vols -> (middle = true \/ starts_file vols) ->
  first_full (parts_of n vols) -> exists t, rar_stream f (vol_name s first) name middle any = Ok t /\
    t_len t = Z.of_N (lenN (concat (parts_of n vols))) /\
    forall ops, stream_run f t ops = flat_run (concat (parts_of n vols)) 0 ops.
Proof.
  intros Hd Ha Hm Hf. destruct (stream_inv f s first name n middle any vols Hd Ha Hm) as (t & Ht & T & L & P & v & r & Ev & Ec & S1 & S2).
  { intros E. rewrite E in Hf. exact Hf. }
  exists t. split; [exact Ht|]. split; [exact L|]. intros ops.
  assert (I : inv f (concat (parts_of n vols)) t).
  { split; [exact T|]. split; [exact L|]. split; [lia|]. unfold placed. rewrite Ec, Ev. split; [now left|].
    rewrite Ev in S2. destruct (parts_of n vols) as [|d ps]; [destruct Hf|]. cbn [first_full] in Hf.
    destruct Hf as [Hd0|H0]; [|right; auto]. left. rewrite P. inversion S2 as [|? ? ? ? S3]. unfold sized, zlen in S3. unfold vol_has.
    destruct d; [congruence|]. rewrite lenN_cons in S3. lia. }
  rewrite (run_ok f _ ops t I). now rewrite P.
Qed.

(** ** The hash of a file in a set *)
Lemma hash_ok f c t : tiled f 0 (t_vols t) c -> t_len t = zlen c -> t_pos t = 0%Z -> (match t_cur t with Some v => In v (t_vols t) | None => False end) ->
  stream_hash f t = osorg_hash c.
Proof.
  intros T L P C. unfold stream_hash, osorg_hash, tell. rewrite P.
  (* the first seek gives the invariant, whatever the first part *)
  assert (S1 : exists t1, seek t 0 2 = Ok (t1, zlen c) /\ inv f c t1 /\ t_pos t1 = zlen c).
  { unfold seek. change (2 =? 0) with false. change (2 =? 1) with false. change (2 =? 2) with true. cbv iota. rewrite L, Z.add_0_r. pose proof (zlen_nonneg c).
    replace (zlen c <? 0)%Z with false by lia. eexists. split; [reflexivity|]. split; [|reflexivity]. split; [exact T|]. split; [reflexivity|]. split; [exact H|]. unfold placed. cbn [t_cur t_vols t_pos].
    destruct (t_cur t) as [v|] eqn:Ec; [|destruct C]. destruct (vol_has (zlen c) v) eqn:Hh; [split; [exact C|now left]|].
    destruct (find _ _) as [w|] eqn:Ef; [|lia]. apply find_some in Ef as [? ?]. split; [assumption|now left]. }
  destruct S1 as (t1 & E1 & I1 & P1). rewrite E1. cbn [bind fst]. rewrite P1.
  destruct (seek_ok f c t1 0 0 I1) as (t2 & E2 & I2 & _ & P2 & _); [unfold dest; cbn [N.eqb]; lia|]. rewrite E2. cbn [bind fst].
  replace (zlen c <? 65536)%Z with (lenN c <? 65536) by (unfold zlen; lia). destruct (N.ltb_spec (lenN c) 65536) as [|Hc]; [reflexivity|].
  destruct (read_ok f c t2 65536 I2) as (t3 & E3 & I3 & _ & P3). rewrite E3. cbn [bind fst snd].
  assert (D3 : dest t3 (-65536) 2 = (zlen c - 65536)%Z).
  { unfold dest. change (2 =? 0) with false. change (2 =? 1) with false. change (2 =? 2) with true. cbv iota. destruct I3 as (_ & X & _). lia. }
  destruct (seek_ok f c t3 (-65536) 2 I3) as (t4 & E4 & I4 & _ & P4 & _); [rewrite D3; unfold zlen; lia|]. rewrite E4. cbn [bind fst].
  destruct (read_ok f c t4 65536 I4) as (t5 & E5 & _ & _ & _). rewrite E5. cbn [bind fst snd].
  assert (W1 : wanted c (t_pos t2) 65536 (0 <=? 65536)%Z = takeN 65536 c).
  { rewrite P2. unfold dest, wanted, sub. cbn [N.eqb Z.leb Z.compare]. change (Z.to_N 0) with 0. now rewrite dropN_0. }
  assert (W2 : wanted c (t_pos t4) 65536 (0 <=? 65536)%Z = takeN 65536 (dropN (lenN c - 65536) c)).
  { rewrite P4, D3. unfold wanted, sub. cbn [Z.leb Z.compare]. replace (Z.to_N (zlen c - 65536)) with (lenN c - 65536) by (unfold zlen; lia). reflexivity. }
  rewrite W1, W2. replace (Z.to_N (zlen c)) with (lenN c) by (unfold zlen; lia). reflexivity.
Qed.
Theorem stream_hash_thm f s first name n middle vols : on_disk f s first false vols -> asks name n vols -> (middle = true \/ starts_file vols) ->
  parts_of n vols <> [] -> osohash_from f (vol_name s first) name middle = osorg_hash (concat (parts_of n vols)).
Proof.
  intros Hd Ha Hm Hp. destruct (stream_inv f s first name n middle false vols Hd Ha Hm Hp) as (t & Ht & T & L & P & v & r & Ev & Ec & _).
  unfold osohash_from. rewrite Ht. cbn [bind]. apply hash_ok; try assumption. rewrite Ec, Ev. now left.
Qed.
