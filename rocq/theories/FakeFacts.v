(** FakeFacts: reconstructing volumes when files are missing. *)
From Coq Require Import ZArith.
From Verif Require Import Base BaseFacts Path PathSpec PathFacts Crc Rar RarSpec ReadSpec SrrSpec RecovSpec FsSpec SetSpec Srr
  FsFacts ReadFacts ReadAllFacts SrrFacts EditFacts RebuildFacts CreateFacts Fake FakeSpec FakeSim.

(** ** Volumes with zero bytes *)
Section Blank.
Variable goneb : text -> bool.
Definition zeros (d : bytes) : bytes := repN (lenN d) x00.
Definition blank_data (n : text) (d : bytes) : bytes := if goneb n then zeros d else d.
Definition blank_item (before : bytes) (i : item) : item :=
  (fst i, match fst i with
          | HFile h _ => blank_data (h_text h) (snd i)
          | HRecov _ _ rs ds _ | HOldRecov _ _ _ rs ds _ _ => if rs =? 0 then snd i else rr_data (N.to_nat rs) (N.to_nat ds) before
          | _ => snd i
          end).
Fixpoint blank_items (before : bytes) (l : list item) : list item :=
  match l with
  | [] => []
  | i :: l' => let j := blank_item before i in j :: blank_items (before ++ ser_item j) l'
  end.
Definition blank_volume (v : volume) : volume := mkVolume (blank_items (ser_head MARKER) (v_items v)) (v_pad v).
Lemma lenN_blank n d : lenN (blank_data n d) = lenN d.
Proof. unfold blank_data, zeros. destruct (goneb n); [apply lenN_repN|reflexivity]. Qed.
Lemma sector_count_len a b : lenN a = lenN b -> sector_count a = sector_count b.
Proof. intros H. unfold sector_count. rewrite !lenN_length in H. apply Nat2N.inj in H. now rewrite H. Qed.
Lemma concat_len {A} (f g : A -> bytes) l : (forall x, lenN (f x) = lenN (g x)) -> lenN (concat (map f l)) = lenN (concat (map g l)).
Proof. intros H. induction l as [|x l IH]; [reflexivity|]. cbn [map concat]. rewrite !lenN_app, H, IH. reflexivity. Qed.
Lemma rr_data_len rs ds a b : lenN a = lenN b -> lenN (rr_data rs ds a) = lenN (rr_data rs ds b).
Proof.
  intros H. unfold rr_data. rewrite (sector_count_len a b H), !lenN_app. f_equal; [|f_equal].
  - apply concat_len. intros k. unfold sector_sum. now rewrite !lenN_le.
  - apply concat_len. intros k. unfold parity_sector. now rewrite !lenN_length, !map_length.
Qed.
Lemma blank_item_ok before before' i : lenN before = lenN before' -> recov_right before i ->
  lenN (snd (blank_item before' i)) = lenN (snd i) /\ recov_right before' (blank_item before' i).
Proof.
  intros L R. unfold blank_item, recov_right in *. cbn [fst snd]. destruct (fst i); try (split; [reflexivity|exact I]).
  - split; [apply lenN_blank|exact I].
  - destruct R as [(R1 & R2 & R3)|[-> R3]].
    + destruct (N.eqb_spec rs 0); [lia|]. split; [rewrite R3; apply rr_data_len; now symmetry|]. left. split; [exact R1|]. split; [|reflexivity]. now rewrite <- (sector_count_len _ _ L).
    + cbn [N.eqb]. split; [reflexivity|]. right. now split.
  - destruct R as [(R1 & R2 & R3)|[-> R3]].
    + destruct (N.eqb_spec rs 0); [lia|]. split; [rewrite R3; apply rr_data_len; now symmetry|]. left. split; [exact R1|]. split; [|reflexivity]. now rewrite <- (sector_count_len _ _ L).
    + cbn [N.eqb]. split; [reflexivity|]. right. now split.
Qed.
Lemma blank_items_ok l : forall before before', lenN before = lenN before' -> recovs_right before l ->
  recovs_right before' (blank_items before' l) /\
  Forall2 (fun x y => fst y = fst x /\ lenN (snd y) = lenN (snd x) /\ exists b, y = blank_item b x) l (blank_items before' l).
Proof.
  induction l as [|i l IH]; intros before before' L R; cbn [blank_items recovs_right] in *; [split; [exact I|constructor]|].
  destruct R as [R1 R2]. destruct (blank_item_ok _ _ _ L R1) as [A B].
  destruct (IH (before ++ ser_item i) (before' ++ ser_item (blank_item before' i))) as [C D]; [|exact R2|].
  - rewrite !lenN_app, L. f_equal. unfold ser_item. cbn [blank_item fst snd]. rewrite !lenN_app. f_equal. now symmetry.
  - split; [split; [exact B|exact C]|]. constructor; [|exact D]. split; [reflexivity|]. split; [exact A|]. now exists before'.
Qed.
Lemma blank_heads l l' : Forall2 (fun x y : item => fst y = fst x /\ lenN (snd y) = lenN (snd x) /\ exists b, y = blank_item b x) l l' ->
  map fst l' = map fst l /\ lenN (concat (map ser_item l')) = lenN (concat (map ser_item l)) /\
  concat (map piece_of l') = map (fun hd => (fst hd, blank_data (h_text (fst hd)) (snd hd))) (concat (map piece_of l)).
Proof.
  induction 1 as [|x y l l' (A & B & (b & C)) _ (IH1 & IH2 & IH3)]; [now repeat split|]. cbn [map concat]. rewrite IH1, A, !lenN_app, IH2, IH3. split; [reflexivity|]. split.
  - f_equal. unfold ser_item. rewrite A, !lenN_app, B. reflexivity.
  - rewrite map_app. f_equal. subst y. unfold piece_of, blank_item. cbn [fst snd]. destruct (fst x); reflexivity.
Qed.
Lemma blank_store v : store_volume v -> store_volume (blank_volume v).
Proof.
  intros ((V1 & V2 & V3 & V4) & K & R). destruct (blank_items_ok (v_items v) _ _ eq_refl R) as [R' F]. destruct (blank_heads _ _ F) as (H1 & H2 & _).
  split; [|split; [|exact R']].
  - unfold volume_ok, blank_volume, ser_volume in *. cbn [v_items v_pad]. split; [|split; [|split; [exact V3|]]].
    + revert V1. clear - F. induction F as [|x y l l' (A & B & _) _ IH]; intros V; constructor; inversion V as [|? ? X Y]; subst; [|now apply IH]. destruct X as [X1 X2]. destruct x as [hx dx], y as [hy dy]. cbn [fst snd] in *. subst hy. split; [exact X1|]. cbn [fst snd]. congruence.
    + destruct V2 as (a & z & E & Fa & Z). rewrite E in F. apply Forall2_app_inv_l in F as (a' & z' & Fa' & Fz & E'). inversion Fz as [|? y ? ? (Y1 & _) Fn]; subst. inversion Fn; subst. exists a', y. split; [rewrite E; exact E'|]. split.
      * revert Fa. clear - Fa'. induction Fa' as [|x y l l' (A & _) _ IH]; intros V; constructor; inversion V as [|? ? X Y]; subst; [destruct x as [hx dx], y as [hy dy]; cbn [fst] in *; subst hy; exact X|now apply IH].
      * destruct z as [hz dz], y as [hy dy]. cbn [fst] in *. subst hy. exact Z.
    + rewrite !lenN_app in *. rewrite H2. exact V4.
  - cbn [blank_volume v_items]. revert K. clear - F. induction F as [|x y l l' (A & _) _ IH]; intros V; constructor; inversion V as [|? ? X Y]; subst; [destruct x as [hx dx], y as [hy dy]; cbn [fst] in *; subst hy; exact X|now apply IH].
Qed.
Lemma blank_pieces v : store_volume v -> pieces (blank_volume v) = map (fun hd => (fst hd, blank_data (h_text (fst hd)) (snd hd))) (pieces v).
Proof. intros (_ & _ & R). destruct (blank_items_ok (v_items v) _ _ eq_refl R) as [_ F]. now destruct (blank_heads _ _ F) as (_ & _ & H). Qed.
Lemma blank_vol_items n v : store_volume v -> vol_items n (blank_volume v) = vol_items n v.
Proof.
  intros (_ & _ & R). destruct (blank_items_ok (v_items v) _ _ eq_refl R) as [_ F]. destruct (blank_heads _ _ F) as (H & _). unfold vol_items. cbn [blank_volume v_items v_pad].
  apply (f_equal (map SHead)) in H. rewrite !map_map in H. cbn in H. do 2 f_equal. f_equal. exact H.
Qed.
Lemma blank_blanked (gone : text -> Prop) v : store_volume v -> (forall n, goneb n = true <-> gone n) -> blanked gone v (blank_volume v).
Proof.
  intros (_ & _ & R) G. destruct (blank_items_ok (v_items v) _ _ eq_refl R) as [_ F]. split; [reflexivity|]. cbn [blank_volume v_items]. eapply Forall2_impl; [|exact F].
  intros x y (A & B & (b & C)). split; [exact A|]. split; [exact B|]. subst y. unfold blank_item. destruct (fst x) as [h p| | | |]; cbn [snd]; auto. unfold blank_data. split; intros X.
  - apply G in X. rewrite X. unfold zeros, repN. apply Forall_forall. intros z I. now apply repeat_spec in I.
  - destruct (goneb (h_text h)) eqn:E; [|reflexivity]. exfalso. apply X. now apply G.
Qed.
Definition blank_all (vs : list (text * volume)) : list (text * volume) := map (fun nv => (fst nv, blank_volume (snd nv))) vs.
Lemma blank_holds l vs : holds_volumes l vs -> Forall (fun nv => store_volume (snd nv)) vs -> holds_volumes l (blank_all vs).
Proof.
  induction 1 as [|i l vs N H IH|n v l vs H IH]; intros S; [constructor|constructor; auto|]. inversion S as [|? ? S1 S2]; subst. cbn [blank_all map fst snd] in *. rewrite <- (blank_vol_items n v S1). apply hv_vol. now apply IH.
Qed.
Lemma blank_supplied disk disk' : (forall h c, content_of disk h c -> content_of disk' h (blank_data (h_text h) c)) ->
  forall cur ps, supplied disk cur ps ->
  supplied disk' (match cur with Some (n, r) => Some (n, blank_data n r) | None => None end) (map (fun hd => (fst hd, blank_data (h_text (fst hd)) (snd hd))) ps).
Proof.
  intros H. assert (A : forall n (a b : bytes), blank_data n (a ++ b) = blank_data n a ++ blank_data n b).
  { intros n a b. unfold blank_data, zeros. destruct (goneb n); [|reflexivity]. now rewrite lenN_app, repN_app. }
  induction 1 as [cur|n rest h d ps E S IH|cur h d rest ps N C S IH]; cbn [map fst snd]; [constructor| |].
  - subst n. rewrite A. apply (sup_cont _ (h_text h)); [reflexivity|exact IH].
  - apply (sup_new _ _ _ _ (blank_data (h_text h) rest)); [|rewrite <- A; now apply H|exact IH].
    intros n r X. destruct cur as [[n' r']|]; [|discriminate]. injection X as <- <-. now apply (N n' r').
Qed.
End Blank.

(** ** The theorem *)
Section Fake.
Variables (P : rparams) (f0 f : fs) (l : list sitem) (vs : list (text * volume)) (outs : list text).
Definition gone (n : text) : Prop := exists p, rar_path n p /\ fs_get f (in_folder (p_in P) p) = None.
Definition goneb (n : text) : bool :=
  match rar_os_file_name n with
  | Ok p => match fs_get f (in_folder (p_in P) p) with None => true | Some _ => false end
  | Err _ => false
  end.
Lemma gone_is n : goneb n = true <-> gone n.
Proof.
  unfold goneb, gone. split.
  - destruct (rar_os_file_name n) as [p|] eqn:E; [|discriminate]. destruct (fs_get f _) eqn:G; [discriminate|]. intros _. exists p. split; [now apply rar_os_file_name_spec|exact G].
  - intros (p & R & G). apply rar_os_file_name_spec in R. now rewrite R, G.
Qed.
Definition filled : fs := f ++ map (fun qd => (fst qd, zeros (snd qd))) f0.
Lemma fs_get_app (a b : fs) q : fs_get (a ++ b) q = match fs_get a q with Some d => Some d | None => fs_get b q end.
Proof. induction a as [|[p d] a IH]; [reflexivity|]. cbn [app fs_get]. destruct (teqb p q); [reflexivity|exact IH]. Qed.
Lemma filled_get q : fs_get filled q = match fs_get f q with Some d => Some d | None => option_map zeros (fs_get f0 q) end.
Proof.
  unfold filled. rewrite fs_get_app. destruct (fs_get f q); [reflexivity|]. clear. induction f0 as [|[p d] r IH]; [reflexivity|]. cbn [map fst snd fs_get]. destruct (teqb p q); [reflexivity|exact IH].
Qed.
Lemma extra_is q : extra f filled q -> fs_get f q = None /\ exists c, fs_get f0 q = Some c /\ fs_get filled q = Some (zeros c).
Proof.
  intros [A B]. split; [exact A|]. rewrite filled_get, A in *. destruct (fs_get f0 q) as [c|]; [|now contradiction B]. exists c. now split.
Qed.
Hypothesis Hsub : forall q, fs_get f q = fs_get f0 q \/ fs_get f q = None.
Lemma piece_in h p : holds_volumes l vs -> In (SHead (HFile h p)) l -> exists d, In (h, d) (concat (map (fun nv => pieces (snd nv)) vs)).
Proof.
  clear Hsub. induction 1 as [|i l' vs' N H IH|n v l' vs' H IH]; intros I; [destruct I| |].
  - destruct I as [->|I]; [discriminate N|]. now apply IH.
  - apply in_app_iff in I as [I|I].
    + unfold vol_items in I. destruct I as [I|[I|I]]; [discriminate|discriminate|]. apply in_app_iff in I as [I|I].
      * apply in_map_iff in I as (x & E & I). injection E as E. exists (snd x). cbn [map concat snd]. apply in_app_iff. left. unfold pieces. apply in_concat. exists (piece_of x). split; [now apply in_map|]. unfold piece_of. rewrite E. now left.
      * unfold pad_item in I. destruct (v_pad v); [destruct I|]. destruct I as [I|[]]; discriminate.
    + destruct (IH I) as [d J]. exists d. cbn [map concat]. apply in_app_iff. now right.
Qed.
Lemma vol_in c fl n e : holds_volumes l vs -> In (SRar c fl n e) l -> In n (map fst vs).
Proof.
  clear Hsub. induction 1 as [|i l' vs' N H IH|n' v l' vs' H IH]; intros I; [destruct I| |].
  - destruct I as [->|I]; [discriminate N|]. now apply IH.
  - apply in_app_iff in I as [I|I].
    + unfold vol_items in I. destruct I as [I|[I|I]]; [injection I as _ _ <- _; now left|discriminate|]. apply in_app_iff in I as [I|I].
      * apply in_map_iff in I as (x & E & I). discriminate.
      * unfold pad_item in I. destruct (v_pad v); [destruct I|]. destruct I as [I|[]]; discriminate.
    + right. now apply IH.
Qed.
Lemma known_in h p : holds_volumes l vs -> Forall (fun nv => store_volume (snd nv)) vs -> In (SHead (HFile h p)) l -> h_method h = 0x30.
Proof.
  clear Hsub. induction 1 as [|i l' vs' N H IH|n v l' vs' H IH]; intros S I; [destruct I| |].
  - destruct I as [->|I]; [discriminate N|]. now apply IH.
  - inversion S as [|? ? (S1 & S2 & _) S3]; subst. cbn [snd] in *. apply in_app_iff in I as [I|I]; [|now apply IH].
    unfold vol_items in I. destruct I as [I|[I|I]]; [discriminate|discriminate|]. apply in_app_iff in I as [I|I].
    + apply in_map_iff in I as (x & E & I). injection E as E. rewrite Forall_forall in S2. specialize (S2 x I). rewrite E in S2. exact S2.
    + unfold pad_item in I. destruct (v_pad v); [destruct I|]. destruct I as [I|[]]; discriminate.
Qed.
Theorem fake_ok : srr_ok l -> holds_volumes l vs -> p_part P = [] -> p_empty P = true ->
  Forall (fun nv => store_volume (snd nv)) vs ->
  Forall2 (fun nv o => target (p_paths P) (normpath (p_out P)) (fst nv) o) vs outs -> NoDup outs ->
  Forall (fun o => fs_get f0 o = None) outs ->
  (p_extract P = true -> Forall (fun n => exists o, target (p_paths P) (normpath (p_out P)) n o /\ ~ In o outs /\ fs_get f o = fs_get f0 o) (stored_names l)) ->
  supplied (fun p => fs_get f0 (in_folder (p_in P) p)) None (concat (map (fun nv => pieces (snd nv)) vs)) ->
  (forall h d p c, In (h, d) (concat (map (fun nv => pieces (snd nv)) vs)) -> is_dir h = false -> rar_path (h_text h) p ->
     fs_get f (in_folder (p_in P) p) = None -> fs_get f0 (in_folder (p_in P) p) = Some c -> lenN c = h_unpacked h) ->
  exists s ws, reconstruct P (ser_srr l) f = (s, Continue) /\
    Forall2 (fun nv nw => fst nw = fst nv /\ blanked gone (snd nv) (snd nw)) vs ws /\ Forall (fun nw => store_volume (snd nw)) ws /\
    Forall2 (fun nw o => fs_get (s_fs s) o = Some (ser_volume (snd nw))) ws outs /\ kept fs_get f (s_fs s).
Proof.
  intros Hok Hl Hpart He Hv Ho Hd Hfree Hst Hs Hsize.
  assert (Hfn : forall q, fs_get f0 q = None -> fs_get filled q = None).
  { intros q X. rewrite filled_get. destruct (Hsub q) as [Y|Y]; rewrite Y, ?X; reflexivity. }
  destruct (reconstruct_volumes P filled l (blank_all goneb vs) outs) as (s' & E & V & K & _); try assumption.
  - now apply blank_holds.
  - unfold blank_all. rewrite Forall_map. eapply Forall_impl; [|exact Hv]. intros nv X. now apply blank_store.
  - unfold blank_all. clear - Ho. induction Ho; constructor; auto.
  - eapply Forall_impl; [|exact Hfree]. intros o X. now apply Hfn.
  - intros X. eapply Forall_impl; [|exact (Hst X)]. intros n (o & A & B & _). exists o. now split.
  - replace (concat (map (fun nv => pieces (snd nv)) (blank_all goneb vs))) with (map (fun hd => (fst hd, blank_data goneb (h_text (fst hd)) (snd hd))) (concat (map (fun nv => pieces (snd nv)) vs))).
    2: { clear - Hv. unfold blank_all. induction Hv as [|nv vs S _ IH]; [reflexivity|]. cbn [map concat snd]. rewrite map_app, IH, blank_pieces by exact S. reflexivity. }
    apply (blank_supplied goneb (fun p => fs_get f0 (in_folder (p_in P) p)) (fun p => fs_get filled (in_folder (p_in P) p))) with (cur := None); [|exact Hs]. intros h c C. unfold content_of in *. destruct (is_dir h).
    + subst c. unfold blank_data, zeros. rewrite lenN_repN. now destruct (goneb (h_text h)).
    + destruct C as (p & R & D & L). exists p. split; [exact R|]. rewrite lenN_blank. split; [|exact L]. rewrite filled_get.
      unfold blank_data. destruct (goneb (h_text h)) eqn:G.
      * apply gone_is in G as (p' & R' & G). apply rar_os_file_name_spec in R, R'. assert (p' = p) by congruence. subst p'. now rewrite G, D.
      * destruct (fs_get f (in_folder (p_in P) p)) as [x|] eqn:F; [destruct (Hsub (in_folder (p_in P) p)) as [Y|Y]; congruence|].
        exfalso. assert (X : gone (h_text h)) by (exists p; now split). apply gone_is in X. congruence.
  - assert (SM : simr f filled (reconstruct P (ser_srr l) f) (reconstruct P (ser_srr l) filled)).
    { unfold reconstruct. rewrite read_all_srr by exact Hok. apply loop_sim; try assumption.
      - apply init_sim. intros q d X. now rewrite filled_get, X.
      - assert (B : forall i, In i l -> forall pos, bfits P f filled (sblk pos i)).
        { intros i I pos. unfold bfits. cbn [sblk b_kind b_flags]. destruct i as [c fl n e|c fl n d e|c fl n e|c fl sz hs n e|c fl d e|hd]; cbn [s_kind]; try exact Logic.I.
          - intros X o O Ex. apply extra_is in Ex as (E1 & c' & E2 & _). specialize (Hst X). rewrite Forall_forall in Hst.
            destruct (Hst n) as (o' & T & _ & EQ); [unfold stored_names; apply in_concat; exists [n]; split; [|now left]; apply (in_map (fun i => match i with SStored _ _ n _ _ => [n] | _ => [] end)) in I; exact I|].
            apply opath_spec in T. assert (o' = o) by congruence. subst o'. congruence.
          - intros o O Ex. apply extra_is in Ex as (E1 & c' & E2 & _). apply (vol_in _ _ _ _ Hl) in I. apply in_map_iff in I as (nv & <- & I).
            assert (Io : In o outs). { clear - Ho I O. induction Ho as [|x y xs ys T _ IH]; [destruct I|]. destruct I as [->|I]; [|right; now apply IH]. left. apply opath_spec in T. congruence. }
            rewrite Forall_forall in Hfree. specialize (Hfree o Io). congruence.
          - destruct hd as [h p| | | |cr ty fl body dt]; cbn [head_kind]; try exact Logic.I.
            + intros D n R Ex. cbn [file_info_of f_name f_method f_unpacked] in *. apply rar_os_file_name_spec in R. destruct R as (cs & J & B). rewrite (pjoin_folder _ _ _ B) in *.
              apply extra_is in Ex as (E1 & c & E2 & E3). split; [exact (known_in h p Hl Hv I)|]. rewrite E3. f_equal. unfold zeros. f_equal.
              destruct (piece_in h p Hl I) as [d Id]. apply (Hsize h d n c Id); try assumption. now exists cs.
            + destruct body; [exact Logic.I|]. destruct (ty =? 115); [exact Logic.I|]. destruct (ty =? 123); exact Logic.I. }
        clear - B. generalize 0. revert B. induction l as [|i l' IH]; intros B pos; cbn [sblks]; [constructor|]. constructor; [apply B; now left|]. apply IH. intros j J. apply B. now right. }
    rewrite E in SM. destruct SM as [S1 S2]. cbn [fst snd] in *. destruct (reconstruct P (ser_srr l) f) as [s fl]. cbn [fst snd] in *. subst fl.
    destruct S2 as (g' & src' & -> & F & _ & _). cbn [s_fs] in *. exists s, (blank_all goneb vs). split; [reflexivity|]. split; [|split; [|split]].
    + unfold blank_all. clear - Hv. induction Hv as [|nv vs S _ IH]; [constructor|]. cbn [map]. constructor; [|exact IH]. split; [reflexivity|]. apply blank_blanked; [exact S|]. exact gone_is.
    + unfold blank_all. rewrite Forall_map. eapply Forall_impl; [|exact Hv]. intros nv X. now apply blank_store.
    + assert (G : forall o, In o outs -> fs_get (s_fs s) o = fs_get g' o).
      { intros o I. apply F. intros Ex. apply extra_is in Ex as (_ & c & X & _). rewrite Forall_forall in Hfree. rewrite (Hfree o I) in X. discriminate. }
      clear - V G. induction V as [|x o xs os H _ IH]; [constructor|]. constructor; [rewrite G by (now left); exact H|]. apply IH. intros o' I. apply G. now right.
    + intros q d X. destruct F as [_ F]. rewrite F; [|intros [Y _]; congruence]. apply K. now rewrite filled_get, X.
Qed.
End Fake.

(** ** The file object *)
Lemma fake_run_ok ops : forall s, k_pos s <= k_size s -> file_run (repN (k_size s) x00) (k_pos s) ops (fake_run ops s).
Proof.
  assert (Sp : forall a b c, c = a + b -> repN c x00 = repN a x00 ++ repN b x00) by (intros a b c ->; apply repN_app).
  induction ops as [|[z o|z] ops IH]; intros [n p] H; cbn [k_pos k_size] in *; cbn [fake_run]; [constructor| |].
  - unfold fake_seek. cbn [k_pos k_size]. set (dst := match o with SeekSet => z | SeekCur => (Z.of_N p + z)%Z | SeekEnd => (Z.of_N n + z)%Z end).
    assert (D : dst = (match o with SeekSet => 0 | SeekCur => Z.of_N p | SeekEnd => Z.of_N (lenN (repN n x00)) end + z)%Z) by (rewrite lenN_repN; destruct o; unfold dst; lia).
    destruct (Z.ltb_spec dst 0) as [A|A]; [|destruct (Z.leb_spec (Z.of_N n) dst) as [B|B]].
    + apply fr_fail; [|now apply (IH (mkFake n p))]. intros q Q. rewrite <- D in Q. lia.
    + apply fr_fail; [|now apply (IH (mkFake n p))]. intros q Q. rewrite <- D in Q. rewrite lenN_repN. lia.
    + cbn [k_pos]. apply fr_seek; [rewrite <- D; lia|rewrite lenN_repN; lia|]. apply (IH (mkFake n (Z.to_N dst))). cbn. lia.
  - unfold fake_read. cbn [k_pos k_size]. destruct (Z.ltb_spec z 0) as [A|A]; [|destruct (N.eqb_spec (n - p) 0) as [B|B]; [|destruct (N.leb_spec (Z.to_N z) (n - p)) as [C|C]]].
    + apply fr_all; [exact A| |].
      * exists (repN p x00). rewrite lenN_repN. split; [|reflexivity]. apply Sp. lia.
      * rewrite lenN_repN. apply (IH (mkFake n n)). cbn. lia.
    + apply fr_some; [exact A| |].
      * exists (repN p x00), []. rewrite !lenN_repN. split; [|split; [reflexivity|]]; [rewrite repN_0, !app_nil_r; f_equal; lia|]. destruct (Z.eq_dec z 0); [left; lia|right; split; [lia|reflexivity]].
      * rewrite lenN_repN, N.add_0_r. now apply (IH (mkFake n p)).
    + apply fr_some; [exact A| |].
      * exists (repN p x00), (repN (n - p - Z.to_N z) x00). rewrite !lenN_repN. split; [|split; [reflexivity|left; lia]]. rewrite <- !repN_app. f_equal. lia.
      * rewrite lenN_repN. apply (IH (mkFake n (p + Z.to_N z))). cbn. lia.
    + apply fr_some; [exact A| |].
      * exists (repN p x00), []. rewrite !lenN_repN. split; [|split; [reflexivity|right; split; [lia|reflexivity]]]. rewrite app_nil_r, <- repN_app. f_equal. lia.
      * rewrite lenN_repN. replace (p + (n - p)) with n by lia. apply (IH (mkFake n n)). cbn. lia.
Qed.
Theorem fake_file_ok size ops : file_run (repN size x00) 0 ops (fake_run ops (fake_open size)).
Proof. apply (fake_run_ok ops (fake_open size)). cbn. lia. Qed.
