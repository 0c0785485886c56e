(** WmvOut: writing the sample from its SRS and the data of the tracks. *)
From Verif Require Import Base BaseFacts Crc CrcFacts SrsRec SrsRecSpec SrsRecFacts Srs SrrFacts StrmFacts Avi Wmv StrmSpec Mp3Spec WmvSpec WmvPacket WmvRead WmvSrs WmvLoad.
From Verif Require AviSrs AviOut AviExtract.
Import AviSrs(table, table_keys, table_ext, get_table).
Import AviOut(app_eq_len).
Import AviExtract(fl).

Lemma find_opt (g : N -> option bytes) ns n : In n ns -> find (fun x => fst x =? n) (table g ns) = Some (n, g n).
Proof. induction ns as [|k ns IH]; intros H; [destruct H|]. cbn [table map find fst]. destruct (N.eqb_spec k n) as [->|Nk]; [reflexivity|]. destruct H as [H|H]; [contradiction|]. now apply IH. Qed.
Lemma map_opt (g : N -> option bytes) ns n v : map (fun x => if fst x =? n then (n, v) else x) (table g ns) = table (fun k => if k =? n then v else g k) ns.
Proof. unfold table. rewrite map_map. apply map_ext. intros k. cbn [fst]. destruct (N.eqb_spec k n) as [->|]; reflexivity. Qed.

(** ** What is written *)
(** the files of the tracks after the data of [l] *)
Definition later (l : list piece) (h : N -> bytes) (n : N) : bytes := dropN (lenN (data_of n l)) (h n).
Fixpoint fill (l : list piece) (h : N -> bytes) : list bytes :=
  match l with [] => [] | p :: l => takeN (lenN (p_data p)) (h (p_stream p)) :: fill l (later [p] h) end.
Definition weave (l : list piece) (ds : list bytes) : bytes := concat (map (fun pd => p_head (fst pd) ++ snd pd) (combine l ds)).
Fixpoint built (ks : list packet) (h : N -> bytes) : list bytes :=
  match ks with [] => [] | k :: ks => (pk_head k ++ weave (pk_pieces k) (fill (pk_pieces k) h) ++ pk_padding k) :: built ks (later (pk_pieces k) h) end.
Lemma fill_ext l : forall h h', (forall n, h n = h' n) -> fill l h = fill l h'.
Proof. induction l as [|p l IH]; intros h h' E; [reflexivity|]. cbn [fill]. rewrite E. f_equal. apply IH. intros n. unfold later. now rewrite E. Qed.
Lemma built_ext ks : forall h h', (forall n, h n = h' n) -> built ks h = built ks h'.
Proof. induction ks as [|k ks IH]; intros h h' E; [reflexivity|]. cbn [built]. rewrite (fill_ext _ h h' E). f_equal. apply IH. intros n. unfold later. now rewrite E. Qed.
Lemma later_app a b h n : later b (later a h) n = later (a ++ b) h n.
Proof. unfold later. rewrite data_app, lenN_app, dropN_dropN. f_equal. lia. Qed.
Lemma data_cons n p l : data_of n (p :: l) = (if p_stream p =? n then p_data p else []) ++ data_of n l. Proof. reflexivity. Qed.
Lemma fill_exact l : forall h, (forall n, starts (data_of n l) (h n)) -> fill l h = map p_data l.
Proof.
  induction l as [|p l IH]; intros h H; [reflexivity|]. cbn [fill map]. destruct (H (p_stream p)) as (r & E). rewrite data_cons, N.eqb_refl, <- app_assoc in E. rewrite E, takeN_app_exact by reflexivity. f_equal. apply IH. intros n. unfold later. rewrite data_one. destruct (H n) as (q & Eq). rewrite data_cons, <- app_assoc in Eq. exists q. rewrite Eq. now apply dropN_app_exact.
Qed.
Lemma weave_exact l : weave l (map p_data l) = concat (map (fun p => p_head p ++ p_data p) l).
Proof. unfold weave. f_equal. induction l as [|p l IH]; [reflexivity|]. cbn [map combine fst snd]. now rewrite IH. Qed.
Lemma built_exact ks : forall h, (forall n, starts (data_of n (flat_map pk_pieces ks)) (h n)) -> built ks h = map pk_bytes ks.
Proof.
  induction ks as [|k ks IH]; intros h H; [reflexivity|]. cbn [built map flat_map] in *. rewrite fill_exact.
  - rewrite weave_exact. f_equal. apply IH. intros n. unfold later. destruct (H n) as (r & E). rewrite data_app, <- app_assoc in E. exists r. rewrite E. now apply dropN_app_exact.
  - intros n. destruct (H n) as (r & E). rewrite data_app, <- app_assoc in E. eexists. exact E.
Qed.
Lemma fill_len l : forall h, (forall n, lenN (data_of n l) <= lenN (h n)) -> Forall2 (fun p d => lenN (p_data p) = lenN d) l (fill l h).
Proof.
  induction l as [|p l IH]; intros h H; [constructor|]. cbn [fill]. constructor.
  - specialize (H (p_stream p)). rewrite data_cons, N.eqb_refl, lenN_app in H. rewrite lenN_takeN. lia.
  - apply IH. intros n. unfold later. rewrite data_one, lenN_dropN. specialize (H n). rewrite data_cons, lenN_app in H. unfold bytes in *. generalize dependent (if p_stream p =? n then p_data p else []). intros q. generalize (lenN q). lia.
Qed.
Lemma built_shaped ks : forall h, (forall n, lenN (data_of n (flat_map pk_pieces ks)) <= lenN (h n)) -> Forall2 shaped ks (built ks h).
Proof.
  induction ks as [|k ks IH]; intros h H; [constructor|]. cbn [built flat_map] in *. constructor.
  - exists (fill (pk_pieces k) h). split; [reflexivity|]. apply fill_len. intros n. specialize (H n). rewrite data_app, lenN_app in H. lia.
  - apply IH. intros n. unfold later. rewrite lenN_dropN. specialize (H n). rewrite data_app, lenN_app in H. lia.
Qed.

(** ** The payloads of a packet *)
Lemma pays_built ns l : (forall n, has_stream n l -> In n ns) -> forall (fs : N -> option bytes) out,
  (exists fs', rebuild_pays (map (ypay true) l) out (table fs ns) = Ok (out ++ weave l (fill l (fun n => fl (fs n))), table fs' ns) /\
    forall n, fl (fs' n) = later l (fun n => fl (fs n)) n /\ (fs' n = None <-> fs n = None)) \/
  (rebuild_pays (map (ypay true) l) out (table fs ns) = Err AttributeError /\ exists n, has_stream n l /\ fs n = None).
Proof.
  induction l as [|p l IH]; intros Hin fs out.
  - left. exists fs. split; [cbn; now rewrite app_nil_r|]. intros n. split; [unfold later; cbn [data_of map concat lenN]; now rewrite dropN_0|reflexivity].
  - cbn [map rebuild_pays ypay y_stream y_header y_hsize y_len]. assert (Hp : has_stream (p_stream p) (p :: l)) by (exists p; split; [now left|reflexivity]). rewrite find_opt by now apply Hin. rewrite N.eqb_refl. cbn [negb]. destruct (fs (p_stream p)) as [d|] eqn:Fp.
    + unfold read_n, read_at. replace (Z.of_N (lenN (p_data p)) <? -1)%Z with false by lia. replace (Z.of_N (lenN (p_data p)) <? 0)%Z with false by lia. rewrite N2Z.id. cbn [bind]. unfold sub. rewrite dropN_0, map_opt.
      set (fs1 := fun k => if k =? p_stream p then Some (dropN (lenN (takeN (lenN (p_data p)) d)) d) else fs k).
      assert (F1 : forall n, fl (fs1 n) = later [p] (fun n => fl (fs n)) n /\ (fs1 n = None <-> fs n = None)).
      { intros n. unfold fs1, later. rewrite data_one. destruct (N.eqb_spec n (p_stream p)) as [->|Nn].
        - rewrite N.eqb_refl, Fp. cbn [fl]. split; [|split; discriminate]. rewrite lenN_takeN. destruct (N.min_spec (lenN (p_data p)) (lenN d)) as [(L & ->)|(L & ->)]; [reflexivity|]. rewrite !dropN_all by lia. reflexivity.
        - replace (p_stream p =? n) with false by (symmetry; apply N.eqb_neq; congruence). cbn [lenN]. rewrite dropN_0. now split. }
      assert (Hin' : forall n, has_stream n l -> In n ns) by (intros n X; apply Hin; apply (has_app n [p] l); now right).
      destruct (IH Hin' fs1 (out ++ p_head p ++ takeN (lenN (p_data p)) d)) as [(fs' & E & F')|(E & n & Hn & Fn)].
      * left. exists fs'. split.
        -- etransitivity; [exact E|]. do 2 f_equal. cbn [fill]. rewrite Fp. cbn [fl]. unfold weave at 2. cbn [combine map concat fst snd]. rewrite (fill_ext l (fun n => fl (fs1 n)) (later [p] (fun n => fl (fs n))) (fun n => proj1 (F1 n))). unfold weave. now rewrite <- !app_assoc.
        -- intros n. destruct (F' n) as (A & B). destruct (F1 n) as (C & D). split; [|now rewrite B, D]. rewrite A. change (p :: l) with ([p] ++ l). rewrite <- later_app. unfold later at 1. rewrite C. reflexivity.
      * right. split; [exact E|]. exists n. split; [apply (has_app n [p] l); now right|now apply (F1 n)].
    + right. split; [reflexivity|]. now exists (p_stream p).
Qed.

(** ** The packets *)
Lemma pads_app a b : pads (a ++ b) = pads a ++ pads b. Proof. unfold pads. now rewrite map_app, concat_app. Qed.
Lemma pads_cons k ks : pads (k :: ks) = pk_padding k ++ pads ks. Proof. reflexivity. Qed.
Lemma rep_app n (a b : bytes) : a ++ b = repN n x00 -> a = repN (lenN a) x00 /\ b = repN (lenN b) x00.
Proof.
  intros E. assert (L : n = lenN a + lenN b) by (apply (f_equal lenN) in E; rewrite lenN_app, lenN_repN in E; lia). rewrite L, repN_app in E. apply app_eq_len in E; [exact E|]. now rewrite lenN_repN.
Qed.
Section Packets.
Variables (a : asf) (psize : N).
Hypothesis Ok_ : asf_ok a psize.
Hypothesis Apart : forall l r, a_packets a = l ++ r -> 1 < lenN r -> lenN (concat (map pk_bare r)) <> psize.
Variable ns : list N.
Hypothesis Hin : forall n, has_stream n (pieces_of a) -> In n ns.
Definition index_of (done : list packet) : N := match padding_of a with Some _ => lenN (pads done) | None => 0 end.
Lemma padding_step done k ks i o q : a_packets a = done ++ k :: ks -> i = index_of done ->
  match padding_of a with
  | Some p => mkR (o ++ sub i (Z.to_N (Z.of_N (lenN (pk_padding k)))) p) q (i + Z.to_N (Z.of_N (lenN (pk_padding k))))
  | None => mkR (o ++ repN (Z.to_N (Z.of_N (lenN (pk_padding k)))) x00) q i
  end = mkR (o ++ pk_padding k) q (index_of (done ++ [k])).
Proof.
  intros E I. rewrite N2Z.id. rewrite I. unfold index_of, padding_of. destruct (all_zero (pads (a_packets a))) eqn:Az.
  - f_equal. f_equal. unfold all_zero in Az. apply beqb_eq in Az. rewrite E, pads_app, pads_cons in Az. apply rep_app in Az as (_ & Az). apply rep_app in Az as (Az & _). now symmetry.
  - f_equal.
    + f_equal. rewrite E, pads_app, pads_cons. apply sub_app_exact; reflexivity.
    + rewrite pads_app, lenN_app. unfold pads at 3. cbn [map concat]. now rewrite app_nil_r.
Qed.
Lemma bare_le k : lenN (pk_bare k) <= lenN (pk_bytes k).
Proof. pose proof (bares_le [k]) as X. unfold bares, packets_bytes in X. cbn [map concat] in X. now rewrite !app_nil_r in X. Qed.
Lemma packets_built (f r : bytes) stop ks : forall done (x : bytes) fs out fuel last, a_packets a = done ++ ks -> f = x ++ bares ks ++ r -> stop = lenN (x ++ bares ks) -> (length ks < fuel)%nat -> (ks = [] -> snd last = true -> fst last = stop) -> (ks <> [] -> snd last = false) ->
  (exists fs' last', rebuild_packets fuel f (padding_of a) (Z.of_N psize) stop (lenN ks) (lenN x) last (mkR out (table fs ns) (index_of done)) = Ok (mkR (out ++ concat (built ks (fun n => fl (fs n)))) (table fs' ns) (index_of (a_packets a)), last') /\ (snd last' = true -> fst last' = stop)) \/
  (rebuild_packets fuel f (padding_of a) (Z.of_N psize) stop (lenN ks) (lenN x) last (mkR out (table fs ns) (index_of done)) = Err AttributeError /\ exists n, has_stream n (flat_map pk_pieces ks) /\ fs n = None).
Proof.
  induction ks as [|k ks IH]; intros done x fs out fuel last Ed Ef Es Fu L0 L1; (destruct fuel as [|fuel]; [cbn [length] in Fu; lia|]); cbn [rebuild_packets].
  - left. exists fs, last. cbn [lenN built concat]. rewrite app_nil_r in *. rewrite Ed. change (0 =? 0) with true. cbv iota. split; [reflexivity|now apply L0].
  - rewrite lenN_cons. replace (1 + lenN ks =? 0) with false by lia. rewrite L1 by discriminate. cbn [orb].
    assert (Hk : packet_ok k /\ lenN (pk_bytes k) = psize).
    { destruct Ok_ as (_ & _ & _ & _ & _ & F & L & _). rewrite Ed in F, L. apply Forall_app in F as (_ & F). apply Forall_app in L as (_ & L). split; [exact (Forall_inv F)|exact (Forall_inv L)]. }
    destruct Hk as (Hk & Lk). rewrite bares_cons, <- app_assoc in Ef. pose proof (bare_le k) as Lb. rewrite Lk in Lb.
    unfold read_n, read_at. replace (Z.of_N psize <? -1)%Z with false by lia. replace (Z.of_N psize <? 0)%Z with false by lia. rewrite N2Z.id. cbn [bind].
    set (data := sub (lenN x) psize f). assert (Eda : data = pk_bare k ++ takeN (psize - lenN (pk_bare k)) (bares ks ++ r)).
    { unfold data, sub. rewrite Ef, dropN_app_exact by reflexivity. now rewrite takeN_app_ge by exact Lb. }
    assert (G : get_packet true data (Z.of_N psize) = Ok (pk_parsed true k)) by (rewrite Eda, <- pk_enc_true; rewrite <- Lk; apply (packet_is true k); [exact Hk|discriminate]).
    rewrite G. cbn [bind pk_parsed k_pays k_hlen k_pad k_used r_out r_files r_index].
    replace (takeN (lenN (pk_head k)) data) with (pk_head k) by (rewrite Eda; unfold pk_bare; rewrite <- app_assoc; symmetry; now apply takeN_app_exact).
    replace (lenN (pk_head k ++ enc true (pk_pieces k))) with (lenN (pk_bare k)) by (rewrite <- pk_enc_true; unfold pk_enc; now rewrite app_nil_r).
    assert (Hin1 : forall n, has_stream n (pk_pieces k) -> In n ns).
    { intros n X. apply Hin. unfold pieces_of. rewrite Ed, flat_map_app. apply has_app. right. cbn [flat_map]. apply has_app. now left. }
    destruct (pays_built ns (pk_pieces k) Hin1 fs (out ++ pk_head k)) as [(fs1 & E1 & F1)|(E1 & n & Hn & Fn)]; rewrite E1; cbn [bind].
    + cbn [fst snd]. rewrite (padding_step done k ks) by (exact Ed || reflexivity). rewrite <- (lenN_app x (pk_bare k)). replace (1 + lenN ks - 1) with (lenN ks) by lia.
      match goal with |- context [rebuild_packets fuel f _ _ stop _ _ ?l (mkR ?o _ _)] => destruct (IH (done ++ [k]) (x ++ pk_bare k) fs1 o fuel l) as [(fs2 & last2 & E2 & F2)|(E2 & n & Hn & Fn)] end.
      * now rewrite <- app_assoc.
      * rewrite Ef. now rewrite <- app_assoc.
      * rewrite Es, bares_cons. now rewrite <- app_assoc.
      * cbn [length] in Fu. lia.
      * intros Ek X. cbn [fst snd] in X |- *. apply Z.eqb_eq in X. rewrite Es, Ek in X |- *. unfold bares in X |- *. cbn [map concat] in X |- *. rewrite app_nil_r in X |- *. rewrite lenN_app in X |- *. rewrite Eda, lenN_app, Ek. cbn [bares map concat app]. rewrite lenN_takeN, ?lenN_app. lia.
      * intros Nk. cbn [snd]. apply Z.eqb_neq. intros X. apply (Apart done (k :: ks) Ed); [destruct ks; [contradiction|rewrite !lenN_cons; lia]|]. fold (bares (k :: ks)). rewrite Es, lenN_app in X. lia.
      * left. exists fs2, last2. split; [|exact F2]. etransitivity; [exact E2|]. do 3 f_equal. cbn [built concat]. rewrite (built_ext ks (fun n => fl (fs1 n)) (later (pk_pieces k) (fun n => fl (fs n))) (fun n => proj1 (F1 n))). now rewrite <- !app_assoc.
      * right. split; [exact E2|]. exists n. split; [cbn [flat_map]; apply has_app; now right|now apply (F1 n)].
    + right. split; [reflexivity|]. exists n. split; [cbn [flat_map]; apply has_app; now left|exact Fn].
Qed.
(** *** objects *)
Lemma ours_not o pos : obj_ok o -> ours (ob o pos) = false.
Proof. intros H. pose proof (not_ours o pos H) as N. rewrite ours_is in N. unfold ours. rewrite (N SRS_FILE), (N SRS_TRACK), (N SRS_PADDING) by (cbn [In]; tauto). reflexivity. Qed.
Lemma built_objs pad (f x r : bytes) os out fs i : f = x ++ objs_bytes os ++ r -> Forall obj_ok os -> reach Stored never (rebuild_step f pad) f (lenN x, mkR out fs i) (lenN (x ++ objs_bytes os), mkR (out ++ objs_bytes os) fs i).
Proof.
  intros E F. destruct (reach_list Stored never (rebuild_step f pad) f obj_bytes (fun d s => s = mkR (out ++ objs_bytes d) fs i) os x (mkR out fs i)) as (s' & R & ->); [|cbn; now rewrite app_nil_r|exact R].
  intros d o t s Eo ->. assert (Ho : obj_ok o) by (rewrite Forall_forall in F; apply F; rewrite Eo; apply in_elt). assert (Ef : f = (x ++ objs_bytes d) ++ obj_bytes o ++ (objs_bytes t ++ r)) by (rewrite E, Eo, objs_app, objs_cons; now rewrite <- !app_assoc).
  exists (mkR (out ++ objs_bytes (d ++ [o])) fs i). split; [|reflexivity]. fold (objs_bytes d). rewrite (app_assoc x). destruct (contents_is f _ _ o Ef (or_introl Ho)) as (c & Ec & Eb & _). pose proof (obj_pos o Ho).
  apply (reach_one _ _ _ _ _ _ (ob o (lenN (x ++ objs_bytes d)))); [apply (next_obj _ _ _ _ _ Ef Ho)|reflexivity| |rewrite Ef, !lenN_app; lia].
  unfold rebuild_step. rewrite (ours_not o _ Ho). replace (guid_is DATA_OBJECT (ob o (lenN (x ++ objs_bytes d)))) with false.
  - rewrite Ec. cbn [bind fst snd r_out r_files r_index]. do 3 f_equal. rewrite objs_snoc. rewrite <- !app_assoc. now rewrite <- Eb.
  - symmetry. unfold guid_is. rewrite is_data. destruct o as [p|six kids]; [apply beqb_not; apply Ho|]. vm_compute. reflexivity.
Qed.
Lemma built_ours pad (f x r : bytes) l s : f = x ++ kids_bytes l ++ r -> Forall is_plain l -> Forall (fun p => In (fst p) g_ours) l -> reach Stored never (rebuild_step f pad) f (lenN x, s) (lenN (x ++ kids_bytes l), s).
Proof.
  intros E F G. destruct (reach_list Stored never (rebuild_step f pad) f plain_bytes (fun _ t => t = s) l x s) as (s' & R & ->); [|reflexivity|exact R].
  intros d p t ? Eo ->. assert (Hp : In p l) by (rewrite Eo; apply in_elt). rewrite Forall_forall in F, G. specialize (F p Hp). specialize (G p Hp). assert (Ef : f = (x ++ kids_bytes d) ++ plain_bytes p ++ (kids_bytes t ++ r)) by (rewrite E, Eo, kids_app, kids_cons; now rewrite <- !app_assoc).
  exists s. split; [|reflexivity]. fold (kids_bytes d). rewrite (app_assoc x).
  assert (Lp : lenN (plain_bytes p) = 24 + lenN (snd p)) by (unfold plain_bytes; rewrite !lenN_app, lenN_le, (proj1 F); change (N.of_nat 8) with 8; lia).
  apply (reach_one _ _ _ _ _ _ (ob (Obj p) (lenN (x ++ kids_bytes d)))); [apply (next_plain _ _ _ _ _ Ef F)|reflexivity| |rewrite Ef, !lenN_app; lia].
  unfold rebuild_step. replace (ours (ob (Obj p) (lenN (x ++ kids_bytes d)))) with true.
  - do 2 f_equal. unfold asf_skip. cbn [ob o_start o_size]. rewrite (lenN_app (x ++ kids_bytes d)). lia.
  - symmetry. unfold ours, guid_is. cbn [ob o_guid]. rewrite ours_is in G. destruct G as [<-|[<-|[<-|[]]]]; rewrite beqb_refl; rewrite ?orb_true_r; reflexivity.
Qed.
Lemma added_ours x ys pad : Forall (fun p => In (fst p) g_ours) (added x ys pad).
Proof.
  unfold added. rewrite ours_is. constructor; [now left|]. apply Forall_app. split; [apply Forall_forall; intros p H; apply in_map_iff in H as (y & <- & _); right; now left|].
  destruct (all_zero pad); [constructor|]. constructor; [right; right; now left|constructor].
Qed.
Definition out_of (xs : list bytes) : bytes := objs_bytes (a_before a) ++ dh a ++ concat xs ++ objs_bytes (a_after a).
Lemma rebuild_is x ys g d tr : let xs := kids_bytes (added x ys (pads (a_packets a))) in Forall is_plain (added x ys (pads (a_packets a))) -> wmv_load (srs_file a xs) = Ok (mkL d (padding_of a) tr) ->
  wmv_rebuild (table g ns) (srs_file a xs) = Ok (out_of (built (a_packets a) (fun n => fl (t_file (g n)))), out_of (built (a_packets a) (fun n => fl (t_file (g n))))) \/
  (wmv_rebuild (table g ns) (srs_file a xs) = Err AttributeError /\ exists n, has_stream n (pieces_of a) /\ t_file (g n) = None).
Proof.
  intros xs Ip Lo. unfold wmv_rebuild. rewrite Lo. cbn [bind l_padding]. set (f := srs_file a xs). set (b := objs_bytes (a_before a)). set (e := objs_bytes (a_after a)). set (y := bares (a_packets a)).
  assert (Ef : f = b ++ dh a ++ y ++ xs ++ e) by reflexivity. replace (map (fun t => (fst t, t_file (snd t))) (table g ns)) with (table (fun n => t_file (g n)) ns) by (unfold table; now rewrite map_map).
  set (fs := fun n => t_file (g n)). pose proof (built_objs (padding_of a) f [] (dh a ++ y ++ xs ++ e) (a_before a) [] (table fs ns) 0 Ef (proj1 Ok_)) as R1. cbn [app] in R1. fold b in R1. change (lenN (@nil byte)) with 0 in R1.
  pose proof (stored_data a psize f b (xs ++ e) Ok_ Ef) as Nx. fold y in Nx. set (o := mkO g_data (lenN (dh a ++ y)) (50 + lenN (packets_bytes (a_packets a))) (dh a) (lenN b)) in *.
  assert (Sk : asf_skip o = lenN ((b ++ dh a) ++ y)) by (unfold asf_skip; cbn [o o_start o_size]; rewrite !lenN_app; lia).
  assert (St : rebuild_step f (padding_of a) (mkR b (table fs ns) 0) o = do r <- rebuild_packets (1 + length f) f (padding_of a) (Z.of_N psize) (asf_skip o) (lenN (a_packets a)) (lenN (b ++ dh a)) (lenN b, false) (mkR (b ++ dh a) (table fs ns) (index_of []));
     Ok (fst r, if snd (snd r) then fst (snd r) else asf_skip o)).
  { unfold rebuild_step. assert (O : ours o = false) by (vm_compute; reflexivity). assert (D : guid_is DATA_OBJECT o = true) by (unfold guid_is; rewrite is_data; cbn [o o_guid]; apply beqb_refl). rewrite O, D. change (o_header o) with (dh a). change (o_osize o) with (50 + lenN (packets_bytes (a_packets a))).
    rewrite (dh_count a psize Ok_). cbn [bind]. rewrite (dh_psize a psize Ok_). cbn [bind r_out r_files r_index]. unfold o_data. change (o_start o) with (lenN b). change (o_header o) with (dh a). rewrite <- lenN_app. replace (index_of []) with 0 by (unfold index_of; now destruct (padding_of a)). reflexivity. }
  assert (Lk : (length (a_packets a) < 1 + length f)%nat).
  { assert (X : lenN (a_packets a) <= lenN y). { unfold y. clear. induction (a_packets a) as [|k ks IH]; [cbn; lia|]. rewrite bares_cons, lenN_app, lenN_cons. unfold pk_bare. rewrite lenN_app. pose proof (pk_pos k). lia. }
    rewrite !lenN_length in X. rewrite Ef, !app_length. lia. }
  destruct (packets_built f (xs ++ e) (asf_skip o) (a_packets a) [] (b ++ dh a) fs (b ++ dh a) (1 + length f) (lenN b, false)) as [(fs' & last' & E & Hl)|(E & n & Hn & Fn)]; [reflexivity|rewrite Ef; now rewrite <- !app_assoc|exact Sk|exact Lk|discriminate|reflexivity| |].
  - left. rewrite E in St. cbn [bind fst snd] in St.
    assert (R2 : reach Stored never (rebuild_step f (padding_of a)) f (lenN b, mkR b (table fs ns) 0) (lenN ((b ++ dh a) ++ y), mkR ((b ++ dh a) ++ concat (built (a_packets a) (fun n => fl (fs n)))) (table fs' ns) (index_of (a_packets a)))).
    { eapply reach_one; [exact Nx|reflexivity| |rewrite Ef, !lenN_app, (dh_len a psize Ok_); lia]. rewrite St. do 2 f_equal. destruct (snd last'); [rewrite (Hl eq_refl)|]; exact Sk. }
    assert (E3 : f = ((b ++ dh a) ++ y) ++ xs ++ e) by (rewrite Ef; now rewrite <- !app_assoc).
    pose proof (built_ours (padding_of a) f _ e _ (mkR ((b ++ dh a) ++ concat (built (a_packets a) (fun n => fl (fs n)))) (table fs' ns) (index_of (a_packets a))) E3 Ip (added_ours x ys (pads (a_packets a)))) as R3. fold xs in R3.
    assert (E4 : f = (((b ++ dh a) ++ y) ++ xs) ++ objs_bytes (a_after a) ++ []) by (rewrite Ef, app_nil_r; fold e; now rewrite <- !app_assoc).
    pose proof (built_objs (padding_of a) f _ [] (a_after a) ((b ++ dh a) ++ concat (built (a_packets a) (fun n => fl (fs n)))) (table fs' ns) (index_of (a_packets a)) E4 (proj1 (proj2 Ok_))) as R4. rewrite app_nil_r in E4. rewrite <- E4 in R4. fold e in R4.
    rewrite (reach_end Stored never (rebuild_step f (padding_of a)) f _ (lenN f) _ (reach_trans _ _ _ _ _ _ _ R1 (reach_trans _ _ _ _ _ _ _ R2 (reach_trans _ _ _ _ _ _ _ R3 R4)))); [|apply (next_end Stored f f []); [now rewrite app_nil_r|reflexivity]].
    cbn [bind r_out]. unfold out_of. fold b e fs. now rewrite <- !app_assoc.
  - right. rewrite E in St. cbn [bind] in St. split; [now rewrite (reach_err _ _ _ _ _ _ _ _ _ R1 Nx eq_refl St)|]. now exists n.
Qed.
Lemma rebuild_exact x ys g d tr : let xs := kids_bytes (added x ys (pads (a_packets a))) in Forall is_plain (added x ys (pads (a_packets a))) -> wmv_load (srs_file a xs) = Ok (mkL d (padding_of a) tr) ->
  (forall n, has_stream n (pieces_of a) -> exists e, t_file (g n) = Some e /\ starts (data_of n (pieces_of a)) e) ->
  wmv_rebuild (table g ns) (srs_file a xs) = Ok (file_of a, file_of a).
Proof.
  intros xs Ip Lo H. destruct (rebuild_is x ys g d tr Ip Lo) as [E|(_ & n & Hn & Fn)].
  - fold xs in E. rewrite E. rewrite built_exact; [reflexivity|]. intros n. destruct (data_of n (pieces_of a)) as [|c r] eqn:D; [unfold pieces_of in D; rewrite D; now eexists|].
    destruct (H n) as (e & F & S); [|rewrite F; exact S]. destruct (in_dec N.eq_dec n (map p_stream (pieces_of a))) as [I|I]; [apply in_map_iff in I as (p & Ep & Hp); now exists p|].
    exfalso. rewrite no_data in D; [discriminate|]. intros (p & Hp & Ep). apply I. apply in_map_iff. now exists p.
  - exfalso. destruct (H n Hn) as (e & F & _). congruence.
Qed.
End Packets.
