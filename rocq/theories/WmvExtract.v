(** WmvExtract: searching the main file and taking the data of the tracks out of it. *)
From Verif Require Import Base BaseFacts Crc CrcFacts SrsRec SrsRecSpec SrsRecFacts Srs SrrFacts StrmFacts Avi Wmv StrmSpec Mp3Spec WmvSpec WmvPacket WmvRead WmvSrs WmvLoad WmvOut WmvFind.
From Verif Require AviSrs AviExtract AviFind.
Import AviSrs(table, table_keys, table_ext, get_table, set_table).
Import AviExtract(fl, tail, grown, grown_nil, grown_full, grown_step, same_td, enlists, with_new_table, enlists_nodup, enlists_in, complete_table, app_cmp, dropN_nil).

(** ** Objects left out *)
Lemma skip_is o pos : obj_ok o -> guid_is DATA_OBJECT (ob o pos) = false.
Proof. intros Ho. unfold guid_is. rewrite is_data. destruct o as [p|six kids]; [apply beqb_not; apply Ho|]. vm_compute. reflexivity. Qed.
Lemma ob_skip o x : obj_ok o -> asf_skip (ob o (lenN x)) = lenN (x ++ obj_bytes o).
Proof.
  intros Ho. unfold asf_skip. destruct o as [p|six kids]; cbn [ob o_start o_size obj_bytes].
  - rewrite lenN_app. unfold plain_bytes. rewrite !lenN_app, lenN_le. destruct Ho as ((L & _) & _). rewrite L. lia.
  - rewrite !lenN_app, lenN_le, len_header. destruct Ho as (L & _). rewrite L. lia.
Qed.
Lemma skips {S} m (stop : S -> bool) act (f x r : bytes) os s : (forall s o, guid_is DATA_OBJECT o = false -> act s o = Ok (s, asf_skip o)) -> stop s = false -> f = x ++ objs_bytes os ++ r -> Forall obj_ok os ->
  reach m stop act f (lenN x, s) (lenN (x ++ objs_bytes os), s).
Proof.
  intros Act St E F. destruct (reach_list m stop act f obj_bytes (fun _ s' => s' = s) os x s) as (s' & R & ->); [|reflexivity|exact R].
  intros d o t s' Eo ->. exists s. split; [|reflexivity]. assert (Ho : obj_ok o) by (rewrite Forall_forall in F; apply F; rewrite Eo; apply in_elt). assert (Ef : f = (x ++ objs_bytes d) ++ obj_bytes o ++ (objs_bytes t ++ r)) by (rewrite E, Eo, objs_app, objs_cons; now rewrite <- !app_assoc).
  fold (objs_bytes d). rewrite (app_assoc x). pose proof (obj_pos o Ho).
  apply (reach_one _ _ _ _ _ _ (ob o (lenN (x ++ objs_bytes d)))); [apply (next_obj _ _ _ _ _ Ef Ho)|exact St| |rewrite Ef, !lenN_app; lia].
  rewrite Act by now apply skip_is. now rewrite ob_skip.
Qed.
Lemma next_any m (f x r : bytes) os : Forall obj_ok os -> f = x ++ objs_bytes os ++ r -> lenN r < 24 -> exists o, asf_next m f (lenN x) = Ok o.
Proof.
  intros F E L. destruct os as [|o os]; [exists None; apply (next_end m f x r); assumption|]. exists (Some (ob o (lenN x))). apply (next_obj m f x (objs_bytes os ++ r)); [rewrite E, objs_cons, <- app_assoc; reflexivity|now apply Forall_inv in F].
Qed.
Section Movie.
Variables (m : asf) (psize : N) (main r : bytes).
Hypothesis Ok_ : asf_ok m psize.
Hypothesis Em : main = file_of m ++ r.
Hypothesis Lr : lenN r < 24.
Let x := objs_bytes (a_before m).
Let b := packets_bytes (a_packets m).
Let y := objs_bytes (a_after m).
Lemma main_is : main = x ++ dh m ++ b ++ y ++ r.
Proof. rewrite Em. unfold file_of. rewrite dh_is, <- !app_assoc. reflexivity. Qed.
(** ** The search *)
Lemma find_skip s o : guid_is DATA_OBJECT o = false -> find_step main s o = Ok (s, asf_skip o).
Proof. unfold find_step. now intros ->. Qed.
Lemma find_is ts s : (forall pre post, cells m = pre ++ post -> crun fcell pre (ts, fun _ => [], false) = Ok (s pre : fstate)) ->
  exists pre post, cells m = pre ++ post /\ (post = [] \/ fs_done (s pre) = true) /\ wmv_find ts main = Ok (fst (fst (s pre))).
Proof.
  intros H. destruct (flat fcell find_packet fs_done find_act (a_packets m) (lenN (x ++ dh m)) (ts, fun _ => [], false)) as (pre & post & E & P & D).
  exists pre, post. assert (Ec : cells m = pre ++ post) by (rewrite <- E; reflexivity). specialize (H pre post Ec). split; [exact Ec|]. split; [now apply D|]. rewrite H in P.
  unfold wmv_find. assert (R : asf_run Main fs_done (find_step main) main (ts, fun _ => [], false) = Ok (fst (s pre), true)).
  { destruct (next_any Main main (x ++ dh m ++ b) r (a_after m)) as (o & No); [apply Ok_|rewrite main_is, <- !app_assoc; reflexivity|exact Lr|].
    apply (reach_stop Main fs_done (find_step main) main _ (lenN (x ++ dh m ++ b)) _ o); [|exact No|reflexivity].
    eapply reach_trans; [apply (skips Main fs_done (find_step main) main [] (dh m ++ b ++ y ++ r) (a_before m)); [exact find_skip|reflexivity|exact main_is|apply Ok_]|]. cbn [app]. fold x.
    apply (reach_one _ _ _ _ _ _ (dob m (lenN x))); [apply (next_data m psize Ok_ Main main x (b ++ y ++ r)); [discriminate|exact main_is]|reflexivity| |rewrite main_is, !lenN_app, (dh_len m psize Ok_); lia].
    unfold find_step. rewrite dob_is. change (o_header (dob m (lenN x))) with (dh m). change (o_size (dob m (lenN x))) with (50 + lenN (packets_bytes (a_packets m))). rewrite (dh_count m psize Ok_). cbn [bind]. rewrite (dh_psize m psize Ok_). cbn [bind].
    rewrite (run_packets m psize Ok_ _ _ main x (y ++ r) _ main_is). rewrite P. cbn [bind]. rewrite (dob_skip m psize Ok_). reflexivity. }
  rewrite R. reflexivity.
Qed.
End Movie.

(** ** Extraction *)
Definition ecell (s : tracks * bool) (c : cell) : result (tracks * bool) :=
  let n := fst (snd c) in
  let ts := with_new n (fst s) in
  do t <- get_track n ts;
  Ok (if (t_offset t <=? Z.of_N (fst c) + Z.of_N (lenN (snd (snd c))))%Z then
        let e := fl (t_file t) in
        let ts := set_track n (with_file t (if lenN e <? td_length (t_td t) then e ++ tail (t_offset t) (fst c) (snd (snd c)) else e)) ts in
        (ts, forallb (fun t => complete (snd t)) ts)
      else (ts, snd s)).
Lemma extract_act s off k : extract_packet s off (pk_bytes k) (pk_parsed false k) = do s <- crun ecell (cells_of off (pk_pieces k)) s; Ok (s, snd s).
Proof.
  unfold extract_packet. cbn [pk_parsed k_pays]. f_equal. revert off s. induction (pk_pieces k) as [|p l IH]; intros off s; [reflexivity|]. cbn [map extract_pays cells_of crun ypay y_stream y_hsize y_len]. unfold ecell at 1. cbn [fst snd].
  destruct (get_track (p_stream p) (with_new (p_stream p) (fst s))) as [t|e]; [|reflexivity]. cbn [bind]. rewrite N2Z.id, IH. f_equal. unfold extract_payload. cbn [ypay y_len y_data]. fold (fl (t_file t)).
  destruct (t_offset t <=? Z.of_N (off + lenN (p_head p)) + Z.of_N (lenN (p_data p)))%Z; [|reflexivity]. destruct (lenN (fl (t_file t)) <? td_length (t_td t)); [|reflexivity].
  unfold tail. destruct (Z.leb_spec (t_offset t) (Z.of_N (off + lenN (p_head p)))) as [L|L]; [|reflexivity]. replace (Z.to_N (t_offset t) - (off + lenN (p_head p))) with 0 by lia. now rewrite dropN_0.
Qed.
(** the data of stream [n] from [off] on *)
Definition from (n : N) (off : Z) (cs : list cell) : bytes := concat (map (fun c => tail off (fst c) (cpiece n c)) cs).
Definition touches (n : N) (off : Z) (cs : list cell) : Prop := exists c, In c cs /\ fst (snd c) = n /\ (off <= Z.of_N (fst c) + Z.of_N (lenN (snd (snd c))))%Z.
Lemma extract_cells cs : forall g ns done, NoDup ns -> (forall n, ~ In n ns -> g n = new_track n) -> (done = true -> forall n, In n ns -> complete (g n) = true) ->
  exists g' ns' done', crun ecell cs (table g ns : tracks, done) = Ok (table g' ns' : tracks, done') /\ NoDup ns' /\ (forall n, In n ns -> In n ns') /\ (forall n, ~ In n ns' -> g' n = new_track n) /\
  (forall n, same_td (g n) (g' n) /\ grown (td_length (t_td (g n))) (fl (t_file (g n))) (from n (t_offset (g n)) cs) (fl (t_file (g' n))) /\ (t_file (g n) <> None -> t_file (g' n) <> None) /\ (touches n (t_offset (g n)) cs -> t_file (g' n) <> None)) /\
  (done' = true -> forall n, In n ns' -> complete (g' n) = true).
Proof.
  induction cs as [|c cs IH]; intros g ns done Nd New Dn.
  { exists g, ns, done. split; [reflexivity|]. split; [exact Nd|]. split; [auto|]. split; [exact New|]. split; [|exact Dn]. intros n. split; [now split|]. split; [apply grown_nil|]. split; [auto|]. intros (c & [] & _). }
  cbn [crun]. destruct c as (pl & n & d). unfold ecell at 1. cbn [fst snd]. rewrite (with_new_table g ns n New). rewrite (get_table g _ n) by (apply enlists_in; now right). cbn [bind].
  assert (Own : cpiece n (pl, (n, d)) = d) by (unfold cpiece; cbn [fst snd]; now rewrite N.eqb_refl).
  assert (Oth : forall k, k <> n -> cpiece k (pl, (n, d)) = []) by (intros k Hk; unfold cpiece; cbn [fst snd]; destruct (N.eqb_spec n k); [congruence|reflexivity]).
  pose proof (enlists_nodup ns n Nd) as Nd1. assert (Hn1 : In n (enlists ns n)) by (apply enlists_in; now right).
  destruct (Z.leb_spec (t_offset (g n)) (Z.of_N pl + Z.of_N (lenN d))) as [L|L].
  - rewrite set_table by assumption. set (e1 := if lenN (fl (t_file (g n))) <? td_length (t_td (g n)) then _ else _). set (g1 := fun k => if k =? n then with_file (g n) e1 else g k).
    destruct (IH g1 (enlists ns n) (forallb (fun t => complete (snd t)) (table g1 (enlists ns n))) Nd1) as (g' & ns' & done' & E & A & B & C & D & G).
    { intros k Hk. unfold g1. destruct (N.eqb_spec k n) as [->|]; [now destruct Hk|]. apply New. intros X. apply Hk, enlists_in. now left. }
    { intros X. now apply complete_table. }
    exists g', ns', done'. split; [exact E|]. split; [exact A|]. split; [intros k Hk; apply B, enlists_in; now left|]. split; [exact C|]. split; [|exact G].
    intros k. specialize (D k). unfold g1 in D. unfold from. cbn [map concat fst]. destruct (N.eq_dec k n) as [->|Nk].
    + rewrite !N.eqb_refl in D. cbn [with_file t_td t_offset t_file fl] in D. destruct D as ((D1 & D2) & D3 & D4 & _). split; [now split|]. split; [rewrite Own; apply grown_step; exact D3|]. split; intros _; apply D4; discriminate.
    + replace (k =? n) with false in D by (symmetry; now apply N.eqb_neq). rewrite Oth by exact Nk. unfold tail at 1. rewrite dropN_nil. destruct D as (D1 & D2 & D3 & D4). split; [exact D1|]. split; [exact D2|]. split; [exact D3|]. intros (c & [X|X] & Y & Z); [subst c; now destruct Nk|]. apply D4. exists c. now repeat split.
  - destruct (IH g (enlists ns n) done Nd1) as (g' & ns' & done' & E & A & B & C & D & G).
    { intros k Hk. apply New. intros X. apply Hk, enlists_in. now left. }
    { intros X k Hk. apply enlists_in in Hk as [Hk| ->]; [now apply Dn|]. destruct (in_dec N.eq_dec n ns) as [I|I]; [now apply Dn|]. exfalso. rewrite (New n I) in L. cbn in L. lia. }
    exists g', ns', done'. split; [exact E|]. split; [exact A|]. split; [intros k Hk; apply B, enlists_in; now left|]. split; [exact C|]. split; [|exact G].
    intros k. specialize (D k). unfold from. cbn [map concat fst]. destruct D as (D1 & D2 & D3 & D4). split; [exact D1|]. split; [|split; [exact D3|]].
    + destruct (N.eqb_spec k n) as [->|Nk]; [rewrite Own|rewrite Oth by exact Nk]; unfold tail at 1; [rewrite dropN_all by lia|rewrite dropN_nil]; exact D2.
    + intros (c & [X|X] & Y & Z); [subst c; cbn [fst snd] in *; subst k; lia|]. apply D4. exists c. now repeat split.
Qed.

(** ** From an offset on *)
Lemma from_app n off a b : from n off (a ++ b) = from n off a ++ from n off b. Proof. unfold from. now rewrite map_app, concat_app. Qed.
Lemma cpiece_le n c : lenN (cpiece n c) <= lenN (snd (snd c)). Proof. unfold cpiece. destruct (fst (snd c) =? n); cbn [lenN]; lia. Qed.
Lemma from_before n off a : (forall c, In c a -> (Z.of_N (fst c) + Z.of_N (lenN (snd (snd c))) <= off)%Z) -> from n off a = [].
Proof.
  induction a as [|c a IH]; intros H; [reflexivity|]. unfold from. cbn [map concat]. fold (from n off a). rewrite IH by (intros k Hk; apply H; now right). rewrite app_nil_r. unfold tail. apply dropN_all. specialize (H c (or_introl eq_refl)). pose proof (cpiece_le n c).
  unfold cell, bytes in *. lia.
Qed.
Lemma from_after n off a : (forall c, In c a -> (off <= Z.of_N (fst c))%Z) -> from n off a = cell_data n a.
Proof.
  induction a as [|c a IH]; intros H; [reflexivity|]. unfold from. cbn [map concat]. fold (from n off a). rewrite IH by (intros k Hk; apply H; now right). rewrite cdata_cons. f_equal. unfold tail. specialize (H c (or_introl eq_refl)). replace (Z.to_N off - fst c) with 0 by lia. apply dropN_0.
Qed.
(** the places go up *)
Definition rising (cs : list cell) : Prop := forall pre c post, cs = pre ++ c :: post -> (forall k, In k pre -> fst k + lenN (snd (snd k)) <= fst c) /\ forall k, In k post -> fst c + lenN (snd (snd c)) <= fst k.
Lemma rising_app a b : rising a -> rising b -> (forall x y, In x a -> In y b -> fst x + lenN (snd (snd x)) <= fst y) -> rising (a ++ b).
Proof.
  intros Ra Rb H pre c post E. destruct (app_cmp a b pre c post E) as [(q & -> & Eb)|(q & Ea)].
  - destruct (Rb _ _ _ Eb) as (B1 & B2). split; [|exact B2]. intros k Hk. apply in_app_or in Hk as [Hk|Hk]; [apply H; [exact Hk|rewrite Eb; apply in_elt]|now apply B1].
  - rewrite Ea, <- app_assoc in E. apply app_inv_head in E. cbn [app] in E. injection E as E. destruct (Ra _ _ _ Ea) as (B1 & B2). split; [exact B1|]. rewrite <- E. intros k Hk. apply in_app_or in Hk as [Hk|Hk]; [now apply B2|]. apply H; [rewrite Ea; apply in_elt|exact Hk].
Qed.
Lemma rising_one c : rising [c].
Proof. intros pre k post E. destruct pre as [|z pre]; [|destruct pre; discriminate E]. injection E as <- <-. split; intros ? []. Qed.
Lemma cells_rising l : forall o, rising (cells_of o l).
Proof.
  induction l as [|p l IH]; intros o; [intros [|? ?] ? ? E; discriminate E|]. cbn [cells_of]. match goal with |- rising (?c :: ?t) => change (c :: t) with ([c] ++ t) end. apply rising_app; [apply rising_one|apply IH|]. intros x y [<-|[]] Hy. cbn [fst snd]. now apply cells_stream in Hy.
Qed.
Lemma all_rising ks : forall o, rising (all_cells o ks).
Proof.
  induction ks as [|k ks IH]; intros o; [intros [|? ?] ? ? E; discriminate E|]. cbn [all_cells]. apply rising_app; [apply cells_rising|apply IH|]. intros x y Hx Hy. apply cells_stream in Hx as (_ & _ & Hx). apply all_stream in Hy as (_ & Hy & _). rewrite pk_bytes_len in Hy. lia.
Qed.
Lemma held_from n d ms o pre post : rising ms -> held n d ms o -> ms = pre ++ post -> (forall c, In c pre -> fst c + lenN (snd (snd c)) <= o) ->
  starts d (from n (Z.of_N o) post) /\ touches n (Z.of_N o) post.
Proof.
  intros R (pre' & p & d1 & d2 & post' & E & N2 & Eo & St) E' L. rewrite E' in E.
  destruct (app_cmp pre post pre' (p, (n, d1 ++ d2)) post' E) as [(q & -> & Eq)|(q & Eq)].
  - rewrite E', Eq, app_assoc in R. destruct (R _ _ _ eq_refl) as (R1 & R2). cbn [fst snd] in R1, R2. subst post. split.
    + rewrite from_app. rewrite (from_before n _ q) by (intros c Hc; specialize (R1 c (in_or_app _ _ _ (or_intror Hc))); unfold cell, bytes in *; lia). cbn [app]. unfold from. cbn [map concat]. fold (from n (Z.of_N o) post').
      rewrite (from_after n _ post') by (intros c Hc; specialize (R2 c Hc); rewrite lenN_app in R2; unfold cell, bytes in *; lia).
      unfold cpiece, tail. cbn [fst snd]. rewrite N.eqb_refl. rewrite dropN_app_exact by lia. exact St.
    + exists (p, (n, d1 ++ d2)). cbn [fst snd]. split; [apply in_elt|]. split; [reflexivity|]. rewrite lenN_app. lia.
  - exfalso. specialize (L (p, (n, d1 ++ d2))). rewrite Eq in L. specialize (L (in_elt _ _ _)). cbn [fst snd] in L. rewrite lenN_app in L. destruct d2; [contradiction|]. rewrite lenN_cons in L. lia.
Qed.
Lemma min_le g ns n : In n ns -> (0 < t_offset (g n))%Z -> min_offset (table g ns) <= Z.to_N (t_offset (g n)).
Proof.
  intros Hn P. unfold min_offset. induction ns as [|k ns IH]; [destruct Hn|]. cbn [table map fold_right snd]. unfold table in IH. destruct Hn as [->|Hn].
  - replace (0 <? t_offset (g n))%Z with true by lia. lia.
  - specialize (IH Hn). destruct (0 <? t_offset (g k))%Z; lia.
Qed.

Lemma all_split ks1 : forall o ks2, all_cells o (ks1 ++ ks2) = all_cells o ks1 ++ all_cells (o + lenN (packets_bytes ks1)) ks2.
Proof. induction ks1 as [|k ks IH]; intros o ks2; [cbn [app all_cells packets_bytes map concat lenN]; now rewrite N.add_0_r|]. cbn [app all_cells]. rewrite IH, packets_cons, lenN_app, <- app_assoc, N.add_assoc. reflexivity. Qed.
Section Extract.
Variables (m : asf) (psize : N) (main r : bytes).
Hypothesis Ok_ : asf_ok m psize.
Hypothesis Em : main = file_of m ++ r.
Hypothesis Lr : lenN r < 24.
Let x := objs_bytes (a_before m).
Let b := packets_bytes (a_packets m).
Let y := objs_bytes (a_after m).
Let start := lenN (x ++ dh m).
(** the packets left out end before the first offset *)
Lemma left_is o : exists k1 k2, a_packets m = k1 ++ k2 /\ lenN k1 = left_out start (Z.of_N psize) (lenN (a_packets m)) o /\ (k1 = [] \/ start + lenN (packets_bytes k1) < o).
Proof.
  set (n := left_out _ _ _ _). exists (takeN n (a_packets m)), (dropN n (a_packets m)). assert (Ln : n <= lenN (a_packets m)) by (unfold n, left_out; destruct (_ <=? _)%Z; [lia|]; destruct (_ <=? _)%Z; lia).
  split; [now rewrite takeN_dropN|]. assert (L1 : lenN (takeN n (a_packets m)) = n) by (rewrite lenN_takeN; lia). split; [exact L1|].
  rewrite (packets_len _ psize), L1 by (apply (Forall_app _ _ (dropN n (a_packets m))); rewrite takeN_dropN; apply Ok_).
  pose proof (psize_pos m psize Ok_) as Pp. revert L1. unfold n, left_out. destruct (Z.leb_spec (Z.of_N o) (Z.of_N start + Z.of_N psize)) as [L|L]; [intros X; left; now apply lenN_0|]. replace (Z.of_N psize <=? 0)%Z with false by lia. intros _. right.
  set (q := Z.to_N ((Z.of_N o - Z.of_N start - 1) / Z.of_N psize)). assert (Hq : psize * q <= o - start - 1).
  { unfold q. assert (0 <= (Z.of_N o - Z.of_N start - 1) / Z.of_N psize)%Z by (apply Z.div_pos; lia). assert (Z.of_N psize * ((Z.of_N o - Z.of_N start - 1) / Z.of_N psize) <= Z.of_N o - Z.of_N start - 1)%Z by (apply Z.mul_div_le; lia). lia. }
  assert (psize * N.min (lenN (a_packets m)) q <= psize * q) by (apply N.mul_le_mono_l; lia). clearbody q. lia.
Qed.
Lemma extract_skip o0 s o : guid_is DATA_OBJECT o = false -> extract_step main o0 s o = Ok (s, asf_skip o).
Proof. unfold extract_step. now intros ->. Qed.
Lemma extract_is g ns : NoDup ns -> (forall n, ~ In n ns -> g n = new_track n) -> (forall n, t_file (g n) = None) ->
  exists pre cs g' ns', cells m = pre ++ cs /\ (forall c, In c pre -> fst c + lenN (snd (snd c)) < min_offset (table g ns)) /\
  wmv_extract (table g ns) main = Ok (table g' ns' : tracks) /\ NoDup ns' /\ (forall n, In n ns -> In n ns') /\ (forall n, ~ In n ns' -> g' n = new_track n) /\
  (forall n, same_td (g n) (g' n) /\ starts (fl (t_file (g' n))) (from n (t_offset (g n)) cs)) /\
  ((forall n, In n ns' -> complete (g' n) = true) \/ forall n, (td_length (t_td (g n)) <= lenN (fl (t_file (g' n))) \/ fl (t_file (g' n)) = from n (t_offset (g n)) cs) /\ (touches n (t_offset (g n)) cs -> t_file (g' n) <> None)).
Proof.
  intros Nd New Nof. set (o := min_offset (table g ns)). destruct (left_is o) as (k1 & k2 & Ek & Lk & Bk). unfold wmv_extract. fold o.
  destruct (flat ecell extract_packet snd extract_act k2 (start + lenN (packets_bytes k1)) (table g ns : tracks, false)) as (pre & post & Ep & P & D).
  exists (all_cells start k1), (pre ++ post).
  destruct (extract_cells pre g ns false Nd New) as (g' & ns' & done' & E & A & B & C & G & Dn); [discriminate|]. exists g', ns'. specialize (D _ E). rewrite E in P. cbn [snd] in D.
  split; [unfold cells; rewrite Ek, all_split, <- Ep; reflexivity|]. split; [intros c Hc; apply all_stream in Hc as Hx; destruct Hx as (_ & _ & Hx); destruct Bk as [-> |Bk]; [destruct Hc|lia]|].
  assert (Lb : lenN (packets_bytes k1) = psize * lenN k1) by (apply packets_len; pose proof (proj1 (proj2 (proj2 (proj2 (proj2 (proj2 (proj2 Ok_))))))) as Q; rewrite Ek in Q; now apply Forall_app in Q as (Q & _)).
  assert (Run : asf_run Sample snd (extract_step main o) main (table g ns : tracks, false) = Ok (table g' ns' : tracks, done')).
  { assert (R1 : reach Sample snd (extract_step main o) main (0, (table g ns : tracks, false)) (lenN (x ++ dh m ++ b), (table g' ns' : tracks, done'))).
    { eapply reach_trans; [apply (skips Sample snd (extract_step main o) main [] (dh m ++ b ++ y ++ r) (a_before m)); [apply extract_skip|reflexivity|exact (main_is m main r Em)|apply Ok_]|]. cbn [app]. fold x.
      apply (reach_one _ _ _ _ _ _ (dob m (lenN x))); [apply (next_data m psize Ok_ Sample main x (b ++ y ++ r)); [discriminate|exact (main_is m main r Em)]|reflexivity| |rewrite (main_is m main r Em), !lenN_app, (dh_len m psize Ok_); fold x b y; lia].
      unfold extract_step. rewrite dob_is. change (o_header (dob m (lenN x))) with (dh m). change (o_size (dob m (lenN x))) with (50 + lenN (packets_bytes (a_packets m))). rewrite (dh_count m psize Ok_). cbn [bind]. rewrite (dh_psize m psize Ok_). cbn [bind]. cbv zeta.
      rewrite dob_data. fold start. rewrite <- Lk.
      replace (lenN (a_packets m) - lenN k1) with (lenN k2) by (rewrite Ek, lenN_app; lia).
      replace (Z.to_N (Z.of_N start + Z.of_N (lenN k1) * Z.of_N psize)) with (lenN ((x ++ dh m) ++ packets_bytes k1)) by (rewrite lenN_app; fold start; rewrite Lb; lia).
      assert (Fk : Forall packet_ok (a_packets m)) by apply Ok_. assert (Fs : Forall (fun k => lenN (pk_bytes k) = psize) (a_packets m)) by apply Ok_. rewrite Ek in Fk, Fs. apply Forall_app in Fk as (_ & Fk). apply Forall_app in Fs as (_ & Fs).
      rewrite (packets_run extract_packet true main psize k2 Fk Fs ((x ++ dh m) ++ packets_bytes k1) (y ++ r)).
      - rewrite lenN_app. fold start. rewrite P. cbn [bind]. rewrite (dob_skip m psize Ok_). reflexivity.
      - rewrite (main_is m main r Em). rewrite Ek. unfold packets_bytes. rewrite map_app, concat_app, <- !app_assoc. reflexivity.
      - pose proof (count_le m psize Ok_) as Cl. rewrite Ek, !lenN_length, app_length in Cl. rewrite (main_is m main r Em), !app_length. rewrite Ek. lia. }
    destruct done'.
    - destruct (next_any Sample main (x ++ dh m ++ b) r (a_after m)) as (q & No); [apply Ok_|rewrite (main_is m main r Em), <- !app_assoc; reflexivity|exact Lr|]. apply (reach_stop Sample snd _ _ _ _ _ q R1 No). reflexivity.
    - apply (reach_end Sample snd _ _ _ (lenN ((x ++ dh m ++ b) ++ y))); [|apply (next_end Sample main _ r); [rewrite (main_is m main r Em), <- !app_assoc; reflexivity|exact Lr]].
      eapply reach_trans; [exact R1|]. apply (skips Sample snd _ main (x ++ dh m ++ b) r (a_after m)); [apply extract_skip|reflexivity|rewrite (main_is m main r Em), <- !app_assoc; reflexivity|apply Ok_]. }
  split; [match goal with |- bind ?a ?b = _ => transitivity (bind (Ok (table g' ns' : tracks, done')) b); [f_equal; exact Run|reflexivity] end|].
  split; [exact A|]. split; [exact B|]. split; [exact C|]. split.
  - intros n. destruct (G n) as (G1 & (_ & (q & Q) & _) & _). split; [exact G1|]. rewrite (Nof n) in Q. cbn [fl app] in Q. rewrite from_app. exists (q ++ from n (t_offset (g n)) post). rewrite Q. now rewrite <- app_assoc.
  - destruct D as [->|D]; [right|left; now apply Dn]. intros n. rewrite app_nil_r. destruct (G n) as (_ & (_ & _ & _ & Z) & _ & T). rewrite (Nof n) in Z. cbn [fl app] in Z. now split.
Qed.
End Extract.
