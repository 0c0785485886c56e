(** AviOut: writing the sample from its SRS and the data of the tracks. *)
From Verif Require Import Base BaseFacts Crc CrcFacts SrsRec SrsRecSpec SrsRecFacts Srs SrrFacts StrmFacts Avi StrmSpec Mp3Spec AviSpec AviRead AviSrs.

Definition ours (cc : bytes) : bool := beqb cc (bstr "SRSF") || beqb cc (bstr "SRST").
Definition rebuild' (s : bytes * list (N * bytes)) (pos : N) (i : item) : result ((bytes * list (N * bytes)) * bool) :=
  match i with
  | Lst _ _ _ => Ok ((fst s ++ item_bytes i, snd s), true)
  | Chk cc d pad =>
    if ours cc then Ok (s, true)
    else
      match stream_no cc with
      | Some n =>
        match find (fun x => fst x =? n) (snd s) with
        | None => Err KeyError
        | Some (_, e) => Ok ((fst s ++ (cc ++ le 4 (lenN d)) ++ takeN (lenN d) e ++ pad, map (fun x => if fst x =? n then (n, dropN (lenN d) e) else x) (snd s)), true)
        end
      | None => Ok ((fst s ++ item_bytes i, snd s), true)
      end
  end.
Definition plain_lists (its : list item) : Prop := forall ty size name, In (Lst ty size name) its -> ours name = false.
Lemma rebuild_acts f its : Forall item_ok its -> plain_lists its -> acts true (rebuild_step f) rebuild' f its.
Proof.
  intros F Pl a i b s Hi E. rewrite Forall_forall in F. specialize (F i Hi). destruct i as [ty size name|cc d pad].
  - unfold rebuild_step, rebuild', cc_is. cbn [ck c_fourcc c_kind c_header]. specialize (Pl ty size name Hi). unfold ours in Pl. rewrite Pl. unfold c_data. cbn [c_header c_start item_bytes bind fst snd enc]. reflexivity.
  - unfold rebuild_step, rebuild', cc_is. change (c_kind (ck (Chk cc d pad) (lenN a))) with (kind cc). change (c_fourcc (ck (Chk cc d pad) (lenN a))) with cc. change (c_header (ck (Chk cc d pad) (lenN a))) with (cc ++ le 4 (lenN d)).
    rewrite (skip_srs f a b cc d pad F E). fold (ours cc). destruct (ours cc); [reflexivity|].
    assert (R : streamed cc = false -> riff_read true f (ck (Chk cc d pad) (lenN a)) = Ok (d, pad, lenN a + lenN (enc true (Chk cc d pad)))) by (intros X; apply (read_is f a b cc d pad F true E); now intros _).
    change (c_length (ck (Chk cc d pad) (lenN a))) with (Z.of_N (lenN d)). unfold kind, streamed in *. destruct (stream_no cc) as [n|].
    + destruct (find (fun x => fst x =? n) (snd s)) as [(k, e)|]; [|reflexivity]. rewrite N2Z.id. cbn [bind fst snd]. now rewrite <- !app_assoc.
    + rewrite R by reflexivity. destruct (beqb cc (bstr "idx1")); cbn [bind fst snd item_bytes]; now rewrite <- !app_assoc.
Qed.
Lemma find_table (g : N -> bytes) ns n : In n ns -> find (fun x => fst x =? n) (table g ns) = Some (n, g n).
Proof. induction ns as [|k ns IH]; intros H; [destruct H|]. cbn [table map find fst]. destruct (N.eqb_spec k n) as [->|Nk]; [reflexivity|]. destruct H as [H|H]; [contradiction|]. now apply IH. Qed.
Lemma map_table (g : N -> bytes) ns n v : map (fun x => if fst x =? n then (n, v) else x) (table g ns) = table (fun k => if k =? n then v else g k) ns.
Proof. unfold table. rewrite map_map. apply map_ext. intros k. cbn [fst]. destruct (N.eqb_spec k n) as [->|]; reflexivity. Qed.
Lemma rebuild_ours xs : Forall (fun i => exists cc d pad, i = Chk cc d pad /\ ours cc = true) xs -> forall rest pos s, exists pos', irun true never rebuild' (xs ++ rest) pos s = irun true never rebuild' rest pos' s.
Proof.
  induction 1 as [|i xs (cc & d & pad & -> & O) _ IH]; intros rest pos s; [now exists pos|]. cbn [app]. rewrite irun_cons. unfold rebuild' at 1. rewrite O. cbn [bind fst snd]. apply IH.
Qed.
Lemma rebuild_run xs ns : NoDup ns -> Forall (fun i => exists cc d pad, i = Chk cc d pad /\ ours cc = true) xs -> forall its (g : N -> bytes) (out : bytes) pos,
  (forall i, In i its -> ours (name_of i) = false) -> (forall n, has_stream n its -> In n ns /\ lenN (data_of n its) <= lenN (g n)) ->
  exists its' g', irun true never rebuild' (srs_items xs its) pos (out, table g ns) = Ok (out ++ file_of its', table g' ns) /\ Forall2 same_shape its its' /\
  forall n, In n ns -> data_of n its' = takeN (lenN (data_of n its)) (g n).
Proof.
  intros Nd X. induction its as [|i its IH]; intros g out pos O H.
  { exists [], g. split; [cbn; now rewrite app_nil_r|]. split; [constructor|]. intros n _. symmetry. apply takeN_0. }
  pose proof (O i (or_introl eq_refl)) as Oi. rewrite srs_items_cons, irun_cons.
  assert (Plain : (forall n, piece n i = []) -> rebuild' (out, table g ns) pos i = Ok ((out ++ item_bytes i, table g ns), true) ->
    exists its' g', (do x <- rebuild' (out, table g ns) pos i; if snd x then irun true never rebuild' ((if is_list_movi i then xs else []) ++ srs_items xs its) (pos + lenN (enc true i)) (fst x) else Ok (fst x)) = Ok (out ++ file_of its', table g' ns)
      /\ Forall2 same_shape (i :: its) its' /\ forall n, In n ns -> data_of n its' = takeN (lenN (data_of n (i :: its))) (g n)).
  { intros Hp ->. cbn [bind fst snd].
    assert (Y : Forall (fun i => exists cc d pad, i = Chk cc d pad /\ ours cc = true) (if is_list_movi i then xs else [])) by (destruct (is_list_movi i); [exact X|constructor]).
    destruct (rebuild_ours _ Y (srs_items xs its) (pos + lenN (enc true i)) (out ++ item_bytes i, table g ns)) as (p & ->).
    destruct (IH g (out ++ item_bytes i) p (fun j Hj => O j (or_intror Hj))) as (its' & g' & E & S & D).
    { intros n Hn. destruct (H n) as (A & B); [apply (has_app n [i] its); now right|]. split; [exact A|]. now rewrite data_cons, Hp in B. }
    exists (i :: its'), g'. split; [etransitivity; [exact E|]; rewrite file_cons, <- app_assoc; reflexivity|]. split; [constructor; [constructor|exact S]|]. intros n Hn. rewrite !data_cons, Hp. now apply D. }
  destruct i as [ty size name|cc d pad]; [apply Plain; [reflexivity|reflexivity]|]. cbn [name_of] in Oi. destruct (stream_no cc) as [n|] eqn:Sn.
  - clear Plain. unfold rebuild' at 1. rewrite Oi, Sn. cbn [fst snd is_list_movi app].
    destruct (H n) as (A & B); [exists cc, d, pad; split; [now left|exact Sn]|]. rewrite find_table by exact A. cbn [bind fst snd]. rewrite map_table.
    assert (Pn : piece n (Chk cc d pad) = d) by (cbn [piece]; now rewrite Sn, N.eqb_refl).
    assert (Pk : forall k, k <> n -> piece k (Chk cc d pad) = []) by (intros k Hk; cbn [piece]; rewrite Sn; destruct (N.eqb_spec n k); [congruence|reflexivity]).
    rewrite data_cons, Pn, lenN_app in B.
    match goal with |- context [irun true never rebuild' _ ?p (?o, table ?g1 ns)] => destruct (IH g1 o p (fun j Hj => O j (or_intror Hj))) as (its' & g' & E & S & D) end.
    { intros k Hk. destruct (H k) as (A' & B'); [apply (has_app k [Chk cc d pad] its); now right|]. split; [exact A'|]. cbv beta. destruct (N.eqb_spec k n) as [->|Nk]; [rewrite lenN_dropN; lia|]. now rewrite data_cons, Pk in B' by exact Nk. }
    assert (Lt : lenN (takeN (lenN d) (g n)) = lenN d) by (rewrite lenN_takeN; lia).
    exists (Chk cc (takeN (lenN d) (g n)) pad :: its'), g'. split.
    { etransitivity; [exact E|]. f_equal. f_equal. rewrite file_cons. cbn [item_bytes]. rewrite Lt. now rewrite <- !app_assoc. }
    split; [constructor; [apply (same_chunk cc n); [exact Sn|now rewrite Lt]|exact S]|].
    intros k Hk. rewrite !data_cons. specialize (D k Hk). cbv beta in D. cbn [piece]. rewrite Sn. destruct (N.eqb_spec n k) as [<-|Nk].
    + rewrite N.eqb_refl in D. rewrite D, lenN_app. now rewrite takeN_add.
    + replace (k =? n) with false in D by (symmetry; apply N.eqb_neq; congruence). exact D.
  - apply Plain; [intros n; cbn [piece]; now rewrite Sn|]. unfold rebuild'. rewrite Oi, Sn. reflexivity.
Qed.
Lemma app_eq_len {A} (a b c d : list A) : a ++ b = c ++ d -> lenN a = lenN c -> a = c /\ b = d.
Proof. revert c. induction a as [|x a IH]; intros [|y c] E L; try (rewrite ?lenN_cons in L; cbn [lenN] in L; lia); [now split|]. cbn [app] in E. injection E as -> E. destruct (IH c E) as (-> & ->); [rewrite !lenN_cons in L; lia|now split]. Qed.
Lemma shape_eq its its' : Forall2 same_shape its its' -> (forall n, data_of n its' = data_of n its) -> its' = its.
Proof.
  induction 1 as [|i j its its' S _ IH]; intros H; [reflexivity|]. destruct S as [i|cc n d d' pad Sn L].
  - f_equal. apply IH. intros n. specialize (H n). rewrite !data_cons in H. now apply app_inv_head in H.
  - assert (E : d' = d /\ forall k, data_of k its' = data_of k its).
    { pose proof (H n) as Hn. rewrite !data_cons in Hn. cbn [piece] in Hn. rewrite Sn, N.eqb_refl in Hn. apply app_eq_len in Hn as (E & En); [|now symmetry]. split; [exact E|]. intros k. specialize (H k). rewrite !data_cons in H. cbn [piece] in H. rewrite Sn in H.
      destruct (n =? k) eqn:Nk; [apply N.eqb_eq in Nk; now subst k|exact H]. }
    destruct E as (-> & E). f_equal. now apply IH.
Qed.
Lemma files_table g ns (h : N -> bytes) : (forall n, In n ns -> t_file (g n) = Some (h n)) -> mapR track_file (table g ns) = Ok (table h ns).
Proof.
  induction ns as [|n ns IH]; intros H; [reflexivity|]. cbn [table map mapR]. unfold track_file at 1. cbn [snd fst]. rewrite (H n (or_introl eq_refl)). cbn [bind]. fold (table g ns). rewrite IH by (intros k Hk; apply H; now right). reflexivity.
Qed.
Lemma data_stream n its : data_of n its <> [] -> has_stream n its.
Proof.
  induction its as [|i its IH]; intros H; [contradiction|]. rewrite data_cons in H. apply (has_app n [i] its). destruct (piece n i) as [|b p] eqn:P; [right; apply IH; exact H|left].
  destruct i as [|cc d pad]; [discriminate P|]. cbn [piece] in P. destruct (stream_no cc) as [k|] eqn:Sn; [|discriminate P]. destruct (N.eqb_spec k n) as [->|]; [|discriminate P]. now apply has_one.
Qed.
Lemma shape_len its its' n : Forall2 same_shape its its' -> lenN (data_of n its') = lenN (data_of n its).
Proof.
  induction 1 as [|i j its its' S _ IH]; [reflexivity|]. rewrite !data_cons, !lenN_app, IH. f_equal. destruct S as [i|cc k d d' pad Sn L]; [reflexivity|]. cbn [piece]. rewrite Sn. destruct (k =? n); [now symmetry|reflexivity].
Qed.
Lemma shape_stream its its' n : Forall2 same_shape its its' -> has_stream n its' -> has_stream n its.
Proof.
  induction 1 as [|i j its its' S _ IH]; intros H; [exact H|]. apply (has_app n [j] its') in H as [H|H]; [|apply (has_app n [i] its); right; now apply IH].
  apply (has_app n [i] its). left. destruct S as [i|cc k d d' pad Sn L]; [exact H|]. destruct H as (c & e & p & [Hi|[]] & Hs). injection Hi as <- <- <-. exists cc, d, pad. split; [now left|exact Hs].
Qed.
(** what is written *)
Lemma rebuild_is x ys its g ns (h : N -> bytes) : avi_ok its -> Forall item_ok (added x ys) -> NoDup ns -> (forall n, In n ns -> t_file (g n) = Some (h n)) ->
  (forall n, has_stream n its -> In n ns /\ lenN (data_of n its) <= lenN (h n)) ->
  exists its', avi_rebuild (table g ns) (encs true (srs_items (added x ys) its)) = Ok (file_of its', file_of its') /\ Forall2 same_shape its its' /\ forall n, has_stream n its -> data_of n its' = takeN (lenN (data_of n its)) (h n).
Proof.
  intros (F & _ & Nm & _) A Nd Hf Hl. unfold avi_rebuild. rewrite (files_table g ns h Hf). cbn [bind].
  assert (O : forall i, In i its -> ours (name_of i) = false).
  { intros i Hi. destruct (Nm i Hi) as (N1 & N2). unfold ours. apply orb_false_iff. split; apply not_true_is_false; now rewrite beqb_eq. }
  rewrite (run_items0 false true never _ rebuild' _ (srs_items (added x ys) its) []); [|symmetry; apply app_nil_r|reflexivity|now apply srs_items_ok|discriminate|].
  2: { apply rebuild_acts; [now apply srs_items_ok|]. intros ty size name Hi. apply srs_items_in in Hi as [Hi|[Hi|Hi]]; [exact (O _ Hi)|discriminate Hi|]. apply in_map_iff in Hi as (y & Hy & _). discriminate Hy. }
  destruct (rebuild_run (added x ys) ns Nd) with (its := its) (g := h) (out := [] : bytes) (pos := 0) as (its' & g' & E & S & D); [|exact O|exact Hl|].
  { constructor; [now exists (bstr "SRSF"), x, (padz x)|]. apply Forall_forall. intros i Hi. apply in_map_iff in Hi as (y & <- & _). now exists (bstr "SRST"), y, (padz y). }
  exists its'. split; [match goal with |- bind ?a ?b = _ => transitivity (bind (Ok (file_of its', table g' ns)) b); [f_equal; exact E|reflexivity] end|]. split; [exact S|]. intros n Hn. apply D. now apply Hl.
Qed.
Lemma rebuild_exact x ys its g ns (h : N -> bytes) : avi_ok its -> Forall item_ok (added x ys) -> NoDup ns -> (forall n, In n ns -> t_file (g n) = Some (h n)) ->
  (forall n, has_stream n its -> In n ns /\ starts (data_of n its) (h n)) ->
  avi_rebuild (table g ns) (encs true (srs_items (added x ys) its)) = Ok (file_of its, file_of its).
Proof.
  intros H A Nd Hf Hl. destruct (rebuild_is x ys its g ns h H A Nd Hf) as (its' & E & S & D).
  { intros n Hn. destruct (Hl n Hn) as (B & (r & C)). split; [exact B|]. rewrite C, lenN_app. lia. }
  rewrite E. replace its' with its; [reflexivity|]. symmetry. apply shape_eq; [exact S|]. intros n.
  destruct (data_of n its) as [|b r] eqn:Dn.
  - pose proof (shape_len its its' n S) as L. rewrite Dn in L. now apply lenN_0 in L.
  - assert (Hn : has_stream n its) by (apply data_stream; rewrite Dn; discriminate). rewrite (D n Hn). destruct (Hl n Hn) as (_ & (q & C)). rewrite C, <- Dn. apply takeN_app_exact. reflexivity.
Qed.
