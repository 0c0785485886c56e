(** AviSrs: profiling a sample, creating and loading its SRS. *)
From Verif Require Import Base BaseFacts Crc CrcFacts SrsRec SrsRecSpec SrsRecFacts Srs SrrFacts StrmFacts Avi StrmSpec Mp3Spec AviSpec AviRead.

(** ** Dictionaries *)
Lemma set_track_new k v d : ~ In k (map fst d) -> set_track k v d = d ++ [(k, v)].
Proof.
  induction d as [|(q, w) d IH]; intros H; [reflexivity|]. cbn [set_track]. destruct (N.eqb_spec q k) as [->|Nk]; [exfalso; apply H; now left|]. rewrite IH by (intros X; apply H; now right). reflexivity.
Qed.
Lemma get_track_new k d : ~ In k (map fst d) -> exists e, get_track k d = Err e.
Proof.
  induction d as [|(q, w) d IH]; intros H; [now exists KeyError|]. cbn [get_track]. destruct (N.eqb_spec q k) as [->|Nk]; [exfalso; apply H; now left|]. apply IH. intros X. apply H. now right.
Qed.
Definition table {A} (g : N -> A) (ns : list N) : list (N * A) := map (fun n => (n, g n)) ns.
Lemma table_keys {A} (g : N -> A) ns : map fst (table g ns) = ns.
Proof. unfold table. rewrite map_map. apply map_id. Qed.
Lemma table_ext {A} (g h : N -> A) ns : (forall n, In n ns -> g n = h n) -> table g ns = table h ns.
Proof. intros H. apply map_ext_in. intros n Hn. now rewrite H. Qed.
Lemma get_table g ns n : In n ns -> get_track n (table g ns) = Ok (g n).
Proof.
  induction ns as [|k ns IH]; intros H; [destruct H|]. cbn [table map get_track]. destruct (N.eqb_spec k n) as [->|Nk]; [reflexivity|]. destruct H as [H|H]; [contradiction|]. now apply IH.
Qed.
Lemma set_table g ns n v : NoDup ns -> In n ns -> set_track n v (table g ns) = table (fun k => if k =? n then v else g k) ns.
Proof.
  intros Nd. induction Nd as [|k ns Hk Nd IH]; intros H; [destruct H|]. cbn [table map set_track]. destruct (N.eqb_spec k n) as [->|Nk].
  - f_equal. apply map_ext_in. intros q Hq. destruct (N.eqb_spec q n) as [->|]; [contradiction|reflexivity].
  - f_equal. apply IH. destruct H as [H|H]; [contradiction|exact H].
Qed.
Lemma with_new_in g ns n : In n ns -> with_new n (table g ns) = table g ns.
Proof. intros H. unfold with_new. now rewrite (get_table g ns n H). Qed.
Lemma with_new_out g ns n : ~ In n ns -> g n = new_track n -> with_new n (table g ns) = table g (ns ++ [n]).
Proof.
  intros H E. unfold with_new. destruct (get_track_new n (table g ns)) as (e & ->); [now rewrite table_keys|]. rewrite set_track_new by now rewrite table_keys.
  unfold table. rewrite map_app. cbn [map]. now rewrite E.
Qed.
Lemma NoDup_snoc {A} (l : list A) x : NoDup l -> ~ In x l -> NoDup (l ++ [x]).
Proof. intros H Hx. apply NoDup_Add with (a := x) (l := l); [|now split]. rewrite <- (app_nil_r l) at 1. apply Add_app. Qed.

(** ** Streams *)
Lemma has_app n a b : has_stream n (a ++ b) <-> has_stream n a \/ has_stream n b.
Proof.
  split.
  - intros (cc & d & p & H & S). apply in_app_or in H as [H|H]; [left|right]; now exists cc, d, p.
  - intros [(cc & d & p & H & S)|(cc & d & p & H & S)]; exists cc, d, p; (split; [apply in_or_app; tauto|exact S]).
Qed.
Lemma has_one n cc d p : has_stream n [Chk cc d p] <-> stream_no cc = Some n.
Proof.
  split; [intros (cc' & d' & p' & [H|[]] & S); now inversion H; subst|]. intros S. exists cc, d, p. split; [now left|exact S].
Qed.
Lemma has_list n ty size name : ~ has_stream n [Lst ty size name].
Proof. intros (cc & d & p & [H|[]] & _). discriminate H. Qed.
Lemma piece_other n i : ~ has_stream n [i] -> piece n i = [].
Proof.
  intros H. destruct i as [|cc d p]; [reflexivity|]. cbn [piece]. destruct (stream_no cc) as [k|] eqn:E; [|reflexivity]. destruct (N.eqb_spec k n) as [->|]; [|reflexivity]. exfalso. apply H. now apply has_one.
Qed.
Lemma piece_own n cc d p : stream_no cc = Some n -> piece n (Chk cc d p) = d.
Proof. intros H. cbn [piece]. now rewrite H, N.eqb_refl. Qed.
Lemma no_data n its : ~ has_stream n its -> data_of n its = [].
Proof.
  induction its as [|i its IH]; intros H; [reflexivity|]. rewrite data_cons, piece_other by (intros X; apply H; apply (has_app n [i] its); now left). apply IH. intros X. apply H. apply (has_app n [i] its). now right.
Qed.
Lemma stream_lt cc n : stream_no cc = Some n -> n < 100.
Proof.
  unfold stream_no. destruct (map b2n cc) as [|a [|b r]]; [discriminate|discriminate|]. destruct (((48 <=? a) && (a <=? 57)) && ((48 <=? b) && (b <=? 57))) eqn:E; [|discriminate]. intros H. apply some_inj in H. lia.
Qed.

(** ** Profiling *)
Definition td_of (n : N) (d : bytes) : track_data := {| td_flags := 0; td_number := n; td_length := lenN d; td_offset := 0; td_signature := takeN 256 d |}.
Definition tk (n : N) (d : bytes) : track := track_of (td_of n d).
Lemma add_data_is n a d : add_data (tk n a) (lenN d) d = tk n (a ++ d).
Proof.
  unfold add_data, tk, track_of, td_of, SIG_SIZE. cbn [t_td td_signature td_length td_flags td_number td_offset t_offset t_match t_file t_print]. f_equal. f_equal; [now rewrite lenN_app|].
  rewrite lenN_takeN. destruct (N.ltb_spec (N.min 256 (lenN a)) 256) as [L|L].
  - rewrite (takeN_all 256 a) by lia. rewrite takeN_app_ge by lia. f_equal. destruct (N.le_gt_cases (256 - lenN a) (lenN d)) as [X|X].
    + f_equal. lia.
    + rewrite !takeN_all by lia. reflexivity.
  - now rewrite takeN_app_le by lia.
Qed.
Definition prof' (p : pstate) (pos : N) (i : item) : result (pstate * bool) :=
  match i with
  | Lst ty size name => Ok (mkP (p_tracks p) (p_other p + 12) (zcrc32 (item_bytes i) (p_crc p)), true)
  | Chk cc d pad =>
    match stream_no cc with
    | Some n => let ts := with_new n (p_tracks p) in
                do t <- get_track n ts;
                Ok (mkP (set_track n (add_data t (lenN d) d) ts) (p_other p + 8 + lenN pad) (zcrc32 (item_bytes i) (p_crc p)), true)
    | None => Ok (mkP (p_tracks p) (p_other p + 8 + lenN d + lenN pad) (zcrc32 (item_bytes i) (p_crc p)), true)
    end
  end.
Lemma profile_acts f its : Forall item_ok its -> acts false (profile_step f) prof' f its.
Proof.
  intros F a i b s Hi E. rewrite Forall_forall in F. specialize (F i Hi). destruct i as [ty size name|cc d pad].
  - unfold profile_step, prof'. cbn [ck c_kind c_header bind fst snd item_bytes]. unfold c_data. cbn [c_start c_header enc]. destruct F as (T & _ & Ln). replace (lenN (ty ++ le 4 size ++ name)) with 12 by (rewrite !lenN_app, lenN_le, Ln; destruct T as [-> | ->]; reflexivity). reflexivity.
  - assert (L4 : lenN cc = 4) by exact (proj1 (proj1 F)). unfold profile_step, prof'. change (c_kind (ck (Chk cc d pad) (lenN a))) with (kind cc). rewrite (read_is f a b cc d pad F false E) by discriminate. cbn [ck c_header c_length p_tracks p_other p_crc]. rewrite N2Z.id.
    assert (Z3 : forall s0, zcrc32 pad (zcrc32 d (zcrc32 (cc ++ le 4 (lenN d)) s0)) = zcrc32 (item_bytes (Chk cc d pad)) s0) by (intros s0; cbn [item_bytes]; now rewrite <- !zcrc32_app, <- !app_assoc).
    replace (lenN (cc ++ le 4 (lenN d))) with 8 by (rewrite lenN_app, lenN_le, L4; reflexivity).
    unfold kind. destruct (stream_no cc) as [n|] eqn:Sn.
    + cbn [bind]. destruct (get_track n (with_new n (p_tracks s))) as [t|e]; [|reflexivity]. cbn [bind fst snd p_tracks p_other p_crc]. now rewrite Z3.
    + destruct (beqb cc (bstr "idx1")); cbn [bind fst snd p_tracks p_other p_crc]; now rewrite Z3.
Qed.
Lemma sum_set n v t ts : get_track n ts = Ok t -> sum_lengths (set_track n v ts) + td_length (t_td t) = sum_lengths ts + td_length (t_td v).
Proof.
  induction ts as [|(q, w) ts IH]; [discriminate|]. cbn [get_track set_track]. destruct (N.eqb_spec q n) as [->|Nq].
  - intros H. apply ok_inj in H. subst w. cbn [sum_lengths fold_right snd]. unfold sum_lengths. lia.
  - intros H. specialize (IH H). cbn [sum_lengths fold_right snd]. unfold sum_lengths in IH. lia.
Qed.
Lemma sum_new n ts : sum_lengths (with_new n ts) = sum_lengths ts.
Proof.
  unfold with_new. destruct (get_track n ts) eqn:E; [reflexivity|]. revert E. induction ts as [|(q, w) ts IH]; [reflexivity|]. cbn [get_track set_track]. destruct (N.eqb_spec q n); [discriminate|].
  intros H. specialize (IH H). cbn [sum_lengths fold_right snd]. unfold sum_lengths in IH. now rewrite IH.
Qed.
(** the streams of the sample *)
Definition lists (its : list item) (ns : list N) : Prop := NoDup ns /\ forall n, In n ns <-> has_stream n its.
Definition profiled (its : list item) (p : pstate) : Prop :=
  p_crc p = crc32 (file_of its) /\ p_other p + sum_lengths (p_tracks p) = lenN (file_of its) /\
  exists ns, lists its ns /\ p_tracks p = table (fun n => tk n (data_of n its)) ns.
Lemma file_snoc its i : file_of (its ++ [i]) = file_of its ++ item_bytes i.
Proof. rewrite file_app. unfold file_of at 2. cbn [map concat]. now rewrite app_nil_r. Qed.
Lemma data_snoc n its i : data_of n (its ++ [i]) = data_of n its ++ piece n i.
Proof. rewrite data_app. unfold data_of at 2. cbn [map concat]. now rewrite app_nil_r. Qed.
Lemma prof_step done p pos i : item_ok i -> profiled done p -> exists p', prof' p pos i = Ok (p', true) /\ profiled (done ++ [i]) p'.
Proof.
  intros I (Pc & Po & ns & (Nd & Hn) & Pt).
  assert (Skip : forall k, (forall n, ~ has_stream n [i]) -> profiled (done ++ [i]) (mkP (p_tracks p) (p_other p + k) (zcrc32 (item_bytes i) (p_crc p))) <-> k = lenN (item_bytes i)).
  { intros k Hk. unfold profiled. cbn [p_crc p_other p_tracks]. rewrite file_snoc, lenN_app. split; [intros (_ & X & _); lia|]. intros ->. split; [rewrite Pc; unfold crc32; now rewrite zcrc32_app|]. split; [lia|].
    exists ns. split; [split; [exact Nd|]|].
    - intros n. rewrite Hn, has_app. specialize (Hk n). tauto.
    - rewrite Pt. apply table_ext. intros n _. now rewrite data_snoc, piece_other, app_nil_r by apply Hk. }
  destruct i as [ty size name|cc d pad]; cbn [prof'].
  - eexists. split; [reflexivity|]. apply Skip; [intros n; apply has_list|]. destruct I as (T & _ & Ln). cbn [item_bytes]. rewrite !lenN_app, lenN_le, Ln. destruct T as [-> | ->]; reflexivity.
  - assert (L4 : lenN cc = 4) by exact (proj1 (proj1 I)). destruct (stream_no cc) as [n|] eqn:Sn.
    2:{ eexists. split; [reflexivity|]. replace (p_other p + 8 + lenN d + lenN pad) with (p_other p + (8 + lenN d + lenN pad)) by lia. apply Skip.
        - intros n. rewrite has_one, Sn. discriminate.
        - cbn [item_bytes]. rewrite !lenN_app, lenN_le, L4. lia. }
    assert (K : exists ns', lists (done ++ [Chk cc d pad]) ns' /\ In n ns' /\ with_new n (p_tracks p) = table (fun k => tk k (data_of k done)) ns').
    { destruct (in_dec N.eq_dec n ns) as [Hi|Hi].
      - exists ns. split; [|split; [exact Hi|rewrite Pt; now apply with_new_in]]. split; [exact Nd|]. intros k. rewrite Hn, has_app, has_one, Sn. split; [now left|]. intros [X|X]; [exact X|]. injection X as <-. now apply Hn.
      - exists (ns ++ [n]). split; [|split; [apply in_or_app; right; now left|]].
        + split; [now apply NoDup_snoc|]. intros k. rewrite in_app_iff, Hn, has_app, has_one, Sn. cbn [In]. split; (intros [X|X]; [now left|right]); [destruct X as [->|[]]; reflexivity|injection X as ->; now left].
        + rewrite Pt. apply with_new_out; [exact Hi|]. unfold tk, td_of, new_track. rewrite no_data by (intros X; apply Hi; now apply Hn). reflexivity. }
    destruct K as (ns' & (Nd' & Hn') & Hi & W). cbv zeta. rewrite W. rewrite get_table by exact Hi. cbn [bind]. eexists. split; [reflexivity|].
    rewrite add_data_is. unfold profiled. cbn [p_crc p_other p_tracks]. rewrite file_snoc, lenN_app. split; [rewrite Pc; unfold crc32; now rewrite zcrc32_app|]. split.
    + pose proof (sum_set n (tk n (data_of n done ++ d)) _ _ (get_table (fun k => tk k (data_of k done)) ns' n Hi)) as X. rewrite <- W in X at 2. rewrite sum_new in X.
      cbn [tk track_of t_td td_of td_length] in X. rewrite lenN_app in X. cbn [item_bytes]. rewrite !lenN_app, lenN_le, L4. lia.
    + exists ns'. split; [now split|]. rewrite set_table by assumption. apply table_ext. intros k _. rewrite data_snoc. destruct (N.eqb_spec k n) as [->|Nk].
      * now rewrite piece_own.
      * rewrite piece_other, app_nil_r; [reflexivity|]. rewrite has_one, Sn. congruence.
Qed.
Lemma prof_run its : forall done p pos, Forall item_ok its -> profiled done p -> exists p', irun false never prof' its pos p = Ok p' /\ profiled (done ++ its) p'.
Proof.
  induction its as [|i its IH]; intros done p pos F P; [exists p; rewrite app_nil_r; now split|]. cbn [irun never]. destruct (prof_step done p pos i (Forall_inv F) P) as (p1 & E & P1). rewrite E. cbn [bind fst snd].
  destruct (IH _ p1 (pos + lenN (enc false i)) (Forall_inv_tail F) P1) as (p2 & E2 & P2). exists p2. split; [exact E2|]. now rewrite <- app_assoc in P2.
Qed.
Definition fd_of (name : text) (f : bytes) : file_data := {| fd_flags := NEW_FLAGS; fd_appname := []; fd_sample_name := name; fd_size := lenN f; fd_crc32 := crc32 f |}.
Lemma fit_check its : lists_fit its -> forall its1 size name its2, its = its1 ++ Lst (bstr "LIST") size name :: its2 -> lenN (encs false its1) + 8 + size <= lenN (file_of its).
Proof.
  intros H its1 size name its2 E. specialize (H _ _ _ _ E). rewrite E, file_app, lenN_app. change (encs false its1) with (file_of its1). lia.
Qed.
Lemma profile_is name its : Forall item_ok its -> lists_fit its -> exists ns, lists its ns /\ avi_profile name (file_of its) = Ok (fd_of name (file_of its), table (fun n => tk n (data_of n its)) ns).
Proof.
  intros F L. unfold avi_profile. rewrite (run_items0 true false never _ prof' (file_of its) its []); [|symmetry; apply app_nil_r|reflexivity|exact F|intros _; split; [reflexivity|now apply fit_check]|now apply profile_acts].
  destruct (prof_run its [] (mkP [] 0 0) 0 F) as (p & E & Pc & Po & ns & Hn & Pt).
  - unfold profiled. split; [reflexivity|]. split; [reflexivity|]. exists []. split; [|reflexivity]. split; [constructor|]. intros n. split; [intros []|intros (? & ? & ? & [] & _)].
  - cbn [app] in *. rewrite E. cbn [bind]. rewrite Po, N.eqb_refl. exists ns. split; [exact Hn|]. rewrite Pt, Pc. reflexivity.
Qed.

(** ** Creating *)
Definition is_list_movi (i : item) : bool := match i with Lst ty _ name => beqb ty (bstr "LIST") && beqb name (bstr "movi") | _ => false end.
(** the items of the SRS; [xs]: those that are added *)
Definition srs_items (xs its : list item) : list item := flat_map (fun i => i :: if is_list_movi i then xs else []) its.
Definition create' (ap : text) (fd : file_data) (ts : list track_data) (out : bytes) (pos : N) (i : item) : result (bytes * bool) :=
  if is_list_movi i then do x <- srs_chunks ap fd ts; Ok (out ++ enc true i ++ x, true) else Ok (out ++ enc true i, true).
Lemma create_acts ap fd ts f its : Forall item_ok its -> acts false (create_step ap fd ts f) (create' ap fd ts) f its.
Proof.
  intros F a i b s Hi E. rewrite Forall_forall in F. specialize (F i Hi). destruct i as [ty size name|cc d pad].
  - unfold create_step, create'. cbn [ck c_kind c_header c_fourcc is_list_movi enc]. unfold cc_is, c_data. cbn [c_fourcc c_start c_header]. destruct (beqb ty (bstr "LIST") && beqb name (bstr "movi")).
    + destruct (srs_chunks ap fd ts); [|reflexivity]. cbn [bind fst snd]. now rewrite <- app_assoc.
    + cbn [bind fst snd]. now rewrite app_nil_r.
  - unfold create_step, create'. change (c_kind (ck (Chk cc d pad) (lenN a))) with (kind cc). rewrite (read_is f a b cc d pad F false E) by discriminate. rewrite (skip_is f a b cc d pad F E). cbn [is_list_movi ck c_header]. unfold kind. cbn [enc andb]. unfold streamed.
    destruct (stream_no cc); [|destruct (beqb cc (bstr "idx1"))]; cbn [bind fst snd app]; now rewrite <- !app_assoc.
Qed.
Lemma srs_items_cons xs i its : srs_items xs (i :: its) = i :: (if is_list_movi i then xs else []) ++ srs_items xs its. Proof. reflexivity. Qed.
Lemma create_run ap fd ts xs its : srs_chunks ap fd ts = Ok (encs true xs) -> forall pos out, irun false never (create' ap fd ts) its pos out = Ok (out ++ encs true (srs_items xs its)).
Proof.
  intros X. induction its as [|i its IH]; intros pos out; [cbn; now rewrite app_nil_r|]. cbn [irun never]. unfold create' at 1. rewrite srs_items_cons. destruct (is_list_movi i).
  - rewrite X. cbn [bind fst snd]. rewrite IH. rewrite encs_cons, encs_app. now rewrite <- !app_assoc.
  - cbn [bind fst snd]. rewrite IH, encs_cons. now rewrite <- app_assoc.
Qed.
Lemma create_fails ap fd ts e its : srs_chunks ap fd ts = Err e -> (exists i, In i its /\ is_list_movi i = true) -> forall pos out, irun false never (create' ap fd ts) its pos out = Err e.
Proof.
  intros X (i & Hi & Hm). induction its as [|j its IH]; intros pos out; [destruct Hi|]. cbn [irun never]. unfold create' at 1. destruct (is_list_movi j) eqn:J; [now rewrite X|]. cbn [bind fst snd]. apply IH. destruct Hi as [->|Hi]; [congruence|exact Hi].
Qed.
Definition padz (d : bytes) : bytes := if lenN d mod 2 =? 1 then [x00] else [].
Definition schk (cc d : bytes) : item := Chk cc d (padz d).
Definition srs_cc (cc : bytes) : Prop := cc = bstr "SRSF" \/ cc = bstr "SRST".
Lemma riff_chunk_is cc d x : srs_cc cc -> riff_chunk cc d = Ok x -> x = enc true (schk cc d) /\ item_ok (schk cc d).
Proof.
  intros C H. unfold riff_chunk in H. bindinv H. apply ok_inj in H. subst x. apply pack_inv in E as (L & ->). change (2 ^ (8 * N.of_nat 4)) with (2 ^ 32) in L.
  assert (S0 : streamed cc = false) by (destruct C as [-> | ->]; reflexivity). assert (L4 : lenN cc = 4) by (destruct C as [-> | ->]; reflexivity).
  split.
  - unfold schk. cbn [enc andb]. rewrite S0. do 3 f_equal. unfold padz. replace (lenN (cc ++ le 4 (lenN d) ++ d) mod 2) with (lenN d mod 2); [reflexivity|]. rewrite !lenN_app, lenN_le, L4. lia.
  - unfold schk. cbn [item_ok]. split; [apply valid_fourcc_is; destruct C as [-> | ->]; reflexivity|]. split; [destruct C as [-> | ->]; discriminate|]. split; [destruct C as [-> | ->]; discriminate|]. split; [exact L|].
    unfold padz. destruct (N.eqb_spec (lenN d mod 2) 1) as [->|N1]; [reflexivity|]. cbn [lenN]. lia.
Qed.
Definition added (x : bytes) (ys : list bytes) : list item := schk (bstr "SRSF") x :: map (schk (bstr "SRST")) ys.
Lemma srs_chunks_is ap fd ts s : srs_chunks ap fd ts = Ok s -> exists x ys, serialize_file ap fd = Ok x /\ Forall2 (fun t y => serialize_track t = Ok y) ts ys /\
  s = encs true (added x ys) /\ Forall item_ok (added x ys).
Proof.
  intros H. unfold srs_chunks in H. bindinv H. bindinv E. bindinv H. apply ok_inj in H. subst s. exists v0. rename v0 into x. rename v1 into l.
  apply riff_chunk_is in E; [|now left]. destruct E as (-> & S0).
  assert (K : exists ys, Forall2 (fun t y => serialize_track t = Ok y) ts ys /\ concat l = encs true (map (schk (bstr "SRST")) ys) /\ Forall item_ok (map (schk (bstr "SRST")) ys)).
  { clear -E1. revert l E1. induction ts as [|t ts IH]; intros l E.
    - cbn [mapR] in E. apply ok_inj in E. subst l. exists []. repeat split; constructor.
    - cbn [mapR] in E. bindinv E. bindinv E0. bindinv E. apply ok_inj in E. subst l. destruct (IH _ E2) as (ys & A & B & C). exists (v0 :: ys).
      apply riff_chunk_is in E0; [|now right]. destruct E0 as (-> & S1). split; [now constructor|]. cbn [concat map]. rewrite encs_cons, B. split; [reflexivity|now constructor]. }
  destruct K as (ys & A & B & C). exists ys. split; [assumption|]. split; [exact A|]. unfold added. rewrite encs_cons, B. split; [reflexivity|now constructor].
Qed.
Definition stored (big : bool) (offset : N -> N) (its : list item) (n : N) : track_data := with_stored big (offset n) (td_of n (data_of n its)).
Lemma srs_form ap name big offset its : avi_ok its -> exists ns, lists its ns /\
  (ns = [] -> exists e, avi_srs ap name big offset (file_of its) = Err e) /\
  (ns <> [] -> forall xs, srs_chunks ap (fd_of name (file_of its)) (map (stored big offset its) ns) = Ok (encs true xs) -> avi_srs ap name big offset (file_of its) = Ok (encs true (srs_items xs its))) /\
  (ns <> [] -> forall e, srs_chunks ap (fd_of name (file_of its)) (map (stored big offset its) ns) = Err e -> avi_srs ap name big offset (file_of its) = Err e).
Proof.
  intros (F & L & _ & (a & size & b & Em & _) & _). destruct (profile_is name its F L) as (ns & Hn & P). exists ns. split; [exact Hn|].
  split; [intros ->; unfold avi_srs; rewrite P; now exists ValueError|].
  assert (M : ns <> [] -> avi_srs ap name big offset (file_of its) = irun false never (create' ap (fd_of name (file_of its)) (map (stored big offset its) ns)) its 0 []).
  { intros Hs. unfold avi_srs. rewrite P. cbn [bind fst snd].
    transitivity (riff_run false never (create_step ap (fd_of name (file_of its)) (map (stored_track big offset) (table (fun n => tk n (data_of n its)) ns)) (file_of its)) (file_of its) 0 []); [destruct ns; [contradiction|reflexivity]|].
    replace (map (stored_track big offset) (table (fun n => tk n (data_of n its)) ns)) with (map (stored big offset its) ns) by (unfold table; rewrite map_map; reflexivity).
    apply (run_items0 false false never _ _ (file_of its) its []); [symmetry; apply app_nil_r|reflexivity|exact F|discriminate|now apply create_acts]. }
  split; intros Hs; intros ? X; rewrite (M Hs).
  - now rewrite (create_run _ _ _ _ its X).
  - apply (create_fails _ _ _ _ its X). exists (Lst (bstr "LIST") size (bstr "movi")). rewrite Em. split; [apply in_or_app; right; now left|reflexivity].
Qed.

(** ** Loading *)
Definition load' (s : option file_data * tracks) (pos : N) (i : item) : result ((option file_data * tracks) * bool) :=
  match i with
  | Lst _ _ _ => Ok (s, true)
  | Chk cc d _ =>
    if beqb cc (bstr "SRSF") then do d <- parse_file_data d; Ok ((Some d, snd s), true)
    else if beqb cc (bstr "SRST") then do t <- parse_track d; Ok ((fst s, set_track (td_number t) (track_of t) (snd s)), true)
    else Ok (s, negb (streamed cc))
  end.
Lemma load_acts f its : Forall item_ok its -> acts true (load_step f) load' f its.
Proof.
  intros F a i b s Hi E. rewrite Forall_forall in F. specialize (F i Hi). destruct i as [ty size name|cc d pad]; [reflexivity|].
  unfold load_step, load'. change (c_kind (ck (Chk cc d pad) (lenN a))) with (kind cc). unfold cc_is. change (c_fourcc (ck (Chk cc d pad) (lenN a))) with cc.
  assert (R : streamed cc = false -> riff_read true f (ck (Chk cc d pad) (lenN a)) = Ok (d, pad, lenN a + lenN (enc true (Chk cc d pad)))) by (intros X; apply (read_is f a b cc d pad F true E); now intros _).
  unfold kind. destruct (beqb cc (bstr "SRSF")) eqn:B1.
  { apply beqb_eq in B1. subst cc. rewrite R by reflexivity. cbn [bind fst snd]. replace (stream_no (bstr "SRSF")) with (@None N) by reflexivity. destruct (beqb (bstr "SRSF") (bstr "idx1")); cbn [bind fst snd]; destruct (parse_file_data d); reflexivity. }
  destruct (beqb cc (bstr "SRST")) eqn:B2.
  { apply beqb_eq in B2. subst cc. rewrite R by reflexivity. cbn [bind fst snd]. replace (stream_no (bstr "SRST")) with (@None N) by reflexivity. destruct (beqb (bstr "SRST") (bstr "idx1")); cbn [bind fst snd]; destruct (parse_track d); reflexivity. }
  rewrite (skip_srs f a b cc d pad F E). unfold streamed. destruct (stream_no cc); [reflexivity|]. destruct (beqb cc (bstr "idx1")); reflexivity.
Qed.
Lemma irun_cons {S} srs (act' : S -> N -> item -> result (S * bool)) i its pos s : irun srs never act' (i :: its) pos s = do x <- act' s pos i; if snd x then irun srs never act' its (pos + lenN (enc srs i)) (fst x) else Ok (fst x).
Proof. reflexivity. Qed.
Definition loaded (big : bool) (offset : N -> N) (its : list item) (n : N) : track := track_of (stored big offset its n).
Lemma load_one big offset its n y s pos : n < 100 -> serialize_track (stored big offset its n) = Ok y ->
  load' s pos (schk (bstr "SRST") y) = Ok ((fst s, set_track n (loaded big offset its n) (snd s)), true).
Proof.
  intros L H. unfold load', schk. change (beqb (bstr "SRST") (bstr "SRSF")) with false. change (beqb (bstr "SRST") (bstr "SRST")) with true. cbv iota.
  pose proof (track_round _ y [] H) as R. rewrite app_nil_r in R. rewrite R; [reflexivity|]. cbn [stored with_stored td_of td_flags td_number]. split; [destruct big; intros X; vm_compute in X; discriminate|intros X; exfalso; assert (n < 2 ^ 16) by (eapply N.lt_trans; [exact L|reflexivity]); lia].
Qed.
Lemma load_new big offset its ns : forall ys (done : tracks) d pos (rest : list item), Forall2 (fun t y => serialize_track t = Ok y) (map (stored big offset its) ns) ys -> Forall (fun n => n < 100) ns -> NoDup (map fst done ++ ns) ->
  exists pos', irun true never load' (map (schk (bstr "SRST")) ys ++ rest) pos (Some d, done) = irun true never load' rest pos' (Some d, done ++ table (loaded big offset its) ns).
Proof.
  induction ns as [|n ns IH]; intros ys done d pos rest H B Nd; inversion H as [|? y ? ys' Hy H']; subst; [exists pos; cbn [map app table]; now rewrite app_nil_r|].
  cbn [map app]. rewrite irun_cons, (load_one big offset its n y) by (assumption || exact (Forall_inv B)). cbn [bind fst snd]. rewrite set_track_new.
  - destruct (IH ys' (done ++ [(n, loaded big offset its n)]) d (pos + lenN (enc true (schk (bstr "SRST") y))) rest H' (Forall_inv_tail B)) as (pos' & E).
    + rewrite map_app, <- app_assoc. exact Nd.
    + exists pos'. etransitivity; [exact E|]. cbn [table map]. now rewrite <- app_assoc.
  - intros X. apply NoDup_remove_2 in Nd. apply Nd, in_or_app. now left.
Qed.
Lemma set_same k v ts : get_track k ts = Ok v -> set_track k v ts = ts.
Proof. induction ts as [|(q, w) ts IH]; [discriminate|]. cbn [get_track set_track]. destruct (N.eqb_spec q k) as [->|]; [intros H; apply ok_inj in H; now subst|]. intros H. now rewrite IH. Qed.
Lemma load_again big offset its x d ns : parse_file_data x = Ok d -> Forall (fun n => n < 100) ns -> forall l, (forall i, In i l -> name_of i <> bstr "SRSF" /\ name_of i <> bstr "SRST" \/
    i = schk (bstr "SRSF") x \/ exists n y, In n ns /\ serialize_track (stored big offset its n) = Ok y /\ i = schk (bstr "SRST") y) ->
  forall pos, irun true never load' l pos (Some d, table (loaded big offset its) ns) = Ok (Some d, table (loaded big offset its) ns).
Proof.
  intros P B l. induction l as [|i l IH]; intros H pos; [reflexivity|]. rewrite irun_cons. specialize (IH (fun j Hj => H j (or_intror Hj))). destruct (H i (or_introl eq_refl)) as [(N1 & N2)|[->|(n & y & Hn & Hy & ->)]].
  - destruct i as [|cc e pad]; cbn [load' bind fst snd]; [apply IH|]. cbn [name_of] in N1, N2.
    replace (beqb cc (bstr "SRSF")) with false by (symmetry; apply not_true_is_false; now rewrite beqb_eq). replace (beqb cc (bstr "SRST")) with false by (symmetry; apply not_true_is_false; now rewrite beqb_eq).
    cbn [bind fst snd]. destruct (negb (streamed cc)); [apply IH|reflexivity].
  - unfold load' at 1, schk at 1. change (beqb (bstr "SRSF") (bstr "SRSF")) with true. cbv iota. rewrite P. cbn [bind fst snd]. apply IH.
  - rewrite (load_one big offset its n y); [|rewrite Forall_forall in B; now apply B|exact Hy]. cbn [bind fst snd]. rewrite set_same by now apply get_table. apply IH.
Qed.
Lemma load_before l : (forall n, ~ has_stream n l) -> (forall i, In i l -> name_of i <> bstr "SRSF" /\ name_of i <> bstr "SRST") -> forall rest pos s, exists pos', irun true never load' (l ++ rest) pos s = irun true never load' rest pos' s.
Proof.
  induction l as [|i l IH]; intros Hs Hn rest pos s; [now exists pos|]. cbn [app]. rewrite irun_cons. assert (IH' : forall pos, exists pos', irun true never load' (l ++ rest) pos s = irun true never load' rest pos' s).
  { intros p. apply IH; [intros n X; apply (Hs n); apply (has_app n [i] l); now right|intros j Hj; apply Hn; now right]. }
  destruct i as [|cc e pad]; cbn [load' bind fst snd]; [apply IH'|]. destruct (Hn _ (or_introl eq_refl)) as (N1 & N2). cbn [name_of] in N1, N2.
  replace (beqb cc (bstr "SRSF")) with false by (symmetry; apply not_true_is_false; now rewrite beqb_eq). replace (beqb cc (bstr "SRST")) with false by (symmetry; apply not_true_is_false; now rewrite beqb_eq).
  cbn [bind fst snd]. replace (streamed cc) with false; [apply IH'|]. unfold streamed. destruct (stream_no cc) as [n|] eqn:Sn; [|reflexivity]. exfalso. apply (Hs n). apply (has_app n [Chk cc e pad] l). left. now apply has_one.
Qed.
Lemma first_movi its : (exists a size b, its = a ++ Lst (bstr "LIST") size (bstr "movi") :: b /\ forall n, ~ has_stream n a) ->
  exists a size b, its = a ++ Lst (bstr "LIST") size (bstr "movi") :: b /\ (forall n, ~ has_stream n a) /\ forall i, In i a -> is_list_movi i = false.
Proof.
  intros (a & size & b & E & H). revert its E. induction a as [|i a IH]; intros its E.
  - exists [], size, b. split; [exact E|]. split; [exact H|intros i []].
  - destruct (is_list_movi i) eqn:M.
    + destruct i as [ty sz nm|]; [|discriminate M]. apply andb_true_iff in M as (M1 & M2). apply beqb_eq in M1, M2. subst ty nm. exists [], sz, (a ++ Lst (bstr "LIST") size (bstr "movi") :: b). split; [exact E|]. split; [|intros i []]. intros n (? & ? & ? & [] & _).
    + destruct (IH (fun n X => H n (proj2 (has_app n [i] a) (or_intror X))) _ eq_refl) as (a' & size' & b' & E' & H' & M'). exists (i :: a'), size', b'. split; [rewrite E; cbn [app]; now rewrite E'|]. split.
      * intros n X. apply (has_app n [i] a') in X as [X|X]; [|now apply (H' n)]. apply (H n). apply (has_app n [i] a). now left.
      * intros j [<-|Hj]; [exact M|now apply M'].
Qed.
Lemma srs_items_none xs l : (forall i, In i l -> is_list_movi i = false) -> srs_items xs l = l.
Proof. induction l as [|i l IH]; intros H; [reflexivity|]. rewrite srs_items_cons, (H i (or_introl eq_refl)). cbn [app]. now rewrite IH by (intros j Hj; apply H; now right). Qed.
Lemma srs_items_app xs a b : srs_items xs (a ++ b) = srs_items xs a ++ srs_items xs b. Proof. apply flat_map_app. Qed.
Lemma srs_items_in xs its i : In i (srs_items xs its) -> In i its \/ In i xs.
Proof. intros H. apply in_flat_map in H as (j & Hj & [<-|H]); [now left|]. destruct (is_list_movi j); [now right|destruct H]. Qed.
Lemma srs_items_ok xs its : Forall item_ok its -> Forall item_ok xs -> Forall item_ok (srs_items xs its).
Proof. intros A B. rewrite Forall_forall in *. intros i Hi. apply srs_items_in in Hi as [Hi|Hi]; auto. Qed.
Lemma lists_lt its ns : lists its ns -> Forall (fun n => n < 100) ns.
Proof. intros (_ & H). apply Forall_forall. intros n Hn. apply H in Hn as (cc & d & p & _ & S). exact (stream_lt cc n S). Qed.
Lemma Forall2_in_r {A B} (R : A -> B -> Prop) l m y : Forall2 R l m -> In y m -> exists x, In x l /\ R x y.
Proof. induction 1 as [|a b l m Hr _ IH]; [intros []|]. intros [<-|H]; [exists a; split; [now left|exact Hr]|]. destruct (IH H) as (x & Hx & Rx). exists x. split; [now right|exact Rx]. Qed.
Lemma load_is ap name big offset its srs : avi_ok its -> avi_srs ap name big offset (file_of its) = Ok srs ->
  exists ns d x ys, lists its ns /\ ns <> [] /\ avi_load_srs srs = Ok (d, table (loaded big offset its) ns) /\ fd_crc32 d = crc32 (file_of its) /\
  srs = encs true (srs_items (added x ys) its) /\ Forall item_ok (added x ys).
Proof.
  intros H E. destruct (srs_form ap name big offset its H) as (ns & Hn & C0 & C1 & C2). exists ns.
  assert (Hs : ns <> []) by (intros X; destruct (C0 X) as (e & Z); congruence). specialize (C1 Hs). specialize (C2 Hs).
  destruct (srs_chunks ap (fd_of name (file_of its)) (map (stored big offset its) ns)) as [s|e] eqn:Sc; [|now rewrite (C2 e eq_refl) in E].
  apply srs_chunks_is in Sc as (x & ys & X & Y & -> & Ok_). rewrite (C1 _ eq_refl) in E. apply ok_inj in E. subst srs. clear C0 C1 C2.
  destruct (parse_back _ _ _ X) as (d & P & Pc & _). exists d, x, ys. cbn [fd_of fd_crc32] in Pc. rewrite N.mod_small in Pc by apply RecovFacts.crc32_lt.
  split; [exact Hn|]. split; [exact Hs|]. split; [|split; [exact Pc|split; [reflexivity|exact Ok_]]].
  destruct H as (F & _ & Nm & Mv & _). pose proof (srs_items_ok (added x ys) its F Ok_) as So. pose proof (lists_lt its ns Hn) as Lt.
  unfold avi_load_srs. rewrite (run_items0 false true never _ load' _ (srs_items (added x ys) its) []); [|symmetry; apply app_nil_r|reflexivity|exact So|discriminate|now apply load_acts].
  destruct (first_movi its Mv) as (a & size & b & Ei & Ha & Ma).
  assert (Hb : forall i, In i (srs_items (added x ys) b) -> name_of i <> bstr "SRSF" /\ name_of i <> bstr "SRST" \/ i = schk (bstr "SRSF") x \/ exists n y, In n ns /\ serialize_track (stored big offset its n) = Ok y /\ i = schk (bstr "SRST") y).
  { intros i Hi. apply srs_items_in in Hi as [Hi|[<-|Hi]]; [left; apply Nm; rewrite Ei; apply in_or_app; right; now right|right; now left|right; right].
    apply in_map_iff in Hi as (y & <- & Hy). destruct (Forall2_in_r _ _ _ y Y Hy) as (t & Ht & Hty). apply in_map_iff in Ht as (n & <- & Hin). now exists n, y. }
  replace (srs_items (added x ys) its) with (a ++ Lst (bstr "LIST") size (bstr "movi") :: added x ys ++ srs_items (added x ys) b) by (rewrite Ei, srs_items_app, (srs_items_none _ a Ma), srs_items_cons; reflexivity).
  destruct (load_before a Ha (fun i Hi => Nm i (eq_ind_r (fun l => In i l) (in_or_app _ _ _ (or_introl Hi)) Ei)) (Lst (bstr "LIST") size (bstr "movi") :: added x ys ++ srs_items (added x ys) b) 0 (None, [])) as (p1 & ->).
  rewrite irun_cons. cbn [load' bind fst snd]. unfold added at 1. cbn [app]. rewrite irun_cons. unfold load' at 1, schk at 1. change (beqb (bstr "SRSF") (bstr "SRSF")) with true. cbv iota. rewrite P. cbn [bind fst snd].
  match goal with |- context [irun true never load' (map _ ys ++ ?r) ?p _] => destruct (load_new big offset its ns ys [] d p r Y Lt (proj1 Hn)) as (p2 & ->) end.
  cbn [app]. rewrite (load_again big offset its x d ns P Lt) by exact Hb. reflexivity.
Qed.
