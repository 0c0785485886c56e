(** Mp4Tables: proofs about the tables of MP4 files and reading the samples of a track. *)
From Verif Require Import Base BaseFacts SrsRec Srs SrrFacts Mp4 StrmSpec Mp3Spec Mp4Spec.

(** ** The numbers in a table *)
Lemma entries_are {A} (g : A -> bytes) (v : A -> N) (k : nat) (dist step : N) :
  (forall x, lenN (g x) = step) -> forall l (pre post : bytes), (forall x, In x l -> sub dist (N.of_nat k) (g x) = be k (v x) /\ v x < 2 ^ (8 * N.of_nat k)) -> dist + N.of_nat k <= step ->
  entries (length l) k (pre ++ concat (map g l) ++ post) (lenN pre + dist) step = map v l.
Proof.
  intros Hs. induction l as [|x l IH]; intros pre post H Hd; [reflexivity|]. cbn [length entries map concat].
  f_equal.
  - destruct (H x (or_introl eq_refl)) as (E & L). rewrite <- (unbe_be_small k (v x) L), <- E. f_equal.
    rewrite <- app_assoc. unfold sub. rewrite N.add_comm, <- dropN_dropN, (dropN_app_exact pre) by reflexivity.
    rewrite dropN_app. rewrite (Hs x). replace (dist - step) with 0 by lia. rewrite dropN_0.
    apply takeN_app_le. rewrite lenN_dropN, Hs. lia.
  - specialize (IH (pre ++ g x) post). rewrite lenN_app, Hs, <- app_assoc in IH.
    rewrite <- app_assoc. replace (lenN pre + dist + step) with (lenN pre + step + dist) by lia. apply IH; [|exact Hd].
    intros y Hy. apply H. now right.
Qed.
Lemma entries_numbers k l (pre : bytes) : Forall (fun n => n < 2 ^ (8 * N.of_nat k)) l ->
  entries (N.to_nat (lenN l)) k (pre ++ numbers k l) (lenN pre) (N.of_nat k) = l.
Proof.
  intros F. rewrite lenN_length, Nnat.Nat2N.id. pose proof (entries_are (be k) (fun n => n) k 0 (N.of_nat k) (lenN_be k) l pre []) as E.
  rewrite app_nil_r, N.add_0_r, map_id in E. apply E; [|lia]. rewrite Forall_forall in F. intros x Hx. split; [|now apply F].
  rewrite sub_0. apply takeN_all. rewrite lenN_be. lia.
Qed.
Lemma len_concat {A} (g : A -> bytes) n l : (forall x, lenN (g x) = n) -> lenN (concat (map g l)) = lenN l * n.
Proof. intros H. induction l as [|x l IH]; [reflexivity|]. cbn [map concat]. rewrite lenN_app, lenN_cons, IH, H. lia. Qed.
Lemma unpack_be_at k (a : bytes) n c o : o = lenN a -> n < 2 ^ (8 * N.of_nat k) -> unpack_be k (a ++ be k n ++ c) o = Ok n.
Proof.
  intros -> L. unfold unpack_be. rewrite (sub_app_exact a (be k n) c) by (rewrite ?lenN_be; lia). rewrite lenN_be, N.eqb_refl. now rewrite unbe_be_small.
Qed.
Lemma table_numbers k l (pre : bytes) : Forall (fun n => n < 2 ^ (8 * N.of_nat k)) l -> table k (pre ++ numbers k l) (lenN l) (lenN pre) (N.of_nat k) = Ok l.
Proof.
  intros F. unfold table. rewrite entries_numbers by exact F. rewrite lenN_app. unfold numbers. rewrite (len_concat (be k) (N.of_nat k)) by (apply lenN_be).
  destruct (lenN l =? 0) eqn:E; [reflexivity|]. cbn [orb]. replace (_ <=? _) with true; [reflexivity|]. symmetry. apply N.leb_le. apply N.eqb_neq in E. nia.
Qed.

Definition some2 (x : N * N) : N * option N := (fst x, Some (snd x)).
Definition expand (l : list (N * N)) : list (N * option N) := stsc (map some2 l).

Lemma is_ty ty a : is_atom ty a = beqb (a_type a) ty. Proof. reflexivity. Qed.
Lemma add_offsets t o l a : offsets_box o l -> a_type a = fst o -> add_table t a (snd o) = Some (Ok (mkM (m_offsets t ++ l) (m_lengths t) (m_sizes t) (m_sig t) (m_length t))).
Proof.
  intros H Ty. unfold add_table, is_atom. rewrite Ty. destruct H as [v l Hv Hl F|v l Hv Hl F]; cbn [fst snd].
  - change (beqb (bstr "stco") (bstr "stco")) with true. cbv iota. rewrite unpack_be_at by (try lia; exact Hl). cbn [bind].
    rewrite app_assoc. pose proof (table_numbers 4 l (v ++ be 4 (lenN l)) F) as T. rewrite lenN_app, lenN_be, Hv in T. change (4 + N.of_nat 4) with 8 in T. change (N.of_nat 4) with 4 in T. change (N.of_nat 8) with 8 in T. rewrite T. reflexivity.
  - change (beqb (bstr "co64") (bstr "stco")) with false. change (beqb (bstr "co64") (bstr "co64")) with true. cbv iota. rewrite unpack_be_at by (try lia; exact Hl). cbn [bind].
    rewrite app_assoc. pose proof (table_numbers 8 l (v ++ be 4 (lenN l)) F) as T. rewrite lenN_app, lenN_be, Hv in T. change (4 + N.of_nat 4) with 8 in T. change (N.of_nat 4) with 4 in T. change (N.of_nat 8) with 8 in T. rewrite T. reflexivity.
Qed.
Lemma combine_map {A B C} (f : A -> B) (g : A -> C) l : combine (map f l) (map g l) = map (fun x => (f x, g x)) l.
Proof. induction l as [|x l IH]; [reflexivity|]. cbn. now rewrite IH. Qed.
Lemma len_entry e : lenN (entry e) = 12. Proof. unfold entry. now rewrite !lenN_app, !lenN_be. Qed.
Lemma add_chunks t c l a : chunks_box c l -> a_type a = fst c -> m_lengths t = [] ->
  add_table t a (snd c) = Some (Ok (mkM (m_offsets t) (expand l) (m_sizes t) (m_sig t) (m_length t))).
Proof.
  intros H Ty Hn. unfold add_table, is_atom. rewrite Ty. destruct H as [v l Hv Hl F]; cbn [fst snd].
  change (beqb (bstr "stsc") (bstr "stco")) with false. change (beqb (bstr "stsc") (bstr "co64")) with false.
  change (beqb (bstr "stsc") (bstr "stsc")) with true. cbv iota. rewrite unpack_be_at by (try lia; exact Hl). cbn [bind].
  unfold table. rewrite (proj2 (orb_true_iff _ _)).
  2:{ destruct (N.eq_dec (lenN l) 0) as [->|E]; [now left|]. right. apply N.leb_le. rewrite !lenN_app, lenN_be, (len_concat entry 12) by (apply len_entry). change (N.of_nat 4) with 4. change (N.of_nat 12) with 12. nia. }
  cbn [bind]. rewrite Hn. cbn [Datatypes.app]. rewrite lenN_length, Nnat.Nat2N.id.
  rewrite Forall_forall in F.
  pose proof (entries_are entry (fun e => fst (fst e)) 4 0 12 len_entry l (v ++ be 4 (lenN l)) []) as E1.
  pose proof (entries_are entry (fun e => snd (fst e)) 4 4 12 len_entry l (v ++ be 4 (lenN l)) []) as E2.
  rewrite app_nil_r, lenN_app, lenN_be, Hv, <- app_assoc in E1, E2. change (4 + N.of_nat 4 + 0) with 8 in E1. change (4 + N.of_nat 4 + 4) with 12 in E2.
  rewrite lenN_length in E1, E2. rewrite E1, E2.
  - rewrite combine_map, map_map. unfold expand. rewrite map_map. do 3 f_equal.
  - intros x Hx. split; [|now apply F]. unfold entry. rewrite sub_app_exact; try reflexivity; now rewrite !lenN_be.
  - vm_compute. discriminate.
  - intros x Hx. split; [|now apply F]. unfold entry. rewrite sub_0. apply takeN_app_exact. now rewrite lenN_be.
  - vm_compute. discriminate.
Qed.
Lemma add_sizes t z l a : sizes_box z l -> a_type a = fst z -> add_table t a (snd z) = Some (Ok (mkM (m_offsets t) (m_lengths t) (m_sizes t ++ l) (m_sig t) (m_length t))).
Proof.
  intros H Ty. unfold add_table, is_atom. rewrite Ty.
  replace (beqb (fst z) (bstr "stco")) with false by now destruct H. replace (beqb (fst z) (bstr "co64")) with false by now destruct H.
  replace (beqb (fst z) (bstr "stsc")) with false by now destruct H. replace (beqb (fst z) (bstr "stsz")) with true by now destruct H. cbn [orb].
  destruct H as [v l Hv Hl F|v s n Hv H0 Hs Hl]; cbn [fst snd].
  - rewrite unpack_be_at by (try lia; reflexivity). cbn [bind].
    rewrite (app_assoc v). rewrite unpack_be_at by (rewrite ?lenN_app, ?lenN_be; try lia; exact Hl). cbn [bind].
    rewrite N.eqb_refl, app_assoc. pose proof (table_numbers 4 l ((v ++ be 4 0) ++ be 4 (lenN l)) F) as T.
    rewrite !lenN_app, !lenN_be, Hv in T. change (4 + N.of_nat 4 + N.of_nat 4) with 12 in T. change (N.of_nat 4) with 4 in T. rewrite T. reflexivity.
  - rewrite unpack_be_at by (try lia; exact Hs). cbn [bind].
    rewrite (app_assoc v), <- (app_nil_r (be 4 n)). rewrite unpack_be_at by (rewrite ?lenN_app, ?lenN_be; try lia; exact Hl). cbn [bind].
    replace (s =? 0) with false by lia. reflexivity.
Qed.
(** other boxes have no table *)
Lemma add_none t a d : existsb (beqb (a_type a)) [bstr "stco"; bstr "co64"; bstr "stsc"; bstr "stsz"; bstr "stz2"] = false -> add_table t a d = None.
Proof.
  cbn [existsb]. rewrite !orb_false_iff. intros (A & B & C & D & E & _). unfold add_table, is_atom. now rewrite A, B, C, D, E.
Qed.

(** ** The expanded table *)
Definition val (old : list (N * option N)) (prev : option N) (c : N) : option N :=
  fold_left (fun v e => if fst e <=? c then snd e else v) old prev.
Definition look (l : list (N * option N)) (i : nat) (prev : option N) : option N :=
  match nth_error l i with Some x => snd x | None => match rev l with [] => prev | x :: _ => snd x end end.
Lemma fill_nth n : forall index prev i, nth_error (stsc_fill n index prev) i = if (i <? n)%nat then Some (index + N.of_nat i, prev) else None.
Proof.
  induction n as [|n IH]; intros index prev i; [now destruct i|]. destruct i as [|i]; cbn [stsc_fill nth_error].
  - now rewrite N.add_0_r.
  - rewrite IH. change (S i <? S n)%nat with (i <? n)%nat. destruct (i <? n)%nat; [|reflexivity]. do 2 f_equal. lia.
Qed.
Lemma fill_len n index prev : length (stsc_fill n index prev) = n.
Proof. revert index. induction n as [|n IH]; intros index; [reflexivity|]. cbn. now rewrite IH. Qed.
Lemma look_app a l i prev : look (a ++ l) (length a + i) prev = match l with [] => match rev a with [] => prev | x :: _ => snd x end | _ => look l i prev end.
Proof.
  unfold look. rewrite nth_error_app2 by lia. replace (length a + i - length a)%nat with i by lia. rewrite rev_app_distr.
  destruct l as [|x l].
  - destruct i; reflexivity.
  - destruct (nth_error (x :: l) i); [reflexivity|]. destruct (rev (x :: l)) eqn:E; [|reflexivity]. apply (f_equal (@length _)) in E. rewrite rev_length in E. discriminate.
Qed.
Fixpoint rising (old : list (N * option N)) (index : N) : Prop :=
  match old with [] => True | (f, _) :: old => index <= f /\ rising old (f + 1) end.
Lemma val_low old : forall prev c index, rising old index -> c < index -> val old prev c = prev.
Proof.
  induction old as [|(f, s) old IH]; intros prev c index H L; [reflexivity|]. destruct H as (H & R). unfold val. cbn [fold_left fst snd].
  replace (f <=? c) with false by lia. apply (IH prev c (f + 1) R). lia.
Qed.
Lemma look_stsc old : forall index prev c, rising old index -> index <= c ->
  look (stsc_loop old index prev) (N.to_nat (c - index)) prev = val old prev c.
Proof.
  induction old as [|(f, s) old IH]; intros index prev c H L.
  - unfold look. cbn. now destruct (N.to_nat (c - index)).
  - destruct H as (H & R). cbn [stsc_loop]. set (fi := if index <? f then stsc_fill _ _ _ else []).
    assert (Lf : length fi = N.to_nat (f - index)). { unfold fi. destruct (index <? f) eqn:E; [apply fill_len|]. cbn. lia. }
    replace (if index <? f then f else index) with f by (destruct (index <? f) eqn:E; lia).
    unfold val. cbn [fold_left fst snd]. destruct (f <=? c) eqn:E.
    + replace (N.to_nat (c - index)) with (length fi + N.to_nat (c - f))%nat by lia. rewrite look_app.
      destruct (N.eq_dec c f) as [->|Ne].
      * replace (N.to_nat (f - f)) with O by lia. unfold look. cbn [nth_error snd]. symmetry. apply (val_low old s f (f + 1) R). lia.
      * specialize (IH (f + 1) s c R ltac:(lia)). change (fold_left _ old s) with (val old s c). rewrite <- IH.
        replace (N.to_nat (c - f)) with (S (N.to_nat (c - (f + 1)))) by lia. unfold look. cbn [nth_error].
        destruct (nth_error (stsc_loop old (f + 1) s) _) eqn:En; [reflexivity|]. cbn [rev].
        destruct (rev (stsc_loop old (f + 1) s)); reflexivity.
    + change (fold_left _ old prev) with (val old prev c). rewrite (val_low old prev c (f + 1) R) by lia.
      unfold look. rewrite nth_error_app1 by lia. unfold fi. replace (index <? f) with true by lia. rewrite fill_nth.
      replace (_ <? _)%nat with true by (symmetry; apply Nat.ltb_lt; lia). reflexivity.
Qed.
Lemma rising_of l : forall index, increasing l -> (forall f n, In (f, n) l -> index <= f) -> rising (map some2 l) index.
Proof.
  induction l as [|(f, n) l IH]; intros index H Hi; [exact I|]. destruct H as (H & R). cbn. split; [apply (Hi f n); now left|].
  apply IH; [exact R|]. intros f' n' Hin. specialize (H f' n' Hin). lia.
Qed.
Lemma val_in l : forall prev c n, increasing l -> in_table l c n -> val (map some2 l) prev c = Some n.
Proof.
  induction l as [|(f, m) l IH]; intros prev c n H (f0 & Hin & Hle & Hmax); [destruct Hin|]. destruct H as (H & R).
  unfold val. cbn [map fold_left]. change (fst (some2 (f, m))) with f. change (snd (some2 (f, m))) with (Some m). change (fold_left _ (map some2 l) ?x) with (val (map some2 l) x c).
  assert (Hlow : forall p, (forall f' n', In (f', n') l -> c < f') -> val (map some2 l) p c = p).
  { intros p Hp. apply (val_low _ p c (c + 1)); [|lia]. apply rising_of; [exact R|]. intros f' n' Hi. specialize (Hp f' n' Hi). lia. }
  destruct Hin as [E|Hin].
  - injection E as -> ->. replace (f0 <=? c) with true by lia. apply Hlow. intros f' n' Hi.
    destruct (N.le_gt_cases f' c) as [L|L]; [|exact L]. pose proof (Hmax f' n' (or_intror Hi) L). specialize (H f' n' Hi). lia.
  - apply IH; [exact R|]. exists f0. repeat split; [exact Hin|exact Hle|]. intros f' n' Hi. apply (Hmax f' n'). now right.
Qed.
Lemma stsc_nil l : stsc_loop l 1 None = [] -> l = [].
Proof. destruct l as [|(f, s) l]; [reflexivity|]. cbn [stsc_loop]. intros H. apply app_eq_nil in H as (_ & H). discriminate. Qed.
Lemma look_samples l i : l <> [] -> samples_in l i = match look l i None with Some n => Ok n | None => Err TypeError end.
Proof.
  intros H. unfold samples_in, look, last_length. destruct (nth_error l i) as [x|] eqn:E; [reflexivity|].
  destruct (rev l) as [|x r] eqn:R; [|reflexivity]. apply (f_equal (@rev _)) in R. rewrite rev_involutive in R. now destruct H.
Qed.
Theorem table_right l c n : increasing l -> (forall f m, In (f, m) l -> 1 <= f) -> 1 <= c -> in_table l c n ->
  samples_in (expand l) (N.to_nat (c - 1)) = Ok n.
Proof.
  intros I H1 L T. rewrite look_samples.
  - unfold expand, stsc. rewrite look_stsc; [|apply rising_of; assumption|exact L]. now rewrite (val_in l None c n I T).
  - intros E. apply stsc_nil in E. destruct l; [|discriminate]. destruct T as (f & [] & _).
Qed.
(** a chunk before the first entry *)
Theorem table_before l c : increasing l -> l <> [] -> (forall f m, In (f, m) l -> c < f) -> 1 <= c ->
  samples_in (expand l) (N.to_nat (c - 1)) = Err TypeError.
Proof.
  intros I Hl H1 L. rewrite look_samples.
  - unfold expand, stsc. rewrite look_stsc; [|apply rising_of; [exact I|]; intros f n Hin; specialize (H1 f n Hin); lia|exact L].
    rewrite (val_low _ None c (c + 1)); [reflexivity| |lia]. apply rising_of; [exact I|]. intros f n Hin. specialize (H1 f n Hin). lia.
  - intros E. apply stsc_nil in E. apply Hl. now destruct l.
Qed.

(** ** Chunks *)
Definition shape (c : N * list bytes) : chunk := (fst c, map lenN (snd c)).
Definition sizes_of (l : list (N * list bytes)) : list N := map lenN (concat (map snd l)).
Lemma sum_len (l : list bytes) : sumN (map lenN l) = lenN (concat l).
Proof. induction l as [|x l IH]; [reflexivity|]. cbn [map concat sumN fold_right]. fold (sumN (map lenN l)). rewrite IH, lenN_app. reflexivity. Qed.
Lemma chunks_loop_are tbl sig len l : forall pre all, increasing tbl -> (forall f m, In (f, m) tbl -> 1 <= f) ->
  (forall i o ds, nth_error (pre ++ l) i = Some (o, ds) -> in_table tbl (1 + N.of_nat i) (lenN ds)) -> all = sizes_of (pre ++ l) ->
  chunks_loop (mkM (map fst (pre ++ l)) (expand tbl) all sig len) (map fst l) (length pre) (lenN (sizes_of pre)) = Ok (map shape l).
Proof.
  induction l as [|(o, ds) l IH]; intros pre all I H1 T E; [reflexivity|]. cbn [map chunks_loop fst].
  assert (S : samples_in (expand tbl) (length pre) = Ok (lenN ds)).
  { specialize (T (length pre) o ds). rewrite nth_error_app2, Nat.sub_diag in T by lia. specialize (T eq_refl).
    pose proof (table_right tbl (1 + N.of_nat (length pre)) _ I H1 ltac:(lia) T) as X. replace (N.to_nat _) with (length pre) in X by lia. exact X. }
  cbn [m_lengths m_sizes]. rewrite S. cbn [bind].
  specialize (IH (pre ++ [(o, ds)]) all I H1). rewrite <- app_assoc in IH. specialize (IH T E).
  rewrite app_length, Nat.add_1_r in IH. replace (lenN (sizes_of (pre ++ [(o, ds)]))) with (lenN (sizes_of pre) + lenN ds) in IH.
  2:{ unfold sizes_of. rewrite map_app, concat_app, map_app, lenN_app. cbn [map concat snd]. rewrite app_nil_r. f_equal. symmetry. apply lenN_map. }
  cbn [Datatypes.app] in IH. rewrite IH. cbn [bind]. f_equal. f_equal. unfold shape. cbn [fst snd]. f_equal. rewrite E. unfold sizes_of.
  rewrite map_app, concat_app, map_app. cbn [map concat snd]. rewrite map_app. rewrite (dropN_app_exact (map lenN (concat (map snd pre)))) by reflexivity.
  apply takeN_app_exact. now rewrite lenN_map.
Qed.
Lemma chunks_are t sig len : counted t -> mp4_chunks (mkM (map fst (v_chunks t)) (expand (v_table t)) (map lenN (v_samples t)) sig len) = Ok (map shape (v_chunks t)).
Proof.
  intros (I & H1 & T). unfold mp4_chunks. cbn [m_offsets]. apply (chunks_loop_are (v_table t) sig len (v_chunks t) [] _ I H1 T). reflexivity.
Qed.

(** ** Reading *)
Definition flat (l : list (N * list bytes)) : bytes := concat (concat (map snd l)).
Definition at_place (f : bytes) (c : N * list bytes) : Prop := sub (fst c) (lenN (concat (snd c))) f = concat (snd c).
Lemma occurs_place f o ds : occurs (concat ds) f o -> at_place f (o, ds).
Proof. intros (a & b & E & L). unfold at_place. cbn [fst snd]. rewrite E. apply sub_app_exact; [now symmetry|reflexivity]. Qed.
Lemma at_part f o ds1 ds2 n : at_place f (o, ds1 ++ ds2) -> n <= lenN (concat ds2) -> sub (o + lenN (concat ds1)) n f = takeN n (concat ds2).
Proof.
  unfold at_place. cbn [fst snd]. intros H L. rewrite concat_app in H. pose proof (f_equal (dropN (lenN (concat ds1))) H) as D.
  rewrite (dropN_app_exact (concat ds1)) in D by reflexivity. rewrite <- D. unfold sub. rewrite dropN_takeN, takeN_takeN, dropN_dropN.
  rewrite lenN_app. f_equal; [lia|]. f_equal. lia.
Qed.
Lemma flat_cons c l : flat (c :: l) = concat (snd c) ++ flat l.
Proof. unfold flat. cbn [map concat]. apply concat_app. Qed.
Lemma more_is f l : forall first amount, Forall (at_place f) l -> lenN first <= amount ->
  ts_more f first amount (map shape l) = takeN amount (first ++ flat l).
Proof.
  induction l as [|(o, ds) l IH]; intros first amount H L; cbn [map ts_more].
  - unfold flat. cbn. rewrite app_nil_r, takeN_all by exact L. now destruct (_ <? _).
  - inversion H as [|? ? Hc Hl]; subst. change (shape (o, ds)) with ((o, map lenN ds) : chunk). cbv beta iota. destruct (lenN first <? amount) eqn:E.
    + rewrite sum_len. pose proof (at_part f o [] ds (N.min (amount - lenN first) (lenN (concat ds))) Hc ltac:(lia)) as A.
      cbn [concat] in A. change (lenN []) with 0 in A. rewrite N.add_0_r in A. rewrite A. rewrite IH; [|exact Hl|rewrite lenN_app, lenN_takeN; lia].
      rewrite flat_cons. cbn [snd]. rewrite <- app_assoc. rewrite !takeN_app. f_equal. rewrite lenN_takeN, takeN_takeN.
      destruct (N.le_gt_cases (amount - lenN first) (lenN (concat ds))) as [G|G].
      * f_equal; [f_equal; lia|]. f_equal. lia.
      * rewrite !takeN_all by lia. f_equal; [symmetry; apply takeN_all; lia|f_equal; lia].
    + replace amount with (lenN first) by lia. symmetry. now apply takeN_app_exact.
Qed.
Lemma read_is f o ds1 ds2 l amount : at_place f (o, ds1 ++ ds2) -> Forall (at_place f) l ->
  ts_read f (o + lenN (concat ds1)) (lenN ds1) (shape (o, ds1 ++ ds2)) (map shape l) amount = takeN amount (concat ds2 ++ flat l).
Proof.
  intros H F. unfold ts_read. change (snd (shape (o, ds1 ++ ds2))) with (map lenN (ds1 ++ ds2)). rewrite map_app, dropN_app_exact by (now rewrite lenN_map). rewrite sum_len.
  destruct (amount <? lenN (concat ds2)) eqn:E.
  - rewrite (at_part f o ds1 ds2 amount H) by lia. symmetry. apply takeN_app_le. lia.
  - rewrite (at_part f o ds1 ds2 _ H) by lia. rewrite takeN_all by lia. apply more_is; [exact F|lia].
Qed.

(** ** Finding *)
Lemma occurs_places f t : inside f t -> Forall (at_place f) (v_chunks t).
Proof. intros H. apply Forall_forall. intros (o, ds) Hin. apply occurs_place. now apply H. Qed.
Lemma starts_take (sig d : bytes) : starts sig d <-> takeN (lenN sig) d = sig.
Proof.
  split.
  - intros (r & ->). now apply takeN_app_exact.
  - intros E. exists (dropN (lenN sig) d). rewrite <- E at 1. symmetry. apply takeN_dropN.
Qed.
Definition all_samples (l : list (N * list bytes)) : list bytes := concat (map snd l).
Lemma weight_cons o e l : fold_right (fun c n => (1 + length (snd c) + n)%nat) 1%nat (map shape ((o, e) :: l)) =
  (1 + length e + fold_right (fun c n => (1 + length (snd c) + n)%nat) 1%nat (map shape l))%nat.
Proof. cbn [map fold_right]. change (snd (shape (o, e))) with (map lenN e). now rewrite map_length. Qed.
Lemma find_walk f sig all more fuel : forall o ds1 ds2 l pre post,
  at_place f (o, ds1 ++ ds2) -> Forall (at_place f) l ->
  (length ds2 + fold_right (fun c n => (1 + length (snd c) + n)%nat) 1%nat (map shape l) <= fuel)%nat ->
  ds2 ++ all_samples l = pre ++ post -> starts sig (concat post) ->
  (forall pre' post', ds2 ++ all_samples l = pre' ++ post' -> lenN (concat pre') < lenN (concat pre) -> ~ starts sig (concat post')) ->
  exists o' c1 o1 e1 e2 c2, find_loop fuel f sig all more (o + lenN (concat ds1)) (lenN ds1) (shape (o, ds1 ++ ds2)) (map shape l) = Ok (Some o') /\
    (o, ds1 ++ ds2) :: l = c1 ++ (o1, e1 ++ e2) :: c2 /\ o' = o1 + lenN (concat e1) /\ concat e2 ++ flat c2 = concat post.
Proof.
  induction fuel as [|fuel IH]; intros o ds1 ds2 l pre post Hc Hl Hf E Hs Hm.
  { assert (X : forall l, (1 <= fold_right (fun c n => (1 + length (snd c) + n)%nat) 1%nat (map shape l))%nat) by (intros k; induction k; cbn; lia). specialize (X l). lia. }
  cbn [find_loop]. rewrite read_is by assumption. destruct (beqb _ sig) eqn:B.
  - apply beqb_eq in B. exists (o + lenN (concat ds1)), [], o, ds1, ds2, l. repeat split.
    assert (Z : lenN (concat pre) = 0).
    { destruct (N.eq_dec (lenN (concat pre)) 0) as [Z|Z]; [exact Z|]. exfalso. apply (Hm [] _ eq_refl); [change (lenN (concat [])) with 0; lia|].
      apply starts_take. unfold all_samples. rewrite concat_app. exact B. }
    apply lenN_0 in Z. apply (f_equal (@concat _)) in E. rewrite !concat_app, Z in E. exact E.
  - assert (Hns : ~ starts sig (concat (ds2 ++ all_samples l))).
    { intros X. apply starts_take in X. rewrite concat_app in X. apply beqb_eq in X. unfold flat, all_samples in *. congruence. }
    destruct pre as [|x pre]; [now rewrite E in Hns|].
    change (snd (shape (o, ds1 ++ ds2))) with (map lenN (ds1 ++ ds2)). rewrite lenN_map, lenN_app. change (@lenN (list byte)) with (@lenN bytes).
    assert (Next : forall l' o2 e2 p, l = (o2, e2) :: l' -> e2 ++ all_samples l' = p ++ post ->
      (forall pre' post', e2 ++ all_samples l' = pre' ++ post' -> lenN (concat pre') < lenN (concat p) -> ~ starts sig (concat post')) ->
      exists o' c1 o1 e1 e3 c2, find_loop fuel f sig all more (fst (shape (o2, e2))) 0 (shape (o2, e2)) (map shape l') = Ok (Some o') /\
        (o, ds1 ++ ds2) :: l = c1 ++ (o1, e1 ++ e3) :: c2 /\ o' = o1 + lenN (concat e1) /\ concat e3 ++ flat c2 = concat post).
    { intros l' o2 e2 p -> E' Hm'. inversion Hl as [|? ? Hc2 Hl2]; subst.
      destruct (IH o2 [] e2 l' p post) as (o' & c1 & o1 & e1 & e3 & c2 & F & D & O & R); try assumption.
      { rewrite weight_cons in Hf. lia. }
      exists o', ((o, ds1 ++ ds2) :: c1), o1, e1, e3, c2. cbn [concat Datatypes.app] in F. change (lenN (@nil byte)) with 0 in F. change (lenN (@nil bytes)) with 0 in F. rewrite N.add_0_r in F.
      repeat split; try assumption. cbn [Datatypes.app] in D |- *. now rewrite <- D. }
    destruct ds2 as [|d ds2].
    + change (lenN []) with 0. match goal with |- context [if ?a <? ?b then _ else _] => replace (a <? b) with false by lia end.
      destruct l as [|(o2, e2) l']; [discriminate E|]. cbn [map]. apply (Next l' o2 e2 (x :: pre) eq_refl); assumption.
    + injection E as <- E. rewrite lenN_cons. destruct ds2 as [|d2 ds2].
      * change (lenN []) with 0. match goal with |- context [if ?a <? ?b then _ else _] => replace (a <? b) with false by lia end. cbn [Datatypes.app] in E. destruct l as [|(o2, e2) l'].
        { exfalso. symmetry in E. apply app_eq_nil in E as (-> & ->). apply Hns. apply starts_take in Hs. cbn [concat] in Hs. rewrite <- Hs. now exists (concat ([d] ++ [])). }
        cbn [map]. apply (Next l' o2 e2 pre eq_refl); [exact E|]. intros pre' post' E' L. apply (Hm (d :: pre') post').
        { cbn [Datatypes.app]. unfold all_samples in *. cbn [map concat snd] in *. now rewrite E'. }
        { cbn [concat]. rewrite !lenN_app. lia. }
      * rewrite lenN_cons. match goal with |- context [if ?a <? ?b then _ else _] => replace (a <? b) with true by lia end.
        destruct (IH o (ds1 ++ [d]) (d2 :: ds2) l pre post) as (o' & c1 & o1 & e1 & e3 & c2 & F & D & O & R).
        { now rewrite <- app_assoc. } { exact Hl. } { cbn [length] in Hf |- *. lia. } { exact E. } { exact Hs. }
        { intros pre' post' E' L. apply (Hm (d :: pre') post'); [cbn [Datatypes.app] in E' |- *; now rewrite E'|]. cbn [concat]. rewrite !lenN_app. lia. }
        exists o', c1, o1, e1, e3, c2. rewrite <- app_assoc in F, D. cbn [Datatypes.app] in F, D. rewrite lenN_app, concat_app, lenN_app in F.
        change (lenN [d]) with 1 in F. cbn [concat] in F. rewrite app_nil_r in F. repeat split; try assumption. rewrite <- F.
        change (fst (shape (o, ds1 ++ d :: d2 :: ds2))) with o. f_equal. f_equal.
        change (ds1 ++ d :: d2 :: ds2) with (ds1 ++ [d] ++ d2 :: ds2). rewrite app_assoc, map_app, takeN_app_exact.
        { rewrite sum_len, concat_app, lenN_app. cbn [concat]. now rewrite app_nil_r. }
        { rewrite lenN_map, lenN_app. reflexivity. }
Qed.
Lemma find_first f t m : Forall (at_place f) (v_chunks m) -> v_chunks m <> [] -> first_held t m ->
  exists o post, mp4_find_stream f (takeN 256 (v_data t)) (map shape (v_chunks m)) = Ok (Some o) /\ from_offset m o post /\ starts (v_data t) (concat post).
Proof.
  intros H Hn (pre & post & E & Hs & Hm). unfold from_offset, v_samples in *. destruct (v_chunks m) as [|(o, ds) l] eqn:C; [now destruct Hn|].
  inversion H as [|? ? Hc Hl]; subst. destruct (find_walk f (takeN 256 (v_data t)) (shape (o, ds)) (map shape l)
    (fold_right (fun c n => (1 + length (snd c) + n)%nat) 1%nat (map shape ((o, ds) :: l))) o [] ds l pre post) as (o' & c1 & o1 & e1 & e2 & c2 & F & D & O & R).
  - exact Hc.
  - exact Hl.
  - rewrite weight_cons. lia.
  - exact E.
  - destruct Hs as (r & ->). exists (dropN 256 (v_data t) ++ r). now rewrite app_assoc, takeN_dropN.
  - exact Hm.
  - exists o', (e2 ++ all_samples c2). split; [|split].
    + unfold mp4_find_stream. cbn [map] in F |- *. cbn [concat Datatypes.app] in F. change (lenN (@nil byte)) with 0 in F. change (lenN (@nil bytes)) with 0 in F. rewrite N.add_0_r in F. exact F.
    + exists c1, o1, e1, e2, c2. now repeat split.
    + rewrite concat_app. unfold flat in R. unfold all_samples. now rewrite R.
Qed.

(** ** Seeking *)
Lemma seek_last off c c2 : fst (shape c) <= off -> (forall x, In x c2 -> off < fst x) ->
  forall c1 found, seek_chunk off (map shape (c1 ++ c :: c2)) found = Some (shape c, map shape c2).
Proof.
  intros L H. induction c1 as [|x c1 IH]; intros found; cbn [Datatypes.app map seek_chunk]; [|apply IH].
  replace (fst (shape c) <=? off) with true by lia. generalize (Some (shape c, map shape c2)). induction c2 as [|y c2 IH]; intros r; [reflexivity|].
  cbn [map seek_chunk]. replace (fst (shape y) <=? off) with false; [|symmetry; apply N.leb_gt; apply (H y); now left]. apply IH. intros x Hx. apply H. now right.
Qed.
Lemma sample_at (e1 : list bytes) : forall (e2 : list bytes) at_ count, exists g1 g2 : list bytes, sample_nb (at_ + lenN (concat e1)) at_ count (map lenN (e1 ++ e2)) = Ok (count + lenN g1) /\
  e1 ++ e2 = g1 ++ g2 /\ lenN (concat g1) = lenN (concat e1).
Proof.
  induction e1 as [|x e1 IH]; intros e2 at_ count.
  - exists [], e2. cbn [concat Datatypes.app]. change (lenN (@nil byte)) with 0. change (lenN (@nil bytes)) with 0. repeat split. rewrite !N.add_0_r.
    destruct e2 as [|y e2]; [reflexivity|]. cbn [map sample_nb]. now rewrite N.leb_refl, N.eqb_refl.
  - cbn [concat Datatypes.app map sample_nb]. rewrite lenN_app. destruct (_ <=? at_) eqn:E.
    + replace (_ =? at_) with true by lia. exists [], (x :: e1 ++ e2). change (lenN (@nil bytes)) with 0. rewrite N.add_0_r. repeat split. cbn [concat]. change (lenN (@nil byte)) with 0. lia.
    + destruct (IH e2 (at_ + lenN x) (count + 1)) as (g1 & g2 & S & D & L). exists (x :: g1), g2. rewrite N.add_assoc, S, lenN_cons. cbn [Datatypes.app concat]. rewrite D, lenN_app, L.
      repeat split. f_equal. lia.
Qed.
Lemma same_rest (g1 g2 e1 e2 : list bytes) : e1 ++ e2 = g1 ++ g2 -> lenN (concat g1) = lenN (concat e1) -> concat g2 = concat e2.
Proof.
  intros E L. apply (f_equal (fun l => dropN (lenN (concat e1)) (concat l))) in E. rewrite !concat_app in E.
  rewrite (dropN_app_exact (concat e1)), (dropN_app_exact (concat g1)) in E by congruence. now symmetry.
Qed.
Lemma seek_read f c2 : forall c1 o1 e1 e2, in_order ((o1, e1 ++ e2) :: c2) -> at_place f (o1, e1 ++ e2) -> Forall (at_place f) c2 ->
  exists c rest n, seek_chunk (o1 + lenN (concat e1)) (map shape (c1 ++ (o1, e1 ++ e2) :: c2)) None = Some (c, rest) /\
  sample_nb (o1 + lenN (concat e1)) (fst c) 0 (snd c) = Ok n /\
  forall amount, ts_read f (o1 + lenN (concat e1)) n c rest amount = takeN amount (concat e2 ++ flat c2).
Proof.
  induction c2 as [|(o2, ds) c2 IH]; intros c1 o1 e1 e2 Ho Hc Hl.
  - rewrite seek_last; [|cbn; lia|intros ? []]. destruct (sample_at e1 e2 o1 0) as (g1 & g2 & S & D & L).
    exists (shape (o1, e1 ++ e2)), (map shape []), (lenN g1). repeat split; [exact S|]. intros amount. rewrite <- L, D, read_is; [|now rewrite <- D|exact Hl].
    now rewrite (same_rest g1 g2 e1 e2 D L).
  - destruct Ho as (H0 & Hn & Ho). inversion Hl as [|? ? Hc2 Hl2]; subst. pose proof (Hn o2 ds (or_introl eq_refl)) as N2. rewrite concat_app, lenN_app in N2.
    destruct (N.le_gt_cases o2 (o1 + lenN (concat e1))) as [G|G].
    + assert (Z : lenN (concat e2) = 0) by lia. assert (O : o1 + lenN (concat e1) = o2) by lia.
      destruct (IH (c1 ++ [(o1, e1 ++ e2)]) o2 [] ds Ho Hc2 Hl2) as (c & rest & n & K & S & R). cbn [concat Datatypes.app] in K, S, R.
      change (lenN []) with 0 in K, S, R. rewrite N.add_0_r in K, S, R. rewrite <- app_assoc in K. cbn [Datatypes.app] in K. rewrite O.
      exists c, rest, n. repeat split; [exact K|exact S|]. intros amount. rewrite R, (lenN_0 _ Z), flat_cons. reflexivity.
    + rewrite seek_last; [|cbn; lia|].
      2:{ intros (o3, e3) [E|Hin]; [injection E as <- <-; exact G|]. destruct Ho as (_ & Hn2 & _). specialize (Hn2 o3 e3 Hin). cbn [fst]. lia. }
      destruct (sample_at e1 e2 o1 0) as (g1 & g2 & S & D & L).
      exists (shape (o1, e1 ++ e2)), (map shape ((o2, ds) :: c2)), (lenN g1). repeat split; [exact S|]. intros amount. rewrite <- L, D, read_is; [|now rewrite <- D|exact Hl].
      now rewrite (same_rest g1 g2 e1 e2 D L).
Qed.
Lemma in_order_app c1 c2 : in_order (c1 ++ c2) -> in_order c2.
Proof. induction c1 as [|(o, ds) c1 IH]; intros H; [exact H|]. apply IH. now destruct H as (_ & _ & H). Qed.
Lemma extract_at f m t o post sig len : counted m -> inside f m -> in_order (v_chunks m) -> from_offset m o post -> t_offset t = Z.of_N o ->
  mp4_extract_stream f t (mkM (map fst (v_chunks m)) (expand (v_table m)) (map lenN (v_samples m)) sig len) =
  Ok (mkTrack (t_td t) (t_offset t) (t_match t) (Some (takeN (td_length (t_td t)) (concat post))) (t_print t)).
Proof.
  intros Hc Hi Ho (c1 & o1 & e1 & e2 & c2 & C & -> & ->) T. unfold mp4_extract_stream. rewrite chunks_are by exact Hc. cbn [bind].
  rewrite T. replace (_ <? 0)%Z with false by lia. cbv zeta. rewrite N2Z.id, C. pose proof (occurs_places f m Hi) as P. rewrite C in P.
  apply Forall_app in P as (_ & P). inversion P as [|? ? P1 P2]; subst. rewrite C in Ho. apply in_order_app in Ho.
  destruct (seek_read f c2 c1 o1 e1 e2 Ho P1 P2) as (c & rest & n & K & S & R). rewrite K, S. cbn [bind]. rewrite R, concat_app. reflexivity.
Qed.

(** ** The signature *)
Lemma sig_loop_is f tbl all len l : forall pre sig s0, increasing tbl -> (forall f m, In (f, m) tbl -> 1 <= f) ->
  (forall i o ds, nth_error (pre ++ l) i = Some (o, ds) -> in_table tbl (1 + N.of_nat i) (lenN ds)) -> all = sizes_of (pre ++ l) -> Forall (at_place f) l ->
  lenN sig < 256 ->
  sig_loop f (mkM (map fst (pre ++ l)) (expand tbl) all s0 len) (map fst l) (length pre) (lenN (sizes_of pre)) sig = Ok (takeN 256 (sig ++ flat l)).
Proof.
  induction l as [|(o, ds) l IH]; intros pre sig s0 I H1 T E P L.
  { cbn. unfold flat. cbn. rewrite app_nil_r, takeN_all by lia. reflexivity. }
  cbn [map sig_loop fst]. inversion P as [|? ? Pc Pl]; subst.
  assert (S : samples_in (expand tbl) (length pre) = Ok (lenN ds)).
  { specialize (T (length pre) o ds). rewrite nth_error_app2, Nat.sub_diag in T by lia. specialize (T eq_refl).
    pose proof (table_right tbl (1 + N.of_nat (length pre)) _ I H1 ltac:(lia) T) as X. replace (N.to_nat _) with (length pre) in X by lia. exact X. }
  cbn [m_lengths m_sizes]. rewrite S. cbn [bind].
  assert (Z : takeN (lenN ds) (dropN (lenN (sizes_of pre)) (sizes_of (pre ++ (o, ds) :: l))) = map lenN ds).
  { unfold sizes_of. rewrite map_app, concat_app, map_app. cbn [map concat snd]. rewrite map_app. rewrite (dropN_app_exact (map lenN (concat (map snd pre)))) by reflexivity.
    apply takeN_app_exact. now rewrite lenN_map. }
  rewrite Z, sum_len. pose proof Pc as Pc'. unfold at_place in Pc'. cbn [fst snd] in Pc'. rewrite Pc'. unfold SIG_SIZE.
  replace (N.min 256 (lenN sig + lenN (concat ds)) - lenN sig) with (N.min (256 - lenN sig) (lenN (concat ds))) by lia.
  rewrite flat_cons. cbn [snd].
  assert (Q : takeN (N.min (256 - lenN sig) (lenN (concat ds))) (concat ds) = takeN (256 - lenN sig) (concat ds)).
  { destruct (N.le_gt_cases (256 - lenN sig) (lenN (concat ds))); [f_equal; lia|]. rewrite !takeN_all by lia. reflexivity. }
  rewrite Q. rewrite lenN_app, lenN_takeN. destruct (_ =? 256) eqn:B.
  - f_equal. rewrite (takeN_app 256 sig), (takeN_all 256 sig) by lia. f_equal. symmetry. apply takeN_app_le. lia.
  - replace (takeN (256 - lenN sig) (concat ds)) with (concat ds) by (symmetry; apply takeN_all; lia).
    specialize (IH (pre ++ [(o, ds)]) (sig ++ concat ds) s0 I H1). rewrite <- !app_assoc in IH. cbn [Datatypes.app] in IH. specialize (IH T eq_refl Pl).
    rewrite app_length, Nat.add_1_r in IH. replace (lenN (sizes_of (pre ++ [(o, ds)]))) with (lenN (sizes_of pre) + lenN ds) in IH.
    2:{ unfold sizes_of. rewrite map_app, concat_app, map_app, lenN_app. cbn [map concat snd]. rewrite app_nil_r. f_equal. symmetry. apply lenN_map. }
    apply IH. rewrite lenN_app. lia.
Qed.
Lemma signature_is f t s0 len : counted t -> inside f t ->
  mp4_signature f (mkM (map fst (v_chunks t)) (expand (v_table t)) (map lenN (v_samples t)) s0 len) = Ok (takeN 256 (v_data t)).
Proof.
  intros (I & H1 & T) Hi. unfold mp4_signature. cbn [m_offsets].
  apply (sig_loop_is f (v_table t) (sizes_of (v_chunks t)) len (v_chunks t) [] [] s0 I H1 T eq_refl (occurs_places f t Hi)). reflexivity.
Qed.
