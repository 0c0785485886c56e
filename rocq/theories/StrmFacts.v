(** StrmFacts: stream samples. *)
From Verif Require Import Base BaseFacts SrrFacts Crc CrcFacts RecovFacts SrsRec SrsRecSpec SrsRecFacts Path Srs StrmSrs StrmSpec.

(** ** Occurrences *)
Definition occ (sig l : bytes) (o : N) : Prop := sub o (lenN sig) l = sig.
Lemma occ_len sig l o : sig <> [] -> occ sig l o -> o + lenN sig <= lenN l.
Proof.
  intros Hn H. unfold occ in H. apply (f_equal lenN) in H. rewrite lenN_sub in H. assert (lenN sig <> 0) by (intros X; now apply lenN_0 in X). lia.
Qed.
Lemma occurs_occ sig l o : sig <> [] -> occurs sig l o <-> occ sig l o.
Proof.
  intros Hn. split.
  - intros (a & b & -> & <-). unfold occ. now apply sub_app_exact.
  - intros H. pose proof (occ_len sig l o Hn H) as L. exists (takeN o l), (dropN (o + lenN sig) l). split; [|rewrite lenN_takeN; lia].
    rewrite <- H at 1. unfold sub. rewrite N.add_comm, <- dropN_dropN, takeN_dropN. symmetry. apply takeN_dropN.
Qed.
Lemma starts_spec (p l : bytes) : starts_with Byte.eqb p l = true <-> takeN (lenN p) l = p.
Proof.
  revert l. induction p as [|x p IH]; intros l.
  - cbn [starts_with lenN]. rewrite takeN_0. tauto.
  - destruct l as [|y l]; [split; discriminate|]. cbn [starts_with]. rewrite andb_true_iff, IH, beqb_spec', !takeN_firstn, !lenN_length. cbn [length]. rewrite !Nat2N.id. cbn [firstn].
    split; [intros [-> ->]; reflexivity|intros H; injection H; auto].
Qed.
Lemma sub_cons {A} o n (x : A) l : sub (N.succ o) n (x :: l) = sub o n l.
Proof. unfold sub. f_equal. rewrite !dropN_skipn, N2Nat.inj_succ. reflexivity. Qed.
Lemma find_spec sig l : match find_sub Byte.eqb sig l with
  | Some n => occ sig l n /\ forall m, m < n -> ~ occ sig l m
  | None => forall m, m <= lenN l -> ~ occ sig l m
  end.
Proof.
  induction l as [|x l IH]; cbn [find_sub]; destruct (starts_with Byte.eqb sig _) eqn:E.
  - apply starts_spec in E. split; [unfold occ; now rewrite sub_0|intros m Hm; lia].
  - intros m Hm X. unfold occ, sub in X. rewrite dropN_all in X by (cbn; lia). apply starts_spec in X. congruence.
  - apply starts_spec in E. split; [unfold occ; now rewrite sub_0|intros m Hm; lia].
  - destruct (find_sub Byte.eqb sig l) as [n|]; cbn [option_map].
    + destruct IH as [H1 H2]. split; [unfold occ; now rewrite sub_cons|]. intros m Hm X. destruct (N.eq_dec m 0) as [->|H0].
      * unfold occ in X. rewrite sub_0 in X. apply starts_spec in X. congruence.
      * replace m with (N.succ (m - 1)) in X by lia. unfold occ in X. rewrite sub_cons in X. apply (H2 (m - 1)); [lia|exact X].
    + intros m Hm X. destruct (N.eq_dec m 0) as [->|H0].
      * unfold occ in X. rewrite sub_0 in X. apply starts_spec in X. congruence.
      * replace m with (N.succ (m - 1)) in X by lia. unfold occ in X. rewrite sub_cons in X. rewrite lenN_cons in Hm. apply (IH (m - 1)); [lia|exact X].
Qed.
(** an occurrence in a part of the file *)
Lemma occ_part sig (a b c : bytes) o : lenN a <= o -> o + lenN sig <= lenN a + lenN b -> occ sig (a ++ b ++ c) o <-> occ sig b (o - lenN a).
Proof.
  intros H1 H2. unfold occ. rewrite sub_app_skip by exact H1. unfold sub. rewrite dropN_app.
  assert (E : takeN (lenN sig) (dropN (o - lenN a) b ++ dropN (o - lenN a - lenN b) c) = takeN (lenN sig) (dropN (o - lenN a) b)) by (apply takeN_app_le; rewrite lenN_dropN; lia).
  rewrite E. tauto.
Qed.
Lemma find_from_spec sig (b : bytes) start : start <= lenN b -> match find_from sig b start with
  | Some n => start <= n /\ occ sig b n /\ forall m, start <= m < n -> ~ occ sig b m
  | None => forall m, start <= m -> m <= lenN b -> ~ occ sig b m
  end.
Proof.
  intros Hs. unfold find_from. destruct (N.ltb_spec (lenN b) start); [lia|]. pose proof (find_spec sig (dropN start b)) as F.
  assert (T : forall m, occ sig (dropN start b) m <-> occ sig b (start + m)) by (intros m; unfold occ, sub; now rewrite dropN_dropN, N.add_comm).
  destruct (find_sub Byte.eqb sig (dropN start b)) as [n|]; cbn [option_map].
  - destruct F as [F1 F2]. split; [lia|]. split; [now apply T|]. intros m Hm X. apply (F2 (m - start)); [lia|]. apply T. now replace (start + (m - start)) with m by lia.
  - intros m H1 H2 X. rewrite lenN_dropN in F. apply (F (m - start)); [lia|]. apply T. now replace (start + (m - start)) with m by lia.
Qed.

(** ** The search *)
Lemma loop_spec sig : sig <> [] -> lenN sig <= RAMOUNT -> forall fuel q p x rest main tell, main = q ++ p ++ x ++ rest ->
  tell = lenN q + lenN p + lenN x -> (p = [] /\ q = [] \/ lenN p = RAMOUNT) -> (lenN x = RAMOUNT \/ rest = []) -> lenN x <= RAMOUNT ->
  (forall o, occ sig main o -> lenN q + lenN p < o + lenN sig) -> (length x + length rest < fuel)%nat ->
  exists r, search_loop fuel sig p x rest tell = Ok r /\
  ((exists o, r = Z.of_N o /\ occ sig main o /\ forall o', o' < o -> ~ occ sig main o') \/ (r = (-1)%Z /\ forall o, ~ occ sig main o)).
Proof.
  intros Hn Hsig. induction fuel as [|fuel IH]; intros q p x rest main tell -> -> Hp Hx Hxl Hno Hf; [lia|]. cbn [search_loop].
  destruct x as [|x0 x1].
  - exists (-1)%Z. split; [reflexivity|]. right. split; [reflexivity|]. destruct Hx as [Hx| ->]; [cbn in Hx; discriminate Hx|]. intros o Ho. specialize (Hno o Ho). apply occ_len in Ho; [|exact Hn]. rewrite !lenN_app in Ho. cbn [lenN] in *. lia.
  - set (x := x0 :: x1) in *. assert (Lx : 0 < lenN x) by (unfold x; rewrite lenN_cons; lia).
    assert (M : exists m, match p with [] => find_from sig x 0 | _ => find_from sig (p ++ x) (RAMOUNT - lenN sig) end = m /\
      match m with
      | Some n => occ sig (q ++ (p ++ x) ++ rest) (lenN q + n) /\ forall o, o < lenN q + n -> ~ occ sig (q ++ (p ++ x) ++ rest) o
      | None => forall o, occ sig (q ++ (p ++ x) ++ rest) o -> lenN q + lenN p + lenN x < o + lenN sig
      end).
    { eexists. split; [reflexivity|]. rewrite <- !app_assoc in *.
      assert (E : match p with [] => find_from sig x 0 | _ => find_from sig (p ++ x) (RAMOUNT - lenN sig) end = find_from sig (p ++ x) (match p with [] => 0 | _ => RAMOUNT - lenN sig end)) by (destruct p; reflexivity).
      rewrite E. clear E. set (start := match p with [] => 0 | _ => RAMOUNT - lenN sig end).
      assert (Hs : start <= lenN (p ++ x) /\ forall o, occ sig (q ++ p ++ x ++ rest) o -> lenN q + start <= o).
      { unfold start. destruct p as [|p0 p1]; [split; [lia|]; intros o Ho; destruct Hp as [[_ ->]|Hp]; [cbn [lenN]; lia|cbn in Hp; discriminate Hp]|].
        destruct Hp as [[Hp _]|Hp]; [discriminate Hp|]. split; [rewrite lenN_app, Hp; lia|]. intros o Ho. specialize (Hno o Ho). rewrite Hp in Hno. lia. }
      destruct Hs as [Hs1 Hs2]. pose proof (find_from_spec sig (p ++ x) start Hs1) as F. rewrite app_assoc in Hs2. 
      assert (P : forall o, lenN q <= o -> o + lenN sig <= lenN q + lenN p + lenN x -> occ sig (q ++ (p ++ x) ++ rest) o <-> occ sig (p ++ x) (o - lenN q)).
      { intros o A B. apply occ_part; [exact A|]. rewrite lenN_app. lia. }
      rewrite (app_assoc p x rest). rewrite <- (app_assoc q) in Hs2. rewrite (app_assoc p x rest) in Hs2.
      destruct (find_from sig (p ++ x) start) as [n|].
      - destruct F as (F1 & F2 & F3). pose proof (occ_len _ _ _ Hn F2) as F4. rewrite lenN_app in F4. split.
        + apply P; [lia|lia|]. now replace (lenN q + n - lenN q) with n by lia.
        + intros o Ho X. pose proof (Hs2 o X) as S. apply P in X; [|lia|lia]. apply (F3 (o - lenN q)); [lia|exact X].
      - intros o X. destruct (N.lt_ge_cases (lenN q + lenN p + lenN x) (o + lenN sig)) as [|C]; [assumption|]. exfalso. pose proof (Hs2 o X) as S. apply P in X; [|lia|lia]. apply (F (o - lenN q)); [lia| |exact X]. rewrite lenN_app. lia. }
    destruct M as (m & -> & M). rewrite <- app_assoc in M. destruct m as [n|].
    + destruct M as [M1 M2]. eexists. split; [reflexivity|]. left. exists (lenN q + n). split; [lia|]. split; [exact M1|exact M2].
    + destruct Hx as [Hx| ->].
      * apply (IH (q ++ p) x (takeN RAMOUNT rest) (dropN RAMOUNT rest)).
        -- rewrite takeN_dropN. now rewrite <- app_assoc.
        -- rewrite lenN_app. lia.
        -- right. exact Hx.
        -- rewrite lenN_takeN. destruct (N.le_gt_cases RAMOUNT (lenN rest)); [left; lia|right; apply dropN_all; lia].
        -- rewrite lenN_takeN. lia.
        -- intros o Ho. rewrite lenN_app. now apply M.
        -- assert (0 < length x)%nat by (unfold x; cbn; lia). rewrite <- app_length, takeN_dropN. lia.
      * exists (-1)%Z. split.
        -- destruct fuel as [|fuel]; [unfold x in Hf; cbn in Hf; lia|]. reflexivity.
        -- right. split; [reflexivity|]. intros o Ho. pose proof (M o Ho) as A. apply occ_len in Ho; [|exact Hn]. rewrite !lenN_app in Ho. cbn [lenN] in Ho. lia.
Qed.
Theorem search_spec sig main : sig <> [] -> lenN sig <= 65536 -> exists r, search_stream sig main = Ok r /\
  ((exists o, r = Z.of_N o /\ first_occurs sig main o) \/ (r = (-1)%Z /\ forall o, ~ occurs sig main o)).
Proof.
  intros Hn Hl. unfold search_stream.
  destruct (loop_spec sig Hn Hl (S (S (length main))) [] [] (takeN RAMOUNT main) (dropN RAMOUNT main) main (lenN (takeN RAMOUNT main))) as (r & Hr & H).
  - cbn [app]. now rewrite takeN_dropN.
  - cbn [lenN]. lia.
  - now left.
  - rewrite lenN_takeN. destruct (N.le_gt_cases RAMOUNT (lenN main)); [left; lia|right; apply dropN_all; lia].
  - rewrite lenN_takeN. lia.
  - intros o Ho. cbn [lenN]. assert (lenN sig <> 0) by (intros X; now apply lenN_0 in X). lia.
  - rewrite <- app_length, takeN_dropN. lia.
  - exists r. split; [exact Hr|]. destruct H as [(o & -> & H1 & H2)|[-> H]].
    + left. exists o. split; [reflexivity|]. split; [now apply occurs_occ|]. intros o' Ho. apply occurs_occ in Ho; [|exact Hn]. destruct (N.le_gt_cases o o') as [|C]; [assumption|]. now apply H2 in C.
    + right. split; [reflexivity|]. intros o Ho. apply occurs_occ in Ho; [|exact Hn]. now apply (H o).
Qed.
Lemma search_first sig main o : sig <> [] -> lenN sig <= 65536 -> first_occurs sig main o -> search_stream sig main = Ok (Z.of_N o).
Proof.
  intros Hn Hl [H1 H2]. destruct (search_spec sig main Hn Hl) as (r & -> & [(p & -> & P1 & P2)|[_ H]]).
  - do 2 f_equal. specialize (H2 p P1). specialize (P2 o H1). lia.
  - now apply H in H1.
Qed.

(** ** Reading the blocks *)
Definition ser (md : bytes * bytes) : bytes := fst md ++ le 4 (8 + lenN (snd md)) ++ snd md.
Definition sers (l : list (bytes * bytes)) : bytes := concat (map ser l).
Definition mdok (md : bytes * bytes) : Prop := lenN (fst md) = 4 /\ 8 + lenN (snd md) < 2 ^ 32.
Fixpoint placed (pos : N) (l : list (bytes * bytes)) : list sblock :=
  match l with [] => [] | md :: l => mkBlock (fst md) (8 + lenN (snd md)) pos :: placed (pos + (8 + lenN (snd md))) l end.
Lemma len_ser md : mdok md -> lenN (ser md) = 8 + lenN (snd md).
Proof. intros [H _]. unfold ser. rewrite !lenN_app, lenN_le, H. change (N.of_nat 4) with 4. lia. Qed.
Lemma blocks_read l : forall pre fuel, Forall mdok l -> (length l < fuel)%nat ->
  (pre = [] -> match l with md :: _ => fst md = bstr "STRM" | [] => True end) ->
  stream_blocks fuel (pre ++ sers l) (lenN pre) = Ok (placed (lenN pre) l).
Proof.
  induction l as [|[m d] l IH]; intros pre fuel Hok Hf Hm; (destruct fuel as [|fuel]; [cbn in Hf; lia|]); cbn [stream_blocks].
  - unfold sers. cbn [map concat]. rewrite app_nil_r, N.ltb_irrefl. reflexivity.
  - inversion Hok as [|? ? Ho Hos]; subst. pose proof (len_ser _ Ho) as Ls. destruct Ho as [Lm Ld]. cbn [fst snd] in *.
    unfold sers. cbn [map concat]. fold (sers l).
    assert (Lf : lenN (pre ++ ser (m, d) ++ sers l) = lenN pre + (8 + lenN d) + lenN (sers l)) by (rewrite !lenN_app, Ls; lia).
    rewrite Lf. replace (lenN pre <? lenN pre + (8 + lenN d) + lenN (sers l)) with true by lia. replace (lenN pre + (8 + lenN d) + lenN (sers l) <? lenN pre + 8) with false by lia.
    assert (Em : sub (lenN pre) 4 (pre ++ ser (m, d) ++ sers l) = m).
    { unfold ser. cbn [fst snd]. rewrite <- !app_assoc. now apply sub_app_exact. }
    assert (Eu : unpack 4 (pre ++ ser (m, d) ++ sers l) (lenN pre + 4) = Ok (8 + lenN d)).
    { unfold ser. cbn [fst snd]. rewrite <- !app_assoc. rewrite app_assoc. apply unpack_at; [rewrite lenN_app; lia|exact Ld]. }
    rewrite Em, Eu. cbn [bind]. 
    replace ((lenN pre =? 0) && negb (beqb m (bstr "STRM") || beqb m (bstr "M2TS"))) with false.
    2:{ destruct pre as [|c pre]; [rewrite (Hm eq_refl); reflexivity|]. rewrite lenN_cons. replace (1 + lenN pre =? 0) with false by lia. reflexivity. }
    replace (8 + lenN d =? 0) with false by lia. cbn [andb]. replace (lenN pre + (8 + lenN d) + lenN (sers l) <? lenN pre + (8 + lenN d)) with false by lia.
    rewrite app_assoc. specialize (IH (pre ++ ser (m, d)) fuel Hos). rewrite lenN_app, Ls in IH. rewrite IH; [reflexivity|cbn in Hf; lia|].
    intros X. apply (f_equal lenN) in X. rewrite lenN_app, Ls in X. cbn [lenN] in X. lia.
Qed.
Lemma contents_read (pre post : bytes) md : mdok md -> stream_contents (pre ++ ser md ++ post) (mkBlock (fst md) (8 + lenN (snd md)) (lenN pre)) = snd md.
Proof.
  intros [Lm _]. unfold stream_contents, read_at. cbn [sb_size sb_pos]. destruct md as [m d]. cbn [fst snd] in *. replace (Z.of_N (8 + lenN d) - 8 <? 0)%Z with false by lia.
  replace (Z.to_N (Z.of_N (8 + lenN d) - 8)) with (lenN d) by lia. unfold ser. cbn [fst snd]. rewrite <- !app_assoc.
  replace (pre ++ m ++ le 4 (8 + lenN d) ++ d ++ post) with ((pre ++ m ++ le 4 (8 + lenN d)) ++ d ++ post) by now rewrite <- !app_assoc.
  apply sub_app_exact; [|reflexivity]. rewrite !lenN_app, lenN_le, Lm. change (N.of_nat 4) with 4. lia.
Qed.
Lemma block_ser m d b : mp3_block m d = Ok b -> lenN m = 4 -> b = ser (m, d) /\ mdok (m, d).
Proof.
  intros H Lm. unfold mp3_block in H. bindinv H. apply pack_inv in E as [E ->]. apply ok_inj in H. subst b. split; [reflexivity|]. split; [exact Lm|exact E].
Qed.

(** ** Loading what has been created *)
Lemma parse_back app d b : serialize_file app d = Ok b -> exists d', parse_file_data b = Ok d' /\
  fd_crc32 d' = fd_crc32 d mod 2 ^ 32 /\ fd_size d' = fd_size d.
Proof.
  intros H. apply serialize_inv in H as (a & n & Ha & En & La & Ln & Hf & Hs & ->).
  assert (Hc : fd_crc32 d mod 2 ^ 32 < 2 ^ 32) by (apply N.mod_lt; discriminate).
  pose proof (parse_file (fd_flags d) app _ (fd_size d) (fd_crc32 d mod 2 ^ 32) a n [] Hf Ha La En Ln Hs Hc) as P.
  rewrite app_nil_r in P. eexists. split; [exact P|]. split; reflexivity.
Qed.
Definition load_data (s : option file_data * tracks) (md : bytes * bytes) : result (option file_data * tracks) :=
  if beqb (fst md) (bstr "SRSF") then do d <- parse_file_data (snd md); Ok (Some d, snd s)
  else if beqb (fst md) (bstr "SRST") then
    do t <- parse_track (snd md);
    Ok (fst s, set_track (td_number t) (track_of t) (snd s))
  else Ok s.
Lemma fold_load l : forall (pre : bytes) s, Forall mdok l -> foldR (load_step (pre ++ sers l)) (placed (lenN pre) l) s = foldR load_data l s.
Proof.
  induction l as [|md l IH]; intros pre s Hok; [reflexivity|]. inversion Hok as [|? ? Ho Hos]; subst.
  cbn [placed foldR]. unfold sers. cbn [map concat]. fold (sers l).
  replace (load_step (pre ++ ser md ++ sers l) s _) with (load_data s md).
  2:{ unfold load_step, load_data. rewrite contents_read; [reflexivity|exact Ho]. }
  destruct (load_data s md) as [s'|]; [|reflexivity]. cbn [bind]. specialize (IH (pre ++ ser md) s' Hos).
  rewrite lenN_app, len_ser, <- app_assoc in IH by exact Ho. exact IH.
Qed.
Lemma load_sers l m d : Forall mdok l -> match l with md :: _ => fst md = bstr "STRM" | [] => True end -> foldR load_data l (None, []) = Ok (Some m, d) ->
  stream_load_srs (S (length (sers l))) (sers l) = Ok (m, d).
Proof.
  intros Hok H0 H. unfold stream_load_srs. 
  pose proof (blocks_read l [] (S (length (sers l))) Hok) as B. cbn [app] in B. change (lenN []) with 0 in B. rewrite B; [|clear -Hok|intros _; exact H0].
  - cbn [bind]. pose proof (fold_load l [] (None, []) Hok) as F. cbn [app] in F. change (lenN []) with 0 in F. rewrite F, H. reflexivity.
  - induction Hok as [|md l Ho _ IH]; [cbn; lia|]. unfold sers. cbn [map concat length]. fold (sers l). rewrite app_length.
    pose proof (len_ser md Ho) as L. rewrite lenN_length in L. lia.
Qed.
Lemma load_created app fd t big srs : stream_create_srs app fd t big = Ok srs -> has (td_flags t) 8 = false -> td_number t < 2 ^ 16 ->
  exists d, fd_crc32 d = fd_crc32 fd mod 2 ^ 32 /\
  stream_load_srs (S (length srs)) srs = Ok (d, [(td_number t, track_of (with_big big t))]).
Proof.
  intros H Hf Hn. unfold stream_create_srs, file_block, track_block in H. bindinv H. bindinv E. bindinv H. bindinv E1. apply ok_inj in H.
  apply parse_back in E0 as (d & P & Pc & _).
  pose proof (track_round (with_big big t) v2 [] E2) as R. rewrite app_nil_r in R.
  assert (W : has (td_flags (with_big big t)) 8 = true <-> 2 ^ 16 <= td_number (with_big big t)).
  { cbn [with_big td_flags td_number]. split; [|intros X; apply N.lt_nge in Hn; contradiction]. intros X. exfalso.
    replace (has (if big then _ else _) 8) with (has (td_flags t) 8) in X; [congruence|].
    destruct big; [|reflexivity]. unfold has, BIG_FILE. rewrite N.land_lor_distr_l. change (N.land 4 8) with 0. now rewrite N.lor_0_r. }
  specialize (R W). clear W E2.
  apply block_ser in E; [|reflexivity]. apply block_ser in E1; [|reflexivity]. destruct E as [-> O1], E1 as [-> O2].
  exists d. split; [exact Pc|].
  assert (Hs : srs = sers [(bstr "STRM", []); (bstr "SRSF", v0); (bstr "SRST", v2)]).
  { rewrite <- H. unfold sers. cbn [map concat]. rewrite app_nil_r. reflexivity. }
  assert (O0 : mdok (bstr "STRM", [])) by (split; reflexivity).
  rewrite Hs. apply load_sers; [repeat apply Forall_cons; auto|reflexivity|]. cbn [foldR].
  change (load_data (None, []) (bstr "STRM", [])) with (@Ok (option file_data * tracks) (None, [])). cbn [bind].
  change (load_data (None, []) (bstr "SRSF", v0)) with (do d <- parse_file_data v0; Ok (Some d, @nil (N * track))). rewrite P. cbn [bind].
  change (load_data (Some d, []) (bstr "SRST", v2)) with (do t <- parse_track v2; Ok (Some d, set_track (td_number t) (track_of t) [])). rewrite R. reflexivity.
Qed.

(** ** Restoring *)
Lemma sig_take sample sig : signature_of sample sig -> sig = takeN SIG_SIZE sample.
Proof.
  intros [(r & ->) L]. rewrite lenN_app in L. unfold SIG_SIZE. rewrite takeN_app. destruct (N.le_gt_cases (lenN sig + lenN r) 256).
  - assert (r = []) by (apply lenN_0; lia). subst r. rewrite (takeN_all (256 - lenN sig) []), app_nil_r by (cbn [lenN]; lia). symmetry. apply takeN_all. lia.
  - replace (256 - lenN sig) with 0 by lia. rewrite takeN_0, app_nil_r. symmetry. apply takeN_all. lia.
Qed.
Lemma sub_sub_take (o n k : N) (l : bytes) : n <= k -> sub o n l = takeN n (sub o k l).
Proof. intros H. unfold sub. now rewrite takeN_takeN, N.min_l by exact H. Qed.
Lemma restore_found no_stored srs main sample d (t : track) o :
  stream_load_srs (S (length srs)) srs = Ok (d, [(1, t)]) -> t_file t = None ->
  td_signature (t_td t) = takeN SIG_SIZE sample -> td_length (t_td t) = lenN sample -> fd_crc32 d = crc32 sample -> sample <> [] ->
  t_offset t = 0%Z \/ t_offset t = Z.of_N o ->
  first_occurs (takeN SIG_SIZE sample) main o -> occurs sample main o ->
  stream_restore no_stored srs main = Ok (Rebuilt sample).
Proof.
  intros HL Hfile Hsig Hlen Hc Hne Hoff Hf Ho.
  assert (Hl : 0 < lenN sample) by (destruct sample; [congruence|rewrite lenN_cons; lia]).
  assert (Hsn : takeN SIG_SIZE sample <> []) by (intros X; apply (f_equal lenN) in X; rewrite lenN_takeN in X; cbn [lenN] in X; unfold SIG_SIZE in X; lia).
  assert (Hs : sub o (lenN sample) main = sample) by (apply occurs_occ in Ho; [exact Ho|exact Hne]).
  assert (Hsg : sub o (lenN (takeN SIG_SIZE sample)) main = takeN SIG_SIZE sample).
  { destruct Hf as [Hf _]. apply occurs_occ in Hf; [exact Hf|exact Hsn]. }
  unfold stream_restore, srs_rebuild. rewrite HL. cbn [bind].
  set (search := false || negb (forallb _ _) || no_stored).
  assert (K : exists t', (if search then stream_find [(1, t)] main else @Ok tracks [(1, t)]) = @Ok tracks [(1, t')] /\ t_offset t' = Z.of_N o /\ t_td t' = t_td t).
  { destruct search eqn:S.
    - unfold stream_find. cbn [get_track]. rewrite N.eqb_refl. cbn [bind]. rewrite Hsig.
      rewrite (search_first _ _ o Hsn); [|rewrite lenN_takeN; unfold SIG_SIZE; lia|exact Hf]. cbn [bind set_track]. rewrite N.eqb_refl.
      eexists. split; [reflexivity|]. split; reflexivity.
    - exists t. split; [reflexivity|]. split; [|reflexivity]. unfold search in S. cbn [forallb snd] in S.
      destruct Hoff as [E|E]; [|exact E]. rewrite E in S. cbn in S. discriminate. }
  destruct K as (t' & -> & Ho' & Htd). cbn [bind existsb snd]. unfold not_located at 1. rewrite Ho', Htd. cbn [negb]. rewrite andb_false_r. cbn [orb andb].
  replace (Z.of_N o =? -1)%Z with false by lia. cbn [andb orb]. rewrite andb_false_r.
  unfold stream_extract. cbn [get_track]. rewrite N.eqb_refl. cbn [bind]. rewrite Ho', Htd. replace (Z.of_N o <? 0)%Z with false by lia. rewrite N2Z.id, Hsig, Hsg, beqb_refl, Hlen, Hs.
  cbn [bind set_track]. rewrite N.eqb_refl. cbn [existsb snd]. unfold not_extracted. cbn [t_td t_file]. rewrite Hlen, N.ltb_irrefl, andb_false_r. cbn [orb].
  unfold stream_rebuild. cbn [get_track]. rewrite N.eqb_refl. cbn [bind t_file fst snd]. rewrite Hc, N.eqb_refl. reflexivity.
Qed.
Lemma crc_mod d : crc32 d mod 2 ^ 32 = crc32 d.
Proof. apply N.mod_small. exact (crc32_lt d). Qed.
Theorem stream_exact app name sample big srs main sig o no_stored :
  stream_srs app name sample big None = Ok (Some srs) -> sample <> [] ->
  signature_of sample sig -> first_occurs sig main o -> occurs sample main o ->
  stream_restore no_stored srs main = Ok (Rebuilt sample).
Proof.
  intros H Hne Hs Hf Ho. apply sig_take in Hs. subst sig. unfold stream_srs in H. bindinv H. apply ok_inj in H. injection H as ->.
  destruct (load_created _ _ _ _ _ E eq_refl eq_refl) as (d & Hc & L).
  eapply restore_found; [exact L|reflexivity|reflexivity|reflexivity| |exact Hne|left; reflexivity|exact Hf|exact Ho].
  rewrite Hc. cbn [profile_file fd_crc32]. apply crc_mod.
Qed.
Theorem stream_exact_checked app name sample big srs main sig o no_stored :
  stream_srs app name sample big (Some main) = Ok (Some srs) -> sample <> [] ->
  signature_of sample sig -> first_occurs sig main o -> occurs sample main o ->
  stream_restore no_stored srs main = Ok (Rebuilt sample).
Proof.
  intros H Hne Hs Hf Ho. apply sig_take in Hs. subst sig. unfold stream_srs in H.
  assert (Hl : 0 < lenN sample) by (destruct sample; [congruence|rewrite lenN_cons; lia]).
  assert (Hsn : takeN SIG_SIZE sample <> []) by (intros X; apply (f_equal lenN) in X; rewrite lenN_takeN in X; cbn [lenN] in X; unfold SIG_SIZE in X; lia).
  rewrite (search_first _ _ o Hsn) in H; [|rewrite lenN_takeN; unfold SIG_SIZE; lia|exact Hf]. cbn [bind] in H. replace (Z.of_N o =? -1)%Z with false in H by lia.
  destruct (takeN SIG_SIZE sample) as [|c r] eqn:T; [congruence|]. rewrite <- T in *. bindinv H. apply ok_inj in H. injection H as ->.
  destruct (load_created _ _ _ _ _ E eq_refl eq_refl) as (d & Hc & L).
  eapply restore_found; [exact L|reflexivity|reflexivity|reflexivity| |exact Hne| |exact Hf|exact Ho].
  - rewrite Hc. cbn [profile_file fd_crc32]. apply crc_mod.
  - right. unfold track_of. cbn [t_offset with_big with_offset td_offset]. now rewrite N2Z.id.
Qed.
Lemma restored_is no_stored srs main d (t : track) out :
  stream_load_srs (S (length srs)) srs = Ok (d, [(1, t)]) ->
  (td_signature (t_td t) = [] -> td_length (t_td t) = 0) ->
  stream_restore no_stored srs main = Ok (Rebuilt out) -> crc32 out = fd_crc32 d /\ lenN out = td_length (t_td t).
Proof.
  intros HL He H. unfold stream_restore, srs_rebuild in H. rewrite HL in H. cbn [bind] in H. bindinv H. rename v into ts.
  assert (K : exists t', ts = [(1, t')] /\ t_td t' = t_td t).
  { destruct (_ || _ || _) in E.
    - unfold stream_find in E. cbn [get_track] in E. rewrite N.eqb_refl in E. cbn [bind] in E. bindinv E. cbn [set_track] in E. rewrite N.eqb_refl in E.
      apply ok_inj in E. subst ts. eexists. split; reflexivity.
    - apply ok_inj in E. subst ts. now exists t. }
  destruct K as (t' & -> & Htd). destruct (_ && _) in H; [discriminate|]. bindinv H. unfold stream_extract in E0. cbn [get_track] in E0. rewrite N.eqb_refl in E0. cbn [bind] in E0.
  destruct (_ <? _)%Z in E0; [discriminate|]. destruct (beqb _ _) in E0; [|discriminate]. cbn [set_track] in E0. rewrite N.eqb_refl in E0. apply ok_inj in E0. subst v.
  cbn [existsb snd orb] in H. unfold not_extracted in H. cbn [t_td t_file] in H. destruct (_ || _) eqn:NE in H; [discriminate|].
  unfold stream_rebuild in H. cbn [get_track] in H. rewrite N.eqb_refl in H. cbn [bind t_file fst snd] in H.
  destruct (N.eqb_spec (crc32 (sub (Z.to_N (t_offset t')) (td_length (t_td t')) main)) (fd_crc32 d)) as [C|C]; [|discriminate].
  apply ok_inj in H. injection H as <-. split; [exact C|]. rewrite Htd in *. rewrite orb_false_r in NE. apply andb_false_iff in NE as [NE|NE].
  - destruct (td_signature (t_td t)) eqn:S; [|discriminate]. specialize (He eq_refl). rewrite He, lenN_sub. lia.
  - rewrite lenN_sub in *. lia.
Qed.
Theorem stream_sound app name sample big check srs main no_stored out :
  stream_srs app name sample big check = Ok (Some srs) -> stream_restore no_stored srs main = Ok (Rebuilt out) ->
  crc32 out = crc32 sample /\ lenN out = lenN sample.
Proof.
  intros H R. assert (He : takeN SIG_SIZE sample = [] -> lenN sample = 0).
  { intros X. apply (f_equal lenN) in X. rewrite lenN_takeN in X. cbn [lenN] in X. unfold SIG_SIZE in X. lia. }
  unfold stream_srs in H. destruct check as [main'|].
  - bindinv H. destruct (_ =? _)%Z in H; [discriminate|]. destruct (takeN SIG_SIZE sample) as [|c r] eqn:T.
    + bindinv H. apply ok_inj in H. injection H as <-. exfalso. unfold file_block in E0. bindinv E0. apply block_ser in E0 as [-> O]; [|reflexivity].
      apply parse_back in E1 as (d & P & _).
      assert (L : forall s, s = sers [(bstr "STRM", []); (bstr "SRSF", v1)] -> stream_load_srs (S (length s)) s = Ok (d, [])).
      { intros s ->. apply load_sers; [repeat apply Forall_cons; auto; split; reflexivity|reflexivity|]. cbn [foldR].
        change (load_data (None, []) (bstr "STRM", [])) with (@Ok (option file_data * tracks) (None, [])). cbn [bind].
        change (load_data (None, []) (bstr "SRSF", v1)) with (do d <- parse_file_data v1; Ok (Some d, @nil (N * track))). rewrite P. reflexivity. }
      unfold stream_restore, srs_rebuild in R. rewrite L in R by (unfold sers; cbn [map concat]; rewrite app_nil_r; reflexivity).
      cbn [bind forallb negb orb] in R. destruct no_stored; discriminate.
    + rewrite <- T in *. bindinv H. apply ok_inj in H. injection H as ->.
      destruct (load_created _ _ _ _ _ E0 eq_refl eq_refl) as (d & Hc & L). destruct (restored_is _ _ _ _ _ _ L He R) as [A B].
      split; [|exact B]. rewrite A, Hc. cbn [profile_file fd_crc32]. apply crc_mod.
  - bindinv H. apply ok_inj in H. injection H as ->.
    destruct (load_created _ _ _ _ _ E eq_refl eq_refl) as (d & Hc & L). destruct (restored_is _ _ _ _ _ _ L He R) as [A B].
    split; [|exact B]. rewrite A, Hc. cbn [profile_file fd_crc32]. apply crc_mod.
Qed.

(** ** The reader ends *)
Lemma blocks_end fuel : forall f pos, (pos = 0 -> unpack 4 f 4 <> Ok 0) -> pos <= lenN f -> lenN f < pos + N.of_nat fuel -> stream_blocks fuel f pos <> Err OutOfFuel.
Proof.
  induction fuel as [|fuel IH]; intros f pos H0 Hp Hf; cbn [stream_blocks].
  - lia.
  - destruct (N.ltb_spec pos (lenN f)); [|discriminate]. destruct (N.ltb_spec (lenN f) (pos + 8)); [discriminate|]. destruct (_ && _); [discriminate|].
    destruct (unpack 4 f (pos + 4)) as [size|] eqn:U; [|unfold unpack in U; destruct (_ =? _) in U; [discriminate|]; injection U as <-; cbn [bind]; discriminate].
    cbn [bind]. destruct (_ && _) eqn:Z; [discriminate|]. destruct (N.ltb_spec (lenN f) (pos + size)) as [|LS]; [discriminate|].
    assert (size <> 0). { intros ->. cbn [N.eqb andb] in Z. destruct (N.eqb_spec pos 0) as [->|]; [|discriminate]. now apply H0. }
    specialize (IH f (pos + size)). destruct (stream_blocks fuel f (pos + size)) as [r|e]; [cbn [bind]; discriminate|]. cbn [bind]. intros X. injection X as ->. apply IH; [lia|lia|lia|reflexivity].
Qed.
Theorem reader_stuck f : sub 0 4 f = bstr "STRM" -> unpack 4 f 4 = Ok 0 -> forall fuel, stream_blocks fuel f 0 = Err OutOfFuel.
Proof.
  intros Hm U. assert (8 <= lenN f).
  { unfold unpack in U. destruct (N.eqb_spec (lenN (sub 4 (N.of_nat 4) f)) (N.of_nat 4)) as [E|]; [|discriminate]. rewrite lenN_sub in E. change (N.of_nat 4) with 4 in E. lia. }
  induction fuel as [|fuel IH]; [reflexivity|]. cbn [stream_blocks]. replace (0 <? lenN f) with true by lia. replace (lenN f <? 0 + 8) with false by lia.
  rewrite Hm. change (0 + 4) with 4. rewrite U. cbn [bind]. change (0 + 0) with 0. rewrite IH.
  replace (lenN f <? 0) with false by lia. reflexivity.
Qed.

(** ** What can be created *)
Theorem stream_creates app name base sample (big : bool) a n : utf8_enc app = Some a -> lenN a < 2 ^ 16 -> after_slash name base -> utf8_enc base = Some n -> lenN n < 2 ^ 16 ->
  lenN sample < (if big then 2 ^ 64 else 2 ^ 32) ->
  exists srs, stream_srs app name sample big None = Ok (Some srs).
Proof.
  intros Ha La Hn En Ln Hl. unfold stream_srs, stream_create_srs, file_block, track_block.
  assert (L64 : lenN sample < 2 ^ 64) by (destruct big; [exact Hl|]; apply N.lt_trans with (2 ^ 32); [exact Hl|reflexivity]).
  rewrite (file_accepts app (profile_file name sample) base a n Ha La Hn En Ln eq_refl L64). cbn [bind].
  destruct (track_accepts (with_big big (profile_track sample))) as (b & Hb & Lb).
  - destruct big; reflexivity.
  - reflexivity.
  - destruct big; exact Hl.
  - reflexivity.
  - cbn [with_big profile_track td_signature]. rewrite lenN_takeN. unfold SIG_SIZE. change (2 ^ 16) with 65536. lia.
  - rewrite Hb. unfold mp3_block. rewrite pack_ok; [cbn [bind]; rewrite pack_ok; [eexists; reflexivity|]|].
    + rewrite Lb. cbn [with_big profile_track td_signature td_number]. rewrite lenN_takeN. unfold SIG_SIZE. change (2 ^ 16 <=? 1) with false. change (2 ^ (8 * N.of_nat 4)) with 4294967296. destruct (has _ _); lia.
    + unfold file_layout. rewrite !lenN_app, !lenN_le. change (2 ^ (8 * N.of_nat 4)) with 4294967296. change (2 ^ 16) with 65536 in *. lia.
Qed.

(** ** Examples *)
Definition ex_sample : bytes := bstr "two words".
Definition ex_main : bytes := bstr "a few words and then two words in a row".
Lemma ex_stream : exists srs, stream_srs (str "pyReSample 0.7") (str "/tmp/a.vob") ex_sample false None = Ok (Some srs) /\
  signature_of ex_sample ex_sample /\ first_occurs ex_sample ex_main 21 /\ occurs ex_sample ex_main 21.
Proof.
  eexists. split; [vm_compute; reflexivity|]. assert (O : occurs ex_sample ex_main 21) by now exists (bstr "a few words and then "), (bstr " in a row").
  split; [split; [exists []; reflexivity|reflexivity]|]. split; [|exact O]. split; [exact O|].
  destruct (search_spec ex_sample ex_main) as (r & Hr & H); [discriminate|vm_compute; discriminate|]. vm_compute in Hr. apply ok_inj in Hr. subst r.
  destruct H as [(o & E & [_ H])|[E _]]; [|discriminate]. replace o with 21 in H by lia. exact H.
Qed.
Lemma ex_stream_checked : exists srs, stream_srs (str "pyReSample 0.7") (str "/tmp/a.vob") ex_sample false (Some ex_main) = Ok (Some srs) /\
  stream_restore false srs ex_main = Ok (Rebuilt ex_sample) /\ stream_restore true srs (bstr "words") = Ok (Abort 3).
Proof. eexists. split; [vm_compute; reflexivity|]. split; vm_compute; reflexivity. Qed.
Lemma ex_accept : utf8_enc (str "app") = Some (bstr "app") /\ lenN (bstr "app") < 2 ^ 16 /\ after_slash (str "/tmp/a.vob") (str "a.vob") /\
  utf8_enc (str "a.vob") = Some (bstr "a.vob") /\ lenN (bstr "a.vob") < 2 ^ 16 /\ lenN ex_sample < 2 ^ 32.
Proof.
  repeat (split; [reflexivity|]). split; [|split; [reflexivity|split; reflexivity]].
  split; [|right; exists (str "/tmp"); reflexivity]. cbn. intros H. repeat destruct H as [H|H]; try discriminate. contradiction.
Qed.
Lemma ex_end : unpack 4 (bstr "STRM" ++ [x08; x00; x00; x00]) 4 <> Ok 0 /\ stream_blocks 9 (bstr "STRM" ++ [x08; x00; x00; x00]) 0 = Ok [mkBlock (bstr "STRM") 8 0].
Proof. split; [vm_compute; discriminate|reflexivity]. Qed.
Theorem stuck_witness : exists f, forall fuel, stream_blocks fuel f 0 = Err OutOfFuel.
Proof. exists (bstr "STRM" ++ [x00; x00; x00; x00]). apply reader_stuck; reflexivity. Qed.
