(** MkvRetryFacts: the first attempt, the places that are tried, the order of the attempts. *)
From Verif Require Import Base BaseFacts Crc CrcFacts SrsRec SrsRecSpec SrsRecFacts Srs SrrFacts Ebml Mkv MkvSpec MkvRead MkvLoad MkvMain MkvEnd MkvRetry MkvRetrySpec.
From Verif Require AviEnd.
Import AviEnd(ends, ends_ok, ends_bind).

(** ** The search *)
Lemma keys_found {A} k v w (c : list (N * A)) : get N.eqb k c = Ok w -> map fst (put N.eqb k v c) = map fst c.
Proof. intros G. rewrite (keys_put N.eqb), G. reflexivity. Qed.
Lemma extra_keys f s c e : map fst (extra_step f s c e) = map fst c.
Proof.
  unfold extra_step. destruct (id_in _ e); [reflexivity|]. destruct (e_block e) as [b|]; [|reflexivity]. unfold extra_block. cbv zeta.
  destruct (get N.eqb _ (with_key _ _ _ (f_tracks s))) as [t|]; [|reflexivity]. destruct (get N.eqb _ _) as [st|]; [|reflexivity]. destruct (searching t); [reflexivity|]. destruct (get N.eqb _ c) as [l|] eqn:G; [|reflexivity]. now apply (keys_found _ _ l).
Qed.
Lemma find_loop f fuel : forall pos s c,
  ebml_loop fuel false f_done (find_step (map fst c) f) f pos s = bind (ebml_loop fuel false (fun s => f_done (fst s)) (find_both f) f pos (s, c)) (fun r => Ok (fst r)) /\
  forall r, ebml_loop fuel false (fun s => f_done (fst s)) (find_both f) f pos (s, c) = Ok r -> map fst (snd r) = map fst c.
Proof.
  induction fuel as [|fuel IH]; intros pos s c; [split; [reflexivity|discriminate]|]. cbn [ebml_loop]. destruct (ebml_next false f pos) as [[e|]|x]; cbn [bind].
  2:{ split; [reflexivity|]. intros r H. apply ok_inj in H. now subst r. } 2:{ split; [reflexivity|discriminate]. }
  cbn [fst snd]. destruct (f_done s); [split; [reflexivity|]; intros r H; apply ok_inj in H; now subst r|].
  replace (find_both f (s, c) e) with (do r <- find_step (map fst c) f s e; Ok ((fst r, extra_step f s c e), snd r)) by reflexivity. destruct (find_step (map fst c) f s e) as [(s', [p|])|x]; cbn [bind fst snd].
  - destruct (IH p s' (extra_step f s c e)) as (A & B). rewrite extra_keys in A, B. split; [exact A|exact B].
  - split; [reflexivity|]. intros r H. apply ok_inj in H. subst r. cbn [snd]. apply extra_keys.
  - split; [reflexivity|discriminate].
Qed.
Lemma find_all_find c ts main : mkv_find (map fst c) ts main = bind (mkv_find_all c ts main) (fun r => Ok (fst r)).
Proof.
  unfold mkv_find, mkv_find_all, ebml_run. rewrite (proj1 (find_loop main _ 0 (mkF ts no_mains false) c)). destruct (ebml_loop _ _ (fun s => _) _ _ _ _) as [r|x]; reflexivity.
Qed.
Lemma find_all_keys c ts main ts' c' : mkv_find_all c ts main = Ok (ts', c') -> map fst c' = map fst c.
Proof. unfold mkv_find_all, ebml_run. intros H. bindinv H. apply ok_inj in H. injection H as <- <-. exact (proj2 (find_loop main _ 0 (mkF ts no_mains false) c) _ E). Qed.
Lemma find_all_ends c ts main : ends (mkv_find_all c ts main).
Proof. pose proof (find_ends (map fst c) ts main) as H. rewrite find_all_find in H. intros X. apply H. rewrite X. reflexivity. Qed.
Lemma search_all (b : bool) cut ts main : (if b then mkv_find cut ts main else Ok ts) = bind (if b then mkv_find_all (map (fun k => (k, [])) cut) ts main else Ok (ts, map (fun k => (k, [])) cut)) (fun r => Ok (fst r)).
Proof. destruct b; [|reflexivity]. rewrite <- find_all_find. f_equal. rewrite map_map. cbn [fst]. symmetry. apply map_id. Qed.

(** ** The first attempt *)
Lemma rebuild_files_first flags ts atts srs : mkv_rebuild flags ts atts srs = bind (rebuild_files flags ts (fun _ => []) atts srs) (fun v => Ok (v_out v)).
Proof.
  unfold mkv_rebuild, rebuild_files. replace (map (fun t => (fst t, option_map (fun d => d ++ []) (m_file (snd t)))) ts) with (map (fun t => (fst t, m_file (snd t))) ts).
  - destruct (ebml_run _ _ _ _ _); reflexivity.
  - apply map_ext. intros (k, t). cbn [fst snd]. destruct (m_file t); [cbn [option_map]; now rewrite app_nil_r|reflexivity].
Qed.
Theorem restore_first ns srs main r : mkv_restore ns srs main = r -> r <> Err NotModelled -> mkv_restore_all ns srs main = r.
Proof.
  unfold mkv_restore, mkv_restore_all. destruct (mkv_load_srs srs) as [((fd, ts), cut)|x]; [|intros <- _; reflexivity]. cbn [bind]. unfold mkv_restore_from. cbv zeta. rewrite search_all. set (search := negb _ || _ || _).
  assert (Kc : forall tc, (if search then mkv_find_all (map (fun k => (k, [])) cut) ts main else Ok (ts, map (fun k => (k, [])) cut)) = Ok tc -> map fst (snd tc) = cut).
  { intros (ts', c') H. replace cut with (map fst (map (fun k => (k, @nil N)) cut)) at 1 by (rewrite map_map; apply map_id). destruct search; [now apply (find_all_keys _ ts main ts')|]. apply ok_inj in H. now injection H as _ <-. }
  destruct (if search then _ else _) as [(ts1, c)|x]; [|intros <- _; reflexivity]. specialize (Kc _ eq_refl). cbn [snd] in Kc. cbn [bind fst]. destruct (search && _); [intros <- _; reflexivity|]. destruct (mkv_extract ts1 main) as [(ts2, atts)|x]; [|intros <- _; reflexivity]. cbn [bind]. destruct (existsb _ ts2); [intros <- _; reflexivity|]. destruct fd as [fd|]; [|intros <- _; reflexivity].
  rewrite rebuild_files_first. destruct (rebuild_files _ _ _ _ _) as [v|x]; [|intros <- _; reflexivity]. cbn [bind]. destruct (crc32 (v_out v) =? fd_crc32 fd); [intros <- _; reflexivity|]. cbn [negb andb]. destruct (lenN cut =? 0) eqn:L; [|intros <- H; now destruct H]. intros <- _.
  assert (Z0 : cut = []) by (apply lenN_0; lia). rewrite Z0 in Kc. destruct c; [reflexivity|discriminate Kc].
Qed.
(** ** It ends *)
Lemma guesses_ends ts c : ends (guesses ts c).
Proof.
  unfold guesses. cbv zeta. apply ends_bind; [destruct (good_offsets ts c); discriminate|]. intros lo _. apply ends_bind; [destruct (good_offsets ts c); discriminate|]. intros hi _.
  induction c as [|(k, l) c IH]; [discriminate|]. apply ends_bind; [apply get_ends|]. intros t _. apply ends_bind; [exact IH|]. discriminate.
Qed.
Lemma rebuild_files_ends flags ts rest atts srs : ends (rebuild_files flags ts rest atts srs).
Proof. unfold rebuild_files. cbv zeta. apply ends_bind; [apply run_ends, rebuild_moves|]. discriminate. Qed.
Lemma attempt_ends fd srs main v : ends (attempt fd srs main v).
Proof. unfold attempt. apply ends_bind; [apply extract_ends|]. intros x _. apply ends_bind; [apply rebuild_files_ends|]. discriminate. Qed.
Lemma set_ends k o v : ends (set_offset k o v).
Proof. unfold set_offset. apply ends_bind; [apply get_ends|]. intros t _. destruct (_ =? _); [discriminate|]. destruct (m_file t); discriminate. Qed.
Lemma check_ends V set att l : (forall k o v, ends (set k o v)) -> (forall v, ends (att v)) -> forall v, ends (check_tracks V set att l v).
Proof.
  intros Hs Ha. induction l as [|(k, os) l IH]; intros v; [apply Ha|]. cbn [check_tracks]. revert v. induction os as [|o os IHo]; intros v; [discriminate|]. apply ends_bind; [apply Hs|]. intros v1 _. apply ends_bind; [apply IH|]. intros (b, v2) _. cbn [fst snd]. destruct b; [discriminate|apply IHo].
Qed.
Theorem restore_all_ends ns srs main : ends (mkv_restore_all ns srs main).
Proof.
  unfold mkv_restore_all. apply ends_bind; [apply load_ends|]. intros ((fd, ts), cut) _. unfold mkv_restore_from. cbv zeta. apply ends_bind; [destruct (_ || _); [apply find_all_ends|discriminate]|]. intros (ts1, c) _. destruct (_ && _); [discriminate|]. apply ends_bind; [apply extract_ends|]. intros (ts2, atts) _. destruct (existsb _ _); [discriminate|]. destruct fd as [fd|]; [|discriminate].
  apply ends_bind; [apply rebuild_files_ends|]. intros v _. destruct (_ && _).
  - apply ends_bind; [apply guesses_ends|]. intros g _. apply ends_bind; [apply check_ends; [apply set_ends|apply attempt_ends]|]. intros r _. destruct (_ =? _); discriminate.
  - destruct (_ =? _); discriminate.
Qed.
(** ** What is said to be rebuilt *)
Theorem restore_all_sound ap name big offset ns ps srs main out : mkv_ok ps -> mkv_srs ap name big offset (file_of ps) = Ok srs -> mkv_restore_all ns srs main = Ok (Rebuilt out) -> crc32 out = crc32 (file_of ps).
Proof.
  intros H E R. destruct (load_is ap name big offset ps srs H E) as (fd & ts & a & w & size & b & wr & added & El & Cf & _).
  unfold mkv_restore_all in R. rewrite El in R. cbn [bind] in R. unfold mkv_restore_from in R. bindinv R. destruct v as (ts1, c). destruct (_ && _); [discriminate R|]. bindinv R. destruct v as (ts2, atts). destruct (existsb _ ts2); [discriminate R|]. cbv zeta in R.
  destruct (rebuild_files _ _ _ _ _) as [v|x]; [|discriminate R]. cbn [bind] in R.
  assert (G : forall v, (if crc32 (v_out v) =? fd_crc32 fd then Ok (Rebuilt (v_out v)) else Ok (Mismatch (v_out v))) = Ok (Rebuilt out) -> crc32 out = crc32 (file_of ps)).
  { intros w0 X. destruct (crc32 (v_out w0) =? fd_crc32 fd) eqn:C; [|discriminate X]. apply ok_inj in X. injection X as <-. apply N.eqb_eq in C. congruence. }
  destruct (_ && _); [|now apply (G v)]. bindinv R. bindinv R. now apply (G (snd v1)).
Qed.
