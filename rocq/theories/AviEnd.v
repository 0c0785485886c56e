(** AviEnd: reading AVI files and their SRS files ends. *)
From Verif Require Import Base BaseFacts Crc CrcFacts SrsRec SrsRecSpec SrsRecFacts Srs SrrFacts RecovFacts StrmFacts Avi.

Definition ends {A} (x : result A) : Prop := x <> Err OutOfFuel.
Lemma ends_ok {A} (v : A) : ends (Ok v). Proof. discriminate. Qed.
Lemma ends_bind {A B} (x : result A) (g : A -> result B) : ends x -> (forall v, x = Ok v -> ends (g v)) -> ends (bind x g).
Proof. intros H K. destruct x as [v|e]; cbn [bind]; [now apply K|]. intros X. apply H. congruence. Qed.
Lemma ends_map {A B} (g : A -> result B) l : (forall x, ends (g x)) -> ends (mapR g l).
Proof. intros H. induction l as [|x l IH]; [discriminate|]. cbn [mapR]. apply ends_bind; [apply H|]. intros v _. apply ends_bind; [exact IH|]. discriminate. Qed.
Lemma unpack_ends k b o : ends (unpack k b o). Proof. unfold unpack, ends. destruct (_ =? _); discriminate. Qed.
Lemma pack_ends k n : ends (pack k n). Proof. unfold pack, ends. destruct (_ <? _); discriminate. Qed.
Definition good (c : chunk) : Prop := c_start c + 8 <= c_data c /\ (-4 <= c_length c)%Z.
Lemma next_ends check f pos : ends (riff_next check f pos).
Proof.
  unfold riff_next. destruct (_ <? _); [discriminate|]. cbv zeta. apply ends_bind; [apply unpack_ends|]. intros n _. destruct (negb _); [discriminate|]. destruct (check && _ && _); [discriminate|]. destruct (_ || _); discriminate.
Qed.
Lemma next_good check f pos c : riff_next check f pos = Ok (Some c) -> c_start c = pos /\ pos + 8 <= lenN f /\ good c.
Proof.
  unfold riff_next. destruct (N.ltb_spec (lenN f) (pos + 8)) as [L|L]; [discriminate|]. cbv zeta. intros H. bindinv H. destruct (negb _); [discriminate|]. destruct (check && _ && _); [discriminate|].
  assert (L8 : lenN (sub pos 8 f) = 8) by (rewrite lenN_sub; lia). unfold good, c_data. destruct (_ || _); apply ok_inj in H; apply some_inj in H; subst c; cbn [c_start c_header c_length]; rewrite ?lenN_app, L8; repeat split; lia.
Qed.
Lemma pad_ends f c pos : ends (riff_pad f c pos) /\ forall r, riff_pad f c pos = Ok r -> pos <= snd r.
Proof.
  unfold riff_pad. destruct (has_padding c); [|split; [discriminate|intros r H; apply ok_inj in H; subst r; cbn [snd]; lia]]. destruct (sub pos 1 f); (split; [discriminate|]); intros r H; [discriminate|]. apply ok_inj in H. subst r. cbn [snd]. lia.
Qed.
Lemma read_ends srs f c : ends (riff_read srs f c) /\ forall r, riff_read srs f c = Ok r -> c_data c <= snd r.
Proof.
  unfold riff_read. cbv zeta. set (b := if srs && is_movi c then _ else _). destruct (pad_ends f c (c_data c + lenN b)) as (E & K). split; [apply ends_bind; [exact E|discriminate]|]. intros r H. bindinv H. apply ok_inj in H. subst r. cbn [snd]. specialize (K _ E0). lia.
Qed.
Lemma skip_ends srs f c : good c -> ends (riff_skip srs f c) /\ forall r, riff_skip srs f c = Ok r -> c_start c < snd r.
Proof.
  intros (G1 & G2). unfold riff_skip. match goal with |- context [riff_pad f c ?p] => destruct (pad_ends f c p) as (E & K); assert (c_start c < p) by (destruct (srs && is_movi c); lia) end. split; [exact E|]. intros r H0. specialize (K _ H0). lia.
Qed.
Section Ends.
Context {S : Type} (act : S -> chunk -> result (S * option N)).
Definition moves : Prop := forall s c, good c -> ends (act s c) /\ forall r p, act s c = Ok r -> snd r = Some p -> c_start c < p.
Hypothesis M : moves.
Lemma loop_ends check stop f fuel : forall pos s, (N.to_nat (lenN f - pos) < fuel)%nat -> ends (riff_loop fuel check stop act f pos s).
Proof.
  induction fuel as [|fuel IH]; intros pos s H; [lia|]. cbn [riff_loop]. apply ends_bind; [apply next_ends|]. intros [c|] N1; [|discriminate]. destruct (next_good _ _ _ _ N1) as (Es & L & G). destruct (stop s); [discriminate|]. destruct (M s c G) as (E & K).
  apply ends_bind; [exact E|]. intros r Er. destruct (snd r) as [p|] eqn:P; [|discriminate]. specialize (K r p Er P). apply IH. lia.
Qed.
Theorem run_ends check stop f pos s : ends (riff_run check stop act f pos s).
Proof. unfold riff_run. apply loop_ends. rewrite lenN_length. lia. Qed.
End Ends.
(** chaining: what is left is an [Ok] with the place *)
Lemma step_read {S} srs f c (k : bytes * bytes * N -> result (S * option N)) : good c -> (forall r, c_start c < snd r -> ends (k r) /\ forall x p, k r = Ok x -> snd x = Some p -> c_start c < p) ->
  ends (bind (riff_read srs f c) k) /\ forall x p, bind (riff_read srs f c) k = Ok x -> snd x = Some p -> c_start c < p.
Proof.
  intros (G & _) K. destruct (read_ends srs f c) as (E & L). split.
  - apply ends_bind; [exact E|]. intros r Hr. apply K. specialize (L r Hr). lia.
  - intros x p H. bindinv H. apply (K v). specialize (L v E0). lia. exact H.
Qed.
Lemma step_skip {S} srs f c (k : bytes * N -> result (S * option N)) : good c -> (forall r, c_start c < snd r -> ends (k r) /\ forall x p, k r = Ok x -> snd x = Some p -> c_start c < p) ->
  ends (bind (riff_skip srs f c) k) /\ forall x p, bind (riff_skip srs f c) k = Ok x -> snd x = Some p -> c_start c < p.
Proof.
  intros G K. destruct (skip_ends srs f c G) as (E & L). split.
  - apply ends_bind; [exact E|]. intros r Hr. apply K. now apply L.
  - intros x p H. bindinv H. apply (K v); [now apply L|exact H].
Qed.
Lemma step_any {A S} (y : result A) c (k : A -> result (S * option N)) : ends y -> (forall v, ends (k v) /\ forall x p, k v = Ok x -> snd x = Some p -> c_start c < p) ->
  ends (bind y k) /\ forall x p, bind y k = Ok x -> snd x = Some p -> c_start c < p.
Proof. intros E K. split; [apply ends_bind; [exact E|]; intros v _; apply K|]. intros x p H. bindinv H. now apply (K v). Qed.
Lemma step_ok {S} c (s : S) p : c_start c < p -> ends (Ok (s, Some p)) /\ forall x q, Ok (s, Some p) = Ok x -> snd x = Some q -> c_start c < q.
Proof. intros L. split; [discriminate|]. intros x q H X. apply ok_inj in H. subst x. cbn [snd] in X. apply some_inj in X. now subst q. Qed.
Lemma step_none {S} c (s : S) : ends (Ok (s, @None N)) /\ forall x q, Ok (s, None) = Ok x -> snd x = Some q -> c_start c < q.
Proof. split; [discriminate|]. intros x q H X. apply ok_inj in H. subst x. discriminate X. Qed.
Lemma step_err {S} c e : e <> OutOfFuel -> ends (Err e : result (S * option N)) /\ forall (x : S * option N) q, Err e = Ok x -> snd x = Some q -> c_start c < q.
Proof. intros N1. split; [intros X; congruence|]. intros x q H. discriminate H. Qed.
Lemma child c : good c -> c_start c < c_data c. Proof. intros (G & _). lia. Qed.
Lemma get_ends n ts : ends (get_track n ts).
Proof. induction ts as [|(k, t) ts IH]; [discriminate|]. cbn [get_track]. destruct (k =? n); [discriminate|exact IH]. Qed.
Lemma profile_moves f : moves (profile_step f).
Proof.
  intros s c G. unfold profile_step. cbv zeta. destruct (c_kind c) eqn:Kd; [now apply step_ok, child| | |]; (apply step_read; [exact G|]; intros ((data, pad), next) L; cbn [snd] in L; apply step_any; [try discriminate|intros v; now apply step_ok]).
  apply ends_bind; [apply get_ends|discriminate].
Qed.
Theorem profile_ends name f : ends (avi_profile name f).
Proof. unfold avi_profile. apply ends_bind; [apply run_ends, profile_moves|]. intros p _. destruct (_ =? _); discriminate. Qed.
Ltac packs := repeat (apply ends_bind; [first [apply pack_ends|apply unpack_ends|unfold encode_utf8, decode_utf8; match goal with |- context [match ?x with _ => _ end] => destruct x; discriminate end|match goal with |- ends (if ?b then _ else _) => destruct b; (apply pack_ends || apply unpack_ends) end]|intros ? _]).
Lemma serialize_file_ends ap d : ends (serialize_file ap d).
Proof. unfold serialize_file. packs. destruct (_ =? _); discriminate. Qed.
Lemma serialize_track_ends t : ends (serialize_track t).
Proof. unfold serialize_track. cbv zeta. packs. destruct (_ =? _); discriminate. Qed.
Lemma parse_file_ends b : ends (parse_file_data b).
Proof. unfold parse_file_data. destruct b as [|x b]; [discriminate|]. packs. discriminate. Qed.
Lemma parse_track_ends b : ends (parse_track b).
Proof. unfold parse_track. destruct b as [|x b]; [discriminate|]. cbv zeta. packs. discriminate. Qed.
Lemma riff_chunk_ends cc d : ends (riff_chunk cc d).
Proof. unfold riff_chunk. packs. discriminate. Qed.
Lemma srs_chunks_ends ap fd ts : ends (srs_chunks ap fd ts).
Proof.
  unfold srs_chunks. apply ends_bind; [apply ends_bind; [apply serialize_file_ends|intros d _; apply riff_chunk_ends]|]. intros x _. apply ends_bind; [|discriminate]. apply ends_map. intros t. apply ends_bind; [apply serialize_track_ends|intros d _; apply riff_chunk_ends].
Qed.
Lemma create_moves ap fd ts f : moves (create_step ap fd ts f).
Proof.
  intros s c G. unfold create_step. cbv zeta. destruct (c_kind c).
  - apply step_any; [destruct (_ && _); [apply srs_chunks_ends|discriminate]|]. intros v. now apply step_ok, child.
  - apply step_skip; [exact G|]. intros r L. now apply step_ok.
  - apply step_read; [exact G|]. intros ((data, pad), next) L. now apply step_ok.
  - apply step_read; [exact G|]. intros ((data, pad), next) L. now apply step_ok.
Qed.
Theorem srs_ends ap name big offset f : ends (avi_srs ap name big offset f).
Proof. unfold avi_srs. apply ends_bind; [apply profile_ends|]. intros p _. destruct (snd p); [discriminate|]. apply run_ends, create_moves. Qed.
Lemma load_moves f : moves (load_step f).
Proof.
  intros s c G. unfold load_step.
  assert (K : forall x y, (ends y /\ forall r p, y = Ok r -> snd r = Some p -> c_start c < p) -> (ends x /\ forall r p, x = Ok r -> snd r = Some p -> c_start c < p) ->
    (ends (if cc_is (bstr "SRSF") c then x else y) /\ forall r p, (if cc_is (bstr "SRSF") c then x else y) = Ok r -> @snd (option file_data * tracks) _ r = Some p -> c_start c < p)) by (intros x y Hy Hx; destruct (cc_is (bstr "SRSF") c); assumption).
  assert (K2 : forall x y, (ends y /\ forall r p, y = Ok r -> snd r = Some p -> c_start c < p) -> (ends x /\ forall r p, x = Ok r -> snd r = Some p -> c_start c < p) ->
    (ends (if cc_is (bstr "SRST") c then x else y) /\ forall r p, (if cc_is (bstr "SRST") c then x else y) = Ok r -> @snd (option file_data * tracks) _ r = Some p -> c_start c < p)) by (intros x y Hy Hx; destruct (cc_is (bstr "SRST") c); assumption).
  destruct (c_kind c); [now apply step_ok, child| | |]; (apply K; [apply K2; [first [apply step_none|apply step_skip; [exact G|]; intros r L; now apply step_ok]|]|]);
    (apply step_read; [exact G|]; intros r L; apply step_any; [apply parse_track_ends || apply parse_file_ends|]; intros v; now apply step_ok).
Qed.
Theorem load_ends f : ends (avi_load_srs f).
Proof. unfold avi_load_srs. apply ends_bind; [apply run_ends, load_moves|]. intros s _. destruct (fst s); discriminate. Qed.
Lemma find_chunk_ends f c t check : ends (find_chunk f c t check).
Proof.
  unfold find_chunk. cbv zeta. destruct ((t_offset t =? 0)%Z || _); [|destruct (_ <? _); discriminate]. destruct (negb _); [|discriminate]. apply ends_bind.
  - destruct (_ && _); [|discriminate]. destruct (starts_with _ _ _); [discriminate|]. apply ends_bind; [|discriminate]. unfold riff_again. cbv zeta. destruct (_ <? _)%Z; discriminate.
  - intros ((t1, [|x c1]), data) _; [|discriminate]. destruct (find_start _ _ _) as [(p, c2)|]; discriminate.
Qed.
Lemma find_moves f : moves (find_step f).
Proof.
  intros ((ts, checks), done) c G. unfold find_step. cbv zeta. destruct (c_kind c); [now apply step_ok, child| | |]; [|apply step_skip; [exact G|]; intros r L; now apply step_ok|apply step_skip; [exact G|]; intros r L; now apply step_ok].
  apply step_any; [apply get_ends|]. intros t. destruct (reads_chunk t (checks stream)).
  - destruct (read_ends false f c) as (E & L). split.
    + apply ends_bind; [apply ends_bind; [exact E|discriminate]|]. intros p _. apply ends_bind; [apply find_chunk_ends|discriminate].
    + intros x p H X. bindinv H. bindinv E0. apply ok_inj in E0. subst v. bindinv H. apply ok_inj in H. subst x. cbn [snd] in X. apply some_inj in X. subst p. specialize (L _ E1). pose proof (child c G). lia.
  - destruct (skip_ends false f c G) as (E & L). split.
    + apply ends_bind; [apply ends_bind; [exact E|discriminate]|]. intros p _. apply ends_bind; [apply find_chunk_ends|discriminate].
    + intros x p H X. bindinv H. bindinv E0. apply ok_inj in E0. subst v. bindinv H. apply ok_inj in H. subst x. cbn [snd] in X. apply some_inj in X. subst p. now apply L.
Qed.
Theorem find_ends ts main : ends (avi_find ts main).
Proof. unfold avi_find. apply ends_bind; [apply run_ends, find_moves|discriminate]. Qed.
Lemma index_moves f : moves (index_step f).
Proof.
  intros s c G. unfold index_step. destruct (cc_is (bstr "AVI ") c); [destruct (c_kind c); [now apply step_ok, child|now apply step_err|now apply step_err|now apply step_err]|].
  destruct (cc_is (bstr "movi") c); [apply step_skip; [exact G|]; intros r L; now apply step_ok|].
  destruct (c_kind c); try (apply step_skip; [exact G|]; intros r L; now apply step_ok). apply step_read; [exact G|]. intros r L. apply step_none.
Qed.
Lemma index_ends ix mo fuel : forall o p l, (N.to_nat (lenN ix - p) < fuel)%nat -> ends (index_offsets fuel ix mo o p l).
Proof.
  induction fuel as [|fuel IH]; intros o p l H; [lia|]. cbn [index_offsets]. destruct (o <? mo); [|discriminate]. destruct (N.leb_spec (p + 16) (lenN ix)) as [L|L]; [|discriminate]. cbn [andb]. apply ends_bind; [apply unpack_ends|]. intros v _. apply IH. lia.
Qed.
Lemma start_ends f mo : ends (riff_start f mo).
Proof.
  unfold riff_start. destruct (_ && _); [|destruct (_ <=? _); discriminate]. destruct (valid_location _ _); [discriminate|]. apply ends_bind.
  - unfold find_chunk_offset. apply ends_bind; [apply run_ends, index_moves|]. intros s _. destruct (_ || _); [discriminate|]. apply ends_bind; [apply index_ends; rewrite lenN_length; lia|discriminate].
  - intros o _. destruct (_ <? _); discriminate.
Qed.
Lemma extract_moves f : moves (extract_step f).
Proof.
  intros (ts, done) c G. unfold extract_step. cbv zeta. destruct (c_kind c); [now apply step_ok, child| | |]; [|apply step_skip; [exact G|]; intros r L; now apply step_ok|apply step_skip; [exact G|]; intros r L; now apply step_ok].
  apply step_any; [apply get_ends|]. intros t. destruct (_ <? _)%Z; [|apply step_skip; [exact G|]; intros r L; now apply step_ok]. set (d := match t_file t with Some d => d | None => [] end). destruct (lenN d <? td_length (t_td t)).
  - destruct (read_ends false f c) as (E & L). split.
    + apply ends_bind; [apply ends_bind; [exact E|discriminate]|discriminate].
    + intros x p H X. bindinv H. bindinv E0. apply ok_inj in E0. subst v. apply ok_inj in H. subst x. cbn [snd] in X. apply some_inj in X. subst p. specialize (L _ E1). pose proof (child c G). lia.
  - destruct (skip_ends false f c G) as (E & L). split.
    + apply ends_bind; [apply ends_bind; [exact E|discriminate]|discriminate].
    + intros x p H X. bindinv H. bindinv E0. apply ok_inj in E0. subst v. apply ok_inj in H. subst x. cbn [snd] in X. apply some_inj in X. subst p. now apply L.
Qed.
Theorem extract_ends ts main : ends (avi_extract ts main).
Proof. unfold avi_extract. apply ends_bind; [apply start_ends|]. intros p _. apply ends_bind; [apply run_ends, extract_moves|discriminate]. Qed.
Lemma rebuild_moves f : moves (rebuild_step f).
Proof.
  intros s c G. unfold rebuild_step. cbv zeta. destruct (cc_is (bstr "SRSF") c || cc_is (bstr "SRST") c); [apply step_skip; [exact G|]; intros r L; now apply step_ok|]. destruct (c_kind c); [now apply step_ok, child| | |].
  - destruct (find _ _) as [(k, d)|]; [|now apply step_err]. apply step_skip; [exact G|]. intros r L. now apply step_ok.
  - apply step_read; [exact G|]. intros ((data, pad), next) L. now apply step_ok.
  - apply step_read; [exact G|]. intros ((data, pad), next) L. now apply step_ok.
Qed.
Theorem rebuild_ends ts srs : ends (avi_rebuild ts srs).
Proof. unfold avi_rebuild. apply ends_bind; [apply ends_map; intros t; unfold track_file; destruct (t_file (snd t)); discriminate|]. intros l _. apply ends_bind; [apply run_ends, rebuild_moves|discriminate]. Qed.
Theorem restore_ends no_stored srs main : ends (avi_restore no_stored srs main).
Proof.
  unfold avi_restore, srs_rebuild. apply ends_bind; [apply load_ends|]. intros (fd, ts) _. cbv zeta. apply ends_bind; [destruct (_ || no_stored); [apply find_ends|discriminate]|]. intros ts1 _. destruct (_ && _); [discriminate|].
  apply ends_bind; [apply extract_ends|]. intros ts2 _. destruct (existsb _ _); [discriminate|]. apply ends_bind; [apply rebuild_ends|discriminate].
Qed.
