(** WmvEnd: when reading WMV files and their SRS files ends. *)
From Verif Require Import Base BaseFacts Crc CrcFacts SrsRec SrsRecSpec SrsRecFacts Srs SrrFacts RecovFacts StrmFacts Avi Wmv.
From Verif Require AviEnd.
Import AviEnd(ends, ends_ok, ends_bind, ends_map, unpack_ends, pack_ends, get_ends, serialize_file_ends, serialize_track_ends, parse_file_ends, parse_track_ends).

(** ** Packets *)
Lemma unpack_len k d p v : unpack k d p = Ok v -> 0 < N.of_nat k -> p < lenN d.
Proof. unfold unpack. destruct (N.eqb_spec (lenN (sub p (N.of_nat k) d)) (N.of_nat k)) as [E|]; [|discriminate]. intros _ L. rewrite lenN_sub in E. lia. Qed.
Lemma field_ends w d p : ends (field_at w d p). Proof. unfold field_at. destruct (w =? 0); [discriminate|apply unpack_ends]. Qed.
Lemma subs_ends srs stream data len fuel : forall h p used, (N.to_nat (lenN data - p) < fuel)%nat -> ends (sub_payloads fuel srs stream data h p used len).
Proof.
  induction fuel as [|fuel IH]; intros h p used L; [lia|]. cbn [sub_payloads]. destruct (used <? len)%Z; [|destruct (_ =? _)%Z; discriminate]. apply ends_bind; [apply unpack_ends|]. intros n Hn. apply unpack_len in Hn; [|reflexivity]. apply ends_bind; [|discriminate]. apply IH. destruct srs; lia.
Qed.
Lemma pays_ends n srs multiple flags data datalen : forall skip, ends (read_payloads n srs multiple flags data datalen skip).
Proof.
  induction n as [|n IH]; intros skip; [discriminate|]. cbn [read_payloads]. cbv zeta.
  repeat first [ discriminate
    | match goal with |- ends (if ?b then _ else _) => destruct b end
    | match goal with |- ends (let '(_, _) := ?x in _) => destruct x end
    | apply unpack_ends | apply field_ends | apply subs_ends; rewrite lenN_length; lia | apply IH
    | apply ends_bind; [|intros ? _] ].
Qed.
Lemma packet_ends srs data psize : ends (get_packet srs data psize).
Proof.
  unfold get_packet. cbv zeta.
  repeat first [ discriminate
    | match goal with |- ends (if ?b then _ else _) => destruct b end
    | match goal with |- ends (let '(_, _) := ?x in _) => destruct x end
    | apply unpack_ends | apply field_ends | apply pays_ends
    | apply ends_bind; [|intros ? _] ].
Qed.
Lemma packet_used srs data psize k : get_packet srs data psize = Ok k -> 0 < lenN data /\ (5 <= psize)%Z /\ 0 < k_used k /\ (srs = false -> Z.of_N (lenN data) = psize).
Proof.
  unfold get_packet. cbv zeta. intros H. bindinv H. apply unpack_len in E; [|reflexivity]. destruct (negb (v =? 130)); [discriminate|]. destruct (Z.ltb_spec psize 5) as [|L5]; [discriminate|]. bindinv H. bindinv H. destruct (psize <? _)%Z; [discriminate|].
  destruct (negb srs && negb (Z.of_N (lenN data) =? psize)%Z) eqn:Es; [discriminate|]. repeat (bindinv H). destruct (psize <? _)%Z; [discriminate|]. bindinv H.
  destruct v7 as (count, rd). assert (Lr : 0 < rd).
  { destruct (N.odd v0); [|apply ok_inj in E7; injection E7 as _ <-; lia]. destruct (psize <? _)%Z; [discriminate|]. bindinv E7. destruct (_ =? 0); [discriminate|]. destruct (_ =? 2); [|discriminate]. apply ok_inj in E7. injection E7 as _ <-. lia. }
  bindinv H. match type of H with (if ?b then _ else _) = _ => destruct b; [discriminate|] end. apply ok_inj in H. subst k. cbn [k_used]. repeat split; [exact E|exact L5|lia|]. intros ->. cbn [negb andb] in Es. lia.
Qed.
Lemma read_n_ends f p n : ends (read_n f p n). Proof. unfold read_n. destruct (_ <? _)%Z; discriminate. Qed.
Lemma read_n_len f p n d : read_n f p n = Ok d -> (0 <= n)%Z -> lenN d = N.min (Z.to_N n) (lenN f - p).
Proof. unfold read_n, read_at. intros H L. destruct (_ <? _)%Z; [discriminate|]. apply ok_inj in H. subst d. replace (n <? 0)%Z with false by lia. apply lenN_sub. Qed.
Section Packets.
Context {S : Type} (act : S -> N -> bytes -> parsed -> result (S * bool)).
Hypothesis Act : forall s off d k, ends (act s off d k).
Lemma packets_ends exact f psize fuel : forall n off s, (N.to_nat (lenN f - off) < fuel)%nat -> ends (packets fuel exact act f psize n off s).
Proof.
  induction fuel as [|fuel IH]; intros n off s L; [lia|]. cbn [packets]. destruct (n =? 0); [discriminate|]. apply ends_bind; [apply read_n_ends|]. intros d Hd. destruct (exact && _); [discriminate|]. apply ends_bind; [apply packet_ends|]. intros k Hk. apply packet_used in Hk as (K1 & K2 & _ & K3).
  apply ends_bind; [apply Act|]. intros r _. destruct (snd r); [discriminate|]. apply IH. specialize (K3 eq_refl). apply read_n_len in Hd; [|lia]. lia.
Qed.
Lemma packets_psize exact f psize fuel n off s s' : packets fuel exact act f psize n off s = Ok s' -> n <> 0 -> (5 <= psize)%Z.
Proof using. clear Act. destruct fuel as [|fuel]; [discriminate|]. cbn [packets]. intros H N0. replace (n =? 0) with false in H by lia. bindinv H. destruct (exact && _); [discriminate|]. bindinv H. now apply packet_used in E0. Qed.
Lemma packets_run exact f psize n off s : ends (packets (1 + length f) exact act f psize n off s).
Proof. apply packets_ends. rewrite lenN_length. lia. Qed.
End Packets.
Lemma stored_ends f psize fuel : forall n off, (N.to_nat (lenN f - off) < fuel)%nat -> ends (stored_end fuel f psize n off) /\ forall e, stored_end fuel f psize n off = Ok e -> off <= e.
Proof.
  induction fuel as [|fuel IH]; intros n off L; [lia|]. cbn [stored_end]. destruct (n =? 0); [split; [discriminate|intros e H; apply ok_inj in H; lia]|]. split.
  - apply ends_bind; [apply packet_ends|]. intros k Hk. apply packet_used in Hk as (K1 & _ & K2 & _). rewrite lenN_dropN in K1. apply IH. lia.
  - intros e H. bindinv H. apply packet_used in E as (K1 & _ & K2 & _). rewrite lenN_dropN in K1. apply (proj2 (IH (n - 1) (off + k_used v) ltac:(lia))) in H. lia.
Qed.

(** ** Objects *)
(** what the model calls out of fuel happens only if [P] *)
Definition fin {A} (P : Prop) (x : result A) : Prop := x = Err OutOfFuel -> P.
Lemma fin_ends {A} P (x : result A) : ends x -> fin P x. Proof. intros H E. contradiction. Qed.
Lemma fin_bind {A B} P (x : result A) (g : A -> result B) : fin P x -> (forall v, x = Ok v -> fin P (g v)) -> fin P (bind x g).
Proof. intros H K. destruct x as [v|e]; cbn [bind]; [now apply K|]. intros X. apply H. exact (f_equal (fun r => match r with Ok _ => Err OutOfFuel | Err e => Err e end) X). Qed.
(** an object with a size of 0 *)
Definition empty_object (f : bytes) : Prop := exists pos, pos + 24 <= lenN f /\ sub (pos + 16) 8 f = repN 8 x00.
Definition good (f : bytes) (o : object) : Prop := 24 <= lenN (o_header o) /\ o_start o + 24 <= lenN f /\ (o_size o = 0 -> empty_object f).
Lemma unle_0 (l : bytes) : unle l = 0 -> l = repN (lenN l) x00.
Proof.
  induction l as [|b l IH]; intros H; [reflexivity|]. rewrite lenN_cons. cbn [unle] in H. replace (1 + lenN l) with (N.succ (lenN l)) by lia. rewrite repN_succ. f_equal; [|apply IH; lia]. rewrite <- (n2b_b2n b). replace (b2n b) with 0 by lia. reflexivity.
Qed.
Lemma next_ends m f pos : ends (asf_next m f pos).
Proof.
  unfold asf_next. destruct (_ <? _); [discriminate|]. cbv zeta. apply ends_bind; [apply unpack_ends|]. intros n _. destruct (match m with Sample => _ | _ => _ end); [discriminate|]. destruct (_ && _); [|discriminate].
  apply ends_bind; [apply unpack_ends|]. intros c _. apply ends_bind; [unfold packet_size; destruct (_ =? _); discriminate|]. intros z _. apply ends_bind; [|discriminate]. apply stored_ends. rewrite lenN_length. lia.
Qed.
Lemma next_good m f pos o : asf_next m f pos = Ok (Some o) -> o_start o = pos /\ good f o.
Proof.
  unfold asf_next. destruct (N.ltb_spec (lenN f) (pos + 24)) as [|L]; [discriminate|]. cbv zeta. intros H. bindinv H. destruct (match m with Sample => _ | _ => _ end); [discriminate|].
  assert (L24 : lenN (sub pos 24 f) = 24) by (rewrite lenN_sub; lia).
  set (h := sub pos 24 f ++ _) in H. assert (Lh : 24 <= lenN h) by (unfold h; rewrite lenN_app, L24; lia).
  destruct (_ && _).
  - bindinv H. bindinv H. bindinv H. apply ok_inj in H. apply some_inj in H. subst o. cbn [o_start]. split; [reflexivity|]. split; [exact Lh|]. split; [exact L|]. cbn [o_size]. intros X. exfalso. apply stored_ends in E2; [|rewrite lenN_length; lia]. lia.
  - apply ok_inj in H. apply some_inj in H. subst o. cbn [o_start]. split; [reflexivity|]. split; [exact Lh|]. split; [exact L|]. cbn [o_size]. intros ->. exists pos. split; [exact L|].
    unfold unpack in E. change (N.of_nat 8) with 8 in E. assert (Es : sub 16 8 (sub pos 24 f) = sub (pos + 16) 8 f).
    { unfold sub. rewrite dropN_takeN, takeN_takeN, dropN_dropN. replace (N.min 8 (24 - 16)) with 8 by lia. now rewrite (N.add_comm 16 pos). }
    rewrite Es in E. destruct (N.eqb_spec (lenN (sub (pos + 16) 8 f)) 8) as [L8|]; [|discriminate]. apply ok_inj in E. apply unle_0 in E. now rewrite L8 in E.
Qed.
Section Ends.
Context {S : Type} (f : bytes) (P : Prop) (act : S -> object -> result (S * N)).
Definition moves : Prop := forall s o, good f o -> fin P (act s o) /\ forall r, act s o = Ok r -> o_start o < snd r \/ P.
Hypothesis M : moves.
Lemma loop_ends m stop fuel : forall pos s, (N.to_nat (lenN f - pos) < fuel)%nat -> fin P (asf_loop fuel m stop act f pos s).
Proof.
  induction fuel as [|fuel IH]; intros pos s H; [lia|]. cbn [asf_loop]. apply fin_bind; [apply fin_ends, next_ends|]. intros [o|] N1; [|discriminate]. destruct (next_good _ _ _ _ N1) as (Es & G). destruct (stop s); [discriminate|]. destruct (M s o G) as (E & K).
  apply fin_bind; [exact E|]. intros r Er. destruct (K r Er) as [L|Hp]; [|now intros _]. apply IH. destruct G as (_ & G & _). lia.
Qed.
Lemma run_ends m stop s : fin P (asf_run m stop act f s).
Proof. unfold asf_run. apply loop_ends. rewrite lenN_length. lia. Qed.
End Ends.
Definition goes {S} (P : Prop) (o : object) (x : result (S * N)) : Prop := fin P x /\ forall r, x = Ok r -> o_start o < snd r \/ P.
Lemma goes_bind {A S} P o (x : result A) (g : A -> result (S * N)) : ends x -> (forall v, x = Ok v -> goes P o (g v)) -> goes P o (bind x g).
Proof. intros H K. split; [apply fin_bind; [now apply fin_ends|]; intros v Hv; now apply K|]. intros r Hr. bindinv Hr. now apply (K v). Qed.
Lemma goes_ok {S} P o (s : S) p : o_start o < p \/ P -> goes P o (Ok (s, p)).
Proof. intros H. split; [discriminate|]. intros r Hr. apply ok_inj in Hr. now subst r. Qed.
Lemma goes_err {S} (P : Prop) o e : e <> OutOfFuel -> goes (S := S) P o (Err e).
Proof. intros H. split; [intros X; congruence|discriminate]. Qed.
Lemma contents_ends f o : ends (asf_contents f o). Proof. unfold asf_contents. apply ends_bind; [apply read_n_ends|discriminate]. Qed.
Lemma contents_next f o r : good f o -> asf_contents f o = Ok r -> o_start o < snd r.
Proof. intros (G & _) H. unfold asf_contents in H. bindinv H. apply ok_inj in H. subst r. cbn [snd]. unfold o_data. lia. Qed.
Lemma skip_next f o : good f o -> o_start o < asf_skip o \/ empty_object f.
Proof. intros (_ & _ & G). unfold asf_skip. destruct (N.eq_dec (o_size o) 0) as [E|E]; [right; now apply G|left; lia]. Qed.
Lemma size_ends h s c : ends (packet_size h s c). Proof. unfold packet_size. destruct (_ =? _); discriminate. Qed.
Lemma size_count h s c z : packet_size h s c = Ok z -> c <> 0. Proof. unfold packet_size. destruct (N.eqb_spec c 0) as [->|H]; [discriminate|auto]. Qed.
Lemma all_read_ends o z c : ends (all_read o z c). Proof. unfold all_read. destruct (_ =? _)%Z; discriminate. Qed.
Lemma all_read_next f o z c p : good f o -> all_read o z c = Ok p -> c <> 0 -> (5 <= z)%Z -> o_start o < p.
Proof.
  intros (G & _) H Hc Hz. unfold all_read in H. destruct (Z.eqb_spec (Z.of_N (o_data o) + z * Z.of_N c) (Z.of_N (asf_skip o))) as [E|]; [|discriminate]. apply ok_inj in H. subst p. unfold o_data in E. assert (0 < z * Z.of_N c)%Z by (apply Z.mul_pos_pos; lia). lia.
Qed.
Lemma pays_profile_ends ys : forall ts a b, ends (profile_pays ys ts a b).
Proof. induction ys as [|y ys IH]; intros ts a b; [discriminate|]. cbn [profile_pays]. apply ends_bind; [apply get_ends|]. intros t _. destruct (_ || _); [discriminate|apply IH]. Qed.
Lemma profile_moves f : moves f False (profile_step f).
Proof.
  intros s o G. change (goes False o (profile_step f s o)). unfold profile_step. cbv zeta. destruct (guid_is HEADER_OBJECT o); [apply goes_ok; left; destruct G as (G & _); unfold o_data; lia|]. destruct (guid_is DATA_OBJECT o).
  - apply goes_bind; [apply unpack_ends|]. intros c _. apply goes_bind; [apply size_ends|]. intros z Hz. apply size_count in Hz. apply goes_bind.
    + apply packets_run. intros p off d k. unfold profile_packet. apply ends_bind; [apply pays_profile_ends|]. intros ((ts, sizes), headers) _. destruct (negb _); discriminate.
    + intros p Hp. apply packets_psize in Hp; [|exact Hz]. apply goes_bind; [apply all_read_ends|]. intros n Hn. apply goes_ok. left. exact (all_read_next f o z c n G Hn Hz Hp).
  - apply goes_bind; [apply contents_ends|]. intros r Hr. apply goes_bind.
    + destruct (guid_is STREAM_OBJECT o); [|discriminate]. unfold profile_stream. apply ends_bind; [apply unpack_ends|]. intros v _. cbv zeta. destruct (get_track _ _); discriminate.
    + intros ts _. apply goes_bind; [destruct (guid_is FILE_OBJECT o); [apply unpack_ends|discriminate]|]. intros _ _. apply goes_ok. left. now apply (contents_next f).
Qed.
Theorem profile_ends name f : ends (wmv_profile name f).
Proof. unfold wmv_profile. apply ends_bind; [exact (run_ends f False (profile_step f) (profile_moves f) Sample never (mkP [] 0 0 []))|]. intros p _. destruct (_ =? _); discriminate. Qed.
Lemma asf_object_ends g d : ends (asf_object g d). Proof. unfold asf_object. apply ends_bind; [apply pack_ends|discriminate]. Qed.
Lemma srs_objects_ends ap fd ts pad : ends (srs_objects ap fd ts pad).
Proof.
  unfold srs_objects. apply ends_bind; [apply ends_bind; [apply serialize_file_ends|intros d _; apply asf_object_ends]|]. intros x _. apply ends_bind; [apply ends_map; intros t; apply ends_bind; [apply serialize_track_ends|intros d _; apply asf_object_ends]|].
  intros l _. apply ends_bind; [destruct (all_zero pad); [discriminate|apply asf_object_ends]|discriminate].
Qed.
Lemma create_moves ap fd ts pad f : moves f False (create_step ap fd ts pad f).
Proof.
  intros s o G. change (goes False o (create_step ap fd ts pad f s o)). unfold create_step. cbv zeta. destruct (guid_is DATA_OBJECT o).
  - apply goes_bind; [apply unpack_ends|]. intros c _. apply goes_bind; [apply size_ends|]. intros z Hz. apply size_count in Hz. apply goes_bind; [apply packets_run; discriminate|].
    intros p Hp. apply packets_psize in Hp; [|exact Hz]. apply goes_bind; [apply srs_objects_ends|]. intros x _. apply goes_bind; [apply all_read_ends|]. intros n Hn. apply goes_ok. left. exact (all_read_next f o z c n G Hn Hz Hp).
  - apply goes_bind; [apply contents_ends|]. intros r Hr. apply goes_ok. left. now apply (contents_next f).
Qed.
Theorem srs_ends ap name big offset f : ends (wmv_srs ap name big offset f).
Proof.
  unfold wmv_srs. apply ends_bind; [apply profile_ends|]. intros ((fd, ts), pad) _. destruct ts as [|t ts]; [discriminate|]. exact (run_ends f False _ (create_moves ap fd _ pad f) Main never []).
Qed.
Lemma load_moves f : moves f (empty_object f) (load_step f).
Proof.
  intros s o G. change (goes (empty_object f) o (load_step f s o)). unfold load_step. destruct (guid_is SRS_FILE o); [|destruct (guid_is SRS_TRACK o); [|destruct (guid_is SRS_PADDING o)]].
  - apply goes_bind; [apply contents_ends|]. intros r Hr. apply goes_bind; [apply parse_file_ends|]. intros d _. apply goes_ok. left. now apply (contents_next f).
  - apply goes_bind; [apply contents_ends|]. intros r Hr. apply goes_bind; [apply parse_track_ends|]. intros d _. apply goes_ok. left. now apply (contents_next f).
  - apply goes_bind; [apply contents_ends|]. intros r Hr. destruct (l_file s); [apply goes_ok; left; now apply (contents_next f)|now apply goes_err].
  - apply goes_ok. now apply skip_next.
Qed.
Lemma load_fin f : fin (empty_object f) (wmv_load f).
Proof. apply run_ends, load_moves. Qed.
Lemma find_payload_ends t check y at_ : ends (find_payload t check y at_).
Proof.
  unfold find_payload. cbv zeta. destruct ((t_offset t =? 0)%Z || _); [|destruct (_ <? _); discriminate]. match goal with |- ends (let '(_, _) := ?x in _) => destruct x as (t1, c1) end. destruct c1; [|discriminate]. destruct (td_signature (t_td t)); [discriminate|]. destruct (find_start _ _ _) as [(p, c2)|]; discriminate.
Qed.
Lemma find_pays_ends ys : forall at_ s, ends (find_pays ys at_ s).
Proof. induction ys as [|y ys IH]; intros at_ s; [discriminate|]. cbn [find_pays]. destruct s as ((ts, checks), done). apply ends_bind; [apply get_ends|]. intros t _. apply ends_bind; [apply find_payload_ends|]. intros r _. apply IH. Qed.
Lemma find_moves f : moves f (empty_object f) (find_step f).
Proof.
  intros s o G. change (goes (empty_object f) o (find_step f s o)). unfold find_step. destruct (guid_is DATA_OBJECT o); [|apply goes_ok; now apply skip_next].
  apply goes_bind; [apply unpack_ends|]. intros c _. apply goes_bind; [apply size_ends|]. intros z _. apply goes_bind; [apply packets_run; intros p off d k; unfold find_packet; apply ends_bind; [apply find_pays_ends|discriminate]|]. intros p _. apply goes_ok. now apply skip_next.
Qed.
Lemma find_fin ts main : fin (empty_object main) (wmv_find ts main).
Proof. unfold wmv_find. apply fin_bind; [apply run_ends, find_moves|discriminate]. Qed.
Lemma extract_pays_ends ys : forall at_ s, ends (extract_pays ys at_ s).
Proof. induction ys as [|y ys IH]; intros at_ s; [discriminate|]. cbn [extract_pays]. apply ends_bind; [apply get_ends|]. intros t _. apply IH. Qed.
Lemma extract_moves f first : moves f (empty_object f) (extract_step f first).
Proof.
  intros s o G. change (goes (empty_object f) o (extract_step f first s o)). unfold extract_step. destruct (guid_is DATA_OBJECT o); [|apply goes_ok; now apply skip_next].
  apply goes_bind; [apply unpack_ends|]. intros c _. apply goes_bind; [apply size_ends|]. intros z _. cbv zeta. apply goes_bind; [apply packets_run; intros p off d k; unfold extract_packet; apply ends_bind; [apply extract_pays_ends|discriminate]|]. intros p _. apply goes_ok. now apply skip_next.
Qed.
Lemma extract_fin ts main : fin (empty_object main) (wmv_extract ts main).
Proof. unfold wmv_extract. apply fin_bind; [apply run_ends, extract_moves|discriminate]. Qed.
Lemma rebuild_pays_ends ys : forall out files, ends (rebuild_pays ys out files).
Proof.
  induction ys as [|y ys IH]; intros out files; [discriminate|]. cbn [rebuild_pays]. destruct (find _ _) as [(k, [d|])|]; [|destruct (negb _); discriminate|discriminate]. destruct (negb _); [discriminate|]. apply ends_bind; [apply read_n_ends|]. intros b _. apply IH.
Qed.
Lemma rebuild_packets_ends f pad psize stop start fuel : forall n off last s, (N.to_nat (lenN f - off) < fuel)%nat -> start < off -> (snd last = true -> start < fst last) ->
  ends (rebuild_packets fuel f pad psize stop n off last s) /\ forall r, rebuild_packets fuel f pad psize stop n off last s = Ok r -> snd (snd r) = true -> start < fst (snd r).
Proof.
  induction fuel as [|fuel IH]; intros n off last s L So Sl; [lia|]. cbn [rebuild_packets]. destruct (n =? 0); [split; [discriminate|intros r H; apply ok_inj in H; now subst r]|]. cbv zeta.
  assert (K : forall d k s', read_n f off psize = Ok d -> get_packet true d psize = Ok k -> ends (rebuild_packets fuel f pad psize stop (n - 1) (off + k_used k) (off + lenN d, snd last || (Z.of_N off + psize =? Z.of_N stop)%Z) s') /\
     forall r, rebuild_packets fuel f pad psize stop (n - 1) (off + k_used k) (off + lenN d, snd last || (Z.of_N off + psize =? Z.of_N stop)%Z) s' = Ok r -> snd (snd r) = true -> start < fst (snd r)).
  { intros d k s' Hd Hk. apply packet_used in Hk as (K1 & K2 & K3 & _). apply read_n_len in Hd; [|lia]. apply IH; [lia|lia|]. intros _. cbn [fst]. lia. }
  split.
  - apply ends_bind; [apply read_n_ends|]. intros d Hd. apply ends_bind; [apply packet_ends|]. intros k Hk. apply ends_bind; [apply rebuild_pays_ends|]. intros r _. now apply K.
  - intros r H. bindinv H. bindinv H. bindinv H. apply (proj2 (K _ _ _ E E0) r H).
Qed.
Lemma rebuild_moves f pad : moves f (empty_object f) (rebuild_step f pad).
Proof.
  intros s o G. change (goes (empty_object f) o (rebuild_step f pad s o)). unfold rebuild_step. destruct (ours o); [apply goes_ok; now apply skip_next|]. cbv zeta. destruct (guid_is DATA_OBJECT o).
  - apply goes_bind; [apply unpack_ends|]. intros c _. apply goes_bind; [apply size_ends|]. intros z _.
    match goal with |- goes _ _ (bind (rebuild_packets ?a ?b ?d ?e ?g ?h ?i ?j ?k) _) => destruct (rebuild_packets_ends b d e g (o_start o) a h i j k) as (E & K) end; [rewrite lenN_length; lia|destruct G as (G & _); unfold o_data; lia|discriminate|].
    apply goes_bind; [exact E|]. intros r Hr. apply goes_ok. specialize (K r Hr). destruct (snd (snd r)); [left; now apply K|now apply skip_next].
  - apply goes_bind; [apply contents_ends|]. intros r Hr. apply goes_ok. left. now apply (contents_next f).
Qed.
Lemma rebuild_fin ts srs : fin (empty_object srs) (wmv_rebuild ts srs).
Proof. unfold wmv_rebuild. apply fin_bind; [apply load_fin|]. intros l _. apply fin_bind; [apply run_ends, rebuild_moves|discriminate]. Qed.
Theorem restore_fin no_stored srs main : wmv_restore no_stored srs main = Err OutOfFuel -> empty_object srs \/ empty_object main.
Proof.
  assert (W : forall {A} (x : result A) (P Q : Prop), fin P x -> (P -> Q) -> fin Q x) by (intros A x P Q H K E; apply K, H, E).
  change (fin (empty_object srs \/ empty_object main) (wmv_restore no_stored srs main)). unfold wmv_restore, srs_rebuild. apply fin_bind.
  { unfold wmv_load_srs. apply fin_bind; [apply (W _ _ _ _ (load_fin srs)); now left|]. intros l _. destruct (l_file l); discriminate. }
  intros (fd, ts) _. cbv zeta. apply fin_bind; [destruct (_ || no_stored); [apply (W _ _ _ _ (find_fin ts main)); now right|discriminate]|]. intros ts1 _. destruct (_ && _); [discriminate|].
  apply fin_bind; [apply (W _ _ _ _ (extract_fin ts1 main)); now right|]. intros ts2 _. destruct (existsb _ _); [discriminate|]. apply fin_bind; [apply (W _ _ _ _ (rebuild_fin ts2 srs)); now left|discriminate].
Qed.
Theorem restore_empty no_stored srs main : wmv_restore no_stored srs main = Err OutOfFuel ->
  exists f pos, (f = srs \/ f = main) /\ pos + 24 <= lenN f /\ sub (pos + 16) 8 f = repN 8 x00.
Proof. intros H. apply restore_fin in H as [(p & A)|(p & A)]; [exists srs|exists main]; exists p; (split; [auto|exact A]). Qed.
