(** MkvEnd: reading MKV files and their SRS files ends. *)
From Verif Require Import Base BaseFacts Crc CrcFacts SrsRec SrsRecSpec SrsRecFacts Srs SrrFacts Ebml Mkv.
From Verif Require AviEnd.
Import AviEnd(ends, ends_ok, ends_bind, ends_map, unpack_ends, pack_ends, serialize_file_ends, serialize_track_ends, parse_file_ends, parse_track_ends).

Lemma byte_ends b o : ends (byte_at b o). Proof. apply unpack_ends. Qed.
Lemma byte_in b o v : byte_at b o = Ok v -> o < lenN b.
Proof. unfold byte_at, unpack. cbv zeta. destruct (_ =? _) eqn:E; [|discriminate]. intros _. rewrite lenN_sub in E. change (N.of_nat 1) with 1 in E. lia. Qed.
Lemma uint_loop_ends b n : forall o s, ends (uint_loop b n o s).
Proof. induction n as [|n IH]; intros o s; [discriminate|]. cbn [uint_loop]. apply ends_bind; [apply byte_ends|]. intros v _. apply IH. Qed.
Lemma uint_ends b o n : ends (get_ebml_uint b o n).
Proof. unfold get_ebml_uint. apply ends_bind; [apply byte_ends|]. intros v _. apply uint_loop_ends. Qed.
Lemma uint_stream_ends b o : ends (get_ebml_uint_stream b o).
Proof. unfold get_ebml_uint_stream. apply ends_bind; [apply byte_ends|]. intros v _. cbv zeta. apply ends_bind; [apply uint_loop_ends|]. discriminate. Qed.
Lemma xiph_ends s fuel : forall pos size, lenN s < N.of_nat fuel + pos -> (0 < fuel)%nat -> ends (xiph_size fuel s pos size).
Proof.
  induction fuel as [|fuel IH]; intros pos size H H0; [lia|]. cbn [xiph_size]. apply ends_bind; [apply byte_ends|]. intros v E. apply byte_in in E. destruct (v =? 255); [|discriminate]. apply IH; lia.
Qed.
Lemma lace_ends n lace count len s : forall pos i sizes consumed, ends (lace_loop n lace count len s pos i sizes consumed).
Proof.
  induction n as [|n IH]; intros pos i sizes consumed; [discriminate|]. cbn [lace_loop]. cbv zeta. destruct (lace =? LACE_NONE); [apply IH|]. destruct (lace =? LACE_FIXED); [apply IH|]. destruct (lace =? LACE_XIPH).
  - destruct (_ <? _); [|apply IH]. apply ends_bind; [apply xiph_ends; [rewrite lenN_length|]; lia|]. intros r _. apply IH.
  - destruct (i =? 0); [apply ends_bind; [apply uint_stream_ends|]; intros r _; apply IH|]. destruct (_ <? _); [|apply IH]. apply ends_bind; [apply uint_stream_ends|]. intros (k, bc) _. destruct (bc =? 0); [discriminate|apply IH].
Qed.
Lemma lengths_ends lace len s pos : ends (block_frame_lengths lace len s pos).
Proof. unfold block_frame_lengths. destruct (_ =? _); [apply lace_ends|]. apply ends_bind; [apply byte_ends|]. intros v _. apply lace_ends. Qed.
Lemma block_ends f pos n : ends (read_block f pos n).
Proof.
  unfold read_block. apply ends_bind; [apply byte_ends|]. intros d _. cbv zeta. apply ends_bind; [apply uint_ends|]. intros t _. destruct (_ <? _); [discriminate|]. apply ends_bind; [apply byte_ends|]. intros fl _. apply ends_bind; [apply lengths_ends|]. discriminate.
Qed.
Lemma next_ends check f pos : ends (ebml_next check f pos).
Proof.
  unfold ebml_next. destruct (_ <? _); [discriminate|]. apply ends_bind; [apply byte_ends|]. intros a _. cbv zeta. destruct (sub _ 1 f); [discriminate|]. destruct (negb _); [discriminate|]. apply ends_bind; [apply uint_ends|]. intros n _. destruct (check && _ && _); [discriminate|]. destruct (_ || _); [|discriminate]. apply ends_bind; [apply block_ends|]. discriminate.
Qed.
(** what is read goes on behind the start of the element *)
Definition good (e : elem) : Prop := e_start e + 2 <= e_data e /\ (Z.of_N (e_start e) + 2 <= Z.of_N (e_data e) + e_length e)%Z.
Lemma next_good check f pos e : ebml_next check f pos = Ok (Some e) -> e_start e = pos /\ pos + 2 <= lenN f /\ good e.
Proof.
  unfold ebml_next. destruct (N.ltb_spec (lenN f) (pos + 2)) as [L|L]; [discriminate|]. intros H. bindinv H. cbv zeta in H. destruct (sub _ 1 f) as [|c r]; [discriminate|]. set (id := sub pos 1 f ++ _) in *. set (h := id ++ _) in *.
  assert (Lh : 2 <= lenN h) by (unfold h, id; rewrite !lenN_app, lenN_sub, lenN_cons; lia). destruct (negb _); [discriminate|]. bindinv H. destruct (check && _ && _); [discriminate|]. destruct (_ || _).
  - bindinv H. apply ok_inj in H. apply some_inj in H. subst e. unfold good, e_data. cbn [e_start e_header e_length e_block]. repeat split; lia.
  - apply ok_inj in H. apply some_inj in H. subst e. unfold good, e_data. cbn [e_start e_header e_length e_block]. repeat split; lia.
Qed.
Lemma pos_after e : e_data e <= e_pos e.
Proof. unfold e_pos. destruct (e_block e) as [b|]; [destruct (b_over b)|]; lia. Qed.
Lemma read_after srs f e : good e -> e_start e < snd (ebml_read srs f e).
Proof. intros (G & _). pose proof (pos_after e). unfold ebml_read. destruct (srs && is_block e); cbn [snd]; lia. Qed.
Lemma skip_after srs e : good e -> e_start e < ebml_skip srs e.
Proof. intros (G & G2). pose proof (pos_after e). unfold ebml_skip. destruct (srs && is_block e); lia. Qed.
Lemma child e : good e -> e_start e < e_data e. Proof. intros (G & _). lia. Qed.
Lemma behind e : good e -> e_start e < e_pos e. Proof. intros (G & _). pose proof (pos_after e). lia. Qed.
Definition fine {S} (e : elem) (x : result (S * option N)) : Prop := ends x /\ forall r p, x = Ok r -> snd r = Some p -> e_start e < p.
Section Ends.
Context {S : Type} (act : S -> elem -> result (S * option N)).
Definition moves : Prop := forall s e, good e -> fine e (act s e).
Hypothesis M : moves.
Lemma loop_ends check stop f fuel : forall pos s, (N.to_nat (lenN f - pos) < fuel)%nat -> ends (ebml_loop fuel check stop act f pos s).
Proof.
  induction fuel as [|fuel IH]; intros pos s H; [lia|]. cbn [ebml_loop]. apply ends_bind; [apply next_ends|]. intros [c|] N1; [|discriminate]. destruct (next_good _ _ _ _ N1) as (Es & L & G). destruct (stop s); [discriminate|]. destruct (M s c G) as (E & K).
  apply ends_bind; [exact E|]. intros r Er. destruct (snd r) as [p|] eqn:P; [|discriminate]. specialize (K r p Er P). apply IH. lia.
Qed.
Theorem run_ends check stop f s : ends (ebml_run check stop act f s).
Proof. unfold ebml_run. apply loop_ends. rewrite lenN_length. lia. Qed.
End Ends.
Lemma fine_ok {S} e (s : S) p : e_start e < p -> fine e (Ok (s, Some p)).
Proof. intros L. split; [discriminate|]. intros r q H X. apply ok_inj in H. subst r. cbn [snd] in X. apply some_inj in X. now subst q. Qed.
Lemma fine_none {S} e (s : S) : fine e (Ok (s, None)).
Proof. split; [discriminate|]. intros r q H X. apply ok_inj in H. subst r. discriminate X. Qed.
Lemma fine_err {S} e x : x <> OutOfFuel -> @fine S e (Err x).
Proof. intros N1. split; [intros X; congruence|]. discriminate. Qed.
Lemma fine_bind {A S} e (y : result A) (k : A -> result (S * option N)) : ends y -> (forall v, fine e (k v)) -> fine e (bind y k).
Proof. intros E K. split; [apply ends_bind; [exact E|]; intros v _; apply K|]. intros r p H. bindinv H. now apply (K v). Qed.
Lemma get_ends {K A} eqb k (d : list (K * A)) : ends (get eqb k d).
Proof. induction d as [|(q, t) d IH]; [discriminate|]. cbn [get]. destruct (eqb q k); [discriminate|exact IH]. Qed.
Lemma utf8_ends b : ends (decode_utf8 b). Proof. unfold decode_utf8. destruct (utf8_dec b); discriminate. Qed.
Ltac ifs := repeat match goal with |- fine _ (if ?c then _ else _) => destruct c | |- ends (if ?c then _ else _) => destruct c end.
Ltac places := first [now apply child|now apply behind|now apply read_after|now apply skip_after|match goal with |- _ < (if ?c then _ else _) => destruct c; places end].
Ltac fine := repeat (ifs; first [apply fine_none|apply fine_ok; places|apply fine_err; discriminate|apply fine_bind; [|intros ?]|apply get_ends|apply uint_ends|apply utf8_ends|apply ends_ok|apply ends_bind; [|intros ? _]]).

Lemma profile_moves f : moves (profile_step f).
Proof. intros s e G. unfold profile_step. cbv zeta. ifs; [fine|fine|]. destruct (e_block e); fine. Qed.
Theorem profile_ends name f : ends (mkv_profile name f).
Proof. unfold mkv_profile. apply ends_bind; [apply run_ends, profile_moves|]. intros p _. destruct (_ =? _); discriminate. Qed.
Lemma mask_ends n l : ends (find_mask n l).
Proof. induction l as [|i l IH]; [discriminate|]. cbn [find_mask]. cbv zeta. destruct (_ <? _); [discriminate|exact IH]. Qed.
Lemma element_ends id d : ends (ebml_element id d).
Proof. unfold ebml_element, make_ebml_uint. apply ends_bind; [apply ends_bind; [apply mask_ends|]; intros (x, y) _; discriminate|discriminate]. Qed.
Lemma resample_ends ap fd ts : ends (resample ap fd ts).
Proof.
  unfold resample. apply ends_bind; [apply ends_bind; [apply serialize_file_ends|intros d _; apply element_ends]|]. intros x _. apply ends_bind; [|intros l _; apply element_ends]. apply ends_map. intros t. apply ends_bind; [apply serialize_track_ends|intros d _; apply element_ends].
Qed.
Lemma create_moves ap fd ts f : moves (create_step ap fd ts f).
Proof. intros s e G. unfold create_step. cbv zeta. ifs; [apply fine_bind; [apply resample_ends|intros v]; fine|fine|fine|]. destruct (e_block e); fine. Qed.
Theorem srs_ends ap name big offset f : ends (mkv_srs ap name big offset f).
Proof. unfold mkv_srs. apply ends_bind; [apply profile_ends|]. intros p _. destruct (snd p); [discriminate|]. apply run_ends, create_moves. Qed.
Lemma load_moves f : moves (load_step f).
Proof.
  intros s e G. unfold load_step. cbv zeta. repeat (ifs; first [apply parse_file_ends|apply parse_track_ends|apply fine_none|apply fine_ok; places|apply fine_bind; [|intros ?]|apply uint_ends]).
Qed.
Theorem load_ends f : ends (mkv_load_srs f).
Proof. unfold mkv_load_srs. apply ends_bind; [apply run_ends, load_moves|]. discriminate. Qed.
Lemma main_ends m id d : ends (main_track m id d). Proof. unfold main_track. fine. Qed.
Lemma find_moves cut f : moves (find_step cut f).
Proof.
  intros s e G. unfold find_step. cbv zeta. ifs; [fine|]. destruct (e_block e).
  - unfold find_block. cbv zeta. apply fine_bind; [apply get_ends|]. intros t. apply fine_bind; [apply get_ends|]. intros st. ifs; fine.
  - ifs; [apply fine_bind; [apply main_ends|intros m]; fine|fine|fine].
Qed.
Theorem find_ends cut ts main : ends (mkv_find cut ts main).
Proof. unfold mkv_find. apply ends_bind; [apply run_ends, find_moves|]. discriminate. Qed.
Lemma extract_moves start f : moves (extract_step start f).
Proof.
  intros s e G. unfold extract_step. cbv zeta. ifs; [fine|]. destruct (e_block e).
  - unfold extract_block. cbv zeta. destruct (get N.eqb _ _); [|fine]. apply fine_bind; [apply get_ends|]. intros st. fine.
  - ifs; [fine|apply fine_bind; [apply main_ends|intros m]; fine|fine| |fine]. destruct (x_cur s); [|fine]. apply fine_bind; [apply get_ends|]. intros [d|]; fine.
Qed.
Theorem extract_ends ts main : ends (mkv_extract ts main).
Proof. unfold mkv_extract. apply ends_bind; [apply run_ends, extract_moves|]. discriminate. Qed.
Lemma rebuild_moves flags f : moves (rebuild_step flags f).
Proof.
  intros s e G. unfold rebuild_step. cbv zeta. ifs; [fine|fine|]. destruct (e_block e).
  - apply fine_bind; [apply get_ends|]. intros [d|]; fine.
  - ifs; [|fine]. cbn [r_cur]. destruct (r_cur s); [|fine]. apply fine_bind; [apply get_ends|]. intros [d|]; [|fine]. apply fine_ok. places.
Qed.
Theorem rebuild_ends flags ts atts srs : ends (mkv_rebuild flags ts atts srs).
Proof. unfold mkv_rebuild. apply ends_bind; [apply run_ends, rebuild_moves|]. discriminate. Qed.
Theorem restore_ends no_stored srs main : ends (mkv_restore no_stored srs main).
Proof.
  unfold mkv_restore. apply ends_bind; [apply load_ends|]. intros ((fd, ts), cut) _. cbv zeta. apply ends_bind; [destruct (_ || _); [apply find_ends|discriminate]|]. intros ts1 _. destruct (_ && _); [discriminate|]. apply ends_bind; [apply extract_ends|]. intros (ts2, atts) _. destruct (existsb _ _); [discriminate|]. destruct fd as [fd|]; [|discriminate].
  apply ends_bind; [apply rebuild_ends|]. intros out _. destruct (_ =? _); [discriminate|]. destruct (_ =? _); discriminate.
Qed.
