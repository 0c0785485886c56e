(** MkvMain: which MKV samples are rebuilt, and what is rebuilt from any main file. *)
From Verif Require Import Base BaseFacts Crc CrcFacts SrsRec SrsRecSpec SrsRecFacts Srs SrrFacts Ebml EbmlSpec EbmlFacts Mkv StrmSpec Mp3Spec MkvSpec MkvRead MkvSrs MkvLoad MkvOut MkvFind MkvSearch MkvExtract.
From Verif Require VolFacts.

(** ** Rebuilding from the data of the tracks *)
Theorem mkv_back ap name big offset ps srs (ts : mtracks) atts : mkv_ok ps -> mkv_srs ap name big offset (file_of ps) = Ok srs -> NoDup (map fst ts) -> NoDup (map fst atts) ->
  (forall b, In (Blk b) (all_items ps) -> exists t d, In (k_no b, t) ts /\ m_file t = Some d /\ starts (data_of (k_no b) (all_items ps)) d) ->
  (forall nm d, In (Some nm, d) (files_of (all_items ps)) -> In (nm, Some d) atts) ->
  mkv_rebuild NEW_FLAGS ts atts srs = Ok (file_of ps).
Proof.
  intros H E Nt Na Ht Hat. destruct (load_is ap name big offset ps srs H E) as (fd & ts0 & a & w & size & b & wr & added & _ & _ & _ & _ & _ & Ep & Es & Ad & V & Ha & _). destruct H as (F & _ & _ & _ & (Fo1 & Fo2) & _).
  apply (rebuild_back ps a b w wr size added srs F Ep Ha Ad V Es).
  - reflexivity.
  - intros bl Hb. destruct (Ht bl Hb) as (t & d & I & Ef & St). exists t, d. split; [now apply (in_get N.eqb N.eqb_eq)|]. now split.
  - intros nm d Hi. destruct nm as [k|]; [|destruct Fo1; apply (in_map fst) in Hi; exact Hi]. exists k. split; [reflexivity|]. apply (in_get beqb beqb_eq); [exact Na|]. now apply Hat.
  - exact Fo2.
Qed.

(** ** From the main file *)
Lemma first_held_held its ms at_ : in_movie first_held its ms at_ -> in_movie held its ms at_.
Proof. intros (A & B). split; [|exact B]. intros n Hn. destruct (A n Hn) as (l & C & a & x & b & E1 & E2 & E3 & _). exists l. split; [exact C|]. now exists a, x, b. Qed.
Lemma loaded_located offset its ts : loaded offset its ts -> located its offset ts.
Proof.
  intros (Nd & L). split; [exact Nd|]. split.
  - intros n Hn. specialize (L n). destruct (get N.eqb n ts) as [t|e]; [|exfalso; apply Hn, no_data; exact L]. destruct L as (_ & td & -> & _ & _ & T & _). eexists. split; [reflexivity|]. now repeat split.
  - intros n t G D. specialize (L n). rewrite G in L. destruct L as (_ & td & -> & _ & _ & T & (S & _)). cbn [m_td m_file]. rewrite D in *. split; [exact T|]. split; [|reflexivity]. destruct S as (r & S). destruct (td_signature td); [reflexivity|discriminate S].
Qed.
Theorem mkv_exact ap name big offset no_stored ps srs main ms : mkv_ok ps -> mkv_srs ap name big offset (file_of ps) = Ok srs -> movie_ok main ms ->
  (exists at_, in_movie first_held (all_items ps) (all_items ms) at_ /\ alike (all_items ps) (all_items ms) /\
     (no_stored = true \/ (exists n, has_track n (all_items ps) /\ offset n = 0) \/ in_movie held (all_items ps) (all_items ms) offset)) \/
  (no_stored = false /\ (forall n, has_track n (all_items ps) -> offset n <> 0 /\ lenN (data_of n (all_items ps)) <= 1000000) /\ in_movie held (all_items ps) (all_items ms) offset) ->
  mkv_restore no_stored srs main = Ok (Rebuilt (file_of ps)).
Proof.
  intros H E M Hyp. destruct (load_is ap name big offset ps srs H E) as (fd & ts & a & w & size & b & wr & added & El & Cf & Fl & Nt & Lo & Ep & Es & Ad & V & Ha & _).
  unfold mkv_restore. rewrite El. cbn [bind]. set (its := all_items ps) in *. set (cut := map _ _). set (search := negb (forallb (fun t => negb (m_offset (snd t) =? 0)) ts) || no_stored || negb (lenN cut =? 0)).
  assert (Sy : Forall syn (all_items ms)) by (destruct M as (_ & F & _); destruct (parts_syn ms F) as (Ps & _); pose proof (looks_syn (fun _ _ => true) ms Ps 0) as Sa; now rewrite looks_all in Sa by reflexivity).
  assert (K : exists at_ ts', (if search then mkv_find cut ts main else Ok ts) = Ok ts' /\ located its at_ ts' /\ in_movie held its (all_items ms) at_).
  { destruct Hyp as [(at_ & Im & Al & Why)|(Ns & Of & Im)].
    - destruct search eqn:Sc.
      + destruct (find_is cut offset its at_ main ms ts M Im Al Lo) as (ts' & E1 & L1). exists at_, ts'. split; [exact E1|]. split; [exact L1|now apply first_held_held].
      + exists offset, ts. split; [reflexivity|]. split; [now apply loaded_located|]. unfold search in Sc. apply orb_false_iff in Sc as (Sc & _). apply orb_false_iff in Sc as (Sc & ->). apply negb_false_iff in Sc. destruct Why as [X|[(n & Hn & Z0)|X]]; [discriminate X| |exact X]. exfalso. destruct Lo as (_ & Lo). specialize (Lo n). destruct (get N.eqb n ts) as [t|e] eqn:G; [|contradiction]. destruct Lo as (_ & td & -> & _). rewrite forallb_forall in Sc. specialize (Sc _ (get_in N.eqb N.eqb_eq _ _ _ G)). cbn [snd m_offset] in Sc. rewrite Z0 in Sc. discriminate Sc.
    - assert (Sc : search = false).
      { assert (Each : forall t, In t ts -> m_offset (snd t) <> 0 /\ enough (m_td (snd t)) = true).
        { intros (k, t) Ht. cbn [snd]. pose proof (in_get N.eqb N.eqb_eq k t ts (proj1 Lo) Ht) as G. destruct Lo as (_ & Lo). specialize (Lo k). rewrite G in Lo. destruct Lo as (Hk & td & -> & _ & _ & T & _). destruct (Of k Hk) as (O1 & O2). split; [exact O1|]. cbn [m_td]. unfold enough. rewrite T. replace (STREAM_VS_SUBTITLE <? lenN (data_of k its)) with false by (unfold STREAM_VS_SUBTITLE; lia). reflexivity. }
        unfold search. rewrite Ns. assert (X1 : forallb (fun t => negb (m_offset (snd t) =? 0)) ts = true) by (apply forallb_forall; intros t Ht; destruct (Each t Ht) as (X & _); lia). rewrite X1.
        assert (X2 : cut = []); [|now rewrite X2]. unfold cut. replace (filter (fun t => negb (enough (m_td (snd t)))) ts) with (@nil (N * mtrack)); [reflexivity|]. symmetry. apply VolFacts.filter_none. intros t Ht. destruct (Each t Ht) as (_ & ->). reflexivity. }
      rewrite Sc. exists offset, ts. split; [reflexivity|]. split; [now apply loaded_located|exact Im]. }
  destruct K as (at_ & ts' & Efd & Lc & Im). match goal with |- bind ?x _ = _ => replace x with (Ok ts') by (symmetry; exact Efd) end. cbn [bind].
  assert (A3 : existsb (fun t => negb (lenN (td_signature (m_td (snd t))) =? 0) && (m_offset (snd t) =? 0)) ts' = false).
  { apply not_true_is_false. intros X. apply existsb_exists in X as ((k, t) & Ht & X). cbn [snd] in X. destruct Lc as (Nd & L1 & L2). pose proof (in_get N.eqb N.eqb_eq k t ts' Nd Ht) as G. assert (D : data_of k its = [] \/ data_of k its <> []) by (destruct (data_of k its); [now left|right; discriminate]). destruct D as [D|D].
    - destruct (L2 k t G D) as (_ & S & _). rewrite S in X. discriminate X.
    - destruct (L1 k D) as (t' & G' & O & _). assert (t' = t) by congruence. subst t'. pose proof (place_real its (all_items ms) at_ k Sy Im D). lia. }
  rewrite A3, andb_false_r. destruct (extract_is its at_ main ms ts' M Im Lc) as (ts2 & atts & -> & (Nd2 & F1 & F2) & Nda & Hat). cbn [bind].
  assert (A4 : existsb (fun t => negb (lenN (td_signature (m_td (snd t))) =? 0) && negb (complete (snd t))) ts2 = false).
  { apply not_true_is_false. intros X. apply existsb_exists in X as ((k, t) & Ht & X). cbn [snd] in X. pose proof (in_get N.eqb N.eqb_eq k t ts2 Nd2 Ht) as G. assert (D : data_of k its = [] \/ data_of k its <> []) by (destruct (data_of k its); [now left|right; discriminate]). destruct D as [D|D].
    - rewrite (F2 k t G D) in X. discriminate X.
    - destruct (F1 k D) as (t' & d & G' & Ef & (r & Er) & L). assert (t' = t) by congruence. subst t'. unfold complete in X. rewrite Ef, L, Er, lenN_app in X. lia. }
  rewrite A4, Fl. assert (Ok_ := H). destruct H as (F & _ & _ & _ & (Fo1 & Fo2) & _ & Bd).
  rewrite (rebuild_back ps a b w wr size added srs F Ep Ha Ad V Es NEW_FLAGS ts2 atts); [cbn [bind]; rewrite Cf, N.eqb_refl; reflexivity|reflexivity| | |exact Fo2].
  - intros bl Hb. destruct (F1 (k_no bl) (Bd bl Hb)) as (t & d & G & Ef & St & _). exists t, d. now repeat split.
  - intros nm d Hi. destruct nm as [k|]; [|destruct Fo1; apply (in_map fst) in Hi; exact Hi]. exists k. split; [reflexivity|]. now apply Hat.
Qed.

(** ** What is rebuilt *)
Lemma loop_inv {S} (P : S -> Prop) fuel check stop (act : S -> elem -> result (S * option N)) f : (forall s e r, P s -> act s e = Ok r -> P (fst r)) ->
  forall pos s s', P s -> ebml_loop fuel check stop act f pos s = Ok s' -> P s'.
Proof.
  intros Ha. induction fuel as [|fuel IH]; intros pos s s' Hs H; [discriminate|]. cbn [ebml_loop] in H. destruct (ebml_next check f pos) as [[e|]|x]; cbn [bind] in H; [|apply ok_inj in H; now subst|discriminate H]. destruct (stop s); [apply ok_inj in H; now subst|].
  destruct (act s e) as [r|x] eqn:Er; [|discriminate H]. cbn [bind] in H. pose proof (Ha _ _ _ Hs Er) as P1. destruct (snd r) as [p|]; [now apply (IH p (fst r))|apply ok_inj in H; now subst].
Qed.
(** the tracks of [ts0] are still there, with what was told about them *)
Definition kept_tracks (ts0 ts : mtracks) : Prop := forall n t0, get N.eqb n ts0 = Ok t0 -> exists t, get N.eqb n ts = Ok t /\ m_td t = m_td t0.
Lemma kept_put ts0 ts k t t' : kept_tracks ts0 ts -> get N.eqb k ts = Ok t -> m_td t' = m_td t -> kept_tracks ts0 (put N.eqb k t' ts).
Proof.
  intros K G E n t0 G0. destruct (K n t0 G0) as (u & Gu & Eu). destruct (N.eq_dec n k) as [->|Nk].
  - exists t'. split; [apply (get_put_same N.eqb N.eqb_eq)|congruence].
  - exists u. split; [now rewrite (get_put_other N.eqb N.eqb_eq) by exact Nk|exact Eu].
Qed.
Lemma kept_key ts0 ts k v : kept_tracks ts0 ts -> kept_tracks ts0 (with_key N.eqb k v ts).
Proof. intros K n t0 G0. destruct (K n t0 G0) as (u & Gu & Eu). exists u. split; [now rewrite (get_with_key N.eqb N.eqb_eq), Gu|exact Eu]. Qed.
Lemma find_frame_td e buff fs fm t o n : m_td (find_frame e buff fs fm t o n) = m_td t.
Proof. unfold find_frame. cbv zeta. destruct (_ && _); [destruct (starts_with _ _ _)|]; cbn [set_match m_check]; repeat match goal with |- context [match ?c with [] => _ | _ :: _ => _ end] => destruct c end; try (destruct (starts_with _ _ _)); reflexivity. Qed.
Lemma find_frames_td e buff fs fm l : forall o t, m_td (find_frames e buff fs fm l o t) = m_td t.
Proof. induction l as [|n l IH]; intros o t; [reflexivity|]. cbn [find_frames]. now rewrite IH, find_frame_td. Qed.
Lemma find_kept ts0 cut ts main ts' : kept_tracks ts0 ts -> mkv_find cut ts main = Ok ts' -> kept_tracks ts0 ts'.
Proof.
  intros K H. unfold mkv_find in H. bindinv H. apply ok_inj in H. subst ts'. unfold ebml_run in E. apply (loop_inv (fun s => kept_tracks ts0 (f_tracks s))) in E; [exact E| |exact K]. clear. intros s e r K H. unfold find_step in H.
  destruct (id_in _ e); [apply ok_inj in H; now subst|]. destruct (e_block e) as [b|].
  - unfold find_block in H. cbv zeta in H. bindinv H. rename v into t. rename E into G. bindinv H.
    destruct (searching t); [apply ok_inj in H; subst r; cbn [fst f_tracks]; apply (kept_put ts0 _ _ t); [now apply kept_key|exact G|apply find_frames_td]|]. destruct (counting t); apply ok_inj in H; subst r; cbn [fst f_tracks]; [apply (kept_put ts0 _ _ t); [now apply kept_key|exact G|reflexivity]|now apply kept_key].
  - destruct (id_in _ e); [destruct (main_track _ _ _); [|discriminate H]; cbn [bind] in H; apply ok_inj in H; now subst|]. destruct (id_is _ e); [destruct (get _ _ _); [|discriminate H]; cbn [bind] in H|]; apply ok_inj in H; now subst.
Qed.
Lemma extract_kept ts0 ts main ts' atts : kept_tracks ts0 ts -> mkv_extract ts main = Ok (ts', atts) -> kept_tracks ts0 ts'.
Proof.
  intros K H. unfold mkv_extract in H. bindinv H. apply ok_inj in H. injection H as <- _. unfold ebml_run in E. apply (loop_inv (fun s => kept_tracks ts0 (x_tracks s))) in E; [exact E| |exact K]. clear. intros s e r K H. unfold extract_step in H.
  destruct (id_in _ e); [apply ok_inj in H; now subst|]. destruct (e_block e) as [b|].
  - unfold extract_block in H. cbv zeta in H. destruct (get N.eqb (b_track b) (x_tracks s)) as [t|x] eqn:G; [|apply ok_inj in H; now subst]. destruct (get N.eqb (b_track b) (mm_strip _)) as [st|x]; [|discriminate H]. cbn [bind] in H. destruct (_ <? _)%Z; apply ok_inj in H; subst r; cbn [fst x_tracks]; [|exact K]. now apply (kept_put ts0 _ _ t).
  - destruct (id_is CLUSTER e); [apply ok_inj in H; now subst|]. destruct (id_in _ e); [destruct (main_track _ _ _); [|discriminate H]; cbn [bind] in H; apply ok_inj in H; now subst|]. destruct (id_is ATTACHED_FILE_NAME e); [apply ok_inj in H; now subst|]. destruct (id_is ATTACHED_FILE_DATA e); [|apply ok_inj in H; now subst]. destruct (x_cur s) as [k|]; [|discriminate H]. destruct (get beqb k (x_atts s)) as [[v|]|x]; cbn [bind] in H; try discriminate H. apply ok_inj in H. now subst.
Qed.
Theorem mkv_sound ap name big offset no_stored ps srs main out : mkv_ok ps -> mkv_srs ap name big offset (file_of ps) = Ok srs -> mkv_restore no_stored srs main = Ok (Rebuilt out) ->
  crc32 out = crc32 (file_of ps) /\ exists xs, out = concat xs /\ Forall2 shaped (all_items ps) xs.
Proof.
  intros H E R. destruct (load_is ap name big offset ps srs H E) as (fd & ts & a & w & size & b & wr & added & El & Cf & Fl & Nt & Lo & Ep & Es & Ad & V & Ha & _).
  unfold mkv_restore in R. rewrite El in R. cbn [bind] in R. assert (K0 : kept_tracks ts ts) by (intros n t G; now exists t).
  bindinv R. rename v into ts1. rename E0 into Ef. assert (K1 : kept_tracks ts ts1) by (destruct (_ || _) in Ef; [exact (find_kept ts _ ts main ts1 K0 Ef)|apply ok_inj in Ef; now subst]).
  destruct (_ && _); [discriminate R|]. destruct (mkv_extract ts1 main) as [(ts2, atts)|x] eqn:Ex; [|discriminate R]. cbn [bind] in R. pose proof (extract_kept ts ts1 main ts2 atts K1 Ex) as K2. destruct (existsb _ ts2) eqn:A4; [discriminate R|]. rewrite Fl in R. destruct (mkv_rebuild NEW_FLAGS ts2 atts srs) as [o|x] eqn:Er; [|discriminate R]. cbn [bind] in R.
  destruct (crc32 o =? fd_crc32 fd) eqn:Cr; [|destruct (_ =? 0) in R; discriminate R]. apply ok_inj in R. injection R as <-. split; [apply N.eqb_eq in Cr; congruence|].
  destruct H as (F & _ & _ & _ & _ & _ & Bd). apply (rebuild_like ps a b w wr size added srs F Ep Ha Ad V Es NEW_FLAGS ts2 atts o); [reflexivity| |exact Er].
  intros bl Hb. pose proof (Bd bl Hb) as Dn. destruct Lo as (_ & Lo). specialize (Lo (k_no bl)). destruct (get N.eqb (k_no bl) ts) as [t0|x] eqn:G0; [|exfalso; apply Dn, no_data; exact Lo]. destruct Lo as (_ & td & -> & _ & _ & T & Sg). destruct (K2 _ _ G0) as (t & G & Et). cbn [m_td] in Et.
  assert (C : complete t = true).
  { apply not_false_is_true. intros X. assert (existsb (fun t => negb (lenN (td_signature (m_td (snd t))) =? 0) && negb (complete (snd t))) ts2 = true); [|congruence]. apply existsb_exists. exists (k_no bl, t). split; [now apply (get_in N.eqb N.eqb_eq)|]. cbn [snd]. rewrite X, Et. destruct Sg as (_ & Sg & _). destruct (td_signature td) as [|z r]; [destruct Dn; symmetry; now apply Sg|]. rewrite lenN_cons. lia. }
  unfold complete in C. destruct (m_file t) as [d|] eqn:Ef2; [|discriminate C]. exists t, d. split; [exact G|]. split; [exact Ef2|]. rewrite Et, T in C. lia.
Qed.
