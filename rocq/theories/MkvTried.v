(** MkvTried: the other places are places of frames, the places that are tried, and what is rebuilt. *)
From Verif Require Import Base BaseFacts Crc CrcFacts SrsRec SrsRecSpec SrsRecFacts Srs SrrFacts Ebml EbmlSpec EbmlFacts Mkv StrmSpec Mp3Spec MkvSpec MkvRead MkvSrs MkvLoad MkvOut MkvFind MkvSearch MkvExtract MkvMain MkvRetry MkvRetrySpec MkvRetryFacts MkvAgain.

(** ** What the search keeps *)
Definition kept_all (ts0 ts : mtracks) : Prop :=
  NoDup (map fst ts) /\ (forall n t, get N.eqb n ts = Ok t -> td_number (m_td t) = n) /\
  (forall n t0, get N.eqb n ts0 = Ok t0 -> exists t, get N.eqb n ts = Ok t /\ m_td t = m_td t0 /\ m_strip t = m_strip t0 /\ m_file t = m_file t0) /\
  (forall n t e, get N.eqb n ts = Ok t -> get N.eqb n ts0 = Err e -> td_signature (m_td t) = []).
Lemma kept_all_put ts0 ts k t t' : kept_all ts0 ts -> get N.eqb k ts = Ok t -> m_td t' = m_td t -> m_strip t' = m_strip t -> m_file t' = m_file t -> kept_all ts0 (put N.eqb k t' ts).
Proof.
  intros (Nd & Nu & K & Q) G E1 E2 E3. split; [now apply (put_nodup N.eqb N.eqb_eq)|]. split; [|split].
  - intros n u Gu. destruct (N.eq_dec n k) as [->|Nk]; [rewrite (get_put_same N.eqb N.eqb_eq) in Gu; apply ok_inj in Gu; subst u; rewrite E1; now apply Nu|rewrite (get_put_other N.eqb N.eqb_eq) in Gu by exact Nk; now apply Nu].
  - intros n t0 G0. destruct (K n t0 G0) as (u & Gu & U1 & U2 & U3). destruct (N.eq_dec n k) as [->|Nk].
    + exists t'. split; [apply (get_put_same N.eqb N.eqb_eq)|]. assert (u = t) by congruence. subst u. split; [congruence|]. split; congruence.
    + exists u. split; [now rewrite (get_put_other N.eqb N.eqb_eq) by exact Nk|]. now repeat split.
  - intros n u e Gu G0. destruct (N.eq_dec n k) as [->|Nk]; [rewrite (get_put_same N.eqb N.eqb_eq) in Gu; apply ok_inj in Gu; subst u; rewrite E1; now apply (Q k t e)|rewrite (get_put_other N.eqb N.eqb_eq) in Gu by exact Nk; now apply (Q n u e)].
Qed.
Lemma kept_all_key ts0 ts k : kept_all ts0 ts -> kept_all ts0 (with_key N.eqb k (new_mtrack k) ts).
Proof.
  intros (Nd & Nu & K & Q). split; [unfold with_key; destruct (get N.eqb k ts); [exact Nd|now apply (put_nodup N.eqb N.eqb_eq)]|]. split; [|split].
  - intros n t G. rewrite (get_with_key N.eqb N.eqb_eq) in G. destruct (get N.eqb n ts) as [u|e] eqn:Gu; [apply ok_inj in G; subst u; now apply Nu|]. destruct (N.eqb_spec k n) as [->|]; [|discriminate]. apply ok_inj in G. now subst t.
  - intros n t0 G0. destruct (K n t0 G0) as (u & Gu & U). exists u. split; [now rewrite (get_with_key N.eqb N.eqb_eq), Gu|exact U].
  - intros n t e G G0. rewrite (get_with_key N.eqb N.eqb_eq) in G. destruct (get N.eqb n ts) as [u|e'] eqn:Gu; [apply ok_inj in G; subst u; now apply (Q n t e)|]. destruct (N.eqb_spec k n) as [->|]; [|discriminate]. apply ok_inj in G. now subst t.
Qed.
Lemma find_frame_all e buff fs fm t o n : m_strip (find_frame e buff fs fm t o n) = m_strip t /\ m_file (find_frame e buff fs fm t o n) = m_file t.
Proof. unfold find_frame. cbv zeta. destruct (_ && _); [destruct (starts_with _ _ _)|]; cbn [set_match m_check]; repeat match goal with |- context [match ?c with [] => _ | _ :: _ => _ end] => destruct c end; try (destruct (starts_with _ _ _)); split; reflexivity. Qed.
Lemma find_frames_all e buff fs fm l : forall o t, m_strip (find_frames e buff fs fm l o t) = m_strip t /\ m_file (find_frames e buff fs fm l o t) = m_file t.
Proof. induction l as [|n l IH]; intros o t; [now split|]. cbn [find_frames]. destruct (IH (o + n)%Z (find_frame e buff fs fm t o n)) as (-> & ->). apply find_frame_all. Qed.
Lemma find_kept_all ts0 cut f s e r : kept_all ts0 (f_tracks s) -> find_step cut f s e = Ok r -> kept_all ts0 (f_tracks (fst r)).
Proof.
  intros K H. unfold find_step in H. destruct (id_in _ e); [apply ok_inj in H; now subst|]. destruct (e_block e) as [b|].
  - unfold find_block in H. cbv zeta in H. bindinv H. rename v into t. rename E into G. bindinv H.
    destruct (searching t); [apply ok_inj in H; subst r; cbn [fst f_tracks]; apply (kept_all_put ts0 _ _ t); [now apply kept_all_key|exact G|apply find_frames_td|apply find_frames_all|apply find_frames_all]|]. destruct (counting t); apply ok_inj in H; subst r; cbn [fst f_tracks]; [apply (kept_all_put ts0 _ _ t); [now apply kept_all_key|exact G|reflexivity|reflexivity|reflexivity]|now apply kept_all_key].
  - destruct (id_in _ e); [destruct (main_track _ _ _); [|discriminate H]; cbn [bind] in H; apply ok_inj in H; now subst|]. destruct (id_is _ e); [destruct (get _ _ _); [|discriminate H]; cbn [bind] in H|]; apply ok_inj in H; now subst.
Qed.
Lemma find_all_kept ts0 c main ts c' : kept_all ts0 ts0 -> mkv_find_all c ts0 main = Ok (ts, c') -> kept_all ts0 ts.
Proof.
  intros K H. unfold mkv_find_all in H. bindinv H. apply ok_inj in H. injection H as <- _. unfold ebml_run in E. apply (loop_inv (fun s => kept_all ts0 (f_tracks (fst s)))) in E; [exact E| |exact K]. clear. intros s e r K H. unfold find_both in H. bindinv H. apply ok_inj in H. subst r. cbn [fst]. now apply (find_kept_all ts0 (map fst (snd s)) main (fst s) e).
Qed.

(** ** The other places *)
Lemma irun_inv {S} srs stop (act' : S -> N -> item -> result (S * bool)) (P : list item -> S -> Prop) all : (forall X i Y s x, all = X ++ i :: Y -> P X s -> act' s (lenN (encs srs X)) i = Ok x -> P (X ++ [i]) (fst x)) ->
  forall Y X s s', all = X ++ Y -> P X s -> irun srs stop act' Y (lenN (encs srs X)) s = Ok s' -> exists Z, P Z s'.
Proof.
  intros Ha. induction Y as [|i Y IH]; intros X s s' Ea Ps H; cbn [irun] in H; [apply ok_inj in H; subst; now exists X|]. destruct (stop s); [apply ok_inj in H; subst; now exists X|]. destruct (act' s (lenN (encs srs X)) i) as [x|e] eqn:Ex; [|discriminate H]. cbn [bind] in H. pose proof (Ha X i Y s x Ea Ps Ex) as P1. destruct (snd x); [|apply ok_inj in H; subst; now exists (X ++ [i])].
  apply (IH (X ++ [i]) (fst x) s'); [rewrite Ea, <- app_assoc; reflexivity|exact P1|]. rewrite encs_app, lenN_app. replace (encs srs [i]) with (enc srs i) by (symmetry; apply app_nil_r). exact H.
Qed.
Lemma frames_looked n ins ps : forall pos, incl (frames_at n pos (looks ins pos ps)) (frames_at n pos (all_items ps)).
Proof.
  induction ps as [|p ps IH]; intros pos; [intros x []|]. cbn [looks]. rewrite all_cons, !frames_app, look_bytes. apply incl_app; [|apply incl_appr, IH]. apply incl_appl. destruct p as [i|id w l]; [apply incl_refl|]. cbn [look]. destruct (ins pos (Group id w l)); [apply incl_refl|]. intros x [].
Qed.
Lemma extra_placed e buff fs fm sig l : forall u o, In o (extra_frames e buff fs fm sig (map Z.of_N (map lenN l)) (Z.of_N u)) -> exists x : bytes, In (o, x) (placed (e_data e + u) l).
Proof.
  induction l as [|y l IH]; intros u o H; [destruct H|]. cbn [map extra_frames] in H. apply in_app_or in H as [H|H].
  - unfold extra_frame in H. cbv zeta in H. destruct (starts_with _ _ _); [|destruct H]. destruct H as [<-|[]]. exists y. left. f_equal. lia.
  - replace (Z.of_N u + Z.of_N (lenN y))%Z with (Z.of_N (u + lenN y)) in H by lia. apply IH in H as (x & H). exists x. right. rewrite <- N.add_assoc. exact H.
Qed.
(** a place that was found is not behind what was read *)
Definition not_behind (p : N) (t : mtrack) : Prop := m_check t <> [] -> m_offset t <= p.
Lemma find_frame_behind e buff fs fm t o n hi : not_behind hi t -> (Z.of_N (e_data e) + o <= Z.of_N hi)%Z -> not_behind hi (find_frame e buff fs fm t o n).
Proof.
  intros H L. unfold find_frame. cbv zeta. match goal with |- not_behind _ match m_check ?x with _ => _ end => assert (H1 : not_behind hi x) end.
  { destruct (_ && _) eqn:C; [|exact H]. apply andb_true_iff in C as (C & _). assert (m_check t <> []) by (destruct (m_check t); [discriminate C|discriminate]). specialize (H H0). destruct (starts_with _ _ _); intros X; cbn [set_match m_offset m_check] in *; [exact H|now destruct X]. }
  revert H1. match goal with |- not_behind _ ?x -> _ => generalize x end. intros u Hu. destruct (m_check u) as [|y l] eqn:Eu.
  - match goal with |- context [starts_with ?a ?b ?c] => destruct (starts_with a b c) end; [|exact Hu]. intros _. cbn [set_match m_offset]. lia.
  - intros _. cbn [count_match m_offset]. apply Hu. rewrite Eu. discriminate.
Qed.
Lemma find_frames_behind e buff fs fm hi l : forall u t, not_behind hi t -> e_data e + u + lenN (concat l) <= hi -> not_behind hi (find_frames e buff fs fm (map Z.of_N (map (@lenN byte) l)) (Z.of_N u) t).
Proof.
  induction l as [|y l IH]; intros u t H L; [exact H|]. cbn [map find_frames concat] in *. rewrite lenN_app in L. replace (Z.of_N u + Z.of_N (lenN y))%Z with (Z.of_N (u + lenN y)) by lia. apply IH; [|lia]. apply find_frame_behind; [exact H|lia].
Qed.
Lemma not_searching t : searching t = false -> td_signature (m_td t) <> [] -> m_check t <> [] /\ 0 < m_offset t.
Proof.
  intros H S. unfold searching in H. assert (0 < lenN (td_signature (m_td t))) by (destruct (td_signature (m_td t)); [now destruct S|rewrite lenN_cons; lia]). replace (lenN (td_signature (m_td t)) =? 0) with false in H by lia. cbn [negb andb] in H. apply orb_false_iff in H as (H1 & H2). split; [|lia]. intros X. rewrite X in H2. change (lenN (@nil byte)) with 0 in H2. lia.
Qed.
Definition first_of (ts : mtracks) (k o : N) : Prop := exists t, get N.eqb k ts = Ok t /\ searching t = false /\ (td_signature (m_td t) <> [] -> m_offset t <= o).
Lemma others_placed f ms ts c0 ts' c : movie_ok f ms -> kept_all ts ts -> (forall n t, get N.eqb n ts = Ok t -> m_check t = []) -> (forall k l, get N.eqb k c0 = Ok l -> l = []) -> mkv_find_all c0 ts f = Ok (ts', c) ->
  forall k l o, get N.eqb k c = Ok l -> In o l -> (exists x, In (o, x) (frames_at k 0 (all_items ms))) /\ first_of ts' k o.
Proof.
  intros ((r & Ef & Lr) & F & _) K0 Ck C0 H. unfold mkv_find_all in H. destruct (ebml_run _ _ _ _ _) as [s|x] eqn:E; [|discriminate H]. cbn [bind] in H. apply ok_inj in H. injection H as <- <-. set (ins := in_groups [tracks; cluster]).
  assert (Ky : Forall (kinds find_opens (attachments :: leaves)) (looks ins 0 ms)).
  { apply looks_kinds; [exact F|now left|intros y Hy; now right|]. intros pos id w l I. unfold ins. cbn [in_groups]. destruct I as [<-|[<-|[<-|[]]]]; cbn [existsb beqb]; vm_compute; tauto. }
  destruct (parts_syn ms F) as (Ps & _).
  rewrite (run_items false false (fun s => f_done (fst s)) (find_both f) (fun s pos i => do x <- find' (map fst (snd s)) (fst s) pos i; Ok ((fst x, extra_step f (fst s) (snd s) (ek i pos)), snd x)) f (looks ins 0 ms) r) in E.
  2:{ rewrite encs_false, looks_bytes. exact Ef. } 2:exact Lr. 2:now apply looks_syn. 2:discriminate.
  2:{ intros X i Y a b s0 Ei Ea Eb. unfold find_both. rewrite (find_acts (map fst (snd s0)) f _ Ky X i Y a b (fst s0) Ei Ea Eb). destruct (find' _ _ _ _) as [x|e]; reflexivity. }
  apply (irun_inv false _ _ (fun X s => kept_all ts (f_tracks (fst s)) /\ (forall n t, get N.eqb n (f_tracks (fst s)) = Ok t -> not_behind (lenN (encs false X)) t) /\
    forall k l o, get N.eqb k (snd s) = Ok l -> In o l -> (exists x, In (o, x) (frames_at k 0 (looks ins 0 ms))) /\ first_of (f_tracks (fst s)) k o) (looks ins 0 ms)) with (X := @nil item) in E; [| |reflexivity|].
  - destruct E as (Z & _ & _ & E). intros k l o G Ho. destruct (E k l o G Ho) as ((x & Hx) & Hf). split; [|exact Hf]. exists x. now apply (frames_looked k ins ms 0).
  - clear E s. intros X i Y s x Ea (K & B & P) H. bindinv H. rename v into y. apply ok_inj in H. subst x. cbn [fst snd]. split.
    + assert (Eb : f = encs false X ++ enc false i ++ (encs false Y ++ r)) by (rewrite Ef, <- (looks_bytes ins ms 0), <- encs_false, Ea, encs_app, encs_cons, <- !app_assoc; reflexivity).
      pose proof (find_acts (map fst (snd s)) f _ Ky X i Y _ _ (fst s) Ea eq_refl Eb) as Fa. match type of Fa with _ = bind ?x _ => replace x with (Ok y) in Fa by (symmetry; exact E) end. cbn [bind] in Fa. exact (find_kept_all ts _ f (fst s) _ _ K Fa).
    + assert (Le : lenN (encs false (X ++ [i])) = lenN (encs false X) + lenN (enc false i)) by (rewrite encs_app, lenN_app, encs_cons; cbn [encs map concat]; now rewrite app_nil_r).
      assert (Bn : forall t, not_behind (lenN (encs false X)) t -> not_behind (lenN (encs false (X ++ [i]))) t) by (intros t Ht Nc; specialize (Ht Nc); lia).
      destruct i as [id w n|id w d|b].
      * cbn [find'] in E. apply ok_inj in E. subst y. cbn [fst]. split; [intros n' t G; now apply Bn, (B n')|]. intros k l o G Ho. apply (P k l o); [|exact Ho]. revert G. unfold extra_step. destruct (id_in _ _); now cbn [ek e_block].
      * assert (Et : f_tracks (fst y) = f_tracks (fst s)).
        { cbn [find'] in E. destruct (existsb _ _); [destruct (main_track _ _ _); [|discriminate E]; cbn [bind] in E; apply ok_inj in E; now subst|]. destruct (beqb id TRACKCODEC); [destruct (get N.eqb _ _); [|discriminate E]; cbn [bind] in E|]; apply ok_inj in E; now subst. }
        rewrite Et. split; [intros n' t G; now apply Bn, (B n')|]. intros k l o G Ho. apply (P k l o); [|exact Ho]. revert G. unfold extra_step. destruct (id_in _ _); now cbn [ek e_block].
      * assert (Le2 : lenN (enc false (Blk b)) = lenN (item_bytes (Blk b))) by (pose proof (encs_false [Blk b]) as Z; cbn [encs map concat bytes_of] in Z; rewrite !app_nil_r in Z; now rewrite Z).
        assert (De : e_data (ek (Blk b) (lenN (encs false X))) + lenN (concat (k_frames b)) = lenN (encs false (X ++ [Blk b])) /\ lenN (encs false X) <= e_data (ek (Blk b) (lenN (encs false X)))) by (rewrite blk_data, Le; cbn [enc]; rewrite !lenN_app; lia). destruct De as (De & Dl).
        cbn [find'] in E. cbv zeta in E. bindinv E. rename v into t. rename E0 into Gt. bindinv E. rename v into st. rename E0 into Gs. cbn [mm_strip] in Gs.
        assert (Kk := K). apply (kept_all_key ts _ (k_no b)) in Kk. assert (Nt : td_number (m_td t) = k_no b) by (destruct Kk as (_ & Nu & _); now apply Nu).
        assert (Bk : forall n u, get N.eqb n (with_key N.eqb (k_no b) (new_mtrack (k_no b)) (f_tracks (fst s))) = Ok u -> not_behind (lenN (encs false X)) u).
        { intros n u Gu. rewrite (get_with_key N.eqb N.eqb_eq) in Gu. destruct (get N.eqb n (f_tracks (fst s))) as [u'|e'] eqn:Gu'; [apply ok_inj in Gu; subst u'; now apply (B n)|]. destruct (k_no b =? n); [|discriminate Gu]. apply ok_inj in Gu. subst u. intros Z. now destruct Z. }
        assert (Wk : forall k o, first_of (f_tracks (fst s)) k o -> first_of (with_key N.eqb (k_no b) (new_mtrack (k_no b)) (f_tracks (fst s))) k o) by (intros k o (u & Gu & Hu); exists u; split; [rewrite (get_with_key N.eqb N.eqb_eq), Gu; reflexivity|exact Hu]).
        assert (Xs : forall k l o, get N.eqb k (extra_step f (fst s) (snd s) (ek (Blk b) (lenN (encs false X)))) = Ok l -> In o l -> (exists l0, get N.eqb k (snd s) = Ok l0 /\ In o l0) \/ (k = k_no b /\ searching t = false /\ e_data (ek (Blk b) (lenN (encs false X))) <= o /\ exists x, In (o, x) (frames_at k 0 (looks ins 0 ms)))).
        { intros k l o G Ho. unfold extra_step in G. destruct (id_in _ _); [left; now exists l|]. remember (ek (Blk b) (lenN (encs false X))) as e eqn:Ee. replace (e_block e) with (Some (mkB (k_no b) (map Z.of_N (map lenN (k_frames b))) (blk_head b) false)) in G by (now rewrite Ee). unfold extra_block in G. cbv zeta in G. cbn [b_track b_frames] in G. match type of G with context [match ?x with Ok _ => match ?y with Ok _ => _ | Err _ => _ end | Err _ => _ end] => replace x with (Ok t) in G by (symmetry; exact Gt); replace y with (Ok st) in G by (symmetry; exact Gs) end. destruct (searching t); [left; now exists l|]. rewrite Nt in G.
          match type of G with context [match ?x with Ok _ => _ | Err _ => _ end] => destruct x as [l0|] eqn:Gl end; [|left; now exists l]. destruct (N.eq_dec k (k_no b)) as [->|Nk]; [|rewrite (get_put_other N.eqb N.eqb_eq) in G by exact Nk; left; now exists l].
          rewrite (get_put_same N.eqb N.eqb_eq) in G. apply ok_inj in G. subst l. apply in_app_or in Ho as [Ho|Ho]; [left; now exists l0|]. right. apply (extra_placed e _ _ _ _ (k_frames b) 0) in Ho as (x & Hx). split; [reflexivity|]. split; [reflexivity|]. rewrite N.add_0_r in Hx. split; [apply placed_in in Hx as (Hx & _); exact Hx|]. exists x. rewrite Ee, blk_data in Hx. rewrite Ea, frames_app. apply in_or_app. right. cbn [frames_at]. rewrite N.eqb_refl. apply in_or_app. left. rewrite encs_false in Hx. exact Hx. }
        destruct (searching t) eqn:Se; [|assert (Ns : td_signature (m_td t) <> [] -> m_offset t <= lenN (encs false X)) by (intros Sg; apply (Bk _ _ Gt); exact (proj1 (not_searching t Se Sg)))]; [|destruct (counting t)]; apply ok_inj in E; subst y; cbn [fst f_tracks]; split.
        -- intros n u Gu. destruct (N.eq_dec n (k_no b)) as [->|Nk]; [|rewrite (get_put_other N.eqb N.eqb_eq) in Gu by exact Nk; now apply Bn, (Bk n)]. rewrite (get_put_same N.eqb N.eqb_eq) in Gu. apply ok_inj in Gu. subst u. apply (find_frames_behind _ _ _ _ _ _ 0); [now apply Bn, (Bk (k_no b))|lia].
        -- intros k l o G Ho. destruct (Xs k l o G Ho) as [(l0 & G0 & H0)|(_ & Z & _)]; [|discriminate Z]. destruct (P k l0 o G0 H0) as (Px & Pf). split; [exact Px|]. apply Wk in Pf as (u & Gu & Su & Hu). assert (k <> k_no b) by (intros ->; pose proof (ok_inj _ _ (eq_trans (eq_sym Gu) Gt)) as Eu; rewrite Eu in Su; rewrite Su in Se; discriminate Se). exists u. split; [now rewrite (get_put_other N.eqb N.eqb_eq) by assumption|now split].
        -- intros n u Gu. destruct (N.eq_dec n (k_no b)) as [->|Nk]; [|rewrite (get_put_other N.eqb N.eqb_eq) in Gu by exact Nk; now apply Bn, (Bk n)]. rewrite (get_put_same N.eqb N.eqb_eq) in Gu. apply ok_inj in Gu. subst u. apply Bn. exact (Bk _ _ Gt).
        -- intros k l o G Ho. destruct (Xs k l o G Ho) as [(l0 & G0 & H0)|(-> & _ & Lo & Px)].
           ++ destruct (P k l0 o G0 H0) as (Px & Pf). split; [exact Px|]. apply Wk in Pf as (u & Gu & Su & Hu). destruct (N.eq_dec k (k_no b)) as [->|Nk]; [|exists u; split; [now rewrite (get_put_other N.eqb N.eqb_eq) by exact Nk|now split]]. assert (u = t) by exact (ok_inj _ _ (eq_trans (eq_sym Gu) Gt)). subst u. eexists. split; [apply (get_put_same N.eqb N.eqb_eq)|]. split; [exact Se|exact Hu].
           ++ split; [exact Px|]. eexists. split; [apply (get_put_same N.eqb N.eqb_eq)|]. split; [exact Se|]. cbn [count_match m_td m_offset]. intros Sg. specialize (Ns Sg). lia.
        -- intros n u Gu. now apply Bn, (Bk n).
        -- intros k l o G Ho. destruct (Xs k l o G Ho) as [(l0 & G0 & H0)|(-> & _ & Lo & Px)].
           ++ destruct (P k l0 o G0 H0) as (Px & Pf). split; [exact Px|]. now apply Wk.
           ++ split; [exact Px|]. exists t. split; [exact Gt|]. split; [exact Se|]. intros Sg. specialize (Ns Sg). lia.
  - cbn [fst snd]. split; [exact K0|]. split; [intros n t G X; rewrite (Ck n t G) in X; now destruct X|]. intros k l o G Ho. rewrite (C0 k l G) in Ho. destruct Ho.
Qed.

(** ** The places that are tried *)
Lemma least_is l lo : least l = Ok lo -> In lo l /\ forall x, In x l -> lo <= x.
Proof.
  destruct l as [|y l]; [discriminate|]. intros H. apply ok_inj in H. subst lo. revert y. induction l as [|z l IH]; intros y; cbn [fold_left]; [split; [now left|intros x [<-|[]]; lia]|]. destruct (IH (N.min y z)) as (A & B). split.
  - destruct A as [A|A]; [|right; now right]. rewrite <- A. destruct (N.min_spec y z) as [(_ & E)|(_ & E)]; [left|right; left]; now symmetry.
  - pose proof (B (N.min y z) (or_introl eq_refl)). intros x [<-|[<-|H']]; [lia|lia|]. apply B. now right.
Qed.
Lemma greatest_is l hi : greatest l = Ok hi -> In hi l /\ forall x, In x l -> x <= hi.
Proof.
  destruct l as [|y l]; [discriminate|]. intros H. apply ok_inj in H. subst hi. revert y. induction l as [|z l IH]; intros y; cbn [fold_left]; [split; [now left|intros x [<-|[]]; lia]|]. destruct (IH (N.max y z)) as (A & B). split.
  - destruct A as [A|A]; [|right; now right]. rewrite <- A. destruct (N.max_spec y z) as [(_ & E)|(_ & E)]; [right; left|left]; now symmetry.
  - pose proof (B (N.max y z) (or_introl eq_refl)). intros x [<-|[<-|H']]; [lia|lia|]. apply B. now right.
Qed.
Lemma range_one P lo hi lo' hi' : range P lo hi -> range P lo' hi' -> lo = lo' /\ hi = hi'.
Proof. intros (A & B & C) (A' & B' & C'). pose proof (C _ A'). pose proof (C _ B'). pose proof (C' _ A). pose proof (C' _ B). lia. Qed.
Lemma good_settled ts c o : NoDup (map fst c) -> (forall n t, In (n, t) ts -> td_number (m_td t) = n) -> (In o (good_offsets ts c) <-> settled ts c o).
Proof.
  intros Nd Nu. unfold good_offsets. rewrite in_map_iff. split.
  - intros ((n, t) & E & H). cbn [snd] in E. apply filter_In in H as (I & H). cbn [snd] in H. exists n, t. split; [exact I|]. split; [exact E|]. intros l Hl. rewrite (Nu n t I), (in_get N.eqb N.eqb_eq n l c Nd Hl) in H. destruct l; [reflexivity|discriminate H].
  - intros (n & t & I & E & H). exists (n, t). split; [exact E|]. apply filter_In. split; [exact I|]. cbn [snd]. rewrite (Nu n t I). destruct (get N.eqb n c) as [l|e] eqn:G; [|reflexivity]. rewrite (H l (get_in N.eqb N.eqb_eq _ _ _ G)). reflexivity.
Qed.
Lemma guess_all lo hi l : lo <= hi -> let '(b, a, r) := fold_left (guess lo hi) l (None, None, []) in
  (match b with None => forall p, In p l -> lo <= p | Some x => In x l /\ x < lo /\ forall p, In p l -> p < lo -> p <= x end) /\
  (match a with None => forall p, In p l -> p <= hi | Some x => In x l /\ hi < x /\ forall p, In p l -> hi < p -> x <= p end) /\
  forall o, In o r <-> In o l /\ lo < o < hi.
Proof.
  intros Lh. induction l as [|x l IH] using rev_ind; [cbn; split; [intros p []|split; [intros p []|]]; intros o; split; [intros []|intros ([] & _)]|]. rewrite fold_left_app. cbn [fold_left]. destruct (fold_left (guess lo hi) l (None, None, [])) as ((b, a), r). destruct IH as (B & A & R). cbn [guess].
  assert (Ix : forall p, In p (l ++ [x]) <-> In p l \/ p = x) by (intros p; rewrite in_app_iff; cbn [In]; split; [intros [H|[H|[]]]; [now left|right; now symmetry]|intros [H|H]; [now left|right; left; now symmetry]]).
  destruct (x <? lo) eqn:C1; [|destruct (hi <? x) eqn:C2; [|destruct ((lo <? x) && (x <? hi)) eqn:C3]].
  - split; [|split].
    + destruct b as [y|]; [destruct (y <? x) eqn:C|].
      * split; [apply Ix; now right|]. split; [lia|]. intros p Hp Lp. apply Ix in Hp as [Hp|Hp]; [destruct B as (_ & _ & B); specialize (B p Hp Lp); lia|lia].
      * destruct B as (B1 & B2 & B3). split; [apply Ix; now left|]. split; [exact B2|]. intros p Hp Lp. apply Ix in Hp as [Hp|Hp]; [now apply B3|lia].
      * split; [apply Ix; now right|]. split; [lia|]. intros p Hp Lp. apply Ix in Hp as [Hp|Hp]; [specialize (B p Hp); lia|lia].
    + destruct a as [y|].
      * destruct A as (A1 & A2 & A3). split; [apply Ix; now left|]. split; [exact A2|]. intros p Hp Lp. apply Ix in Hp as [Hp|Hp]; [now apply A3|lia].
      * intros p Hp. apply Ix in Hp as [Hp|Hp]; [now apply A|lia].
    + intros o. rewrite R, Ix. split; [intros (Ho & L); split; [now left|exact L]|intros ([Ho|Ho] & L); [now split|lia]].
  - split; [|split].
    + destruct b as [y|].
      * destruct B as (B1 & B2 & B3). split; [apply Ix; now left|]. split; [exact B2|]. intros p Hp Lp. apply Ix in Hp as [Hp|Hp]; [now apply B3|lia].
      * intros p Hp. apply Ix in Hp as [Hp|Hp]; [now apply B|lia].
    + destruct a as [y|]; [destruct (x <? y) eqn:C|].
      * split; [apply Ix; now right|]. split; [lia|]. intros p Hp Lp. apply Ix in Hp as [Hp|Hp]; [destruct A as (_ & _ & A); specialize (A p Hp Lp); lia|lia].
      * destruct A as (A1 & A2 & A3). split; [apply Ix; now left|]. split; [exact A2|]. intros p Hp Lp. apply Ix in Hp as [Hp|Hp]; [now apply A3|lia].
      * split; [apply Ix; now right|]. split; [lia|]. intros p Hp Lp. apply Ix in Hp as [Hp|Hp]; [specialize (A p Hp); lia|lia].
    + intros o. rewrite R, Ix. split; [intros (Ho & L); split; [now left|exact L]|intros ([Ho|Ho] & L); [now split|lia]].
  - split; [|split].
    + destruct b as [y|]; [destruct B as (B1 & B2 & B3); split; [apply Ix; now left|]; split; [exact B2|]|]; intros p Hp; apply Ix in Hp as [Hp|Hp]; [now apply B3|lia|now apply B|lia].
    + destruct a as [y|]; [destruct A as (A1 & A2 & A3); split; [apply Ix; now left|]; split; [exact A2|]|]; intros p Hp; apply Ix in Hp as [Hp|Hp]; [now apply A3|lia|now apply A|lia].
    + intros o. rewrite in_app_iff, R, Ix. cbn [In]. split; [intros [(Ho & L)|[<-|[]]]; [split; [now left|exact L]|split; [now right|lia]]|intros ([Ho|Ho] & L); [left; now split|right; left; now symmetry]].
  - split; [|split].
    + destruct b as [y|]; [destruct B as (B1 & B2 & B3); split; [apply Ix; now left|]; split; [exact B2|]|]; intros p Hp; apply Ix in Hp as [Hp|Hp]; [now apply B3|lia|now apply B|lia].
    + destruct a as [y|]; [destruct A as (A1 & A2 & A3); split; [apply Ix; now left|]; split; [exact A2|]|]; intros p Hp; apply Ix in Hp as [Hp|Hp]; [now apply A3|lia|now apply A|lia].
    + intros o. rewrite R, Ix. split; [intros (Ho & L); split; [now left|exact L]|intros ([Ho|Ho] & L); [now split|lia]].
Qed.
Lemma olist_is lo hi l now : lo <= hi -> forall o, In o (olist lo hi l now) <-> worth lo hi l o \/ ((forall p, ~ worth lo hi l p) /\ o = now).
Proof.
  intros Lh. unfold olist. pose proof (guess_all lo hi l Lh) as G. destruct (fold_left (guess lo hi) l (None, None, [])) as ((b, a), r). destruct G as (B & A & R).
  assert (W : forall o, In o (one b ++ one a ++ rev r) <-> worth lo hi l o).
  { intros o. rewrite !in_app_iff, <- in_rev, R. unfold worth. split.
    - intros [H|[H|H]].
      + destruct b as [y|]; [|destruct H]. destruct H as [<-|[]]. destruct B as (B1 & B2 & B3). split; [exact B1|]. right. left. now split.
      + destruct a as [y|]; [|destruct H]. destruct H as [<-|[]]. destruct A as (A1 & A2 & A3). split; [exact A1|]. right. right. now split.
      + split; [exact (proj1 H)|]. left. exact (proj2 H).
    - intros (H & [L|[(L & X)|(L & X)]]).
      + right. right. now split.
      + left. destruct b as [y|]; [|specialize (B o H); lia]. destruct B as (B1 & B2 & B3). left. pose proof (B3 o H L). pose proof (X y B1 B2). lia.
      + right. left. destruct a as [y|]; [|specialize (A o H); lia]. destruct A as (A1 & A2 & A3). left. pose proof (A3 o H L). pose proof (X y A1 A2). lia. }
  intros o. destruct (one b ++ one a ++ rev r) as [|y m].
  - split.
    + intros [<-|[]]. right. split; [|reflexivity]. intros p Hp. now apply (W p) in Hp.
    + intros [H|(_ & ->)]; [now apply (W o) in H|now left].
  - rewrite W. split; [now left|]. intros [H|(H & _)]; [exact H|]. exfalso. apply (H y), W. now left.
Qed.
Lemma olist_some lo hi l now : olist lo hi l now <> [].
Proof. unfold olist. destruct (fold_left _ _ _) as ((b, a), r). destruct (one b ++ one a ++ rev r); discriminate. Qed.
(** what the tracks and their places were before *)
Lemma guesses_are ts c : NoDup (map fst c) -> NoDup (map fst ts) -> (forall n t, In (n, t) ts -> td_number (m_td t) = n) -> incl (map fst c) (map fst ts) -> (exists o, settled ts c o) ->
  exists g, guesses ts c = Ok g /\ map fst g = map fst c /\ forall k os, In (k, os) g -> os <> [] /\ forall o, In o os <-> tried ts c k o.
Proof.
  intros Nc Nt Nu Sub (o0 & S0). assert (Gs := good_settled ts c o0 Nc Nu). apply proj2 in Gs. specialize (Gs S0). unfold guesses. cbv zeta.
  destruct (least (good_offsets ts c)) as [lo|e] eqn:El; [|destruct (good_offsets ts c); [destruct Gs|discriminate El]]. destruct (greatest (good_offsets ts c)) as [hi|e] eqn:Eh; [|destruct (good_offsets ts c); [destruct Gs|discriminate Eh]]. cbn [bind].
  destruct (least_is _ _ El) as (L1 & L2). destruct (greatest_is _ _ Eh) as (H1 & H2). assert (Lh : lo <= hi) by now apply H2.
  assert (Rg : range (settled ts c) lo hi).
  { split; [now apply (good_settled ts c lo Nc Nu)|]. split; [now apply (good_settled ts c hi Nc Nu)|]. intros o Ho. apply (good_settled ts c o Nc Nu) in Ho. split; [now apply L2|now apply H2]. }
  assert (All : forall c', incl c' c -> exists g, (fix all c := match c with [] => Ok [] | (k, l) :: c => do t <- get N.eqb k ts; do r <- all c; Ok ((k, olist lo hi l (m_offset t)) :: r) end) c' = Ok g /\ map fst g = map fst c' /\ forall k os, In (k, os) g -> os <> [] /\ forall o, In o os <-> tried ts c k o).
  { induction c' as [|(k, l) c' IH]; intros Ic; [exists []; split; [reflexivity|]; split; [reflexivity|intros k os []]|]. destruct IH as (g & Eg & Kg & Pg); [intros x Hx; apply Ic; now right|].
    assert (Ik : In (k, l) c) by (apply Ic; now left). assert (Hk : In k (map fst ts)) by (apply Sub; apply (in_map fst) in Ik; exact Ik). apply in_map_iff in Hk as ((k', t) & Ek & It). cbn [fst] in Ek. subst k'. rewrite (in_get N.eqb N.eqb_eq k t ts Nt It). cbn [bind]. rewrite Eg. cbn [bind]. eexists. split; [reflexivity|]. split; [cbn [map fst]; now rewrite Kg|].
    intros k' os [E|H']; [|now apply Pg]. injection E as <- <-. split; [apply olist_some|]. intros o. rewrite (olist_is lo hi l (m_offset t) Lh). split.
    - intros [W|(W & ->)].
      + exists t, lo, hi. split; [exact It|]. split; [exact Rg|]. left. now exists l.
      + exists t, lo, hi. split; [exact It|]. split; [exact Rg|]. right. split; [|reflexivity]. intros l' p Hl. assert (l' = l) by (pose proof (in_get N.eqb N.eqb_eq k l' c Nc Hl); pose proof (in_get N.eqb N.eqb_eq k l c Nc Ik); congruence). subst l'. apply W.
    - intros (t' & lo' & hi' & It' & Rg' & W). destruct (range_one _ _ _ _ _ Rg' Rg) as (-> & ->). assert (t' = t) by (pose proof (in_get N.eqb N.eqb_eq k t' ts Nt It'); pose proof (in_get N.eqb N.eqb_eq k t ts Nt It); congruence). subst t'. destruct W as [(l' & Hl & W)|(W & E)]; [left|right; split; [intros p; now apply W|exact E]]. assert (l' = l) by (pose proof (in_get N.eqb N.eqb_eq k l' c Nc Hl); pose proof (in_get N.eqb N.eqb_eq k l c Nc Ik); congruence). now subst l'. }
  exact (All c (incl_refl c)).
Qed.

(** ** Extracting keeps the tracks and their places *)
Definition same_places (ts ts' : mtracks) : Prop := map fst ts' = map fst ts /\ forall n t, get N.eqb n ts = Ok t -> exists t', get N.eqb n ts' = Ok t' /\ m_td t' = m_td t /\ m_offset t' = m_offset t.
Lemma same_put ts ts' k t t' : same_places ts ts' -> get N.eqb k ts' = Ok t -> m_td t' = m_td t -> m_offset t' = m_offset t -> same_places ts (put N.eqb k t' ts').
Proof.
  intros (K & S) G E1 E2. split; [rewrite (keys_put N.eqb), G; exact K|]. intros n u Gu. destruct (S n u Gu) as (u' & Gu' & U1 & U2). destruct (N.eq_dec n k) as [->|Nk].
  - exists t'. split; [apply (get_put_same N.eqb N.eqb_eq)|]. assert (u' = t) by congruence. subst u'. split; congruence.
  - exists u'. split; [now rewrite (get_put_other N.eqb N.eqb_eq) by exact Nk|now split].
Qed.
Lemma extract_places ts main ts' atts : mkv_extract ts main = Ok (ts', atts) -> same_places ts ts'.
Proof.
  intros H. unfold mkv_extract in H. bindinv H. apply ok_inj in H. injection H as <- _. unfold ebml_run in E. apply (loop_inv (fun s => same_places ts (x_tracks s))) in E; [exact E| |split; [reflexivity|intros n t G; now exists t]]. clear. intros s e r K H. unfold extract_step in H.
  destruct (id_in _ e); [apply ok_inj in H; now subst|]. destruct (e_block e) as [b|].
  - unfold extract_block in H. cbv zeta in H. destruct (get N.eqb (b_track b) (x_tracks s)) as [t|x] eqn:G; [|apply ok_inj in H; now subst]. destruct (get N.eqb (b_track b) (mm_strip _)) as [st|x]; [|discriminate H]. cbn [bind] in H. destruct (_ <? _)%Z; apply ok_inj in H; subst r; cbn [fst x_tracks]; [|exact K]. now apply (same_put ts _ _ t).
  - destruct (id_is CLUSTER e); [apply ok_inj in H; now subst|]. destruct (id_in _ e); [destruct (main_track _ _ _); [|discriminate H]; cbn [bind] in H; apply ok_inj in H; now subst|]. destruct (id_is ATTACHED_FILE_NAME e); [apply ok_inj in H; now subst|]. destruct (id_is ATTACHED_FILE_DATA e); [|apply ok_inj in H; now subst]. destruct (x_cur s) as [k|]; [|discriminate H]. destruct (get beqb k (x_atts s)) as [[v|]|x]; cbn [bind] in H; try discriminate H. apply ok_inj in H. now subst.
Qed.
Lemma in_places ts ts' n t : NoDup (map fst ts) -> same_places ts ts' -> In (n, t) ts' -> exists u, In (n, u) ts /\ m_td t = m_td u /\ m_offset t = m_offset u.
Proof.
  intros Nd (K & S) I. assert (Nd' : NoDup (map fst ts')) by now rewrite K. assert (In n (map fst ts)) as H by (rewrite <- K; apply (in_map fst) in I; exact I). apply in_map_iff in H as ((n', u) & E & Iu). cbn [fst] in E. subst n'. exists u. split; [exact Iu|].
  destruct (S n u (in_get N.eqb N.eqb_eq n u ts Nd Iu)) as (t' & G & E1 & E2). rewrite (in_get N.eqb N.eqb_eq n t ts' Nd' I) in G. apply ok_inj in G. subst t'. now split.
Qed.
Lemma places_in ts ts' n u : NoDup (map fst ts) -> same_places ts ts' -> In (n, u) ts -> exists t, In (n, t) ts' /\ m_td t = m_td u /\ m_offset t = m_offset u.
Proof. intros Nd (K & S) I. destruct (S n u (in_get N.eqb N.eqb_eq n u ts Nd I)) as (t & G & E). exists t. split; [now apply (get_in N.eqb N.eqb_eq)|exact E]. Qed.
Lemma settled_same ts ts' c o : NoDup (map fst ts) -> same_places ts ts' -> (settled ts' c o <-> settled ts c o).
Proof.
  intros Nd S. split; intros (n & t & I & E & H).
  - destruct (in_places ts ts' n t Nd S I) as (u & Iu & _ & Eo). exists n, u. split; [exact Iu|]. split; [congruence|exact H].
  - destruct (places_in ts ts' n t Nd S I) as (u & Iu & _ & Eo). exists n, u. split; [exact Iu|]. split; [congruence|exact H].
Qed.
Lemma range_same P Q lo hi : (forall o, P o <-> Q o) -> range P lo hi -> range Q lo hi.
Proof. intros E (A & B & C). split; [now apply E|]. split; [now apply E|]. intros o Ho. apply C. now apply E. Qed.
Lemma tried_same ts ts' c n o : NoDup (map fst ts) -> same_places ts ts' -> (tried ts' c n o <-> tried ts c n o).
Proof.
  intros Nd S. split; intros (t & lo & hi & I & R & W).
  - destruct (in_places ts ts' n t Nd S I) as (u & Iu & _ & Eo). exists u, lo, hi. split; [exact Iu|]. split; [apply (range_same (settled ts' c)); [intros p; now apply settled_same|exact R]|]. rewrite <- Eo. exact W.
  - destruct (places_in ts ts' n t Nd S I) as (u & Iu & _ & Eo). exists u, lo, hi. split; [exact Iu|]. split; [apply (range_same (settled ts c)); [intros p; symmetry; now apply settled_same|exact R]|]. rewrite Eo. exact W.
Qed.
Lemma rebuild_files_ext flags ts rest rest' atts srs : (forall k, rest k = rest' k) -> rebuild_files flags ts rest atts srs = rebuild_files flags ts rest' atts srs.
Proof.
  intros E. unfold rebuild_files. cbv zeta. replace (map (fun t => (fst t, option_map (fun d => d ++ rest (fst t)) (m_file (snd t)))) ts) with (map (fun t => (fst t, option_map (fun d => d ++ rest' (fst t)) (m_file (snd t)))) ts) by (apply map_ext; intros t; now rewrite E). destruct (ebml_run _ _ _ _ _) as [s|x]; [|reflexivity]. cbn [bind]. f_equal. f_equal. apply map_ext. intros t. now rewrite E.
Qed.

(** ** When one of the places that are tried is right *)
Theorem restore_retry ap name big offset ns ps srs main ms at_ fd ts0 cut0 cut ts c : mkv_ok ps -> mkv_srs ap name big offset (file_of ps) = Ok srs -> movie_ok main ms -> in_movie held (all_items ps) (all_items ms) at_ ->
  mkv_load_srs srs = Ok (fd, ts0, cut0) -> cut <> [] -> NoDup cut -> (forall k, In k cut -> data_of k (all_items ps) <> []) -> mkv_find_all (map (fun k => (k, [])) cut) ts0 main = Ok (ts, c) ->
  (forall n, data_of n (all_items ps) <> [] -> tried ts c n (at_ n)) ->
  exists out, mkv_restore_from ns fd ts0 cut srs main = Ok (Rebuilt out) /\ crc32 out = crc32 (file_of ps).
Proof.
  intros H E M Im El Nc Ncut Dcut Ef Tr. destruct (load_is ap name big offset ps srs H E) as (fd' & ts' & a & w & size & b & wr & added & El' & Cf & Fl & Nt & Lo & Ep & Es & Ad & V & Ha & _). rewrite El in El'. apply ok_inj in El'. injection El' as -> <- _.
  set (its := all_items ps) in *. unfold mkv_restore_from. assert (Lc : negb (lenN cut =? 0) = true) by (destruct cut as [|k cut']; [now destruct Nc|rewrite lenN_cons; lia]). rewrite Lc, orb_true_r, Ef. cbn [bind]. cbv zeta. cbn [andb].
  assert (Sy : Forall syn (all_items ms)) by (assert (M' := M); destruct M' as (_ & F & _); destruct (parts_syn ms F) as (Ps & _); pose proof (looks_syn (fun _ _ => true) ms Ps 0) as Sa; now rewrite looks_all in Sa by reflexivity).
  assert (Kp : kept_all ts0 ts).
  { apply (find_all_kept ts0 (map (fun k => (k, [])) cut) main ts c); [|exact Ef]. destruct Lo as (Nd0 & Lo). split; [exact Nd0|]. split; [|split].
    - intros n t G. specialize (Lo n). rewrite G in Lo. destruct Lo as (_ & td & -> & T & _). exact T.
    - intros n t0 G. now exists t0.
    - intros n t e G G'. congruence. }
  assert (Kp0 : kept_all ts0 ts0).
  { destruct Lo as (Nd0 & Lo). split; [exact Nd0|]. split; [|split].
    - intros n t G. specialize (Lo n). rewrite G in Lo. destruct Lo as (_ & td & -> & T & _). exact T.
    - intros n t0 G. now exists t0.
    - intros n t e G G'. congruence. }
  assert (Kc : map fst c = cut) by (rewrite (find_all_keys _ ts0 main ts c Ef), map_map; apply map_id).
  assert (Plf : forall k l o, get N.eqb k c = Ok l -> In o l -> (exists x, In (o, x) (frames_at k 0 (all_items ms))) /\ first_of ts k o).
  { apply (others_placed main ms ts0 (map (fun k => (k, [])) cut) ts c M Kp0); [destruct Lo as (_ & Lo); intros n t G; specialize (Lo n); rewrite G in Lo; destruct Lo as (_ & td & -> & _); reflexivity| |exact Ef]. intros k l G. apply (get_in N.eqb N.eqb_eq) in G. apply in_map_iff in G as (k' & G & _). now injection G. }
  assert (Pl : forall k l o, get N.eqb k c = Ok l -> In o l -> exists x, In (o, x) (frames_at k 0 (all_items ms))) by (intros k l o G Ho; exact (proj1 (Plf k l o G Ho))).
  destruct Kp as (Nd & Nu & Ke & Kn). destruct Lo as (Nd0 & Lo).
  assert (Dat : forall n, data_of n its <> [] -> exists t, get N.eqb n ts = Ok t /\ m_strip t = header_of n its /\ td_length (m_td t) = lenN (data_of n its) /\ m_file t = None /\ td_signature (m_td t) <> []).
  { intros n Hn. specialize (Lo n). destruct (get N.eqb n ts0) as [t0|e] eqn:G0; [|exfalso; apply Hn, no_data; exact Lo]. destruct Lo as (_ & td & -> & _ & _ & T & Sg). destruct (Ke n _ G0) as (t & G & K1 & K2 & K3). cbn [m_td m_strip m_file] in *. exists t. split; [exact G|]. split; [exact K2|]. split; [now rewrite K1|]. split; [exact K3|]. rewrite K1. destruct Sg as (_ & Sg & _). intros X. apply Hn. rewrite X in Sg. symmetry. now apply Sg. }
  assert (Emp : forall n t, get N.eqb n ts = Ok t -> data_of n its = [] -> td_signature (m_td t) = []).
  { intros n t G D. specialize (Lo n). destruct (get N.eqb n ts0) as [t0|e] eqn:G0; [|now apply (Kn n t e)]. destruct Lo as (_ & td & -> & _ & _ & T & (S & _)). destruct (Ke n _ G0) as (t' & G' & K1 & _). assert (t' = t) by congruence. subst t'. rewrite K1. cbn [m_td]. rewrite D in S. destruct S as (r & S). destruct (td_signature td); [reflexivity|discriminate S]. }
  assert (Loc : forall n t, data_of n its <> [] -> get N.eqb n ts = Ok t -> 0 < m_offset t /\ m_offset t <= at_ n).
  { intros n t Hn G. destruct (Dat n Hn) as (t' & G' & _ & _ & _ & Sg). assert (t' = t) by congruence. subst t'. destruct (Tr n Hn) as (u & lo & hi & Iu & _ & W). pose proof (in_get N.eqb N.eqb_eq n u ts Nd Iu) as Gu. assert (u = t) by congruence. subst u. destruct W as [(l & Il & (Io & _))|(_ & Eo)].
    - destruct (Plf n l (at_ n)) as (_ & (u & Gu' & Su & Lu)); [apply (in_get N.eqb N.eqb_eq); [now rewrite Kc|exact Il]|exact Io|]. assert (u = t) by congruence. subst u. split; [exact (proj2 (not_searching t Su Sg))|now apply Lu].
    - rewrite <- Eo. split; [|lia]. exact (place_real its (all_items ms) at_ n Sy Im Hn). }
  assert (Pos : forall n t, data_of n its <> [] -> get N.eqb n ts = Ok t -> 0 < m_offset t) by (intros n t Hn G; exact (proj1 (Loc n t Hn G))).
  assert (A3 : existsb (fun t => negb (lenN (td_signature (m_td (snd t))) =? 0) && (m_offset (snd t) =? 0)) ts = false).
  { apply not_true_is_false. intros X. apply existsb_exists in X as ((k, t) & Ht & X). cbn [snd] in X. pose proof (in_get N.eqb N.eqb_eq k t ts Nd Ht) as G. assert (D : data_of k its = [] \/ data_of k its <> []) by (destruct (data_of k its); [now left|right; discriminate]). destruct D as [D|D]; [rewrite (Emp k t G D) in X; discriminate X|]. specialize (Pos k t D G). lia. }
  rewrite A3.
  assert (Rd : ready its ts).
  { split; [exact Nd|]. split; [|exact Emp]. intros n Hn. destruct (Dat n Hn) as (t & G & S1 & S2 & _). exists t. split; [exact G|]. split; [now apply (Pos n)|]. now split. }
  destruct (extract_again its main ms ts M) as (ts2 & atts & Ex & (Nd2 & Rd2 & Re2) & X & _); [intros n Hn; destruct (proj1 Im n Hn) as (l & C & _); now exists l|exact (proj2 Im)|exact Rd|]. rewrite Ex. cbn [bind].
  pose proof (extract_places ts main ts2 atts Ex) as Sp.
  assert (A4 : existsb (fun t => negb (lenN (td_signature (m_td (snd t))) =? 0) && negb (complete (snd t))) ts2 = false).
  { apply not_true_is_false. intros Y. apply existsb_exists in Y as ((k, t2) & Ht & Y). cbn [snd] in Y. pose proof (in_get N.eqb N.eqb_eq k t2 ts2 Nd2 Ht) as G. assert (D : data_of k its = [] \/ data_of k its <> []) by (destruct (data_of k its); [now left|right; discriminate]). destruct D as [D|D]; [rewrite (Re2 k t2 G D) in Y; discriminate Y|].
    destruct (X k D) as (t & t2' & G1 & G2 & (_ & _ & X3 & _ & _ & _ & _ & _ & X9)). assert (t2' = t2) by congruence. subst t2'. destruct (Dat k D) as (t' & G' & _ & S2 & S3 & _). assert (t' = t) by congruence. subst t'. destruct (proj1 Im k D) as (l & C & Hd).
    assert (Ln : lenN (data_of k its) <= lenN (before_file t2)) by (apply X9; [exact S3|]; exists l, (at_ k); split; [exact C|]; split; [exact Hd|exact (proj2 (Loc k t D G1))]). unfold complete, before_file in *. assert (0 < lenN (data_of k its)) by (destruct (data_of k its); [now destruct D|rewrite lenN_cons; lia]). destruct (m_file t2) as [d|]; [|cbn in Ln; lia]. rewrite X3, S2 in Y. lia. }
  rewrite A4.
  assert (Rc : forall n t, data_of n its <> [] -> get N.eqb n ts = Ok t -> reach (all_items ms) n (m_offset t)).
  { intros n t Hn G. destruct (proj1 Im n Hn) as (l & (Cf' & _) & (x0 & x & b0 & El0 & _)). apply comparable_is in Cf' as (Cl & _). rewrite Cl in El0. apply convs_split in El0 as (a' & x' & b' & El0 & _). exists (at_ n), x'. rewrite El0. split; [apply in_elt|exact (proj2 (Loc n t Hn G))]. }
  set (v0 := mkV ts (fun _ => []) []).
  assert (Fl' : has (fd_flags fd') ATTACHMENTS_REMOVED = true) by now rewrite Fl.
  assert (G0 : vgood ps ms at_ v0).
  { split; [exact Rd|]. intros n t Hn G. cbn [v_tracks v0] in G. split; [now apply Rc|]. split; [reflexivity|]. intros _ Z. destruct (Dat n Hn) as (t' & G' & _ & _ & S3 & _). assert (t' = t) by congruence. subst t'. contradiction. }
  destruct (made_good ps a b w wr size added srs H Ep Ha Ad V Es main ms at_ fd' M Im Fl' Cf v0 ts ts2 atts G0 eq_refl Ex) as (v & Ev & Gv & Fv & Ov & Out).
  rewrite (rebuild_files_ext (fd_flags fd') ts2 (fun _ => []) (over ts2 v0) atts srs) by (intros k; unfold over, v0; cbn [v_rest]; symmetry; apply dropN_all; cbn; lia). rewrite Ev. cbn [bind].
  assert (Res : forall r, crc32 (v_out r) = fd_crc32 fd' -> exists out, (if crc32 (v_out r) =? fd_crc32 fd' then Ok (Rebuilt (v_out r)) else Ok (Mismatch (v_out r))) = Ok (Rebuilt out) /\ crc32 out = crc32 (file_of ps)).
  { intros r Er. rewrite Er, N.eqb_refl. exists (v_out r). split; [reflexivity|congruence]. }
  assert (Tk : forall n, data_of n its <> [] -> (forall l, In (n, l) c -> l = []) -> forall t, get N.eqb n ts = Ok t -> m_offset t = at_ n).
  { intros n Hn Em t G. destruct (Tr n Hn) as (t' & lo & hi & It & _ & W). pose proof (in_get N.eqb N.eqb_eq n t' ts Nd It) as G'. assert (t' = t) by congruence. subst t'. destruct W as [(l & Il & W & _)|(_ & W)]; [|now symmetry]. rewrite (Em l Il) in W. destruct W. }
  destruct (negb (crc32 (v_out v) =? fd_crc32 fd') && existsb (fun kl => existsb (fun o => negb (o =? 0)) (snd kl)) c) eqn:Rt.
  2:{ apply Res. destruct (crc32 (v_out v) =? fd_crc32 fd') eqn:Cr; [now apply N.eqb_eq in Cr|]. cbn [negb andb] in Rt. rewrite Out; [now symmetry|]. intros n Hn t G. apply (Tk n Hn); [|exact G]. intros l Il. destruct l as [|o l]; [reflexivity|]. exfalso. destruct (Pl n (o :: l) o) as (x & Hx); [apply (in_get N.eqb N.eqb_eq); [now rewrite Kc|exact Il]|now left|]. apply (frames_place n _ Sy) in Hx.
    assert (existsb (fun kl => existsb (fun o => negb (o =? 0)) (snd kl)) c = true); [|congruence]. apply existsb_exists. exists (n, o :: l). split; [exact Il|]. cbn [snd existsb]. replace (o =? 0) with false by lia. reflexivity. }
  assert (St : exists o, settled ts c o).
  { destruct cut as [|k cut']; [now destruct Nc|]. destruct (Tr k (Dcut k (or_introl eq_refl))) as (_ & lo & _ & _ & (R & _) & _). now exists lo. }
  assert (Sub : incl cut (map fst ts)).
  { intros k Hk. destruct (Dat k (Dcut k Hk)) as (t & G & _). apply (get_in N.eqb N.eqb_eq) in G. apply (in_map fst) in G. exact G. }
  destruct (guesses_are ts2 c) as (g & Eg & Kg & Pg); [now rewrite Kc|exact Nd2| | |destruct St as (o & So); exists o; now apply (settled_same ts)|].
  { intros n t I. destruct (in_places ts ts2 n t Nd Sp I) as (u & Iu & -> & _). apply Nu. now apply (in_get N.eqb N.eqb_eq). }
  { rewrite Kc, (proj1 Sp). exact Sub. }
  rewrite Eg. cbn [bind]. rewrite Kc in Kg.
  destruct (check_is ps a b w wr size added srs H Ep Ha Ad V Es main ms at_ fd' M Im Fl' Cf g v) as (ok & r & Er & _ & _ & _ & R1 & R2).
  - apply Forall_forall. intros (k, os) I. destruct (Pg k os I) as (Ne & Os). assert (Hk : In k cut) by (rewrite <- Kg; apply (in_map fst) in I; exact I). split; [exact (Dcut k Hk)|]. split; [exact Ne|]. cbn [fst snd]. intros o Ho. apply Os in Ho. apply (tried_same ts ts2 c k o Nd Sp) in Ho. destruct Ho as (t & lo & hi & It & _ & W). pose proof (in_get N.eqb N.eqb_eq k t ts Nd It) as G. destruct W as [(l & Il & (Io & _))|(_ & ->)].
    + destruct (Pl k l o) as (x & Hx); [apply (in_get N.eqb N.eqb_eq); [now rewrite Kc|exact Il]|exact Io|]. split; [apply (frames_place k _ Sy) in Hx; lia|]. exists o, x. split; [exact Hx|lia].
    + split; [now apply (Pos k t (Dcut k Hk))|now apply (Rc k t (Dcut k Hk))].
  - rewrite Kg. exact Ncut.
  - exact Gv.
  - intros k Hk. apply Fv, Dcut. now rewrite <- Kg.
  - rewrite Er. cbn [bind snd]. apply Res, R1, R2.
    + intros n Hn Nn t G. rewrite Kg, <- Kc in Nn. destruct (Dat n Hn) as (t0 & Gt0 & _). destruct (Ov n t0 Hn Gt0) as (t1 & G1 & O1). assert (t1 = t) by congruence. subst t1. rewrite O1. apply (Tk n Hn); [|exact Gt0]. intros l Il. destruct Nn. apply (in_map fst) in Il. exact Il.
    + intros k os I. destruct (Pg k os I) as (_ & Os). apply Os, (tried_same ts ts2 c k (at_ k) Nd Sp), Tr, Dcut. rewrite <- Kg. apply (in_map fst) in I. exact I.
Qed.
(** the tracks that are held to have too little signature have data *)
Lemma cut_is ap name big offset ps srs fd ts cut : mkv_ok ps -> mkv_srs ap name big offset (file_of ps) = Ok srs -> mkv_load_srs srs = Ok (fd, ts, cut) -> NoDup cut /\ forall k, In k cut -> data_of k (all_items ps) <> [].
Proof.
  intros H E El. destruct (load_is ap name big offset ps srs H E) as (fd' & ts0 & _ & _ & _ & _ & _ & _ & El' & _ & _ & _ & (Nd0 & Lo) & _). rewrite El in El'. apply ok_inj in El'. injection El' as -> -> Ec. set (its := all_items ps) in *.
  rewrite Ec. clear - Nd0 Lo. assert (G : forall k t, In (k, t) ts0 -> td_number (m_td t) = k /\ td_length (m_td t) = lenN (data_of k its)).
    { intros k t I. specialize (Lo k). rewrite (in_get N.eqb N.eqb_eq k t ts0 Nd0 I) in Lo. destruct Lo as (_ & td & -> & T1 & _ & T2 & _). now split. }
    clear Lo. induction ts0 as [|(k, t) l IH]; [split; [constructor|intros k []]|]. cbn [map fst] in Nd0. apply NoDup_cons_iff in Nd0 as (Nk & Nd0). destruct (IH Nd0) as (A & B); [intros k' t' I; apply G; now right|]. destruct (G k t (or_introl eq_refl)) as (G1 & G2). cbn [filter snd]. destruct (enough (m_td t)) eqn:En; cbn [negb]; [now split|]. cbn [map snd]. rewrite G1. split.
    - constructor; [|exact A]. intros X. apply Nk. apply in_map_iff in X as ((k', t') & E & I). apply filter_In in I as (I & _). destruct (G k' t' (or_intror I)) as (G3 & _). cbn [snd] in E. rewrite G3 in E. subst k'. apply (in_map fst) in I. exact I.
    - intros k' [<-|I]; [|now apply B]. intros X. rewrite X in G2. unfold enough in En. rewrite G2 in En. discriminate En.
Qed.
Theorem restore_all_retry ap name big offset ns ps srs main ms at_ fd ts0 cut ts c : mkv_ok ps -> mkv_srs ap name big offset (file_of ps) = Ok srs -> movie_ok main ms -> in_movie held (all_items ps) (all_items ms) at_ ->
  mkv_load_srs srs = Ok (fd, ts0, cut) -> cut <> [] -> mkv_find_all (map (fun k => (k, [])) cut) ts0 main = Ok (ts, c) ->
  (forall n, data_of n (all_items ps) <> [] -> tried ts c n (at_ n)) ->
  exists out, mkv_restore_all ns srs main = Ok (Rebuilt out) /\ crc32 out = crc32 (file_of ps).
Proof.
  intros H E M Im El Nc Ef Tr. destruct (cut_is ap name big offset ps srs fd ts0 cut H E El) as (C1 & C2). destruct (restore_retry ap name big offset ns ps srs main ms at_ fd ts0 cut cut ts c H E M Im El Nc C1 C2 Ef Tr) as (out & R). exists out. unfold mkv_restore_all. rewrite El. exact R.
Qed.
Theorem others_are ap name big offset ps srs main ms fd ts0 cut0 cut ts c : mkv_ok ps -> mkv_srs ap name big offset (file_of ps) = Ok srs -> movie_ok main ms -> mkv_load_srs srs = Ok (fd, ts0, cut0) ->
  mkv_find_all (map (fun k => (k, [])) cut) ts0 main = Ok (ts, c) ->
  forall k l o, In (k, l) c -> In o l -> NoDup cut -> (exists x, In (o, x) (frames_at k 0 (all_items ms))) /\ exists t, In (k, t) ts /\ (data_of k (all_items ps) <> [] -> 0 < m_offset t <= o).
Proof.
  intros H E M El Ef k l o Il Ho Nc. destruct (load_is ap name big offset ps srs H E) as (fd' & ts' & _ & _ & _ & _ & _ & _ & El' & _ & _ & _ & (Nd0 & Lo) & _). rewrite El in El'. apply ok_inj in El'. injection El' as -> <- _.
  assert (Kp0 : kept_all ts0 ts0).
  { split; [exact Nd0|]. split; [|split].
    - intros n t G. specialize (Lo n). rewrite G in Lo. destruct Lo as (_ & td & -> & T & _). exact T.
    - intros n t0 G. now exists t0.
    - intros n t e G G'. congruence. }
  pose proof (find_all_kept ts0 _ main ts c Kp0 Ef) as (Nd & Nu & Ke & Kn). assert (Kc : map fst c = cut) by (rewrite (find_all_keys _ ts0 main ts c Ef), map_map; apply map_id).
  destruct (others_placed main ms ts0 (map (fun k => (k, [])) cut) ts c M Kp0) with (k := k) (l := l) (o := o) as (A & (t & G & S & L)).
  - intros n t G. specialize (Lo n). rewrite G in Lo. destruct Lo as (_ & td & -> & _). reflexivity.
  - intros k' l' G. apply (get_in N.eqb N.eqb_eq) in G. apply in_map_iff in G as (k2 & G & _). now injection G.
  - exact Ef.
  - apply (in_get N.eqb N.eqb_eq); [now rewrite Kc|exact Il].
  - exact Ho.
  - split; [exact A|]. exists t. split; [now apply (get_in N.eqb N.eqb_eq)|]. intros Hd. assert (Sg : td_signature (m_td t) <> []).
    { specialize (Lo k). destruct (get N.eqb k ts0) as [t0|e] eqn:G0; [|exfalso; apply Hd, no_data; exact Lo]. destruct Lo as (_ & td & -> & _ & _ & T & Sg). destruct (Ke k _ G0) as (t' & G' & K1 & _). assert (t' = t) by congruence. subst t'. rewrite K1. cbn [m_td]. destruct Sg as (_ & Sg & _). intros X. apply Hd. rewrite X in Sg. symmetry. now apply Sg. }
    split; [exact (proj2 (not_searching t S Sg))|now apply L].
Qed.
