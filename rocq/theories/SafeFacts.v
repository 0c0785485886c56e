(** Reconstruction changes no existing file and stays in the output folder, whatever the SRR holds. *)
From Verif Require Import Base BaseFacts Path PathSpec PathFacts Crc Rar RarSpec Srr SrrSpec FsSpec FsFacts.

Section Safe.
Variables (P : rparams) (f0 : fs).

Definition good (f : fs) (vol : option text) : Prop :=
  kept fs_get f0 f /\ inside fs_get (normpath (p_out P)) f0 f /\
  forall p, vol = Some p ->
    fs_get f0 p = None /\ exists cs r, below cs r /\ p = in_folder (normpath (p_out P)) r.

Lemma good_set f vol p d : good f vol ->
  fs_get f0 p = None -> (exists cs r, below cs r /\ p = in_folder (normpath (p_out P)) r) ->
  good (fs_set f p d) vol.
Proof.
  intros (K & I & V) Hn Hin. split; [|split; [|exact V]].
  - intros q x Hq. rewrite fs_get_set. destruct (teqb p q) eqn:E; [|now apply K].
    apply teqb_eq in E. subst. congruence.
  - intros q Hq. rewrite fs_get_set in Hq. destruct (teqb p q) eqn:E; [|now apply I].
    apply teqb_eq in E. now subst.
Qed.
Lemma good_new f vol p : good f vol -> can_overwrite f p = true -> fs_get f0 p = None.
Proof.
  intros (K & _) H. apply can_overwrite_true in H. destruct (fs_get f0 p) as [d|] eqn:E; [|reflexivity].
  apply K in E. congruence.
Qed.
Lemma good_append f p d : good f (Some p) -> good (fs_append f p d) (Some p).
Proof.
  intros H. pose proof H as (_ & _ & V). destruct (V p eq_refl) as [Hn Hin].
  unfold fs_append. destruct (fs_get f p); now apply good_set.
Qed.
Lemma vol_write_good s d s' fl : good (s_fs s) (s_rarfs s) -> vol_write s d = (s', fl) ->
  good (s_fs s') (s_rarfs s').
Proof.
  unfold vol_write. intros H E. destruct (s_rarfs s) as [p|] eqn:Ep; injection E as <- _.
  - cbn [s_fs s_rarfs set_fs]. rewrite Ep. now apply good_append.
  - now rewrite Ep.
Qed.
Lemma opath_inside name paths out : opath name paths (p_out P) = Ok out ->
  exists cs r, below cs r /\ out = in_folder (normpath (p_out P)) r.
Proof. intros H. apply opath_spec in H. now apply target_inside in H. Qed.

Lemma rstep_good srr s b s' fl :
  good (s_fs s) (s_rarfs s) -> rstep P srr s b = (s', fl) -> good (s_fs s') (s_rarfs s').
Proof.
  intros G H. unfold rstep in H.
  destruct (b_type b =? T_SrrHeader); [now injection H as <- _|].
  destruct (b_type b =? T_SrrStored).
  { destruct (p_extract P); [|now injection H as <- _].
    destruct (b_kind b); try (now injection H as <- _).
    destruct (opath name (p_paths P) (p_out P)) as [out|] eqn:Eo; injection H as <- _; [|exact G].
    cbn [s_fs s_rarfs set_fs]. unfold extract1. destruct (can_overwrite (s_fs s) out) eqn:Ec; cbn [fst]; [|exact G].
    apply good_set; [exact G| |now apply opath_inside in Eo]. now apply good_new with (f := s_fs s) (vol := s_rarfs s). }
  destruct (b_type b =? T_SrrRarFile).
  { destruct (b_kind b); try (now injection H as <- _).
    match type of H with (if ?c then _ else _) = _ => destruct c end; [|injection H as <- _; exact G].
    destruct (opath name (p_paths P) (p_out P)) as [out|] eqn:Eo; [|injection H as <- _; exact G].
    cbn [s_fs set_skip] in H.
    destruct (can_overwrite (s_fs s) out) eqn:Ec; injection H as <- _; cbn [s_fs s_rarfs set_fs set_volume add_events]; [|exact G].
    pose proof (good_new _ _ _ G Ec) as Hn. apply opath_inside in Eo.
    destruct (good_set _ _ out [] G Hn Eo) as (K & I & _). split; [exact K|split; [exact I|]].
    intros p E. injection E as <-. auto. }
  destruct ((b_type b =? T_RarOldRec) && s_skip s); [now injection H as <- _|].
  destruct (is_recovery b) as [rec|]; [|now injection H as <- _].
  assert (Hrest : forall r,
    (if b_type b =? T_RarFile then r
     else if ((T_RarMin <=? b_type b) && (b_type b <=? T_RarMax)) || ((b_type b =? 0) && (b_hsize b =? 20)) then
          if s_skip s then (s, Continue) else vol_write s (b_raw b)
        else if b_type b =? T_SrrOso then (s, Continue)
        else if b_type b =? T_SrrPadding then
          if s_skip s then (s, Continue) else vol_write s (dropN (b_hsize b) (b_raw b))
        else (add_events s [EUnknown (b_type b)], Continue)) = (s', fl) ->
    (r = (s', fl) -> good (s_fs s') (s_rarfs s')) -> good (s_fs s') (s_rarfs s')).
  { intros r H' Hr. destruct (b_type b =? T_RarFile); [now apply Hr|].
    destruct (((T_RarMin <=? b_type b) && (b_type b <=? T_RarMax)) || ((b_type b =? 0) && (b_hsize b =? 20))).
    - destruct (s_skip s); [now injection H' as <- _|]. eapply vol_write_good; eassumption.
    - destruct (b_type b =? T_SrrOso); [now injection H' as <- _|].
      destruct (b_type b =? T_SrrPadding).
      + destruct (s_skip s); [now injection H' as <- _|]. eapply vol_write_good; eassumption.
      + injection H' as <- _. exact G. }
  assert (Hrec : forall rs ds,
    (if (0 <? rs) && s_rr s then
          match s_rarfs s with
          | None => (s, Raise AttributeError)
          | Some p =>
            match recovery_bytes (b_raw b) rs ds
                    (match fs_get (s_fs s) p with Some d => d | None => [] end) with
            | Ok d => vol_write s d
            | Err e => (s, Raise e)
            end
          end
        else vol_write s (b_raw b)) = (s', fl) -> good (s_fs s') (s_rarfs s')).
  { intros rs ds H'. destruct ((0 <? rs) && s_rr s); [|eapply vol_write_good; eassumption].
    destruct (s_rarfs s) as [p|] eqn:Ep; [|injection H' as <- _; now rewrite Ep].
    destruct (recovery_bytes _ _ _ _); [|injection H' as <- _; now rewrite Ep].
    eapply vol_write_good; [|eassumption]. now rewrite Ep. }
  destruct rec as [[rs ds]|]; [destruct (s_skip s) eqn:Esk; [|eapply Hrec; exact H]|].
  all: eapply Hrest; [exact H|clear H]; intros H; destruct (b_kind b);
    try (destruct (s_skip s); [now injection H as <- _|];
         destruct (vol_write s (b_raw b)) as [s1 fl1] eqn:E1; destruct fl1;
         injection H as <- _; eapply vol_write_good; eassumption);
    try (injection H as <- _; exact G).
  destruct (s_skip s); [injection H as <- _; exact G|].
  destruct (vol_write s (b_raw b)) as [s1 fl1] eqn:E1.
  pose proof (vol_write_good _ _ _ _ G E1) as G1.
  destruct fl1; try (injection H as <- _; exact G1).
  match type of H with (match ?o with inl _ => _ | inr _ => _ end) = _ =>
    assert (Ho : match o with inl s2 => good (s_fs s2) (s_rarfs s2) | inr (s2, _) => good (s_fs s2) (s_rarfs s2) end) end.
  { destruct (negb _ || _); [|exact G1]. destruct (open_source _ _ _ _); exact G1. }
  match type of H with (match ?o with inl _ => _ | inr _ => _ end) = _ => destruct o as [s2|[s2 e]] end;
    [|injection H as <- _; exact Ho].
  destruct (s_src s2); [|injection H as <- _; exact Ho].
  match type of H with (match ?o with Ok _ => _ | Err _ => _ end) = _ => destruct o end; [|injection H as <- _; exact Ho].
  destruct (repack_loop _ _ _ _ _ _) as [[[w src] rc] fc].
  destruct (vol_write s2 w) as [s3 fl3] eqn:E3. pose proof (vol_write_good _ _ _ _ Ho E3) as G3.
  destruct fl3; injection H as <- _; exact G3.
Qed.
Lemma rloop_good srr bs : forall s s' fl,
  good (s_fs s) (s_rarfs s) -> rloop P srr s bs = (s', fl) -> good (s_fs s') (s_rarfs s').
Proof.
  induction bs as [|b bs IH]; intros s s' fl G H; cbn [rloop] in H; [now injection H as <- _|].
  destruct (rstep P srr s b) as [s1 fl1] eqn:E. apply rstep_good in E; [|exact G].
  destruct fl1; [now apply IH in H|now injection H as <- _|now injection H as <- _].
Qed.
End Safe.

Theorem reconstruct_safe P srr f s fl :
  reconstruct P srr f = (s, fl) ->
  kept fs_get f (s_fs s) /\ inside fs_get (normpath (p_out P)) f (s_fs s).
Proof.
  assert (G : good P f f None).
  { split; [intros q d Hq; exact Hq|split; [intros q Hq; congruence|discriminate]]. }
  unfold reconstruct. destruct (read_all srr) as [bs|e]; intros H.
  - apply (rloop_good P f) in H; [|exact G]. destruct H as (K & I & _). auto.
  - injection H as <- _. destruct G as (K & I & _). auto.
Qed.
