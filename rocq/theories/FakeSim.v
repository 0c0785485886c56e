(** FakeSim: a reconstruction with missing files and option empty does what it does with files of zero bytes. *)
From Verif Require Import Base BaseFacts Path PathSpec PathFacts Crc Rar RarSpec ReadSpec SrrSpec FsSpec Srr FsFacts RebuildFacts.

Section Sim.
Variables (P : rparams) (srr : bytes) (f f' : fs).
Hypothesis Hpart : p_part P = [].
Hypothesis Hempty : p_empty P = true.
(** the paths that are in [f'] only *)
Definition extra (q : text) : Prop := fs_get f q = None /\ fs_get f' q <> None.
Lemma extra_dec q : {extra q} + {~ extra q}.
Proof. unfold extra. destruct (fs_get f q); [right; intros [X _]; discriminate|]. destruct (fs_get f' q); [left; now split|right; intros [_ X]; now apply X]. Qed.
Definition fsim (g g' : fs) : Prop :=
  (forall q, extra q -> fs_get g q = None /\ fs_get g' q = fs_get f' q) /\ (forall q, ~ extra q -> fs_get g q = fs_get g' q).
Definition srcsim (s s' : option source) : Prop :=
  s = s' \/ exists n sz w, s = Some (SFake n sz) /\ s' = Some (SFile (repN n x00) w).
Definition sim (s s' : rstate) : Prop := exists g' src',
  s' = mkState g' (s_rar_name s) (s_rarfs s) (s_source s) src' (s_rr s) (s_crc s) (s_skip s) (s_skip_off s) (s_pset s) (s_events s) /\
  fsim (s_fs s) g' /\ srcsim (s_src s) src' /\ forall p, s_rarfs s = Some p -> ~ extra p.
Definition simr (r r' : rstate * flow) : Prop := snd r = snd r' /\ sim (fst r) (fst r').
Lemma simr_same s s' fl : sim s s' -> simr (s, fl) (s', fl).
Proof. intros H. now split. Qed.

Lemma fsim_set g g' p d : fsim g g' -> ~ extra p -> fsim (fs_set g p d) (fs_set g' p d).
Proof.
  intros [A B] N. split; intros q H; rewrite !fs_get_set; destruct (teqb p q) eqn:E; try (apply teqb_eq in E; subst q; contradiction); auto.
Qed.
Lemma fsim_get g g' p : fsim g g' -> ~ extra p -> fs_get g p = fs_get g' p.
Proof. intros [_ B] N. now apply B. Qed.
Lemma fsim_append g g' p d : fsim g g' -> ~ extra p -> fsim (fs_append g p d) (fs_append g' p d).
Proof.
  intros H N. unfold fs_append. rewrite <- (fsim_get _ _ _ H N). destruct (fs_get g p); now apply fsim_set.
Qed.
Lemma sim_write s s' d : sim s s' -> simr (vol_write s d) (vol_write s' d).
Proof.
  intros (g' & src' & -> & F & S & N). unfold vol_write. cbn [s_rarfs]. destruct (s_rarfs s) as [p|] eqn:R.
  - split; [reflexivity|]. exists (fs_append g' p d), src'. cbn. rewrite R. split; [reflexivity|]. split; [apply fsim_append; auto|]. split; [exact S|]. intros q X. apply N. congruence.
  - split; [reflexivity|]. exists g', src'. cbn. rewrite R. auto.
Qed.
Lemma repack_sim skip fuel : forall todo src src' rc fc, srcsim (Some src) (Some src') ->
  let '(w, a, rc1, fc1) := repack_loop fuel todo src skip rc fc in
  let '(w', a', rc1', fc1') := repack_loop fuel todo src' skip rc fc in
  w = w' /\ srcsim (Some a) (Some a') /\ rc1 = rc1' /\ fc1 = fc1'.
Proof.
  induction fuel as [|fuel IH]; intros todo src src' rc fc S; cbn [repack_loop]; [auto|]. destruct (todo =? 0); [auto|].
  assert (R : fst (src_read (N.min todo 65536) src) = fst (src_read (N.min todo 65536) src') /\ srcsim (Some (snd (src_read (N.min todo 65536) src))) (Some (snd (src_read (N.min todo 65536) src')))).
  { destruct S as [E|(n & sz & w & E1 & E2)]; [injection E as <-; split; [reflexivity|now left]|]. injection E1 as ->. injection E2 as ->. cbn [src_read fst snd].
    rewrite takeN_repN, dropN_repN. split; [reflexivity|]. right. exists (n - N.min todo 65536), sz, w. auto. }
  destruct (src_read (N.min todo 65536) src) as [buf a], (src_read (N.min todo 65536) src') as [buf' a']. cbn [fst snd] in R. destruct R as [<- R].
  specialize (IH (todo - N.min todo 65536) a a' (if skip then rc else zcrc32 buf rc) (if skip then fc else zcrc32 buf fc) R).
  destruct (repack_loop fuel (todo - N.min todo 65536) a skip _ _) as [[[w1 a1] r1] f1], (repack_loop fuel (todo - N.min todo 65536) a' skip _ _) as [[[w2 a2] r2] f2].
  destruct IH as (-> & IH & -> & ->). auto.
Qed.

(** the blocks: nothing is written to the paths in question, and the files of zero bytes have the right sizes *)
Definition bfits (b : block) : Prop :=
  match b_kind b with
  | KStored _ n => p_extract P = true -> forall o, opath n (p_paths P) (p_out P) = Ok o -> ~ extra o
  | KRarFile n => forall o, opath n (p_paths P) (p_out P) = Ok o -> ~ extra o
  | KFile fi => N.land (b_flags b) F_DIRECTORY =? F_DIRECTORY = false -> forall n, rar_os_file_name (f_name fi) = Ok n -> extra (pjoin (p_in P) n) ->
      f_method fi = COMPR_STORING /\ fs_get f' (pjoin (p_in P) n) = Some (repN (f_unpacked fi) x00)
  | _ => True
  end.
Lemma open_sim s s' b fi : sim s s' -> b_kind b = KFile fi -> bfits b ->
  match open_source P s (b_flags b) fi, open_source P s' (b_flags b) fi with
  | Ok a, Ok a' => srcsim (Some a) (Some a')
  | Err e, Err e' => e = e'
  | _, _ => False
  end.
Proof.
  intros (g' & src' & -> & F & _ & _) K B. unfold open_source. cbn [s_fs]. unfold bfits in B. rewrite K in B. destruct (N.land (b_flags b) F_DIRECTORY =? F_DIRECTORY); [now left|].
  specialize (B eq_refl). unfold locate_file. destruct (rar_os_file_name (f_name fi)) as [n|e] eqn:R; cbn [bind].
  2: { destruct e; try reflexivity. rewrite Hempty. now left. }
  destruct (extra_dec (pjoin (p_in P) n)) as [X|X].
  - destruct (B n eq_refl X) as [M Y]. destruct F as [F _]. destruct (F _ X) as [-> ->]. rewrite Y, Hempty, lenN_repN, N.eqb_refl, M. cbn [negb andb]. rewrite N.eqb_refl. right. eexists _, _, _. split; reflexivity.
  - rewrite <- (fsim_get _ _ _ F X). destruct (fs_get (s_fs s) (pjoin (p_in P) n)) as [d|].
    + destruct (negb (lenN d =? f_unpacked fi) && negb (size_unknown (f_unpacked fi))); [reflexivity|]. destruct (f_method fi =? COMPR_STORING); [now left|reflexivity].
    + rewrite Hempty. now left.
Qed.
Lemma not_part : is_partial P = false.
Proof. unfold is_partial. now rewrite Hpart. Qed.
Lemma sim_source s s' n a a' c : sim s s' -> srcsim a a' -> sim (set_source s n a c) (set_source s' n a' c).
Proof. intros (g' & src' & -> & F & _ & N) S. exists g', a'. cbn. auto. Qed.
Lemma sim_events s s' l : sim s s' -> sim (add_events s l) (add_events s' l).
Proof. intros (g' & src' & -> & F & S & N). exists g', src'. cbn. auto. Qed.
Lemma step_sim s s' b : sim s s' -> bfits b -> simr (rstep P srr s b) (rstep P srr s' b).
Proof.
  intros S B. assert (S0 := S). unfold rstep.
  assert (Hskip : s_skip s' = s_skip s) by (destruct S as (? & ? & -> & _); reflexivity).
  assert (Hrr : s_rr s' = s_rr s) by (destruct S as (? & ? & -> & _); reflexivity).
  assert (Hrar : s_rarfs s' = s_rarfs s) by (destruct S as (? & ? & -> & _); reflexivity).
  destruct (b_type b =? T_SrrHeader); [now apply simr_same|].
  destruct (b_type b =? T_SrrStored).
  { destruct (p_extract P) eqn:Ex; [|now apply simr_same]. unfold bfits in B. destruct (b_kind b) eqn:K; try (now apply simr_same). destruct (opath name (p_paths P) (p_out P)) as [o|e]; [|now apply simr_same].
    specialize (B Ex o eq_refl). split; [reflexivity|]. cbn [fst]. destruct S as (g' & src' & -> & F & Sr & N).
    unfold extract1, can_overwrite, isfile. cbn [s_fs]. rewrite <- (fsim_get _ _ _ F B). destruct (fs_get (s_fs s) o).
    - exists g', src'. cbn. auto.
    - cbn [negb fst]. exists (fs_set g' o (srr_data srr b)), src'. cbn. split; [reflexivity|]. split; [now apply fsim_set|]. auto. }
  destruct (b_type b =? T_SrrRarFile).
  { unfold bfits in B. destruct (b_kind b) eqn:K; try (now apply simr_same). rewrite not_part. cbn [andb negb].
    destruct S as (g' & src' & -> & F & Sr & N). cbn [set_skip s_rar_name s_fs s_pset].
    destruct (negb (teqb (s_rar_name s) name) && true).
    - destruct (opath name (p_paths P) (p_out P)) as [o|e].
      + specialize (B o eq_refl). unfold can_overwrite, isfile. rewrite <- (fsim_get _ _ _ F B). destruct (fs_get (s_fs s) o).
        * split; [reflexivity|]. exists g', src'. cbn. auto.
        * split; [reflexivity|]. exists (fs_set g' o []), src'. cbn. split; [reflexivity|]. split; [now apply fsim_set|]. split; [exact Sr|]. intros p X. injection X as <-. exact B.
      + split; [reflexivity|]. exists g', src'. cbn. auto.
    - split; [reflexivity|]. exists g', src'. cbn. auto. }
  rewrite Hskip. destruct ((b_type b =? T_RarOldRec) && s_skip s); [now apply simr_same|].
  destruct (is_recovery b) as [rec|e]; [|now apply simr_same].
  assert (R2 : simr
    (if b_type b =? T_RarFile then
          match b_kind b with
          | KFile fi =>
            if s_skip s then
              let same := match s_source s with Some n => teqb n (f_name fi) | None => false end in
              let s := set_off s (if same then s_skip_off s + f_packed fi else f_packed fi) in
              (set_source s (Some (f_name fi)) (s_src s) 0, Continue)
            else
              match vol_write s (b_raw b) with
              | (s, Continue) =>
                let same := match s_source s with Some n => teqb n (f_name fi) | None => false end in
                let reopen := negb same || (is_partial P && negb (s_pset s)) in
                let opened :=
                  if reopen then
                    match open_source P s (b_flags b) fi with
                    | Ok src => inl (set_source s (Some (f_name fi)) (Some src) 0)
                    | Err e => inr (set_source s (Some (f_name fi)) None 0, e)
                    end
                  else inl s in
                match opened with
                | inr (s, e) => (s, Raise e)
                | inl s =>
                  match s_src s with
                  | None => (s, Raise AssertionError)
                  | Some src =>
                    match (if is_partial P && negb (s_pset s) then src_seek (s_skip_off s) src
                           else Ok src) with
                    | Err e => (s, Raise e)
                    | Ok src =>
                      let '(w, src, rcrc, fcrc) :=
                        repack_loop (repack_fuel (f_packed fi)) (f_packed fi) src
                          (p_skip_crc P) (s_crc s) 0 in
                      match vol_write s w with
                      | (s, Continue) =>
                        (add_events (set_source s (s_source s) (Some src) rcrc)
                           (repack_events (b_flags b) fi rcrc fcrc
                              (match s_rarfs s with Some p => p | None => [] end)
                              (p_skip_crc P)), Continue)
                      | r => r
                      end
                    end
                  end
                end
              | r => r
              end
          | _ => if s_skip s then (s, Raise AttributeError) else
                 match vol_write s (b_raw b) with
                 | (s, Continue) => (s, Raise AttributeError)
                 | r => r
                 end
          end
        else if ((T_RarMin <=? b_type b) && (b_type b <=? T_RarMax)) || ((b_type b =? 0) && (b_hsize b =? 20)) then
          if s_skip s then (s, Continue) else vol_write s (b_raw b)
        else if b_type b =? T_SrrOso then (s, Continue)
        else if b_type b =? T_SrrPadding then
          if s_skip s then (s, Continue) else vol_write s (dropN (b_hsize b) (b_raw b))
        else (add_events s [EUnknown (b_type b)], Continue))
    (if b_type b =? T_RarFile then
          match b_kind b with
          | KFile fi =>
            if s_skip s then
              let same := match s_source s' with Some n => teqb n (f_name fi) | None => false end in
              let s := set_off s' (if same then s_skip_off s' + f_packed fi else f_packed fi) in
              (set_source s (Some (f_name fi)) (s_src s) 0, Continue)
            else
              match vol_write s' (b_raw b) with
              | (s, Continue) =>
                let same := match s_source s with Some n => teqb n (f_name fi) | None => false end in
                let reopen := negb same || (is_partial P && negb (s_pset s)) in
                let opened :=
                  if reopen then
                    match open_source P s (b_flags b) fi with
                    | Ok src => inl (set_source s (Some (f_name fi)) (Some src) 0)
                    | Err e => inr (set_source s (Some (f_name fi)) None 0, e)
                    end
                  else inl s in
                match opened with
                | inr (s, e) => (s, Raise e)
                | inl s =>
                  match s_src s with
                  | None => (s, Raise AssertionError)
                  | Some src =>
                    match (if is_partial P && negb (s_pset s) then src_seek (s_skip_off s) src
                           else Ok src) with
                    | Err e => (s, Raise e)
                    | Ok src =>
                      let '(w, src, rcrc, fcrc) :=
                        repack_loop (repack_fuel (f_packed fi)) (f_packed fi) src
                          (p_skip_crc P) (s_crc s) 0 in
                      match vol_write s w with
                      | (s, Continue) =>
                        (add_events (set_source s (s_source s) (Some src) rcrc)
                           (repack_events (b_flags b) fi rcrc fcrc
                              (match s_rarfs s with Some p => p | None => [] end)
                              (p_skip_crc P)), Continue)
                      | r => r
                      end
                    end
                  end
                end
              | r => r
              end
          | _ => if s_skip s then (s', Raise AttributeError) else
                 match vol_write s' (b_raw b) with
                 | (s, Continue) => (s, Raise AttributeError)
                 | r => r
                 end
          end
        else if ((T_RarMin <=? b_type b) && (b_type b <=? T_RarMax)) || ((b_type b =? 0) && (b_hsize b =? 20)) then
          if s_skip s then (s', Continue) else vol_write s' (b_raw b)
        else if b_type b =? T_SrrOso then (s', Continue)
        else if b_type b =? T_SrrPadding then
          if s_skip s then (s', Continue) else vol_write s' (dropN (b_hsize b) (b_raw b))
        else (add_events s' [EUnknown (b_type b)], Continue))).
  { rewrite not_part. cbn [andb].
    assert (D : simr (if s_skip s then (s, Raise AttributeError) else match vol_write s (b_raw b) with (s, Continue) => (s, Raise AttributeError) | r => r end)
                     (if s_skip s then (s', Raise AttributeError) else match vol_write s' (b_raw b) with (s, Continue) => (s, Raise AttributeError) | r => r end)).
    { destruct (s_skip s); [now apply simr_same|]. pose proof (sim_write s s' (b_raw b) S) as [W1 W2]. destruct (vol_write s (b_raw b)) as [t fl], (vol_write s' (b_raw b)) as [t' fl']. cbn [fst snd] in *. subst fl'. destruct fl; now apply simr_same. }
    destruct (b_type b =? T_RarFile).
    - destruct (b_kind b) as [| | | | | | |fi| | |] eqn:K; try exact D. clear D. destruct (s_skip s) eqn:Sk.
      + split; [reflexivity|]. cbn [fst]. destruct S as (g' & src' & -> & F & Sr & N). exists g', src'. cbn. rewrite Sk. auto.
      + pose proof (sim_write s s' (b_raw b) S) as [W1 W2]. destruct (vol_write s (b_raw b)) as [t fl], (vol_write s' (b_raw b)) as [t' fl']. cbn [fst snd] in *. subst fl'. destruct fl; [|now apply simr_same|now apply simr_same].
        assert (So : s_source t' = s_source t) by (destruct W2 as (? & ? & -> & _); reflexivity). rewrite So.
        assert (G : forall u u', sim u u' -> simr
           (match s_src u with None => (u, Raise AssertionError) | Some src => let '(w, src, rcrc, fcrc) := repack_loop (repack_fuel (f_packed fi)) (f_packed fi) src (p_skip_crc P) (s_crc u) 0 in
              match vol_write u w with (s, Continue) => (add_events (set_source s (s_source s) (Some src) rcrc) (repack_events (b_flags b) fi rcrc fcrc (match s_rarfs s with Some p => p | None => [] end) (p_skip_crc P)), Continue) | r => r end end)
           (match s_src u' with None => (u', Raise AssertionError) | Some src => let '(w, src, rcrc, fcrc) := repack_loop (repack_fuel (f_packed fi)) (f_packed fi) src (p_skip_crc P) (s_crc u') 0 in
              match vol_write u' w with (s, Continue) => (add_events (set_source s (s_source s) (Some src) rcrc) (repack_events (b_flags b) fi rcrc fcrc (match s_rarfs s with Some p => p | None => [] end) (p_skip_crc P)), Continue) | r => r end end)).
        { intros u u' U. assert (Cr : s_crc u' = s_crc u) by (destruct U as (? & ? & -> & _); reflexivity). rewrite Cr.
          assert (Ss : srcsim (s_src u) (s_src u')) by (destruct U as (? & ? & -> & _ & Sr & _); exact Sr).
          destruct (s_src u) as [a|], (s_src u') as [a'|]; [|destruct Ss as [X|(? & ? & ? & _ & X)]; discriminate|destruct Ss as [X|(? & ? & ? & X & _)]; discriminate|now apply simr_same].
          pose proof (repack_sim (p_skip_crc P) (repack_fuel (f_packed fi)) (f_packed fi) a a' (s_crc u) 0 Ss) as R.
          destruct (repack_loop _ _ a _ _ _) as [[[w a1] r1] f1], (repack_loop _ _ a' _ _ _) as [[[w' a2] r2] f2]. destruct R as (<- & R & <- & <-).
          pose proof (sim_write u u' w U) as [X1 X2]. destruct (vol_write u w) as [v fl], (vol_write u' w) as [v' fl']. cbn [fst snd] in *. subst fl'. destruct fl; [|now apply simr_same|now apply simr_same].
          apply simr_same. assert (V1 : s_source v' = s_source v) by (destruct X2 as (? & ? & -> & _); reflexivity). assert (V2 : s_rarfs v' = s_rarfs v) by (destruct X2 as (? & ? & -> & _); reflexivity).
          rewrite V1, V2. apply sim_events. now apply sim_source. }
        destruct (negb match s_source t with Some n => teqb n (f_name fi) | None => false end || false).
        * pose proof (open_sim t t' b fi W2 K B) as O. destruct (open_source P t (b_flags b) fi) as [a|e1], (open_source P t' (b_flags b) fi) as [a'|e2]; try contradiction.
          -- apply G. now apply sim_source.
          -- subst e2. apply simr_same. apply sim_source; [exact W2|now left].
        * apply G. exact W2.
    - clear D. destruct (_ || _); [destruct (s_skip s); [now apply simr_same|now apply sim_write]|]. destruct (b_type b =? T_SrrOso); [now apply simr_same|].
      destruct (b_type b =? T_SrrPadding); [destruct (s_skip s); [now apply simr_same|now apply sim_write]|]. apply simr_same. now apply sim_events. }
  destruct rec as [[rs ds]|]; [|exact R2]. destruct (s_skip s) eqn:Sk; [exact R2|]. clear R2.
  rewrite Hrr, Hrar. destruct ((0 <? rs) && s_rr s); [|now apply sim_write].
  destruct (s_rarfs s) as [p|] eqn:Rf; [|now apply simr_same].
  assert (E : fs_get (s_fs s') p = fs_get (s_fs s) p). { destruct S as (g' & src' & -> & F & Sr & N). cbn [s_fs]. symmetry. apply fsim_get; [exact F|]. now apply N. }
  rewrite E. destruct (recovery_bytes _ _ _ _); [now apply sim_write|now apply simr_same].
Qed.
Lemma loop_sim bs : forall s s', sim s s' -> Forall bfits bs -> simr (rloop P srr s bs) (rloop P srr s' bs).
Proof.
  induction bs as [|b bs IH]; intros s s' S B; cbn [rloop]; [now apply simr_same|]. inversion B as [|? ? B1 B2]; subst.
  destruct (step_sim s s' b S B1) as [X1 X2]. destruct (rstep P srr s b) as [t fl], (rstep P srr s' b) as [t' fl']. cbn [fst snd] in *. subst fl'.
  destruct fl; [now apply IH|now apply simr_same|now apply simr_same].
Qed.
Lemma init_sim : (forall q d, fs_get f q = Some d -> fs_get f' q = Some d) -> sim (s_init f) (s_init f').
Proof.
  intros H. exists f', None. split; [reflexivity|]. split; [|split; [now left|discriminate]]. split.
  - intros q [A B]. now split.
  - intros q N. cbn [s_fs s_init]. destruct (fs_get f q) eqn:E; [now rewrite (H _ _ E)|]. destruct (fs_get f' q) eqn:E'; [|reflexivity]. exfalso. apply N. split; [exact E|congruence].
Qed.
End Sim.
