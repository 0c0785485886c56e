(** MkvRetryEx: samples of which the first place is wrong. *)
From Verif Require Import Base BaseFacts Crc SrsRec SrsRecSpec Srs Mkv StrmSpec Mp3Spec MkvSpec MkvRead MkvEx MkvRetry MkvRetrySpec MkvRetryFacts MkvTried.

(** 256 bytes, as much as a signature has *)
Definition much : bytes := map n2b (map N.of_nat (seq 0 256)).
Definition blkm (n : N) : item := Blk (mkBlk simple_block 2 1 n [x00; x05] x80 [] [much]).
Definition cluw (its : list item) : part := Group cluster 2 (leaf (el [0xE7]) [x07] :: its).
Definition track3 : list item := nest track_entry [leaf track_number [x03]; leaf codec (bstr "S")].
Definition t_ap : text := str "pyReSample 0.7".
Definition t_name : text := str "/tmp/a.mkv".
Definition t_srs (ps : list part) : bytes := match mkv_srs t_ap t_name false (fun _ => 0) (file_of ps) with Ok s => s | Err _ => [] end.
Definition t_load (ps : list part) : option file_data * mtracks * list N := match mkv_load_srs (t_srs ps) with Ok l => l | Err _ => (None, [], []) end.
Definition t_fd ps := fst (fst (t_load ps)).
Definition t_ts ps := snd (fst (t_load ps)).
Definition t_find (cut : list N) (ps ms : list part) : mtracks * cuts := match mkv_find_all (map (fun k => (k, [])) cut) (t_ts ps) (file_of ms) with Ok x => x | Err _ => ([], []) end.
Definition t_at (k : N -> nat) (ms : list part) (n : N) : N := fst (nth (k n) (frames_at n 0 (all_items ms)) (0, [])).

(** ** The second place of the first track is right *)
Definition t_ps : list part := sample [Group tracks 1 (track1 [] ++ track2); cluw [blkm 1; blk1 1 "abc"; blk1 2 "xy"]].
Definition t_ms : list part := sample [Group tracks 1 (track1 [] ++ track2); cluw [blkm 1; blk1 1 "abd"; blkm 1; blk1 1 "abc"]; cluw [blk1 2 "xyz"]].
Definition t_k (n : N) : nat := if n =? 1 then 2%nat else 0%nat.
Lemma t_ok : mkv_ok t_ps. Proof. apply mkv_ok_is. vm_compute. reflexivity. Qed.
Lemma t_movie : movie_ok (file_of t_ms) t_ms. Proof. rewrite <- (app_nil_r (file_of t_ms)). apply movie_ok_is; vm_compute; reflexivity. Qed.
Lemma t_in : in_movie held (all_items t_ps) (all_items t_ms) (t_at t_k t_ms).
Proof. apply (in_movie_is _ _ held_is) with (k := t_k) (l := fun n => frames_at n 0 (all_items t_ms)); vm_compute; reflexivity. Qed.
Lemma t_created : mkv_srs t_ap t_name false (fun _ => 0) (file_of t_ps) = Ok (t_srs t_ps). Proof. vm_compute. reflexivity. Qed.
Lemma t_loads : mkv_load_srs (t_srs t_ps) = Ok (t_fd t_ps, t_ts t_ps, []). Proof. vm_compute. reflexivity. Qed.
Lemma t_found : mkv_find_all [(1, [])] (t_ts t_ps) (file_of t_ms) = Ok (t_find [1] t_ps t_ms). Proof. vm_compute. reflexivity. Qed.
Lemma t_places : map (fun t => (fst t, m_offset (snd t))) (fst (t_find [1] t_ps t_ms)) = [(1, 66); (2, 618)] /\ snd (t_find [1] t_ps t_ms) = [(1, [338])] /\ t_at t_k t_ms 1 = 338 /\ t_at t_k t_ms 2 = 618.
Proof. vm_compute. auto. Qed.
Lemma t_range : range (settled (fst (t_find [1] t_ps t_ms)) (snd (t_find [1] t_ps t_ms))) 618 618.
Proof.
  assert (G : forall o, In o [618] <-> settled (fst (t_find [1] t_ps t_ms)) (snd (t_find [1] t_ps t_ms)) o).
  { intros o. replace [618] with (good_offsets (fst (t_find [1] t_ps t_ms)) (snd (t_find [1] t_ps t_ms))) by (vm_compute; reflexivity). apply good_settled.
    - destruct t_places as (_ & -> & _). constructor; [intros []|constructor].
    - assert (F : forallb (fun t => td_number (m_td (snd t)) =? fst t) (fst (t_find [1] t_ps t_ms)) = true) by (vm_compute; reflexivity). intros n t I. rewrite forallb_forall in F. specialize (F _ I). cbn [fst snd] in F. lia. }
  split; [apply G; now left|]. split; [apply G; now left|]. intros o Ho. apply G in Ho as [<-|[]]. lia.
Qed.
Lemma t_has (ts : mtracks) n o : In (n, o) (map (fun t => (fst t, m_offset (snd t))) ts) -> exists t, In (n, t) ts /\ m_offset t = o.
Proof. intros H. apply in_map_iff in H as ((n', t) & E & I). cbn [fst snd] in E. injection E as -> <-. now exists t. Qed.
Lemma t_tried n : data_of n (all_items t_ps) <> [] -> tried (fst (t_find [1] t_ps t_ms)) (snd (t_find [1] t_ps t_ms)) n (t_at t_k t_ms n).
Proof.
  intros Hn. assert (H : n = 1 \/ n = 2).
  { destruct (in_dec N.eq_dec n (numbers (all_items t_ps))) as [I|I]; [|exfalso; apply Hn, MkvSrs.no_data; intros X; apply I; now apply numbers_are]. vm_compute in I. destruct I as [I|[I|[I|[I|[I|[]]]]]]; lia. }
  destruct t_places as (Pm & Pc & A1 & A2). pose proof t_range as Rg. revert Pm Pc Rg. generalize (fst (t_find [1] t_ps t_ms)) (snd (t_find [1] t_ps t_ms)). intros ts c Pm Pc Rg. clear Hn. destruct H as [-> | ->].
  - rewrite A1. destruct (t_has ts 1 66) as (t & It & _); [rewrite Pm; now left|]. exists t, 618, 618. split; [exact It|]. split; [exact Rg|]. left. exists [338]. split; [rewrite Pc; now left|]. split; [now left|]. right. left. split; [lia|]. intros p [<-|[]]. lia.
  - rewrite A2. destruct (t_has ts 2 618) as (t & It & Et); [rewrite Pm; right; now left|]. exists t, 618, 618. split; [exact It|]. split; [exact Rg|]. right. split; [|now symmetry]. intros l p I. rewrite Pc in I. destruct I as [I|[]]. discriminate I.
Qed.
Lemma t_back : mkv_restore_from false (t_fd t_ps) (t_ts t_ps) [1] (t_srs t_ps) (file_of t_ms) = Ok (Rebuilt (file_of t_ps)).
Proof. vm_compute. reflexivity. Qed.

(** ** Samples that are not rebuilt *)
(** every track has other places *)
Definition u_ps : list part := sample [Group tracks 1 (track1 []); cluw [blkm 1; blk1 1 "abc"]].
Definition u_ms : list part := sample [Group tracks 1 (track1 []); cluw [blkm 1; blkm 1; blk1 1 "abc"]].
Lemma only_witness : exists ps ms at_ srs fd ts0 cut0 ts l, mkv_ok ps /\ mkv_srs (str "pyReSample 0.7") (str "/tmp/a.mkv") false (fun _ => 0) (file_of ps) = Ok srs /\ movie_ok (file_of ms) ms /\ in_movie held (all_items ps) (all_items ms) at_ /\
  data_of 1 (all_items ps) <> [] /\ mkv_load_srs srs = Ok (fd, ts0, cut0) /\ mkv_find_all [(1, [])] ts0 (file_of ms) = Ok (ts, [(1, l)]) /\ In (at_ 1) l /\ mkv_restore_from false fd ts0 [1] srs (file_of ms) = Err ValueError.
Proof.
  exists u_ps, u_ms, (t_at (fun _ => 1%nat) u_ms), (t_srs u_ps), (t_fd u_ps), (t_ts u_ps), [], (fst (t_find [1] u_ps u_ms)), [317]. split; [apply mkv_ok_is; vm_compute; reflexivity|]. split; [vm_compute; reflexivity|].
  split; [rewrite <- (app_nil_r (file_of u_ms)); apply movie_ok_is; vm_compute; reflexivity|]. split; [apply (in_movie_is _ _ held_is) with (k := fun _ => 1%nat) (l := fun n => frames_at n 0 (all_items u_ms)); vm_compute; reflexivity|].
  split; [vm_compute; discriminate|]. split; [vm_compute; reflexivity|]. split; [vm_compute; reflexivity|]. split; [vm_compute; now left|]. vm_compute. reflexivity.
Qed.
(** the place where the track was found first is not tried again *)
Definition v_ps : list part := sample [Group tracks 1 (track1 [] ++ track2 ++ track3); cluw [blkm 1; blk1 1 "abc"; blkm 2; blk1 2 "de"; blk1 3 "xy"]].
Definition v_ms : list part := sample [Group tracks 1 (track1 [] ++ track2 ++ track3); cluw [blkm 1; blk1 1 "abc"; blkm 2; blk1 2 "zz"; blkm 1; blk1 1 "zzz"; blkm 2; blk1 2 "de"; blk1 3 "xy"]].
Definition v_k (n : N) : nat := if n =? 2 then 2%nat else 0%nat.
Lemma once_witness : exists ps ms at_ srs fd ts0 cut0 ts l1 l2 t1 out, mkv_ok ps /\ mkv_srs (str "pyReSample 0.7") (str "/tmp/a.mkv") false (fun _ => 0) (file_of ps) = Ok srs /\ movie_ok (file_of ms) ms /\ in_movie held (all_items ps) (all_items ms) at_ /\
  mkv_load_srs srs = Ok (fd, ts0, cut0) /\ mkv_find_all [(1, []); (2, [])] ts0 (file_of ms) = Ok (ts, [(1, l1); (2, l2)]) /\ In (1, t1) ts /\ m_offset t1 = at_ 1 /\ In (at_ 2) l2 /\ (exists o, settled ts [(1, l1); (2, l2)] o) /\
  mkv_restore_from false fd ts0 [1; 2] srs (file_of ms) = Ok (Mismatch out).
Proof.
  exists v_ps, v_ms, (t_at v_k v_ms), (t_srs v_ps), (t_fd v_ps), (t_ts v_ps), [], (fst (t_find [1; 2] v_ps v_ms)), (match snd (t_find [1; 2] v_ps v_ms) with (_, l) :: _ => l | _ => [] end), (match snd (t_find [1; 2] v_ps v_ms) with [_; (_, l)] => l | _ => [] end),
    (match get N.eqb 1 (fst (t_find [1; 2] v_ps v_ms)) with Ok t => t | Err _ => new_mtrack 1 end), (match mkv_restore_from false (t_fd v_ps) (t_ts v_ps) [1; 2] (t_srs v_ps) (file_of v_ms) with Ok (Mismatch o) => o | _ => [] end).
  split; [apply mkv_ok_is; vm_compute; reflexivity|]. split; [vm_compute; reflexivity|].
  split; [rewrite <- (app_nil_r (file_of v_ms)); apply movie_ok_is; vm_compute; reflexivity|]. split; [apply (in_movie_is _ _ held_is) with (k := v_k) (l := fun n => frames_at n 0 (all_items v_ms)); vm_compute; reflexivity|].
  split; [vm_compute; reflexivity|]. split; [vm_compute; reflexivity|]. split; [apply (get_in N.eqb N.eqb_eq); vm_compute; reflexivity|]. split; [vm_compute; reflexivity|]. split; [vm_compute; now left|]. split; [|vm_compute; reflexivity].
  exists (match get N.eqb 3 (fst (t_find [1; 2] v_ps v_ms)) with Ok t => m_offset t | Err _ => 0 end), 3, (match get N.eqb 3 (fst (t_find [1; 2] v_ps v_ms)) with Ok t => t | Err _ => new_mtrack 3 end). split; [apply (get_in N.eqb N.eqb_eq); vm_compute; reflexivity|]. split; [vm_compute; reflexivity|]. intros l [H|[H|[]]]; vm_compute in H; discriminate H.
Qed.
Lemma worth_example : olist 10 30 [3; 8; 15; 20; 40; 60] 3 = [8; 40; 20; 15] /\ worth 10 30 [3; 8; 15; 20; 40; 60] 8 /\ ~ worth 10 30 [3; 8; 15; 20; 40; 60] 3 /\ olist 10 30 [] 3 = [3].
Proof.
  assert (E : olist 10 30 [3; 8; 15; 20; 40; 60] 3 = [8; 40; 20; 15]) by (vm_compute; reflexivity). assert (W : worth 10 30 [3; 8; 15; 20; 40; 60] 8) by (split; [right; now left|]; right; left; split; [lia|]; intros p Hp Lp; cbn [In] in Hp; lia).
  split; [exact E|]. split; [exact W|]. split; [|vm_compute; reflexivity]. intros (_ & [X|[(_ & X)|(X & _)]]); [lia| |lia]. specialize (X 8 (or_intror (or_introl eq_refl)) ltac:(lia)). lia.
Qed.
Lemma t_data : forall k, In k [1] -> data_of k (all_items t_ps) <> [].
Proof. intros k [<-|[]]. vm_compute. discriminate. Qed.
Lemma t_nodup : NoDup [1]. Proof. constructor; [intros []|constructor]. Qed.
