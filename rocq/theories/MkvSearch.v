(** MkvSearch: the search finds the places of all tracks. *)
From Verif Require Import Base BaseFacts Crc CrcFacts SrsRec SrsRecSpec SrsRecFacts Srs SrrFacts Ebml EbmlSpec EbmlFacts Mkv StrmSpec Mp3Spec MkvSpec MkvRead MkvSrs MkvLoad MkvOut MkvFind.

(** ** Frames *)
Lemma frames_app n its2 its1 : forall o, frames_at n o (its1 ++ its2) = frames_at n o its1 ++ frames_at n (o + lenN (bytes_of its1)) its2.
Proof. induction its1 as [|i its1 IH]; intros o; cbn [app frames_at]; [cbn [bytes_of map concat lenN app]; now rewrite N.add_0_r|]. rewrite IH, bytes_cons, lenN_app, <- app_assoc, N.add_assoc. reflexivity. Qed.
Lemma frames_none n its : (forall b, ~ In (Blk b) its) -> forall o, frames_at n o its = [].
Proof. induction its as [|i its IH]; intros H o; [reflexivity|]. cbn [frames_at]. rewrite IH by (intros b X; apply (H b); now right). destruct i as [| |b]; try reflexivity. destruct (H b). now left. Qed.
Lemma placed_in l : forall p o x, In (o, x) (placed p l) -> p <= o /\ In x l.
Proof. induction l as [|y l IH]; intros p o x; cbn [placed]; [intros []|]. intros [E|H]; [injection E as <- <-; split; [lia|now left]|]. apply IH in H as (H1 & H2). split; [lia|now right]. Qed.
Lemma frames_place n its : Forall syn its -> forall p o x, In (o, x) (frames_at n p its) -> p + 2 <= o.
Proof.
  induction 1 as [|i its H _ IH]; intros p o x; cbn [frames_at]; [intros []|]. rewrite in_app_iff. intros [I|I]; [|apply IH in I; lia]. destruct i as [| |b]; [destruct I|destruct I|]. destruct (k_no b =? n); [|destruct I]. apply placed_in in I as (I & _). pose proof (header_len (k_id b) (k_w b) (blk_size b)) as Hl. cbn [syn] in H. rewrite lenN_app in I.
  assert (2 <= lenN (header (k_id b) (k_w b) (blk_size b))); [|lia]. apply Hl; [apply (syn_id (Blk b) H)|]. apply H.
Qed.
Lemma convs_app s m a b : convs s m (a ++ b) = convs s m a ++ convs s m b. Proof. apply map_app. Qed.
Lemma convs_same s l : convs s s l = l.
Proof. unfold convs, conv. rewrite <- (map_id l) at 2. apply map_ext. intros (o, x). cbn [fst snd]. now rewrite dropN_app_exact. Qed.
Lemma comparable_is s m l : forall l', Forall2 (same_frame m s) l l' -> l' = convs s m l /\ Forall (fun f => exists y, m ++ snd f = s ++ y) l.
Proof.
  intros l' H. induction H as [|x y l l' (E1 & E2) _ (IH1 & IH2)]; [split; [reflexivity|constructor]|]. split; [|constructor; [now exists (snd y)|exact IH2]]. cbn [convs map]. fold (convs s m l). rewrite <- IH1. f_equal. destruct y as (o, y). cbn [fst snd] in *. unfold conv. rewrite E1, E2. now rewrite dropN_app_exact.
Qed.

(** ** The tracks while searching *)
Definition quiet (t : mtrack) : Prop := td_length (m_td t) = 0 /\ td_signature (m_td t) = [] /\ m_match t = 0%Z /\ m_file t = None.
Definition located (its : list item) (at_ : N -> N) (ts : mtracks) : Prop :=
  NoDup (map fst ts) /\
  (forall n, data_of n its <> [] -> exists t, get N.eqb n ts = Ok t /\ m_offset t = at_ n /\ m_file t = None /\ m_strip t = header_of n its /\ td_length (m_td t) = lenN (data_of n its)) /\
  (forall n t, get N.eqb n ts = Ok t -> data_of n its = [] -> td_length (m_td t) = 0 /\ td_signature (m_td t) = [] /\ m_file t = None).
Lemma fold_keeps l : forall t, m_file (fold_left fstep l t) = m_file t /\ m_strip (fold_left fstep l t) = m_strip t.
Proof.
  induction l as [|f l IH]; intros t; [now split|]. cbn [fold_left]. destruct (IH (fstep t f)) as (-> & ->). unfold fstep. cbv zeta. destruct (_ && _); [destruct (starts_with _ _ _)|]; cbn [set_match m_check]; repeat match goal with |- context [match ?c with [] => _ | _ :: _ => _ end] => destruct c end; try (destruct (starts_with _ _ _)); split; reflexivity.
Qed.
Section Search.
Variables (its all : list item) (hm : N -> bytes) (at_ : N -> N) (p0 : N).
Definition fl (n : N) (X : list item) : list (N * bytes) := convs (header_of n its) (hm n) (frames_at n p0 X).
Definition ftrack (X : list item) (n : N) (t : mtrack) : Prop :=
  exists td a x b, fl n all = a ++ (at_ n, x) :: b /\ x <> [] /\ starts (data_of n its) (x ++ joined b) /\
  (forall a1 y a2, a = a1 ++ y :: a2 -> snd y <> [] -> ~ starts (takeN (lenN (takeN 256 (data_of n its))) (snd y ++ joined a2 ++ x)) (takeN 256 (data_of n its))) /\
  is_sig (td_signature td) (data_of n its) /\ td_length td = lenN (data_of n its) /\ m_file t = None /\ m_strip t = header_of n its /\ tinv td (at_ n) x a b (fl n X) t.
Definition fgood (X : list item) (ts : mtracks) : Prop :=
  NoDup (map fst ts) /\ (forall n, data_of n its <> [] -> exists t, get N.eqb n ts = Ok t /\ ftrack X n t) /\ (forall n t, get N.eqb n ts = Ok t -> data_of n its = [] -> quiet t).
Definition fmain (m : mains) : Prop := forall b, In (Blk b) all -> get N.eqb (k_no b) (mm_strip m) = Ok (hm (k_no b)).
Hypothesis Al : forall n, data_of n its <> [] -> hm n = header_of n its \/ hm n = [].
Hypothesis Fr : forall n, data_of n its <> [] -> Forall (fun f => exists y, hm n ++ snd f = header_of n its ++ y) (frames_at n p0 all).
Definition late (i : item) : Prop := match i with Leaf id _ _ => existsb (beqb id) in_tracks = false /\ beqb id TRACKCODEC = false | _ => True end.
Lemma placed_fst l : forall o, map snd (placed o l) = l. Proof. induction l as [|x l IH]; intros o; [reflexivity|]. cbn [placed map snd]. now rewrite IH. Qed.
Lemma fgood_same X i ts : (forall n, data_of n its <> [] -> frames_at n (p0 + lenN (bytes_of X)) [i] = []) -> fgood X ts -> fgood (X ++ [i]) ts.
Proof.
  intros E (Nd & G1 & G2). split; [exact Nd|]. split; [|exact G2]. intros n Hn. destruct (G1 n Hn) as (t & Gt & Ft). exists t. split; [exact Gt|]. unfold ftrack, fl in *. rewrite frames_app, E by exact Hn. rewrite app_nil_r. exact Ft.
Qed.
Lemma search_step cut X i Y ts m : all = X ++ i :: Y -> late i -> fgood X ts -> fmain m -> exists ts' m' dn,
  find' cut (mkF ts m false) (p0 + lenN (bytes_of X)) i = Ok (mkF ts' m' dn, true) /\ fgood (X ++ [i]) ts' /\ fmain m' /\ (dn = true -> all_found ts' = true).
Proof using Al Fr.
  intros Ea La G Fm. destruct i as [id w n|id w d|b].
  - exists ts, m, false. split; [reflexivity|]. split; [apply fgood_same; [reflexivity|exact G]|]. split; [exact Fm|discriminate].
  - exists ts, m, false. cbn [late] in La. destruct La as (L1 & L2). cbn [find']. rewrite L1, L2. split; [reflexivity|]. split; [apply fgood_same; [reflexivity|exact G]|]. split; [exact Fm|discriminate].
  - set (k := k_no b). cbn [find' f_tracks f_main mm_strip f_done]. fold k. set (ts1 := with_key N.eqb k (new_mtrack k) ts). set (m1 := mkM (with_key N.eqb k [] (mm_strip m)) (mm_cur m) (mm_three m)).
    assert (Ib : In (Blk b) all) by (rewrite Ea; apply in_elt).
    assert (Fm1 : fmain m1).
    { intros b' H. cbn [m1 mm_strip]. rewrite (get_with_key N.eqb N.eqb_eq), (Fm b' H). reflexivity. }
    assert (G' : fgood X ts1).
    { destruct G as (Nd & G1 & G2). split; [now apply (with_key_nodup N.eqb N.eqb_eq)|]. split.
      - intros n Hn. destruct (G1 n Hn) as (t & Gt & Ft). exists t. split; [unfold ts1; rewrite (get_with_key N.eqb N.eqb_eq), Gt; reflexivity|exact Ft].
      - intros n t. unfold ts1. rewrite (get_with_key N.eqb N.eqb_eq). destruct (get N.eqb n ts) as [t0|e] eqn:Gn; [intros H; apply ok_inj in H; subst t0; now apply G2|]. destruct (N.eqb_spec k n); [|discriminate]. intros H _. apply ok_inj in H. subst t. repeat split. }
    assert (Gk : exists t, get N.eqb k ts1 = Ok t).
    { unfold ts1. rewrite (get_with_key N.eqb N.eqb_eq), N.eqb_refl. destruct (get N.eqb k ts) as [t|e]; [now exists t|now exists (new_mtrack k)]. }
    destruct Gk as (t & Gk). rewrite Gk. cbn [bind]. pose proof (Fm1 b Ib) as Gm. fold k in Gm. cbn [m1 mm_strip] in Gm. cbn [mm_strip]. rewrite Gm. cbn [bind].
    assert (D : data_of k its = [] \/ data_of k its <> []) by (destruct (data_of k its); [now left|right; discriminate]).
    destruct D as [D|D].
    + destruct (proj2 (proj2 G') k t Gk D) as (Q1 & Q2 & Q3 & Q4). assert (Se : searching t = false) by (unfold searching; rewrite Q2; reflexivity). assert (Co : counting t = false) by (unfold counting; rewrite Q1, Q3; now rewrite andb_false_r). rewrite Se, Co.
      exists ts1, m1, false. split; [reflexivity|]. split; [|split; [exact Fm1|discriminate]]. apply fgood_same; [|exact G']. intros n Hn. cbn [frames_at]. fold k. destruct (N.eqb_spec k n) as [E|_]; [subst n; contradiction|reflexivity].
    + destruct (proj1 (proj2 G') k D) as (t' & Gt & td & a & x & bb & El & Xn & St & Ban & Sg & Ln & Fi & Sp & Ti). assert (t' = t) by congruence. subst t'. clear Gt.
      assert (Split : forall n, fl n all = fl n X ++ convs (header_of n its) (hm n) (frames_at n (p0 + lenN (bytes_of X)) [Blk b]) ++ convs (header_of n its) (hm n) (frames_at n (p0 + lenN (bytes_of (X ++ [Blk b]))) Y)).
      { intros n. unfold fl. replace all with ((X ++ [Blk b]) ++ Y) by (rewrite Ea, <- app_assoc; reflexivity). rewrite !frames_app, !convs_app, <- app_assoc. reflexivity. }
      assert (Fk : fl k (X ++ [Blk b]) = fl k X ++ convs (header_of k its) (hm k) (frames_at k (p0 + lenN (bytes_of X)) [Blk b])) by (unfold fl; rewrite frames_app, convs_app; reflexivity).
      assert (Put : forall t', m_file t' = m_file t -> m_strip t' = m_strip t -> tinv td (at_ k) x a bb (fl k (X ++ [Blk b])) t' -> fgood (X ++ [Blk b]) (put N.eqb k t' ts1)).
      { intros t' M1 M2 M3. destruct G' as (Nd & G1 & G2). split; [now apply (put_nodup N.eqb N.eqb_eq)|]. split.
        - intros n Hn. destruct (N.eq_dec n k) as [->|Nk].
          + exists t'. split; [apply (get_put_same N.eqb N.eqb_eq)|]. exists td, a, x, bb. rewrite M1, M2. auto 10.
          + destruct (G1 n Hn) as (tn & Gn & Fn). exists tn. split; [rewrite (get_put_other N.eqb N.eqb_eq) by exact Nk; exact Gn|]. unfold ftrack, fl in *. rewrite frames_app. cbn [frames_at]. fold k. destruct (N.eqb_spec k n) as [E|_]; [now destruct Nk|]. cbn [app]. rewrite app_nil_r. exact Fn.
        - intros n tn. destruct (N.eq_dec n k) as [->|Nk]; [intros _ X0; now destruct D|]. rewrite (get_put_other N.eqb N.eqb_eq) by exact Nk. apply G2. }
      assert (El' : a ++ (at_ k, x) :: bb = fl k X ++ convs (header_of k its) (hm k) (frames_at k (p0 + lenN (bytes_of X)) [Blk b]) ++ convs (header_of k its) (hm k) (frames_at k (p0 + lenN (bytes_of (X ++ [Blk b]))) Y)) by (rewrite <- El; apply Split).
      destruct (searching t) eqn:Se.
      * assert (Fs : find_frames (ek (Blk b) (p0 + lenN (bytes_of X))) (concat (k_frames b)) (if beqb (m_strip t) (hm k) then [] else hm k) (if beqb (m_strip t) (hm k) then [] else m_strip t) (map Z.of_N (map lenN (k_frames b))) 0 t =
          fold_left fstep (convs (header_of k its) (hm k) (frames_at k (p0 + lenN (bytes_of X)) [Blk b])) t).
        { cbn [frames_at]. fold k. rewrite N.eqb_refl, app_nil_r, <- blk_data. rewrite Sp. assert (Ff : Forall (fun f => exists y, hm k ++ f = header_of k its ++ y) (k_frames b)).
          { specialize (Fr k D). rewrite Ea in Fr. rewrite frames_app in Fr. apply Forall_app in Fr as (_ & F2). cbn [frames_at] in F2. fold k in F2. rewrite N.eqb_refl in F2. apply Forall_app in F2 as (F2 & _). rewrite <- (placed_fst (k_frames b) (p0 + lenN (bytes_of X) + lenN (header (k_id b) (k_w b) (blk_size b) ++ blk_head b))). rewrite Forall_map. exact F2. }
          destruct (beqb (header_of k its) (hm k)) eqn:Eq.
          - apply beqb_eq in Eq. rewrite <- Eq, convs_same. pose proof (frames_are (ek (Blk b) (p0 + lenN (bytes_of X))) [] (k_frames b) [] t) as R. rewrite convs_same in R. cbn [lenN app] in R. rewrite N.add_0_r in R. apply R. rewrite Forall_forall. intros f _. now exists f.
          - destruct (Al k D) as [E|E]; [rewrite E, beqb_refl in Eq; discriminate|]. rewrite E in *. pose proof (frames_are (ek (Blk b) (p0 + lenN (bytes_of X))) (header_of k its) (k_frames b) [] t) as R. cbn [lenN app] in R. rewrite N.add_0_r in R. apply R. eapply Forall_impl; [|exact Ff]. intros f (y & Ey). now exists y. }
        exists (put N.eqb k (fold_left fstep (convs (header_of k its) (hm k) (frames_at k (p0 + lenN (bytes_of X)) [Blk b])) t) ts1), m1, false. split; [rewrite <- Fs; reflexivity|]. split; [|split; [exact Fm1|discriminate]]. destruct (fold_keeps (convs (header_of k its) (hm k) (frames_at k (p0 + lenN (bytes_of X)) [Blk b])) t) as (K1 & K2). apply Put; [exact K1|exact K2|]. rewrite Fk. now apply (tinv_steps td (data_of k its) (at_ k) x a bb Sg Ln D Xn St Ban _ _ _ t Ti El').
      * destruct (counting t).
        -- eexists _, m1, _. split; [reflexivity|]. split; [|split; [exact Fm1|now intros ->]]. apply Put; [reflexivity|reflexivity|]. rewrite Fk. apply (tinv_count td (data_of k its) (at_ k) x a bb Sg Ln D Xn St Ban _ _ _ t _ Ti Se El').
        -- exists ts1, m1, false. split; [reflexivity|]. split; [|split; [exact Fm1|discriminate]]. assert (Pu : fgood (X ++ [Blk b]) (put N.eqb k t ts1)).
           { apply Put; [reflexivity|reflexivity|]. rewrite Fk. apply (tinv_count td (data_of k its) (at_ k) x a bb Sg Ln D Xn St Ban _ _ _ t 0%Z Ti Se El'). }
           destruct G' as (Nd & _ & G2). destruct Pu as (_ & P1 & _). split; [exact Nd|]. split; [|exact G2]. intros n Hn. destruct (P1 n Hn) as (tn & Gn & Fn). exists tn. split; [|exact Fn]. destruct (N.eq_dec n k) as [->|Nk]; [rewrite (get_put_same N.eqb N.eqb_eq) in Gn; congruence|now rewrite (get_put_other N.eqb N.eqb_eq) in Gn by exact Nk].
Qed.
Lemma quiet_is t : quiet t -> td_length (m_td t) = 0 /\ td_signature (m_td t) = [] /\ m_file t = None. Proof. intros (A & B & _ & C). now repeat split. Qed.
Lemma found_located X ts : fgood X ts -> all_found ts = true -> located its at_ ts.
Proof.
  intros (Nd & G1 & G2) A. split; [exact Nd|]. split; [|intros n t Gn D; now apply quiet_is, (G2 n t)]. intros n Hn. destruct (G1 n Hn) as (t & Gt & td & a & x & b & El & Xn & St & Ban & Sg & Ln & Fi & Sp & Ti). exists t. split; [exact Gt|]. unfold all_found in A. rewrite forallb_forall in A. specialize (A _ (get_in N.eqb N.eqb_eq n t ts Gt)). cbn [snd] in A. apply negb_true_iff in A.
  split; [now apply (tinv_found td (data_of n its) (at_ n) x a b Sg Ln Hn Xn St Ban (fl n X) t Ti)|]. split; [exact Fi|]. split; [exact Sp|]. destruct Ti as (-> & _). exact Ln.
Qed.
Lemma end_located ts : fgood all ts -> located its at_ ts.
Proof.
  intros (Nd & G1 & G2). split; [exact Nd|]. split; [|intros n t Gn D; now apply quiet_is, (G2 n t)]. intros n Hn. destruct (G1 n Hn) as (t & Gt & td & a & x & b & El & Xn & St & Ban & Sg & Ln & Fi & Sp & Ti). exists t. split; [exact Gt|]. split; [rewrite El in Ti; eapply tinv_end; eassumption|]. split; [exact Fi|]. split; [exact Sp|]. destruct Ti as (-> & _). exact Ln.
Qed.
Lemma search_run cut Y : forall X ts m, all = X ++ Y -> Forall late Y -> fgood X ts -> fmain m -> exists s, irun false f_done (find' cut) Y (p0 + lenN (bytes_of X)) (mkF ts m false) = Ok s /\ located its at_ (f_tracks s).
Proof using Al Fr.
  induction Y as [|i Y IH]; intros X ts m Ea La G Fm; cbn [irun].
  - exists (mkF ts m false). split; [reflexivity|]. rewrite app_nil_r in Ea. apply end_located. now rewrite Ea.
  - inversion La as [|? ? Li La']; subst. change (f_done (mkF ts m false)) with false. cbv iota. destruct (search_step cut X i Y ts m Ea Li G Fm) as (ts' & m' & dn & E & G' & Fm' & Dn). rewrite E. cbn [bind fst snd]. rewrite enc_false.
    replace (p0 + lenN (bytes_of X) + lenN (item_bytes i)) with (p0 + lenN (bytes_of (X ++ [i]))) by (rewrite bytes_snoc, lenN_app; lia). destruct dn.
    + exists (mkF ts' m' true). split; [destruct Y; reflexivity|]. exact (found_located _ _ G' (Dn eq_refl)).
    + apply IH; [rewrite Ea, <- app_assoc; reflexivity|exact La'|exact G'|exact Fm'].
Qed.
End Search.

(** ** What is told about the tracks *)
Definition talks (i : item) : bool := match i with Open id _ _ => beqb id compression | Leaf id _ _ => existsb (beqb id) [track_number; codec; algorithm; settings] | Blk _ => false end.
Lemma talks_about i : about_track i -> talks i = true.
Proof. destruct i as [id w n|id w d|b]; cbn [about_track talks]; [intros ->; apply beqb_refl| |intros []]. intros H. apply existsb_exists. exists id. split; [now right|apply beqb_refl]. Qed.
Lemma removed_talks n its : forall cur three now, removed n cur three now (filter talks its) = removed n cur three now its.
Proof.
  induction its as [|i its IH]; intros cur three now; [reflexivity|]. cbn [filter]. destruct (talks i) eqn:T.
  - destruct i as [id w k|id w d|b]; cbn [removed]; try apply IH. destruct (beqb id track_number); [apply IH|]. destruct (beqb id algorithm); [apply IH|]. destruct (beqb id settings); apply IH.
  - rewrite IH. destruct i as [id w k|id w d|b]; cbn [removed]; try reflexivity. cbn [talks existsb] in T. apply orb_false_iff in T as (T1 & T). apply orb_false_iff in T as (_ & T). apply orb_false_iff in T as (T2 & T). apply orb_false_iff in T as (T3 & _). now rewrite T1, T2, T3.
Qed.
Lemma listed_talks n its : listed n (filter talks its) <-> listed n its.
Proof. split; intros (w & d & H & E); exists w, d; (split; [|exact E]); [apply filter_In in H; apply H|]. apply filter_In. split; [exact H|reflexivity]. Qed.
Lemma filter_split {A} (g : A -> bool) l : forall x i y, filter g l = x ++ i :: y -> exists x' y', l = x' ++ i :: y' /\ filter g x' = x.
Proof.
  induction l as [|a l IH]; intros x i y E; [destruct x; discriminate E|]. cbn [filter] in E. destruct (g a) eqn:G.
  - destruct x as [|b x]; cbn [app] in E; [injection E as -> E; exists [], l; now split|]. injection E as -> E. destruct (IH x i y E) as (x' & y' & -> & <-). exists (b :: x'), y'. split; [reflexivity|]. cbn [filter]. now rewrite G.
  - destruct (IH x i y E) as (x' & y' & -> & <-). exists (a :: x'), y'. split; [reflexivity|]. cbn [filter]. now rewrite G.
Qed.
Lemma numbered_talks its : numbered (filter talks its) <-> numbered its.
Proof.
  split; intros H x i y E A.
  - destruct (H (filter talks x) i (filter talks y)) as (n & Hn); [rewrite E, filter_app; cbn [filter]; now rewrite (talks_about i A)|exact A|]. exists n. now apply listed_talks.
  - apply filter_split in E as (x' & y' & -> & <-). destruct (H x' i y' eq_refl A) as (n & Hn). exists n. now apply listed_talks.
Qed.
Lemma dumb its : Forall (fun i => talks i = false) its -> filter talks its = [].
Proof. induction 1 as [|i its H _ IH]; [reflexivity|]. cbn [filter]. now rewrite H. Qed.
Lemma attached_dumb its : Forall (group_ok attachments) its -> Forall (fun i => talks i = false) its.
Proof.
  intros F. eapply Forall_impl; [|exact F]. intros i [(X & _) | [(_ & H) | (X & _)]]; [discriminate X| |discriminate X]. destruct i as [id w n|id w d|b]; cbn [item_ok talks] in *.
  - destruct H as ([<-|[]] & _). reflexivity.
  - destruct H as (_ & _ & P & _). now apply (kinds_plain [file_name; file_contents]).
  - reflexivity.
Qed.
Lemma looks_talk ps : Forall part_ok ps -> forall pos, filter talks (looks (in_groups [tracks; cluster]) pos ps) = filter talks (all_items ps).
Proof.
  induction 1 as [|p ps H _ IH]; intros pos; [reflexivity|]. cbn [looks]. rewrite all_cons, !filter_app, IH. f_equal. destruct p as [i|id w its]; [reflexivity|]. cbn [in_groups look]. destruct (existsb (beqb id) [tracks; cluster]) eqn:E; [reflexivity|]. cbn [part_ok] in H. destruct H as (I & _ & G & _). destruct I as [<-|[<-|[<-|[]]]]; try discriminate E. cbn [items_of filter]. rewrite (dumb its (attached_dumb its G)). reflexivity.
Qed.

(** ** Clusters are behind the rest *)
Lemma late_parts ps : Forall part_ok ps -> Forall (fun p => ~ group_in [tracks; attachments] p) ps -> Forall late (all_items ps) /\ (forall n, ~ listed n (all_items ps)) /\ Forall (fun i => speaks i = false) (all_items ps) /\ (forall cur, attached_files cur (all_items ps) = []).
Proof.
  intros F Ng. assert (K : Forall (fun i => match i with Leaf id _ _ => plain id | _ => True end) (all_items ps)).
  { apply parts_forall. rewrite Forall_forall in *. intros p Hp. specialize (F p Hp). specialize (Ng p Hp). destruct p as [i|id w its]; cbn [items_of part_ok] in *.
    - constructor; [|constructor]. destruct i; try exact I. destruct F as (_ & _ & [P|[]] & _). exact P.
    - destruct F as (Id & _ & G & _). constructor; [exact I|]. rewrite Forall_forall in *. intros i Hi. specialize (G i Hi). destruct i as [|id' w' d|]; try exact I. destruct G as [(-> & G) | [(-> & G) | (-> & G)]].
      + exfalso. apply Ng. exists tracks, w, its. split; [reflexivity|now left].
      + exfalso. apply Ng. exists attachments, w, its. split; [reflexivity|right; now left].
      + destruct G as (_ & _ & [P|[]] & _). exact P. }
  split; [|split; [|split]].
  - eapply Forall_impl; [|exact K]. intros [id w n|id w d|b] H; try exact I. cbn [late]. split; [now apply plain_in|now apply plain_is].
  - intros n (w & d & H & _). rewrite Forall_forall in K. specialize (K _ H). apply K. do 7 right. now left.
  - eapply Forall_impl; [|exact K]. intros [id w n|id w d|b] H; try reflexivity. cbn [speaks]. now apply plain_is.
  - induction K as [|i its H _ IH]; intros cur; [reflexivity|]. destruct i as [id w n|id w d|b]; cbn [attached_files]; try apply IH. rewrite !(plain_is _ id H) by reflexivity. apply IH.
Qed.
Lemma movie_split f ms : movie_ok f ms -> exists p1 p2, ms = p1 ++ p2 /\ Forall (fun p => ~ group_in [cluster] p) p1 /\ Forall (fun p => ~ group_in [tracks; attachments] p) p2 /\ (forall b, ~ In (Blk b) (all_items p1)).
Proof.
  intros (_ & F & Bf & _). assert (S : exists p1 p2, ms = p1 ++ p2 /\ Forall (fun p => ~ group_in [cluster] p) p1 /\ Forall (fun p => ~ group_in [tracks; attachments] p) p2).
  { destruct (first_group [cluster] ms) as [(b1 & p & b2 & E & G & F1)|F1]; [|exists ms, []; rewrite app_nil_r; auto]. exists b1, (p :: b2). split; [exact E|]. split; [exact F1|]. constructor.
    - destruct G as (id & w & its & -> & [X|[]]). intros (id' & w' & its' & Y & Z). injection Y as Y _ _. rewrite <- X in Y. rewrite <- Y in Z. destruct Z as [Z|[Z|[]]]; discriminate Z.
    - rewrite Forall_forall. intros q Hq. apply in_split in Hq as (u & v & ->). apply (Bf b1 p u q v E G). }
  destruct S as (p1 & p2 & E & F1 & F2). exists p1, p2. split; [exact E|]. split; [exact F1|]. split; [exact F2|]. rewrite E in F. apply Forall_app in F as (F & _). intros b Hb. unfold all_items in Hb. rewrite in_concat in Hb. destruct Hb as (l & Hl & Hb). rewrite in_map_iff in Hl. destruct Hl as (p & <- & Hp). rewrite Forall_forall in F, F1. specialize (F p Hp). specialize (F1 p Hp).
  destruct p as [i|id w its]; cbn [items_of part_ok] in *.
  - destruct Hb as [->|[]]. cbn [item_ok] in F. apply F.
  - destruct Hb as [X|Hb]; [discriminate X|]. destruct F as (_ & _ & G & _). rewrite Forall_forall in G. destruct (G _ Hb) as [(_ & H) | [(_ & H) | (-> & _)]]; [apply H|apply H|]. apply F1. exists cluster, w, its. split; [reflexivity|now left].
Qed.
Lemma looks_clusters ps : Forall part_ok ps -> Forall (fun p => ~ group_in [tracks; attachments] p) ps -> forall pos, looks (in_groups [tracks; cluster]) pos ps = all_items ps.
Proof.
  induction 1 as [|p ps H _ IH]; intros Ng pos; [reflexivity|]. inversion Ng as [|? ? N1 N2]; subst. cbn [looks]. rewrite IH by exact N2. rewrite all_cons. f_equal. destruct p as [i|id w its]; [reflexivity|]. cbn [in_groups look]. destruct H as ([<-|[<-|[<-|[]]]] & _); try reflexivity. exfalso. apply N1. exists attachments, w, its. split; [reflexivity|right; now left].
Qed.

(** ** The search *)
Lemma find_head cut ts L : (forall b, ~ In (Blk b) L) -> forall m m' pos, msteps m L = Ok m' -> irun false f_done (find' cut) L pos (mkF ts m false) = Ok (mkF ts m' false).
Proof.
  induction L as [|i L IH]; intros Nb m m' pos E; cbn [msteps irun] in *; [apply ok_inj in E; now subst|]. change (f_done (mkF ts m false)) with false. cbv iota. destruct (mstep m i) as [m1|e] eqn:E0; [|discriminate E]. cbn [bind] in E. assert (St : find' cut (mkF ts m false) pos i = Ok (mkF ts m1 false, true)).
  { destruct i as [id w n|id w d|b]; cbn [mstep find' f_main f_tracks f_done] in *; [apply ok_inj in E0; now subst| |destruct (Nb b); now left]. destruct (existsb (beqb id) in_tracks); [rewrite E0; cbn [bind]; now destruct (beqb id TRACKNUMBER)|]. destruct (beqb id TRACKCODEC); [destruct (get N.eqb (mm_cur m) (mm_strip m)); [|discriminate E0]; cbn [bind] in *; apply ok_inj in E0; now subst|apply ok_inj in E0; now subst]. }
  rewrite St. cbn [bind fst snd]. apply IH; [intros b X; apply (Nb b); now right|exact E].
Qed.
Lemma mains_header L all m' : Forall numbers L -> numbered L -> (forall n, removed n None false [] L = header_of n all) -> (forall n, listed n all -> listed n L) -> msteps no_mains L = Ok m' -> forall n, listed n all -> get N.eqb n (mm_strip m') = Ok (header_of n all).
Proof.
  intros Fn Nu Hr Hl E n Hn. destruct (msteps_run L Fn no_mains (or_intror Nu)) as (m2 & E2 & A). assert (m2 = m') by congruence. subst m2. destruct (A n) as (_ & A2). rewrite A2; [|discriminate|now apply Hl]. cbn [no_mains mm_cur mm_three]. now rewrite removed_first, Hr.
Qed.
Lemma find_is cut offset its at_ f ms ts : movie_ok f ms -> in_movie first_held its (all_items ms) at_ -> alike its (all_items ms) -> loaded offset its ts -> exists ts', mkv_find cut ts f = Ok ts' /\ located its at_ ts'.
Proof.
  intros M (Im & _) Al (Nd & Lo). destruct (movie_split f ms M) as (p1 & p2 & Ep & N1 & N2 & Nb1). destruct M as ((r & Ef & Lr) & F & _ & Nu & _ & Bl). assert (F12 : Forall part_ok p1 /\ Forall part_ok p2) by (rewrite Ep in F; now apply Forall_app in F). destruct F12 as (F1 & F2). destruct (late_parts p2 F2 N2) as (La & Nl & Si & _).
  set (ins := in_groups [tracks; cluster]). set (L1 := looks ins 0 p1).
  assert (Lk : looks ins 0 ms = L1 ++ all_items p2) by (rewrite Ep, looks_app; unfold L1; f_equal; now apply looks_clusters).
  assert (Ky : Forall (kinds find_opens (attachments :: leaves)) (looks ins 0 ms)).
  { apply looks_kinds; [exact F|now left|intros y Hy; now right|]. intros pos id w l I. unfold ins. cbn [in_groups]. destruct I as [<-|[<-|[<-|[]]]]; cbn [existsb beqb]; vm_compute; tauto. }
  unfold mkv_find. destruct (parts_syn ms F) as (Ps & _).
  rewrite (run_items false false f_done (find_step cut f) (find' cut) f (looks ins 0 ms) r).
  2:{ rewrite encs_false, looks_bytes. exact Ef. } 2:exact Lr. 2:now apply looks_syn. 2:discriminate. 2:now apply find_acts.
  rewrite Lk, irun_split by apply find_goes.
  assert (Fn : Forall numbers L1).
  { rewrite Lk in Ky. apply Forall_app in Ky as (Ky & _). eapply Forall_impl; [|exact Ky]. intros [id w n|id w d|b] H; try exact I. exact (proj2 H). }
  assert (Nu1 : numbered (all_items p1)).
  { intros x i y E A. apply (Nu x i (y ++ all_items p2)); [|exact A]. rewrite Ep, all_app, E, <- app_assoc. reflexivity. }
  assert (NuL : numbered L1) by (apply numbered_talks; unfold L1, ins; rewrite looks_talk by exact F1; now apply numbered_talks).
  destruct (msteps_run L1 Fn no_mains (or_intror NuL)) as (m' & Em & _).
  assert (NbL : forall b, ~ In (Blk b) L1).
  { intros b Hb. unfold L1 in Hb. clear - Hb Nb1. revert Nb1 Hb. generalize 0. induction p1 as [|p p1 IH]; intros pos Nb1 Hb; [destruct Hb|]. cbn [looks] in Hb. rewrite in_app_iff in Hb. destruct Hb as [Hb|Hb].
    - apply (Nb1 b). rewrite all_cons. apply in_or_app. left. destruct p as [i|id w l]; cbn [look items_of] in *; [exact Hb|]. destruct (ins pos (Group id w l)); [exact Hb|]. destruct Hb as [Hb|[]]. discriminate Hb.
    - apply IH in Hb; [exact Hb|]. intros b' X. apply (Nb1 b'). rewrite all_cons. apply in_or_app. now right. }
  rewrite (find_head cut ts L1 NbL no_mains m' 0 Em). cbn [bind]. rewrite encs_false. unfold L1 at 1. rewrite looks_bytes, N.add_0_l.
  assert (Hd : forall n, removed n None false [] L1 = header_of n (all_items ms)).
  { intros n. rewrite Ep, all_app, removed_end by exact Si. unfold header_of. rewrite <- (removed_talks n L1), <- (removed_talks n (all_items p1)). unfold L1, ins. now rewrite looks_talk. }
  assert (Hl : forall n, listed n (all_items ms) -> listed n L1).
  { intros n. rewrite Ep, all_app, listed_app. intros [H|H]; [|now destruct (Nl n)]. apply listed_talks. unfold L1, ins. rewrite looks_talk by exact F1. now apply listed_talks. }
  pose proof (mains_header L1 (all_items ms) m' Fn NuL Hd Hl Em) as Mh.
  assert (Fa : forall n, frames_at n 0 (all_items ms) = frames_at n (lenN (file_of p1)) (all_items p2)).
  { intros n. rewrite Ep, all_app, frames_app, (frames_none n (all_items p1) Nb1). cbn [app]. reflexivity. }
  destruct (search_run its (all_items p2) (fun n => header_of n (all_items ms)) at_ (lenN (file_of p1))) with (cut := cut) (Y := all_items p2) (X := @nil item) (ts := ts) (m := m') as (s & Es & Ls).
  - exact Al.
  - intros n Hn. destruct (Im n Hn) as (l & (Cf & _) & _). apply comparable_is in Cf as (_ & Cf). now rewrite Fa in Cf.
  - reflexivity.
  - exact La.
  - split; [exact Nd|]. split.
    + intros n Hn. specialize (Lo n). destruct (get N.eqb n ts) as [t|e]; [|exfalso; apply Hn, no_data; exact Lo]. exists t. split; [reflexivity|]. destruct Lo as (_ & td & -> & T1 & T2 & T3 & T4). destruct (Im n Hn) as (l & (Cf & _) & a & x & b & El & Xn & St & Ban). apply comparable_is in Cf as (Cl & _). rewrite Fa in Cl.
      exists td, a, x, b. split; [unfold fl; rewrite <- Cl; exact El|]. split; [exact Xn|]. split; [exact St|]. split; [exact Ban|]. split; [exact T4|]. split; [exact T3|]. split; [reflexivity|]. split; [reflexivity|]. split; [reflexivity|]. left. exists a. split; [reflexivity|]. left. now split.
    + intros n t Gt D. specialize (Lo n). rewrite Gt in Lo. destruct Lo as (_ & td & -> & T1 & T2 & T3 & T4). rewrite D in *. split; [exact T3|]. split; [destruct T4 as ((r' & T4) & _); cbn [m_td]; destruct (td_signature td); [reflexivity|discriminate T4]|]. now split.
  - intros b Hb. apply Mh, Bl. rewrite Ep, all_app. apply in_or_app. now right.
  - cbn [bytes_of map concat lenN] in Es. rewrite N.add_0_r in Es. rewrite Es. cbn [bind]. eexists. split; [reflexivity|exact Ls].
Qed.
