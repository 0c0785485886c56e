(** WmvLoad: the form of the SRS of a WMV sample, and loading it. *)
From Verif Require Import Base BaseFacts Crc CrcFacts SrsRec SrsRecSpec SrsRecFacts Srs SrrFacts StrmFacts Avi Wmv StrmSpec Mp3Spec WmvSpec WmvPacket WmvRead WmvSrs.
From Verif Require AviSrs.
Import AviSrs(table, table_keys, table_ext, get_table, set_table, set_track_new, td_of, tk, fd_of).

Definition added (x : bytes) (ys : list bytes) (pad : bytes) : list plain := (SRS_FILE, x) :: map (pair SRS_TRACK) ys ++ (if all_zero pad then [] else [(SRS_PADDING, pad)]).
Lemma ours_is : g_ours = [SRS_FILE; SRS_TRACK; SRS_PADDING]. Proof. vm_compute. reflexivity. Qed.
Lemma kids_cons p l : kids_bytes (p :: l) = plain_bytes p ++ kids_bytes l. Proof. reflexivity. Qed.
Lemma kids_app a b : kids_bytes (a ++ b) = kids_bytes a ++ kids_bytes b. Proof. unfold kids_bytes. now rewrite map_app, concat_app. Qed.
Lemma our_plain g : In g g_ours -> lenN g = 16 /\ g <> g_header /\ g <> g_data /\ g <> g_stream /\ g <> g_file.
Proof.
  rewrite ours_is. intros [<-|[<-|[<-|[]]]]; (split; [vm_compute; reflexivity|]); (split; [intros X; apply (f_equal (fun l => nth_error l 0)) in X; vm_compute in X; discriminate X|]); (split; [intros X; apply (f_equal (fun l => nth_error l 0)) in X; vm_compute in X; discriminate X|]);
    (split; intros X; apply (f_equal (fun l => nth_error l 0)) in X; vm_compute in X; discriminate X).
Qed.
Lemma object_is g d x : In g g_ours -> asf_object g d = Ok x -> x = plain_bytes (g, d) /\ is_plain (g, d).
Proof.
  intros G H. unfold asf_object in H. bindinv H. apply ok_inj in H. subst x. apply pack_inv in E as (L & ->). change (2 ^ (8 * N.of_nat 8)) with (2 ^ 64) in L. rewrite N.add_comm in L |- *. split; [reflexivity|].
  destruct (our_plain g G) as (A & B & C & _). unfold is_plain. cbn [fst snd]. tauto.
Qed.
Lemma srs_objects_is ap fd ts pad s : srs_objects ap fd ts pad = Ok s -> exists x ys, serialize_file ap fd = Ok x /\ Forall2 (fun t y => serialize_track t = Ok y) ts ys /\
  s = kids_bytes (added x ys pad) /\ Forall is_plain (added x ys pad).
Proof.
  intros H. unfold srs_objects in H. bindinv H. bindinv E. bindinv H. bindinv H. apply ok_inj in H. subst s. exists v0. apply object_is in E; [|rewrite ours_is; now left]. destruct E as (-> & Px).
  rename v1 into l. rename v2 into z.
  assert (K : exists ys, Forall2 (fun t y => serialize_track t = Ok y) ts ys /\ concat l = kids_bytes (map (pair SRS_TRACK) ys) /\ Forall is_plain (map (pair SRS_TRACK) ys)).
  { clear -E1. revert l E1. induction ts as [|t ts IH]; intros l E.
    - cbn [mapR] in E. apply ok_inj in E. subst l. exists []. repeat split; constructor.
    - cbn [mapR] in E. bindinv E. bindinv E0. bindinv E. apply ok_inj in E. subst l. destruct (IH _ E2) as (ys & A & B & C). exists (v0 :: ys).
      apply object_is in E0; [|rewrite ours_is; right; now left]. destruct E0 as (-> & S1). split; [now constructor|]. cbn [concat map]. rewrite kids_cons, B. split; [reflexivity|now constructor]. }
  destruct K as (ys & A & B & C). exists ys. split; [assumption|]. split; [exact A|]. unfold added. rewrite kids_cons, kids_app, B.
  assert (D : z = kids_bytes (if all_zero pad then [] else [(SRS_PADDING, pad)]) /\ Forall is_plain (if all_zero pad then [] else [(SRS_PADDING, pad)])).
  { destruct (all_zero pad); [apply ok_inj in E2; subst z; split; [reflexivity|constructor]|]. apply object_is in E2; [|rewrite ours_is; right; right; now left]. destruct E2 as (-> & Pz). split; [unfold kids_bytes; cbn [map concat]; now rewrite app_nil_r|now constructor]. }
  destruct D as (-> & D). split; [reflexivity|]. constructor; [exact Px|]. apply Forall_app. now split.
Qed.
Definition stored (big : bool) (offset : N -> N) (a : asf) (n : N) : track_data := with_stored big (offset n) (td_of n (data_of n (pieces_of a))).
Lemma srs_form ap name big offset a : wmv_ok a -> exists ns, lists (declared (a_before a)) (pieces_of a) ns /\
  wmv_srs ap name big offset (file_of a) = match ns with [] => Err ValueError | _ => do xs <- srs_objects ap (fd_of name (file_of a)) (map (stored big offset a) ns) (pads (a_packets a)); Ok (srs_file a xs) end.
Proof.
  intros (psize & H & Nd & Da & _). destruct (profile_is a psize H name Nd Da) as (ns & L & P). exists ns. split; [exact L|]. unfold wmv_srs. rewrite P. cbn [bind fst snd]. destruct ns as [|n ns]; [reflexivity|].
  change (table (fun k => tk k (data_of k (pieces_of a))) (n :: ns)) with ((n, tk n (data_of n (pieces_of a))) :: table (fun k => tk k (data_of k (pieces_of a))) ns). cbv iota beta.
  rewrite (create_is a psize H).
  change ((n, tk n (data_of n (pieces_of a))) :: table (fun k => tk k (data_of k (pieces_of a))) ns) with (table (fun k => tk k (data_of k (pieces_of a))) (n :: ns)). unfold table. rewrite map_map. reflexivity.
Qed.
(** ** Loading *)
Lemma stored_data a psize (f x r : bytes) : asf_ok a psize -> f = x ++ dh a ++ bares (a_packets a) ++ r ->
  asf_next Stored f (lenN x) = Ok (Some (mkO g_data (lenN (dh a ++ bares (a_packets a))) (50 + lenN (packets_bytes (a_packets a))) (dh a) (lenN x))).
Proof.
  intros H E. unfold dh in E. rewrite (next_dhead Stored f x _ (a_id a) _ (a_two a) _ E) by (apply H || exact (size_lt a psize H)). cbn [is_stored]. fold (dh a). rewrite (dh_count a psize H). cbn [bind]. rewrite (dh_psize a psize H). cbn [bind].
  fold (dh a) in E. assert (Ef : f = (x ++ dh a) ++ bares (a_packets a) ++ r) by (rewrite E; now rewrite <- app_assoc). rewrite (stored_end_is f psize (a_packets a) (proj1 (proj2 (proj2 (proj2 (proj2 (proj2 H)))))) (proj1 (proj2 (proj2 (proj2 (proj2 (proj2 (proj2 H))))))) (x ++ dh a) r _ Ef).
  - cbn [bind]. repeat f_equal. rewrite !lenN_app. lia.
  - assert (X : lenN (a_packets a) <= lenN (bares (a_packets a))).
    { clear. induction (a_packets a) as [|k ks IH]; [cbn; lia|]. rewrite bares_cons, lenN_app, lenN_cons. unfold pk_bare. rewrite lenN_app. pose proof (pk_pos k). lia. }
    rewrite !lenN_length in X. rewrite Ef, !app_length. lia.
Qed.
Lemma not_ours o pos : obj_ok o -> forall g, In g g_ours -> guid_is g (ob o pos) = false.
Proof.
  intros H g G. unfold guid_is. apply beqb_not. destruct o as [p|six kids]; cbn [ob o_guid].
  - intros X. apply (proj2 H). now rewrite X.
  - destruct (our_plain g G) as (_ & N1 & _). congruence.
Qed.
Lemma load_objs (f x r : bytes) os s : f = x ++ objs_bytes os ++ r -> Forall obj_ok os -> reach Stored never (load_step f) f (lenN x, s) (lenN (x ++ objs_bytes os), s).
Proof.
  intros E F. destruct (reach_list Stored never (load_step f) f obj_bytes (fun _ t => t = s) os x s) as (s' & R & ->); [|reflexivity|exact R].
  intros d o t ? Eo ->. exists s. split; [|reflexivity]. assert (Ho : obj_ok o) by (rewrite Forall_forall in F; apply F; rewrite Eo; apply in_elt). assert (Ef : f = (x ++ objs_bytes d) ++ obj_bytes o ++ (objs_bytes t ++ r)) by (rewrite E, Eo, objs_app, objs_cons; now rewrite <- !app_assoc).
  fold (objs_bytes d). rewrite (app_assoc x). pose proof (obj_pos o Ho). pose proof (not_ours o (lenN (x ++ objs_bytes d)) Ho) as No. rewrite ours_is in No.
  apply (reach_one _ _ _ _ _ _ (ob o (lenN (x ++ objs_bytes d)))); [apply (next_obj _ _ _ _ _ Ef Ho)|reflexivity| |rewrite Ef, !lenN_app; lia].
  unfold load_step. rewrite (No SRS_FILE), (No SRS_TRACK), (No SRS_PADDING) by (cbn [In]; tauto). do 2 f_equal. unfold asf_skip. rewrite (lenN_app (x ++ objs_bytes d)).
  destruct o as [p|six kids]; cbn [ob o_start o_size obj_bytes].
  - unfold plain_bytes. rewrite !lenN_app, lenN_le. destruct Ho as ((L & _) & _). rewrite L. change (N.of_nat 8) with 8. lia.
  - rewrite !lenN_app, lenN_le, len_header, (proj1 Ho). change (N.of_nat 8) with 8. lia.
Qed.
Definition loaded (big : bool) (offset : N -> N) (a : asf) (n : N) : track := track_of (stored big offset a n).
Lemma our_step (f x r : bytes) p (s s' : lstate) : f = x ++ plain_bytes p ++ r -> is_plain p -> load_step f s (ob (Obj p) (lenN x)) = Ok (s', lenN (x ++ plain_bytes p)) ->
  reach Stored never (load_step f) f (lenN x, s) (lenN (x ++ plain_bytes p), s').
Proof.
  intros E Ip St. apply (reach_one _ _ _ _ _ _ (ob (Obj p) (lenN x))); [apply (next_plain _ _ _ r); assumption|reflexivity|exact St|].
  rewrite E, !lenN_app. unfold plain_bytes. rewrite !lenN_app, lenN_le. change (N.of_nat 8) with 8. lia.
Qed.
Lemma load_new big offset a ns (f : bytes) : forall (x r : bytes) ys (done : tracks) d pd, f = x ++ kids_bytes (map (pair SRS_TRACK) ys) ++ r -> Forall2 (fun t y => serialize_track t = Ok y) (map (stored big offset a) ns) ys -> Forall is_plain (map (pair SRS_TRACK) ys) -> Forall (fun n => n < 128) ns -> NoDup (map fst done ++ ns) ->
  reach Stored never (load_step f) f (lenN x, mkL (Some d) pd done) (lenN (x ++ kids_bytes (map (pair SRS_TRACK) ys)), mkL (Some d) pd (done ++ table (loaded big offset a) ns)).
Proof.
  induction ns as [|n ns IH]; intros x r ys done d pd E H Ip B Nd; inversion H as [|? y ? ys' Hy H']; subst ys.
  - cbn [map kids_bytes concat table]. rewrite !app_nil_r. apply reach_refl.
  - subst. cbn [map] in *. rewrite kids_cons in *. set (f := x ++ _) in *. rewrite app_assoc. assert (Ef : f = x ++ plain_bytes (SRS_TRACK, y) ++ (kids_bytes (map (pair SRS_TRACK) ys') ++ r)) by (unfold f; now rewrite <- app_assoc).
    eapply reach_trans.
    + apply (our_step f x _ (SRS_TRACK, y) _ (mkL (Some d) pd (done ++ [(n, loaded big offset a n)])) Ef (Forall_inv Ip)). destruct (contents_is f x _ (Obj (SRS_TRACK, y)) Ef) as (c & Ec & _ & Ed); [right; eexists; split; [reflexivity|exact (Forall_inv Ip)]|]. specialize (Ed _ eq_refl). cbn [snd] in Ed. subst c.
      unfold load_step. replace (guid_is SRS_FILE _) with false by (vm_compute; reflexivity). replace (guid_is SRS_TRACK _) with true by (vm_compute; reflexivity). rewrite Ec. cbn [bind fst snd]. pose proof (track_round _ y [] Hy) as R. rewrite app_nil_r in R.
      rewrite R; [|cbn [stored with_stored td_of td_flags td_number]; split; [destruct big; intros X; vm_compute in X; discriminate|intros X; exfalso; assert (n < 2 ^ 16) by (eapply N.lt_trans; [exact (Forall_inv B)|reflexivity]); lia]].
      cbn [bind l_file l_padding l_tracks]. change (td_number (stored big offset a n)) with n. rewrite set_track_new; [reflexivity|]. intros X. apply NoDup_remove_2 in Nd. apply Nd, in_or_app. now left.
    + replace (done ++ table (loaded big offset a) (n :: ns)) with ((done ++ [(n, loaded big offset a n)]) ++ table (loaded big offset a) ns) by (cbn [table map]; now rewrite <- app_assoc).
      apply (IH _ r); [rewrite Ef; now rewrite <- !app_assoc|exact H'|exact (Forall_inv_tail Ip)|exact (Forall_inv_tail B)|]. rewrite map_app, <- app_assoc. exact Nd.
Qed.
Definition padding_of (a : asf) : option bytes := if all_zero (pads (a_packets a)) then None else Some (pads (a_packets a)).
Lemma load_is ap name big offset a srs : wmv_ok a -> wmv_srs ap name big offset (file_of a) = Ok srs ->
  exists ns d x ys, lists (declared (a_before a)) (pieces_of a) ns /\ ns <> [] /\ wmv_load srs = Ok (mkL (Some d) (padding_of a) (table (loaded big offset a) ns)) /\ fd_crc32 d = crc32 (file_of a) /\
  srs = srs_file a (kids_bytes (added x ys (pads (a_packets a)))) /\ Forall is_plain (added x ys (pads (a_packets a))).
Proof.
  intros H E. destruct (srs_form ap name big offset a H) as (ns & L & F). rewrite F in E. exists ns. assert (Hs : ns <> []) by (intros ->; discriminate E). destruct ns as [|n0 ns0]; [contradiction|]. set (ns := n0 :: ns0) in *.
  bindinv E. apply ok_inj in E. rename E0 into Sc. apply srs_objects_is in Sc as (x & ys & X & Y & -> & Ip). destruct (parse_back _ _ _ X) as (d & P & Pc & _). cbn [fd_of fd_crc32] in Pc. rewrite N.mod_small in Pc by apply RecovFacts.crc32_lt.
  exists d, x, ys. split; [exact L|]. split; [exact Hs|]. split; [|split; [exact Pc|split; [now symmetry|exact Ip]]].
  destruct H as (psize & H & _). assert (Lt : Forall (fun n => n < 128) ns) by (apply Forall_forall; intros n Hn; apply (track_lt a psize n H); apply L, Hn).
  unfold srs_file in E. set (b := objs_bytes (a_before a)) in *. set (e := objs_bytes (a_after a)) in *. set (y := bares (a_packets a)) in *. set (pad := pads (a_packets a)) in *. set (f := srs) in *. symmetry in E.
  pose proof (load_objs f [] (dh a ++ y ++ kids_bytes (added x ys pad) ++ e) (a_before a) (mkL None None []) E (proj1 H)) as R1. cbn [app] in R1. fold b in R1. change (lenN (@nil byte)) with 0 in R1.
  pose proof (stored_data a psize f b (kids_bytes (added x ys pad) ++ e) H E) as Nx. fold y in Nx.
  assert (R2 : reach Stored never (load_step f) f (lenN b, mkL None None []) (lenN (b ++ dh a ++ y), mkL None None [])).
  { eapply reach_one; [exact Nx|reflexivity| |rewrite E, !lenN_app, (dh_len a psize H); lia]. unfold load_step, guid_is. cbn [o_guid].
    destruct (our_plain SRS_FILE) as (_ & _ & N1 & _); [rewrite ours_is; now left|]. destruct (our_plain SRS_TRACK) as (_ & _ & N2 & _); [rewrite ours_is; right; now left|]. destruct (our_plain SRS_PADDING) as (_ & _ & N3 & _); [rewrite ours_is; right; right; now left|].
    rewrite !beqb_not by congruence. unfold asf_skip. cbn [o_start o_size]. now rewrite <- lenN_app. }
  unfold added in Ip, E. rewrite kids_cons, kids_app in E. pose proof (Forall_inv Ip) as If. pose proof (Forall_inv_tail Ip) as Ir. apply Forall_app in Ir as (It & Iz). set (kt := kids_bytes (map (pair SRS_TRACK) ys)) in *. set (z := if all_zero pad then [] else [(SRS_PADDING, pad)]) in *.
  assert (E3 : f = (b ++ dh a ++ y) ++ plain_bytes (SRS_FILE, x) ++ (kt ++ kids_bytes z ++ e)) by (rewrite E; now rewrite <- !app_assoc).
  assert (R3 : reach Stored never (load_step f) f (lenN (b ++ dh a ++ y), mkL None None []) (lenN ((b ++ dh a ++ y) ++ plain_bytes (SRS_FILE, x)), mkL (Some d) None [])).
  { apply (our_step f _ _ (SRS_FILE, x) _ _ E3 If). destruct (contents_is f _ _ (Obj (SRS_FILE, x)) E3) as (c & Ec & _ & Ed); [right; eexists; split; [reflexivity|exact If]|]. specialize (Ed _ eq_refl). cbn [snd] in Ed. subst c.
    unfold load_step. replace (guid_is SRS_FILE _) with true by (vm_compute; reflexivity). rewrite Ec. cbn [bind fst snd]. rewrite P. reflexivity. }
  set (x1 := (b ++ dh a ++ y) ++ plain_bytes (SRS_FILE, x)) in *. assert (E4 : f = x1 ++ kt ++ (kids_bytes z ++ e)) by (unfold x1; rewrite E3; now rewrite <- !app_assoc).
  pose proof (load_new big offset a ns f x1 _ ys [] d None E4 Y It Lt (proj1 L)) as R4. fold kt in R4. cbn [app] in R4.
  assert (R5 : reach Stored never (load_step f) f (lenN (x1 ++ kt), mkL (Some d) None (table (loaded big offset a) ns)) (lenN ((x1 ++ kt) ++ kids_bytes z), mkL (Some d) (padding_of a) (table (loaded big offset a) ns))).
  { unfold padding_of. fold pad. unfold z. destruct (all_zero pad) eqn:Az.
    - unfold kids_bytes. cbn [map concat]. rewrite app_nil_r. apply reach_refl.
    - unfold kids_bytes. cbn [map concat]. rewrite (app_nil_r (plain_bytes (SRS_PADDING, pad))). unfold z in Iz. pose proof (Forall_inv Iz) as Ip1. assert (E5 : f = (x1 ++ kt) ++ plain_bytes (SRS_PADDING, pad) ++ e) by (rewrite E4; unfold z, kids_bytes; cbn [map concat]; rewrite app_nil_r; now rewrite <- !app_assoc).
      apply (our_step f _ _ (SRS_PADDING, pad) _ _ E5 Ip1). destruct (contents_is f _ _ (Obj (SRS_PADDING, pad)) E5) as (c & Ec & _ & Ed); [right; eexists; split; [reflexivity|exact Ip1]|]. specialize (Ed _ eq_refl). cbn [snd] in Ed. subst c.
      unfold load_step. replace (guid_is SRS_FILE _) with false by (vm_compute; reflexivity). replace (guid_is SRS_TRACK _) with false by (vm_compute; reflexivity). replace (guid_is SRS_PADDING _) with true by (vm_compute; reflexivity). rewrite Ec. reflexivity. }
  assert (E6 : f = ((x1 ++ kt) ++ kids_bytes z) ++ objs_bytes (a_after a) ++ []) by (rewrite E4, app_nil_r; fold e; now rewrite <- !app_assoc).
  pose proof (load_objs f _ [] (a_after a) (mkL (Some d) (padding_of a) (table (loaded big offset a) ns)) E6 (proj1 (proj2 H))) as R6. rewrite app_nil_r in E6. rewrite <- E6 in R6.
  unfold wmv_load. apply (reach_end Stored never (load_step f) f _ (lenN f)); [|apply (next_end Stored f f []); [now rewrite app_nil_r|reflexivity]].
  eapply reach_trans; [exact R1|]. eapply reach_trans; [exact R2|]. eapply reach_trans; [exact R3|]. eapply reach_trans; [exact R4|]. eapply reach_trans; [exact R5|exact R6].
Qed.
