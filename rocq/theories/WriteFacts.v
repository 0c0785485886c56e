(** What is written is read back; final forms of the statements about writing and editing. *)
From Coq Require Import Lia ZifyBool ZifyNat ZifyN.
From Verif Require Import Base BaseFacts Path PathSpec PathFacts Crc Rar RarSpec ReadSpec RarFacts NameFacts ReadFacts
  ReadAllFacts Srr SrrSpec SrrFacts EditFacts.

(** the constructors of the five SRR blocks *)
Definition write_part (p : part) : result bytes :=
  match p with
  | PApp n => srr_header_bytes n
  | PStored n d => store_bytes (n, d)
  | PRar n => rarfile_bytes n
  | POso s h n => oso_bytes s h n
  | PPad d => padding_bytes d
  end.

Lemma unhex1_spec c d : unhex1 c = Some d -> d < 16 /\ lower1 c = nth (N.to_nat d) HEX 0.
Proof.
  unfold unhex1. intros H.
  assert (D : (48 <= c <= 57 /\ d = c - 48) \/ (97 <= c <= 102 /\ d = c - 87) \/ (65 <= c <= 70 /\ d = c - 55)).
  { destruct ((48 <=? c) && (c <=? 57)) eqn:E1; [injection H as <-; lia|].
    destruct ((97 <=? c) && (c <=? 102)) eqn:E2; [injection H as <-; lia|].
    destruct ((65 <=? c) && (c <=? 70)) eqn:E3; [injection H as <-; lia|discriminate]. }
  split; [lia|].
  destruct D as [[D ->]|[[D ->]|[D ->]]].
  - assert (C : c = 48 \/ c = 49 \/ c = 50 \/ c = 51 \/ c = 52 \/ c = 53 \/ c = 54 \/ c = 55 \/ c = 56 \/ c = 57) by lia.
    repeat (destruct C as [->|C]; [reflexivity|]). subst. reflexivity.
  - assert (C : c = 97 \/ c = 98 \/ c = 99 \/ c = 100 \/ c = 101 \/ c = 102) by lia.
    repeat (destruct C as [->|C]; [reflexivity|]). subst. reflexivity.
  - assert (C : c = 65 \/ c = 66 \/ c = 67 \/ c = 68 \/ c = 69 \/ c = 70) by lia.
    repeat (destruct C as [->|C]; [reflexivity|]). subst. reflexivity.
Qed.
Lemma unhex_spec t : forall acc v, unhex acc t = Ok v ->
  exists ds, Forall (fun d => (d < 16)%nat) ds /\ lower t = map (fun d => nth d HEX 0) ds /\
             v = fold_left (fun a d => 16 * a + N.of_nat d) ds acc.
Proof.
  induction t as [|c t IH]; cbn [unhex]; intros acc v H.
  - apply ok_inj in H. subst. exists []. repeat split; constructor.
  - destruct (unhex1 c) as [d|] eqn:E; [|discriminate]. apply unhex1_spec in E as [Hd E].
    apply IH in H as (ds & H1 & H2 & H3). exists (N.to_nat d :: ds). split; [constructor; [lia|assumption]|].
    split; [unfold lower in *; cbn [map]; congruence|]. cbn [fold_left]. rewrite N2Nat.id.
    rewrite H3. f_equal. lia.
Qed.

Definition part_item_ok (p : part) (i : sitem) (b : bytes) : Prop :=
  b = ser_sitem i /\ sitem_ok i /\ part_kind p (s_kind i) /\ s_data i = part_data p /\
  match i with SHead _ => False | _ => True end.
Lemma write_part_inv p b : write_part p = Ok b -> exists i, part_item_ok p i b.
Proof.
  destruct p; cbn [write_part]; intros H.
  - apply header_inv in H as [-> H]. exists (app_item name). repeat split; try apply H.
  - apply store_inv in H as [-> H]. exists (stored_item (name, data)). repeat split; try apply H.
  - apply rarfile_inv in H as (-> & H & _). exists (rar_item name). repeat split; try apply H.
  - apply oso_inv in H as (v & Hv & Hl & -> & H). apply unhex_spec in Hv.
    exists (oso_item size v name). split; [reflexivity|]. split; [exact H|]. repeat split.
    exists v. repeat split; assumption.
  - apply padding_inv in H as [-> H]. exists (pad1 data). repeat split; try apply H.
Qed.
Lemma parts_items ps bs : mapR write_part ps = Ok bs ->
  exists l, concat bs = ser_srr l /\ Forall sitem_ok l /\ recov_removed false l /\
    Forall2 (fun p ib => part_item_ok p (fst ib) (snd ib)) ps (combine l bs) /\ List.length l = List.length bs.
Proof.
  intros H. apply mapR_inv in H. induction H as [|p b ps bs Hp _ (l & E & Hok & Hr & HF & HL)].
  - exists []. repeat split; constructor.
  - apply write_part_inv in Hp as (i & Hi). exists (i :: l). pose proof Hi as (-> & Hiok & _ & _ & Hh).
    repeat split.
    + cbn [concat]. now rewrite ser_srr_cons, E.
    + now constructor.
    + destruct i; cbn [recov_removed]; try contradiction; try assumption. now apply recov_mono.
    + cbn [combine]. constructor; [exact Hi|exact HF].
    + cbn. now rewrite HL.
Qed.
Lemma reported_items ps : forall bs l pre,
  Forall2 (fun p ib => part_item_ok p (fst ib) (snd ib)) ps (combine l bs) -> List.length l = List.length bs ->
  reported (pre ++ ser_srr l) (lenN pre) ps bs (sblks (lenN pre) l).
Proof.
  induction ps as [|p ps IH]; intros bs l pre HF HL;
    destruct l as [|i l], bs as [|b bs]; try discriminate; cbn [combine] in HF;
    inversion HF as [E|? ib ? ? Hi HF']; subst.
  - exact I.
  - cbn [sblks reported fst snd] in *. destruct Hi as (-> & Hok & Hk & Hd & _).
    split; [reflexivity|]. split; [exact Hk|]. cbn [sblk b_hsize]. rewrite <- Hd.
    assert (Hh : lenN (s_hdr i) = 7 + lenN (s_body i)).
    { unfold s_hdr, hdr. rewrite !lenN_app, !lenN_le. lia. }
    split; [unfold ser_sitem; fold (s_hdr i); rewrite lenN_app, Hh; lia|]. split.
    + rewrite ser_srr_cons. unfold ser_sitem. fold (s_hdr i). rewrite !app_assoc, <- (app_assoc (pre ++ s_hdr i)).
      apply sub_app_exact; [rewrite lenN_app, Hh; reflexivity|reflexivity].
    + rewrite ser_srr_cons, app_assoc. rewrite <- lenN_app. apply IH; [assumption|]. cbn in HL. congruence.
Qed.
Theorem parts_read_back app ps bs :
  mapR write_part (PApp app :: ps) = Ok bs -> 20 <= lenN (concat bs) ->
  exists blks, read_all (concat bs) = Ok blks /\ reported (concat bs) 0 (PApp app :: ps) bs blks.
Proof.
  intros H H20. apply parts_items in H as (l & E & Hok & Hr & HF & HL). exists (sblks 0 l). rewrite E in *.
  split; [|now apply (reported_items (PApp app :: ps) bs l [])].
  apply read_all_srr. repeat split; try assumption.
  destruct l as [|i l], bs as [|b bs]; try discriminate; cbn [combine] in HF; [inversion HF|].
  inversion HF as [|? ib ? ? Hi _]; subst. cbn [fst snd] in Hi.
  destruct Hi as (_ & Hi & Hk & _ & Hh). destruct i; cbn in Hk; try discriminate; [eauto 8|contradiction].
Qed.

(** ** Editing *)
Lemma storable_ok n : storable n -> stored_name_ok n.
Proof.
  intros (H1 & H2 & H3 & H4). repeat split; try assumption.
  unfold is_good_srr. apply forallb_forall. intros c Hc. destruct (existsb (N.eqb c) n) eqn:E; [|reflexivity].
  exfalso. apply existsb_exists in E as (x & Hx & Ex). apply N.eqb_eq in Ex. subst x.
  rewrite Forall_forall in H3. now apply (H3 c).
Qed.
Definition no_dupe_spec (names : list text) (n : text) : Prop := exists p, srr_path n p /\ ~ In p names.
Lemma no_dupe_iff names n : no_dupe names n <-> no_dupe_spec names n.
Proof.
  unfold no_dupe, no_dupe_spec. split; intros (p & H & Hn); exists p; (split; [|assumption]); now apply srr_os_file_name_spec.
Qed.

Theorem add_thm l names files :
  srr_ok l ->
  (forall out, add_stored_files (ser_srr l) names files = Ok out ->
     out = ser_srr (add_items (map stored_item files) l) /\ srr_ok (add_items (map stored_item files) l) /\
     read_all out = Ok (sblks 0 (add_items (map stored_item files) l)) /\
     (forall n p, In n (stored_names l) -> srr_path n p -> ~ In p names)) /\
  (Forall (fun n => exists p, srr_path n p /\ ~ In p names) (stored_names l) ->
   Forall (fun nd => storable (fst nd) /\ lenN (snd nd) < 4294967296) files ->
   exists out, add_stored_files (ser_srr l) names files = Ok out).
Proof.
  intros Hl. split.
  - intros out H. apply add_inv in H as (-> & Hd & Hf); [|assumption].
    pose proof (add_items_srr_ok files l Hl Hf) as Hok. split; [reflexivity|split; [exact Hok|split; [now apply read_all_srr|]]].
    intros n p Hn Hp. rewrite Forall_forall in Hd. apply Hd in Hn as (q & Hq & Hnq).
    apply srr_os_file_name_spec in Hp. assert (p = q) by congruence. now subst.
  - intros Hd Hf. eexists. apply add_ok; [assumption| |].
    + eapply Forall_impl; [|exact Hd]. intros n (p & Hp & Hn). exists p. split; [now apply srr_os_file_name_spec|assumption].
    + eapply Forall_impl; [|exact Hf]. intros nd [H1 H2]. split; [now apply storable_ok|assumption].
Qed.

(** the added blocks: everything else is in the same order, and they come before the first volume *)
Lemma add_items_split new l : exists a b, l = a ++ b /\ add_items new l = a ++ new ++ b /\
  Forall (fun i => is_srar i = false) a /\ (b = [] \/ exists i b', b = i :: b' /\ is_srar i = true).
Proof.
  induction l as [|i l (a & b & E1 & E2 & E3 & E4)]; cbn [add_items].
  - exists [], []. repeat split; auto. cbn [app]. now rewrite app_nil_r.
  - destruct (is_srar i) eqn:Ei.
    + exists [], (i :: l). repeat split; eauto.
    + exists (i :: a), b. cbn [app]. rewrite E1 at 1. rewrite E2. repeat split; auto.
Qed.

Theorem remove_thm l names :
  srr_ok l ->
  remove_stored_files (ser_srr l) names = Ok (ser_srr (remove_items names l)) /\
  (20 <= lenN (ser_srr (remove_items names l)) ->
   read_all (ser_srr (remove_items names l)) = Ok (sblks 0 (remove_items names l))).
Proof.
  intros Hl. split; [now apply remove_ok|]. intros H. apply read_all_srr. now apply remove_items_srr_ok.
Qed.
Theorem add_remove_thm l names files out :
  srr_ok l -> Forall (fun n => ~ In n (map fst files)) (stored_names l) ->
  add_stored_files (ser_srr l) names files = Ok out ->
  remove_stored_files out (map fst files) = Ok (ser_srr l).
Proof.
  intros Hl Hd H. apply add_inv in H as (-> & _ & Hf); [|assumption].
  rewrite remove_ok by now apply add_items_srr_ok. f_equal. f_equal. apply remove_add; [|assumption].
  apply Forall_forall. intros nd Hi. now apply in_map.
Qed.

Theorem rename_thm l old new :
  srr_ok l ->
  (~ In old (stored_names l) -> rename_stored_file (ser_srr l) old new = Err FileNotFound) /\
  (In old (stored_names l) -> storable new -> exists out, rename_stored_file (ser_srr l) old new = Ok out) /\
  (forall out, rename_stored_file (ser_srr l) old new = Ok out ->
     out = ser_srr (rename_items old new l) /\
     (20 <= lenN out -> read_all out = Ok (sblks 0 (rename_items old new l)))).
Proof.
  intros Hl. split; [|split].
  - intros H. now apply rename_none.
  - intros H Hn. eexists. apply rename_ok; [assumption|assumption|now apply storable_ok].
  - intros out H. apply rename_inv in H as (_ & -> & a & c & f & d & e & b & -> & _ & E & Hok); [|assumption].
    split; [reflexivity|]. intros H20. apply read_all_srr. rewrite E in *. now apply (rename_srr_ok a c f old d e b new).
Qed.

Theorem merge_thm ls app :
  Forall srr_ok ls ->
  (forall out, merge_srrs (map ser_srr ls) app = Ok out ->
     out = ser_srr (merge_items ls app) /\
     (20 <= lenN out -> read_all out = Ok (sblks 0 (merge_items ls app)))) /\
  (ls <> [] ->
   (match app with Some a => valid_text a /\ lenN (utf8 a) < 65527 | None => True end) ->
   Forall (fun t => lenN (utf8 t) < 65527) (concat (map app_names ls)) ->
   exists out, merge_srrs (map ser_srr ls) app = Ok out).
Proof.
  intros H. split.
  - intros out E. apply merge_inv in E as [-> Hok]; [|assumption]. split; [reflexivity|].
    intros H20. apply read_all_srr. now apply merge_srr_ok.
  - intros Hne Ha Hn. eexists. now apply merge_ok.
Qed.
