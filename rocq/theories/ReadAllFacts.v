(** Reading back whole SRR files and RAR volumes. *)
From Verif Require Import Base BaseFacts Rar RarSpec ReadSpec RarFacts NameFacts ReadFacts.

Definition cur_of (rr : option bool) : bool := match rr with Some b => b | None => false end.

Lemma ser_sitem_nonempty i : ser_sitem i <> [].
Proof.
  intros E. assert (H : lenN (ser_sitem i) = 0) by now rewrite E.
  rewrite lenN_ser_sitem in H. lia.
Qed.

Lemma ser_srr_cons i l : ser_srr (i :: l) = ser_sitem i ++ ser_srr l.
Proof. reflexivity. Qed.
Lemma ser_srr_app a b : ser_srr (a ++ b) = ser_srr a ++ ser_srr b.
Proof. unfold ser_srr. now rewrite map_app, concat_app. Qed.
Lemma lenN_ser_srr_cons i l : lenN (ser_srr (i :: l)) = lenN (ser_sitem i) + lenN (ser_srr l).
Proof. now rewrite ser_srr_cons, lenN_app. Qed.

Lemma read_srr_loop l : forall pre e rr fuel,
  (List.length l < fuel)%nat -> Forall sitem_ok l -> recov_removed (cur_of rr) l ->
  pre <> [] \/ (exists c f n x l', l = SApp c f n x :: l') ->
  read_loop fuel SRR (pre ++ ser_srr l) (mkRst (lenN pre) e rr) = Ok (sblks (lenN pre) l).
Proof.
  induction l as [|i l IH]; intros pre e rr fuel Hf Hok Hr Hp; (destruct fuel as [|fuel]; [inversion Hf|]).
  - cbn [read_loop]. rewrite read1_end; [reflexivity|]. cbn [r_pos]. now rewrite app_nil_r.
  - cbn [read_loop]. rewrite ser_srr_cons. inversion_clear Hok as [|? ? Hi Hl].
    rewrite read1_sitem; [| assumption | | ].
    + cbn [bind]. rewrite app_assoc, <- lenN_app. rewrite IH; [|cbn in Hf; lia|assumption| |].
      * cbn [bind]. rewrite lenN_app. reflexivity.
      * destruct i; cbn [recov_removed rr_next] in *; try assumption. now destruct Hr.
      * left. intros E. apply app_eq_nil in E. now apply (ser_sitem_nonempty i).
    + destruct Hp as [Hp|(c & f & n & x & l' & Hp)]; [now left|]. right. injection Hp as -> _. eauto.
    + intros hd -> Hrec. cbn [recov_removed] in Hr. destruct Hr as [Hr _]. specialize (Hr Hrec).
      destruct rr as [[|]|]; cbn in Hr; congruence.
Qed.

Lemma len_sitems l : (List.length l <= List.length (ser_srr l))%nat.
Proof.
  induction l as [|i l IH]; [cbn; lia|]. rewrite ser_srr_cons, app_length. cbn [List.length].
  assert (H := ser_sitem_nonempty i). destruct (ser_sitem i); [congruence|]. cbn [List.length]. lia.
Qed.

Lemma first_srr c f n x l :
  exists a b r, ser_srr (SApp c f n x :: l) = a :: b :: x69 :: r.
Proof.
  rewrite ser_srr_cons. unfold ser_sitem, hdr. cbn [s_ty s_crcv s_flags s_body s_data].
  cbn [le]. cbn [app]. eauto.
Qed.

Lemma mode_srr l : srr_ok l -> reader_mode (ser_srr l) = Ok SRR.
Proof.
  intros ((c & f & n & x & l' & ->) & _ & _ & H20). unfold reader_mode.
  destruct (N.ltb_spec (lenN (ser_srr (SApp c f n x :: l'))) 20); [lia|].
  destruct (first_srr c f n x l') as (a & b & r & ->).
  change (takeN 8 (a :: b :: x69 :: r)) with (a :: b :: x69 :: takeN 5 r).
  change (dropN 2 (a :: b :: x69 :: r)) with (x69 :: r).
  assert (beqb (a :: b :: x69 :: takeN 5 r) RAR5_MARKER = false) as ->.
  { destruct (beqb _ _) eqn:E; [|reflexivity]. apply beqb_eq in E. discriminate. }
  reflexivity.
Qed.

Theorem read_all_srr l : srr_ok l -> read_all (ser_srr l) = Ok (sblks 0 l).
Proof.
  intros H. unfold read_all. rewrite mode_srr by assumption. cbn [bind].
  destruct H as ((c & f & n & x & l' & ->) & Hok & Hr & _).
  apply (read_srr_loop _ [] false None); [|assumption|exact Hr|eauto 10].
  pose proof (len_sitems (SApp c f n x :: l')). lia.
Qed.

(** ** Volumes *)
Lemma pad_item_ok pad : lenN pad < 4294967296 -> Forall sitem_ok (pad_item pad).
Proof.
  intros H. destruct pad as [|b p]; [constructor|]. constructor; [|constructor].
  split; [|split; [reflexivity|assumption]].
  unfold hdr_ok. cbn [s_crcv s_ty s_flags s_body]. rewrite app_nil_r, lenN_le. repeat split; reflexivity.
Qed.

Lemma read_pad pre pad rr fuel :
  (1 < fuel)%nat -> lenN pad < 4294967296 ->
  read_loop fuel RAR (pre ++ pad) (mkRst (lenN pre) true rr) = Ok (padblks (lenN pre) pad).
Proof.
  intros Hf Hl. destruct fuel as [|[|fuel]]; [lia|lia|]. cbn [read_loop].
  destruct pad as [|b p] eqn:E.
  - rewrite read1_end by (cbn [r_pos]; now rewrite app_nil_r). reflexivity.
  - rewrite read1_padding by (congruence || assumption). unfold make_padding.
    rewrite padding_bytes_ok by assumption. cbn [bind].
    rewrite read1_end by (cbn [r_pos]; now rewrite lenN_app). cbn [bind padblks pad_item].
    rewrite ser_srr_cons, app_nil_r, ser_sitem_hdr. unfold s_hdr.
    cbn [s_crcv s_ty s_flags s_body s_data]. rewrite app_nil_r. reflexivity.
Qed.

Lemma ser_item_len i : 7 <= lenN (ser_item i).
Proof. unfold ser_item, ser_head. rewrite !lenN_app, lenN_hdr. lia. Qed.

Lemma ser_items_cons i l : ser_items (i :: l) = ser_item i ++ ser_items l.
Proof. reflexivity. Qed.

Lemma read_rar_loop l : forall pre tail e rr fuel res,
  Forall item_ok l -> Forall (fun i => is_end (fst i) = false) l ->
  (List.length l <= fuel)%nat -> (e = true -> l = []) ->
  read_loop (fuel - List.length l) RAR (pre ++ ser_items l ++ tail)
     (mkRst (lenN pre + lenN (ser_items l)) e rr) = Ok res ->
  read_loop fuel RAR (pre ++ ser_items l ++ tail) (mkRst (lenN pre) e rr)
  = Ok (vblks (lenN pre) l ++ res).
Proof.
  induction l as [|i l IH]; intros pre tail e rr fuel res Hok He Hf Hen Hres.
  - cbn [List.length ser_items map concat vblks] in *. rewrite Nat.sub_0_r, N.add_0_r in Hres. exact Hres.
  - destruct fuel as [|fuel]; [cbn in Hf; lia|]. cbn [read_loop]. destruct e; [now specialize (Hen eq_refl)|].
    inversion_clear Hok as [|? ? [Hi Hd] Hl]. inversion_clear He as [|? ? He1 He2].
    rewrite ser_items_cons in *. unfold ser_item at 1. rewrite <- !app_assoc.
    rewrite read1_rar by assumption. cbn [bind]. rewrite He1.
    rewrite (app_assoc pre (ser_item i)). replace (lenN pre + lenN (ser_head (fst i)) + lenN (snd i)) with (lenN (pre ++ ser_item i)).
    2:{ unfold ser_item. rewrite !lenN_app. lia. }
    rewrite (IH _ _ _ _ _ res); [cbn [bind]|assumption|assumption|cbn in Hf; lia|discriminate|].
    + cbn [vblks app]. now rewrite lenN_app.
    + rewrite lenN_app, <- N.add_assoc, <- lenN_app, <- app_assoc, (app_assoc (ser_item i)).
      cbn [List.length] in Hres. rewrite Nat.sub_succ in Hres. exact Hres.
Qed.

Lemma vblks_app a : forall b pos, vblks pos (a ++ b) = vblks pos a ++ vblks (pos + lenN (ser_items a)) b.
Proof.
  induction a as [|i a IH]; intros b pos; cbn [app vblks].
  - change (lenN (ser_items [])) with 0. now rewrite N.add_0_r.
  - rewrite IH, ser_items_cons, lenN_app, N.add_assoc. reflexivity.
Qed.
Lemma ser_items_app a b : ser_items (a ++ b) = ser_items a ++ ser_items b.
Proof. unfold ser_items. now rewrite map_app, concat_app. Qed.

Lemma marker_ok : item_ok (MARKER, []).
Proof.
  repeat split; try reflexivity; try (intros; now left).
  cbn [In]. intros H. repeat (destruct H as [H|H]; [discriminate|]). exact H.
Qed.

Lemma mode_volume v : volume_ok v -> reader_mode (ser_volume v) = Ok RAR.
Proof.
  intros (_ & _ & _ & H20). unfold reader_mode.
  destruct (N.ltb_spec (lenN (ser_volume v)) 20); [lia|].
  unfold ser_volume in *. set (r := concat (map ser_item (v_items v)) ++ v_pad v) in *.
  change (ser_head MARKER) with [x52; x61; x72; x21; x1a; x07; x00] in *. cbn [app] in *.
  destruct r as [|b r].
  - exfalso. revert H20. cbv. intros H'. now apply H'.
  - change (takeN 8 (x52 :: x61 :: x72 :: x21 :: x1a :: x07 :: x00 :: b :: r))
      with (x52 :: x61 :: x72 :: x21 :: x1a :: x07 :: x00 :: takeN 1 (b :: r)).
    assert (beqb (x52 :: x61 :: x72 :: x21 :: x1a :: x07 :: x00 :: takeN 1 (b :: r)) RAR5_MARKER = false) as ->.
    { destruct (beqb _ _) eqn:E; [|reflexivity]. apply beqb_eq in E. discriminate. }
    reflexivity.
Qed.

Lemma len_items l : (List.length l <= List.length (ser_items l))%nat.
Proof.
  induction l as [|i l IH]; [cbn; lia|]. rewrite ser_items_cons, app_length. cbn [List.length].
  assert (H := ser_item_len i). destruct (ser_item i); [rewrite lenN_nil in H; lia|]. cbn [List.length]. lia.
Qed.

Theorem read_all_volume v : volume_ok v -> read_all (ser_volume v) = Ok (volume_blocks v).
Proof.
  intros H. unfold read_all. rewrite mode_volume by assumption. cbn [bind].
  destruct H as (Hok & (l & last & Hv & Hne & Hpad) & Hlen & _).
  unfold volume_blocks. rewrite Hv in *. apply Forall_app in Hok. destruct Hok as [Hl Hlast].
  inversion_clear Hlast as [|? ? [Hla Hd] _].
  set (l0 := ((MARKER, []) :: l) : list item).
  assert (Hs : ser_volume v = ser_items l0 ++ ser_item last ++ v_pad v).
  { unfold ser_volume. rewrite Hv. fold (ser_items (l ++ [last])). rewrite ser_items_app.
    unfold l0. rewrite !ser_items_cons. unfold ser_item at 2. cbn [fst snd].
    rewrite app_nil_r, <- !app_assoc. cbn [ser_items map concat app]. reflexivity. }
  rewrite Hs.
  pose proof (len_items l0) as Hll.
  assert (Hfu : (List.length l0 + 7 <= List.length (ser_items l0 ++ ser_item last ++ v_pad v))%nat).
  { rewrite !app_length. pose proof (ser_item_len last) as X. rewrite lenN_length in X. lia. }
  pose proof (read_rar_loop l0 [] (ser_item last ++ v_pad v) false None
     (S (List.length (ser_items l0 ++ ser_item last ++ v_pad v)))
     (hblk (lenN (ser_items l0)) (fst last) :: padblks (lenN (ser_items l0) + lenN (ser_item last)) (v_pad v)))
    as X.
  cbn [app] in X. unfold st0. change (lenN []) with 0 in X. rewrite X.
  - change (vblks 0 ((MARKER, []) :: l ++ [last])) with (vblks 0 (l0 ++ [last])).
    rewrite vblks_app, <- app_assoc. cbn [vblks app]. f_equal. f_equal. f_equal. f_equal.
    rewrite ser_items_app. unfold l0. rewrite ser_items_cons, !lenN_app.
    cbn [ser_items map concat]. rewrite app_nil_r. change (lenN (ser_item (MARKER, []))) with 7. lia.
  - constructor; [exact marker_ok|assumption].
  - constructor; [reflexivity|assumption].
  - lia.
  - discriminate.
  - destruct (S (List.length (ser_items l0 ++ ser_item last ++ v_pad v)) - List.length l0)%nat as [|fuel] eqn:Ef.
    { lia. }
    cbn [read_loop]. rewrite N.add_0_l.
    assert (E : ser_items l0 ++ ser_item last ++ v_pad v =
      ser_items l0 ++ ser_head (fst last) ++ snd last ++ v_pad v)
      by (unfold ser_item; now rewrite <- !app_assoc).
    rewrite E at 1. rewrite read1_rar by assumption. cbn [bind].
    replace (lenN (ser_items l0) + lenN (ser_head (fst last)) + lenN (snd last)) with
      (lenN (ser_items l0 ++ ser_item last)) by (unfold ser_item; rewrite !lenN_app; lia).
    rewrite (app_assoc (ser_items l0)).
    destruct Hpad as [Hp|He].
    + rewrite Hp, app_nil_r. destruct fuel as [|fuel]; [lia|]. cbn [read_loop].
      rewrite read1_end by reflexivity. reflexivity.
    + rewrite He, read_pad by (assumption || lia). cbn [bind]. now rewrite lenN_app.
Qed.
