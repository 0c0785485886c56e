(** StreamThms: concrete sets, and those for which the stream is wrong. *)
From Verif Require Import Base BaseFacts Rar RarSpec ReadSpec SetSpec Samples ReadFacts ReadAllFacts Path VolName VolSpec VolFacts Srr Oso Stream StreamSpec StreamFacts.

Theorem stream_absent f s first m n middle any vols : on_disk f s first any vols -> asks (Some m) n vols -> (middle = true \/ starts_file vols) ->
  parts_of n vols = [] -> rar_stream f (vol_name s first) (Some m) middle any = Err AttributeError.
Proof.
  intros (Hs & Hlim & Hok & Hd & He) Ha Hst Hp. apply asks_looking in Ha as [Hn Hl].
  assert (Hfuel : (length vols <= length f)%nat).
  { apply (fuel_ok f s first); [exact Hs|exact Hlim|]. intros j Hj. destruct (nth_error vols j) as [v|] eqn:E; [|apply nth_error_None in E; lia]. eapply fs_get_In. apply Hd. exact E. }
  destruct (open_ok f s any (Some m) n Hs Hn vols first (length f) [] 0%Z Hlim Hfuel Hok Hl Hd He) as (ws & A & A2 & B). cbn [app] in B.
  assert (Hck : (if middle then Ok true else check f (vol_name s first)) = Ok true).
  { destruct middle; [reflexivity|]. destruct Hst as [|Hst]; [discriminate|]. destruct vols as [|v r]; [destruct Hst|].
    apply (check_ok f _ v r); [|apply Forall_inv in Hok; apply Hok|exact Hst]. rewrite <- (Hd 0%nat v eq_refl). f_equal. f_equal. cbn. lia. }
  unfold rar_stream. rewrite Hck. cbn [bind negb]. rewrite B. cbn [bind]. rewrite Hp in A2. inversion A2. reflexivity.
Qed.

Fixpoint same_letters (a b : text) : bool :=
  match a, b with
  | [], [] => true
  | x :: a, y :: b => ((x =? y) || (65 <=? x) && (x <=? 90) && (y =? x + 32)) && same_letters a b
  | _, _ => false
  end.
Lemma case_change a b : same_letters (str a) (str b) = true -> up_to_case (str a) (str b).
Proof.
  generalize (str a) (str b). clear. induction t as [|x t IH]; intros [|y u] H; cbn [same_letters] in H; try discriminate; [constructor|].
  apply andb_true_iff in H as [H1 H2]. constructor; [lia|]. now apply IH.
Qed.

Definition set_style : style := Old (str "set") (str ".rar").
Definition set_of (a b : volume) : fs := [(str "set.rar", ser_volume a); (str "set.r00", ser_volume b)].
Lemma set_on a b : volume_ok a -> volume_ok b -> Forall (readable false) (v_items a) -> Forall (readable false) (v_items b) -> on_disk (set_of a b) set_style 0 false [a; b].
Proof.
  intros Ha Hb Ra Rb. split; [repeat constructor; lia|]. split; [reflexivity|].
  assert (T : forall o, told set_style o).
  { intros o. right. intros (p & part & ds & E & Hp & _). assert (L : length (str "set") = length (p ++ part ++ ds)) by now rewrite E.
    rewrite !app_length in L. assert (length part = 5%nat).
    { inversion Hp as [|? ? ? ? _ H1]; subst. inversion H1 as [|? ? ? ? _ H2]; subst. inversion H2 as [|? ? ? ? _ H3]; subst. inversion H3 as [|? ? ? ? _ H4]; subst. inversion H4 as [|? ? ? ? _ H5]; subst. inversion H5; subst. reflexivity. }
    change (length (str "set")) with 3%nat in L. lia. }
  split; [constructor; [auto|constructor; [auto|constructor]]|]. split; [|reflexivity].
  intros [|[|i]] v H; cbn in H; [| |now destruct i]; injection H as <-; reflexivity.
Qed.
Definition one_vol (fl : N) (name : string) (d : bytes) : volume := mkVolume [(AHEAD, []); (HFile (FHEAD fl name (lenN d) 0x11) (lenN d), d); (ENDHEAD, [])] [].
Definition set_disk : fs := set_of vol1 vol2.

Lemma set_on_disk : on_disk set_disk set_style 0 false [vol1; vol2].
Proof.
  apply set_on; [exact vol1_ok|exact vol2_ok| |]; repeat constructor; cbn [readable fst AHEAD ENDHEAD FHEAD h_method]; try (intros; vm_compute; discriminate); now right.
Qed.
Lemma set_example :
  on_disk set_disk set_style 0 false [vol1; vol2] /\ asks (Some (str "a.txt")) (str "a.txt") [vol1; vol2] /\
  asks None (str "a.txt") [vol1; vol2] /\ starts_file [vol1; vol2] /\ first_full (parts_of (str "a.txt") [vol1; vol2]) /\
  concat (parts_of (str "a.txt") [vol1; vol2]) = bstr "abcde" /\
  flat_run (bstr "abcde") 0 [OSeek 1 FromStart; ORead 3; OTell; OSeek (-9) FromHere; ORead (-1); OSeek (-1) FromEnd] =
    [Pos 1; Data (bstr "bcd"); Pos 4; Refused; Data (bstr "e"); Pos 4].
Proof.
  split; [exact set_on_disk|]. split; [split; [discriminate|reflexivity]|]. split; [split; [discriminate|]|].
  { repeat constructor. }
  split; [reflexivity|]. split; [left; discriminate|]. split; reflexivity.
Qed.
Lemma set_hash_example :
  on_disk set_disk set_style 0 false [vol1; vol2] /\ asks (Some (str "a.txt")) (str "a.txt") [vol1; vol2] /\
  starts_file [vol1; vol2] /\ parts_of (str "a.txt") [vol1; vol2] = [bstr "abc"; bstr "de"] /\
  osohash_from set_disk (str "set.rar") (Some (str "a.txt")) false = Err ValueError.
Proof.
  split; [exact set_on_disk|]. split; [split; [discriminate|reflexivity]|]. split; [reflexivity|]. split; [reflexivity|].
  change (str "set.rar") with (vol_name set_style 0). rewrite (stream_hash_thm _ _ _ _ (str "a.txt") _ [vol1; vol2] set_on_disk); [reflexivity|split; [discriminate|reflexivity]|now right|discriminate].
Qed.

Lemma one_vol_read fl name d : Forall (readable false) (v_items (one_vol fl name d)).
Proof. repeat constructor; cbn [readable fst AHEAD ENDHEAD FHEAD h_method]; try (intros; vm_compute; discriminate); now right. Qed.
Ltac one_ok := unfold volume_ok; cbn [v_items v_pad one_vol]; split; [ok|split; [|ok]];
  match goal with |- context[[?a; ?b; ?c] = _ ++ _] => exists [a; b], c; split; [reflexivity|]; split; [ok|now left] end.
Lemma vol_a_ok : volume_ok (one_vol 0 "a.txt" (bstr "abc")).
Proof. one_ok. Qed.
Lemma vol_x_ok : volume_ok (one_vol 0 "b.txt" (bstr "x")).
Proof. one_ok. Qed.
Lemma vol_0_ok : volume_ok (one_vol 2 "a.txt" []).
Proof. one_ok. Qed.
Lemma empty_part : exists f s n vols t,
  on_disk f s 0 false vols /\ asks (Some n) n vols /\ starts_file vols /\ concat (parts_of n vols) = bstr "de" /\
  rar_stream f (vol_name s 0) (Some n) false false = Ok t /\ stream_run f t [ORead 1] = [Data []] /\
  flat_run (bstr "de") 0 [ORead 1] = [Data (bstr "d")].
Proof.
  set (a := one_vol 2 "a.txt" []). exists (set_of a vol2), set_style, (str "a.txt"), [a; vol2].
  assert (D : on_disk (set_of a vol2) set_style 0 false [a; vol2]).
  { apply set_on; [exact vol_0_ok|exact vol2_ok|apply one_vol_read|]. pose proof set_on_disk as (_ & _ & H & _). apply Forall_inv_tail, Forall_inv in H. apply H. }
  eexists. split; [exact D|]. split; [split; [discriminate|reflexivity]|]. split; [reflexivity|]. split; [reflexivity|]. split; [vm_compute; reflexivity|]. split; vm_compute; reflexivity.
Qed.
Lemma no_name : exists f s vols t,
  on_disk f s 0 false vols /\ starts_file vols /\ concat (parts_of (str "a.txt") vols) = bstr "abc" /\
  rar_stream f (vol_name s 0) None false false = Ok t /\ stream_run f t [ORead (-1)] = [Data (bstr "abcx")].
Proof.
  set (a := one_vol 0 "a.txt" (bstr "abc")). set (b := one_vol 0 "b.txt" (bstr "x")). exists (set_of a b), set_style, [a; b].
  eexists. split; [apply set_on; [exact vol_a_ok|exact vol_x_ok|apply one_vol_read|apply one_vol_read]|]. split; [reflexivity|]. split; [reflexivity|]. split; [vm_compute; reflexivity|]. vm_compute. reflexivity.
Qed.
