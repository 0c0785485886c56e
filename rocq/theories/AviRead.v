(** AviRead: reading files that are made of lists and chunks. *)
From Verif Require Import Base BaseFacts Crc CrcFacts SrsRec SrsRecSpec SrsRecFacts Srs SrrFacts Avi StrmSpec Mp3Spec AviSpec.

(** ** Items *)
Definition streamed (cc : bytes) : bool := match stream_no cc with Some _ => true | None => false end.
(** in an SRS the chunks of streams have no data *)
Definition enc (srs : bool) (i : item) : bytes :=
  match i with
  | Lst ty size name => ty ++ le 4 size ++ name
  | Chk cc data pad => cc ++ le 4 (lenN data) ++ (if srs && streamed cc then [] else data) ++ pad
  end.
Definition encs (srs : bool) (its : list item) : bytes := concat (map (enc srs) its).
Lemma enc_false i : enc false i = item_bytes i. Proof. now destruct i. Qed.
Lemma encs_false its : encs false its = file_of its.
Proof. reflexivity. Qed.
Lemma encs_cons srs i its : encs srs (i :: its) = enc srs i ++ encs srs its. Proof. reflexivity. Qed.
Lemma encs_app srs a b : encs srs (a ++ b) = encs srs a ++ encs srs b. Proof. unfold encs. now rewrite map_app, concat_app. Qed.
Lemma file_cons i its : file_of (i :: its) = item_bytes i ++ file_of its. Proof. reflexivity. Qed.
Lemma file_app a b : file_of (a ++ b) = file_of a ++ file_of b. Proof. unfold file_of. now rewrite map_app, concat_app. Qed.
Lemma data_cons n i its : data_of n (i :: its) = piece n i ++ data_of n its. Proof. reflexivity. Qed.
Lemma data_app n a b : data_of n (a ++ b) = data_of n a ++ data_of n b. Proof. unfold data_of. now rewrite map_app, concat_app. Qed.
Definition kind (cc : bytes) : ckind :=
  match stream_no cc with Some n => Movi n | None => if beqb cc (bstr "idx1") then Index else Other end.
Definition ck (i : item) (pos : N) : chunk :=
  match i with
  | Lst ty size name => mkC (List_of ty) name (Z.of_N size - 4) (ty ++ le 4 size ++ name) pos
  | Chk cc data _ => mkC (kind cc) cc (Z.of_N (lenN data)) (cc ++ le 4 (lenN data)) pos
  end.
Lemma valid_fourcc_is cc : valid_fourcc cc = true <-> fourcc cc.
Proof.
  unfold valid_fourcc, fourcc. rewrite andb_true_iff, N.eqb_eq, forallb_forall, Forall_forall. apply and_iff_compat_l. split; intros H b Hb; specialize (H b Hb).
  - unfold fourcc_char, digit in H. lia.
  - unfold fourcc_char, digit. lia.
Qed.
Lemma kind_is cc : lenN cc = 4 -> match cc with
                  | a :: b :: _ => if digit a && digit b then Movi (10 * (b2n a - 48) + (b2n b - 48))
                                   else if beqb cc (bstr "idx1") then Index else Other
                  | _ => Other
                  end = kind cc.
Proof.
  intros H. destruct cc as [|a [|b r]]; [discriminate H|discriminate H|]. unfold kind, stream_no, digit. cbn [map].
  now destruct ((48 <=? b2n a) && (b2n a <=? 57) && ((48 <=? b2n b) && (b2n b <=? 57))).
Qed.
Lemma next_list check (f a : bytes) ty size name r : f = a ++ (ty ++ le 4 size ++ name) ++ r -> (ty = bstr "RIFF" \/ ty = bstr "LIST") -> size < 2 ^ 32 -> lenN name = 4 ->
  (check = true -> ty = bstr "LIST" -> lenN a + 8 + size <= lenN f) ->
  riff_next check f (lenN a) = Ok (Some (ck (Lst ty size name) (lenN a))).
Proof.
  intros -> T S Nm C. assert (Lt : lenN ty = 4) by (destruct T as [-> | ->]; reflexivity). assert (Lf : lenN (a ++ (ty ++ le 4 size ++ name) ++ r) = lenN a + 12 + lenN r) by (rewrite !lenN_app, lenN_le; lia).
  unfold riff_next. replace (lenN (a ++ (ty ++ le 4 size ++ name) ++ r) <? lenN a + 8) with false by lia.
  replace (sub (lenN a) 8 (a ++ (ty ++ le 4 size ++ name) ++ r)) with (ty ++ le 4 size)
    by (symmetry; rewrite <- !app_assoc; rewrite (app_assoc ty); apply sub_app_exact; rewrite ?lenN_app, ?lenN_le; lia).
  rewrite (takeN_app_exact ty) by now rewrite Lt. rewrite <- (app_nil_r (ty ++ le 4 size)) at 1. rewrite <- app_assoc, (unpack_at 4 ty size) by ((now rewrite Lt) || exact S). cbn [bind].
  replace (valid_fourcc ty) with true by (destruct T as [-> | ->]; reflexivity). cbn [negb].
  replace (check && negb (beqb ty (bstr "RIFF")) && (lenN (a ++ (ty ++ le 4 size ++ name) ++ r) <? lenN a + 8 + size)) with false.
  2: { destruct check; [|reflexivity]. destruct T as [-> | ->]; [reflexivity|]. specialize (C eq_refl eq_refl). replace (beqb (bstr "LIST") (bstr "RIFF")) with false by reflexivity. cbn [negb andb]. lia. }
  replace (beqb ty (bstr "RIFF") || beqb ty (bstr "LIST")) with true by (destruct T as [-> | ->]; reflexivity).
  replace (sub (lenN a + 8) 4 (a ++ (ty ++ le 4 size ++ name) ++ r)) with name
    by (symmetry; rewrite <- !app_assoc; rewrite (app_assoc ty), (app_assoc a); apply sub_app_exact; rewrite ?lenN_app, ?lenN_le; lia).
  replace (sub 8 4 ((ty ++ le 4 size) ++ name)) with name by (symmetry; rewrite <- (app_nil_r name) at 1; apply sub_app_exact; rewrite ?lenN_app, ?lenN_le; lia).
  cbn [ck]. now rewrite <- app_assoc.
Qed.
Lemma next_chunk check (f a : bytes) cc (data pad r : bytes) : f = a ++ (cc ++ le 4 (lenN data)) ++ r -> fourcc cc -> cc <> bstr "RIFF" -> cc <> bstr "LIST" -> lenN data < 2 ^ 32 ->
  (check = true -> lenN data <= lenN r) ->
  riff_next check f (lenN a) = Ok (Some (ck (Chk cc data pad) (lenN a))).
Proof.
  intros -> F A B S C. pose proof (proj1 F) as Lt. assert (Lf : lenN (a ++ (cc ++ le 4 (lenN data)) ++ r) = lenN a + 8 + lenN r) by (rewrite !lenN_app, lenN_le; lia).
  unfold riff_next. replace (lenN (a ++ (cc ++ le 4 (lenN data)) ++ r) <? lenN a + 8) with false by lia.
  replace (sub (lenN a) 8 (a ++ (cc ++ le 4 (lenN data)) ++ r)) with (cc ++ le 4 (lenN data)) by (symmetry; apply sub_app_exact; rewrite ?lenN_app, ?lenN_le; lia).
  rewrite (takeN_app_exact cc) by now rewrite Lt. rewrite <- (app_nil_r (cc ++ le 4 (lenN data))) at 1. rewrite <- app_assoc, (unpack_at 4 cc) by ((now rewrite Lt) || exact S). cbn [bind].
  rewrite (proj2 (valid_fourcc_is cc) F). cbn [negb].
  replace (check && negb (beqb cc (bstr "RIFF")) && (lenN (a ++ (cc ++ le 4 (lenN data)) ++ r) <? lenN a + 8 + lenN data)) with false.
  2: { destruct check; [|reflexivity]. specialize (C eq_refl). replace (lenN (a ++ (cc ++ le 4 (lenN data)) ++ r) <? lenN a + 8 + lenN data) with false by lia. now rewrite andb_false_r. }
  replace (beqb cc (bstr "RIFF")) with false by (symmetry; apply not_true_is_false; now rewrite beqb_eq).
  replace (beqb cc (bstr "LIST")) with false by (symmetry; apply not_true_is_false; now rewrite beqb_eq). cbn [orb].
  rewrite kind_is by exact Lt. reflexivity.
Qed.
Lemma next_item check srs (f a r : bytes) i : f = a ++ enc srs i ++ r -> item_ok i -> (check = true -> srs = false /\ forall size name, i = Lst (bstr "LIST") size name -> lenN a + 8 + size <= lenN f) ->
  riff_next check f (lenN a) = Ok (Some (ck i (lenN a))).
Proof.
  intros E I C. destruct i as [ty size name|cc data pad].
  - destruct I as (T & S & Nm). apply next_list with (r := r); try assumption. intros X ->. exact (proj2 (C X) size name eq_refl).
  - destruct I as (F & A & B & S & P). cbn [enc] in E. apply next_chunk with (r := (if srs && streamed cc then [] else data) ++ pad ++ r); try assumption.
    + rewrite E. now rewrite <- !app_assoc.
    + intros X. destruct (C X) as (-> & _). cbn [andb]. rewrite lenN_app. lia.
Qed.
Lemma next_end check (f a r : bytes) : f = a ++ r -> lenN r < 8 -> riff_next check f (lenN a) = Ok None.
Proof. intros -> H. unfold riff_next. rewrite lenN_app. now replace (lenN a + lenN r <? lenN a + 8) with true by lia. Qed.

(** ** The loop over items *)
Section Run.
Context {S : Type}.
(** [act'] says if the loop goes on *)
Fixpoint irun (srs : bool) (stop : S -> bool) (act' : S -> N -> item -> result (S * bool)) (its : list item) (pos : N) (s : S) : result S :=
  match its with
  | [] => Ok s
  | i :: its => if stop s then Ok s else do x <- act' s pos i; if snd x then irun srs stop act' its (pos + lenN (enc srs i)) (fst x) else Ok (fst x)
  end.
Lemma irun_app srs stop act' l : forall r pos s, irun srs stop act' (l ++ r) pos s =
  (fix go l pos s := match l with [] => irun srs stop act' r pos s
   | i :: l => if stop s then Ok s else do x <- act' s pos i; if snd x then go l (pos + lenN (enc srs i)) (fst x) else Ok (fst x) end) l pos s.
Proof.
  induction l as [|i l IH]; intros r pos s; [reflexivity|]. cbn [app irun]. destruct (stop s); [reflexivity|]. destruct (act' s pos i) as [x|e]; [|reflexivity]. cbn [bind].
  destruct (snd x); [apply IH|reflexivity].
Qed.
Definition acts (srs : bool) (act : S -> chunk -> result (S * option N)) (act' : S -> N -> item -> result (S * bool)) (f : bytes) (its : list item) : Prop :=
  forall a i b s, In i its -> f = a ++ enc srs i ++ b -> act s (ck i (lenN a)) = do x <- act' s (lenN a) i; Ok (fst x, if snd x then Some (lenN a + lenN (enc srs i)) else None).
Lemma run_loop check srs stop act act' (f : bytes) its : forall a r s fuel, f = a ++ encs srs its ++ r -> lenN r < 8 -> (length its < fuel)%nat -> Forall item_ok its ->
  (check = true -> srs = false /\ forall its1 size name its2, its = its1 ++ Lst (bstr "LIST") size name :: its2 -> lenN a + lenN (encs srs its1) + 8 + size <= lenN f) ->
  acts srs act act' f its -> riff_loop fuel check stop act f (lenN a) s = irun srs stop act' its (lenN a) s.
Proof.
  induction its as [|i its IH]; intros a r s fuel E R Fu I C A; (destruct fuel as [|fuel]; [cbn [length] in Fu; lia|]); cbn [riff_loop irun].
  - rewrite (next_end check f a r) by assumption. reflexivity.
  - pose proof (Forall_inv I) as Ii; pose proof (Forall_inv_tail I) as Is. rewrite encs_cons, <- app_assoc in E. rewrite (next_item check srs f a (encs srs its ++ r) i E Ii).
    2: { intros X; destruct (C X) as (Y & Z); split; [exact Y|]; intros size name ->; specialize (Z [] size name its eq_refl); cbn [encs map concat lenN] in Z; lia. }
    cbn [bind]. destruct (stop s); [reflexivity|]. rewrite (A a i (encs srs its ++ r) s (or_introl eq_refl) E). destruct (act' s (lenN a) i) as [x|e]; [|reflexivity]. cbn [bind fst snd].
    destruct (snd x); [|reflexivity]. rewrite <- lenN_app. apply (IH (a ++ enc srs i) r); try assumption; [rewrite <- app_assoc; exact E|cbn [length] in Fu; lia| |intros a' i' b' s' Hi; now apply A; right].
    intros X. destruct (C X) as (Y & Z). split; [exact Y|]. intros its1 size name its2 E'. specialize (Z (i :: its1) size name its2). rewrite E' in Z. specialize (Z eq_refl). rewrite encs_cons, lenN_app in Z. rewrite lenN_app. lia.
Qed.
End Run.
Lemma enc_len srs i : item_ok i -> 8 <= lenN (enc srs i).
Proof.
  destruct i as [ty size name|cc data pad]; cbn [item_ok enc].
  - intros (T & _ & L). rewrite !lenN_app, lenN_le. destruct T as [-> | ->]; cbn [lenN bstr list_byte_of_string]; lia.
  - intros ((F & _) & _). rewrite !lenN_app, lenN_le. lia.
Qed.
Lemma encs_len srs its : Forall item_ok its -> 8 * lenN its <= lenN (encs srs its).
Proof. induction 1 as [|i its Hi _ IH]; [reflexivity|]. rewrite encs_cons, lenN_app, lenN_cons. pose proof (enc_len srs i Hi). lia. Qed.
Lemma run_items {S} check srs stop act (act' : S -> N -> item -> result (S * bool)) (f : bytes) its a r s : f = a ++ encs srs its ++ r -> lenN r < 8 -> Forall item_ok its ->
  (check = true -> srs = false /\ forall its1 size name its2, its = its1 ++ Lst (bstr "LIST") size name :: its2 -> lenN a + lenN (encs srs its1) + 8 + size <= lenN f) ->
  acts srs act act' f its -> riff_run check stop act f (lenN a) s = irun srs stop act' its (lenN a) s.
Proof.
  intros E R I C A. apply run_loop with (r := r); try assumption. pose proof (encs_len srs its I) as L.
  assert (lenN f = lenN a + lenN (encs srs its) + lenN r) by (rewrite E, !lenN_app; lia). rewrite !lenN_length in *. lia.
Qed.
Lemma run_items0 {S} check srs stop act (act' : S -> N -> item -> result (S * bool)) (f : bytes) its r s : f = encs srs its ++ r -> lenN r < 8 -> Forall item_ok its ->
  (check = true -> srs = false /\ forall its1 size name its2, its = its1 ++ Lst (bstr "LIST") size name :: its2 -> lenN (encs srs its1) + 8 + size <= lenN f) ->
  acts srs act act' f its -> riff_run check stop act f 0 s = irun srs stop act' its 0 s.
Proof. exact (run_items check srs stop act act' f its [] r s). Qed.

(** ** Contents *)
Lemma pad_is (f a pad r : bytes) c : f = a ++ pad ++ r -> (lenN pad = Z.to_N (c_length c mod 2))%Z -> riff_pad f c (lenN a) = Ok (pad, lenN a + lenN pad).
Proof.
  intros -> L. unfold riff_pad, has_padding. destruct (Z.eqb_spec (c_length c mod 2) 1) as [E|E].
  - rewrite E in L. change (Z.to_N 1) with 1 in L. rewrite (sub_app_exact a pad r) by (reflexivity || exact (eq_sym L)). rewrite L. destruct pad; [discriminate L|reflexivity].
  - assert (lenN pad = 0) by (pose proof (Z.mod_pos_bound (c_length c) 2 eq_refl); lia). rewrite (lenN_0 pad) by assumption. now rewrite N.add_0_r.
Qed.
Lemma pad_len cc data pad : item_ok (Chk cc data pad) -> lenN pad = Z.to_N (Z.of_N (lenN data) mod 2).
Proof. intros (_ & _ & _ & _ & P). rewrite P. rewrite <- (N2Z.id (lenN data mod 2)), N2Z.inj_mod. reflexivity. Qed.
Lemma ck_data cc data pad pos : lenN cc = 4 -> c_data (ck (Chk cc data pad) pos) = pos + 8.
Proof. intros H. unfold c_data. cbn [ck c_start c_header]. rewrite lenN_app, lenN_le, H. lia. Qed.
Section Contents.
Variables (f a b cc data pad : bytes).
Hypothesis I : item_ok (Chk cc data pad).
Let L4 : lenN cc = 4 := proj1 (proj1 I).
Lemma contents_is : f = a ++ enc false (Chk cc data pad) ++ b -> riff_contents f (ck (Chk cc data pad) (lenN a)) = data.
Proof.
  intros ->. unfold riff_contents. rewrite ck_data by exact L4. cbn [ck c_length enc andb]. unfold read_at. replace (Z.of_N (lenN data) <? 0)%Z with false by lia.
  rewrite N2Z.id. rewrite <- !app_assoc. rewrite (app_assoc cc), (app_assoc a). apply sub_app_exact; [rewrite !lenN_app, lenN_le; lia|reflexivity].
Qed.
Lemma read_is srs : f = a ++ enc srs (Chk cc data pad) ++ b -> (srs = true -> streamed cc = false) ->
  riff_read srs f (ck (Chk cc data pad) (lenN a)) = Ok (data, pad, lenN a + lenN (enc srs (Chk cc data pad))).
Proof.
  intros E Hs. assert (E' : f = a ++ enc false (Chk cc data pad) ++ b) by (rewrite E; cbn [enc andb]; destruct srs; [rewrite Hs by reflexivity|]; reflexivity).
  assert (Le : enc srs (Chk cc data pad) = enc false (Chk cc data pad)) by (cbn [enc andb]; destruct srs; [rewrite Hs by reflexivity|]; reflexivity). rewrite Le.
  unfold riff_read. replace (srs && is_movi (ck (Chk cc data pad) (lenN a))) with false.
  2: { destruct srs; [|reflexivity]. specialize (Hs eq_refl). cbn [ck is_movi c_kind andb]. unfold kind, streamed in *. destruct (stream_no cc); [discriminate Hs|]. now destruct (beqb cc (bstr "idx1")). }
  rewrite contents_is by exact E'. rewrite ck_data by exact L4. cbn [enc andb] in *.
  replace (lenN a + 8 + lenN data) with (lenN (a ++ cc ++ le 4 (lenN data) ++ data)) by (rewrite !lenN_app, lenN_le; lia).
  rewrite (pad_is f _ pad b) by ((rewrite E', <- !app_assoc; reflexivity) || exact (pad_len cc data pad I)). cbn [bind fst snd]. do 2 f_equal. rewrite !lenN_app. lia.
Qed.
Lemma skip_is : f = a ++ enc false (Chk cc data pad) ++ b -> riff_skip false f (ck (Chk cc data pad) (lenN a)) = Ok (pad, lenN a + lenN (enc false (Chk cc data pad))).
Proof.
  intros E. unfold riff_skip. cbn [andb]. rewrite ck_data by exact L4. cbn [enc andb] in *. cbn [ck c_length].
  replace (Z.to_N (Z.of_N (lenN a + 8) + Z.of_N (lenN data))) with (lenN (a ++ cc ++ le 4 (lenN data) ++ data)) by (rewrite !lenN_app, lenN_le; lia).
  etransitivity; [apply (pad_is f _ pad b); [rewrite E, <- !app_assoc; reflexivity|exact (pad_len cc data pad I)]|]. do 2 f_equal. rewrite !lenN_app. lia.
Qed.
Lemma skip_srs : f = a ++ enc true (Chk cc data pad) ++ b -> riff_skip true f (ck (Chk cc data pad) (lenN a)) = Ok (pad, lenN a + lenN (enc true (Chk cc data pad))).
Proof.
  intros E. destruct (streamed cc) eqn:Hs.
  - unfold riff_skip. replace (is_movi (ck (Chk cc data pad) (lenN a))) with true by (cbn [ck is_movi c_kind]; unfold kind, streamed in *; now destruct (stream_no cc)). cbn [andb]. rewrite ck_data by exact L4.
    cbn [enc andb] in *. rewrite Hs in *. cbn [app] in *. replace (lenN a + 8) with (lenN (a ++ cc ++ le 4 (lenN data))) by (rewrite !lenN_app, lenN_le; lia).
    etransitivity; [apply (pad_is f _ pad b); [rewrite E, <- !app_assoc; reflexivity|exact (pad_len cc data pad I)]|]. do 2 f_equal. rewrite !lenN_app. lia.
  - assert (X : enc true (Chk cc data pad) = enc false (Chk cc data pad)) by (cbn [enc andb]; now rewrite Hs). rewrite X in *. rewrite <- (skip_is E). unfold riff_skip.
    replace (is_movi (ck (Chk cc data pad) (lenN a))) with false; [reflexivity|]. cbn [ck is_movi c_kind]. unfold kind, streamed in *. destruct (stream_no cc); [discriminate Hs|]. now destruct (beqb cc (bstr "idx1")).
Qed.
End Contents.
