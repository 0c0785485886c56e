(** MkvRead: reading files that are made of elements. *)
From Verif Require Import Base BaseFacts Crc CrcFacts SrsRec SrsRecSpec SrsRecFacts Srs SrrFacts Ebml EbmlSpec EbmlFacts Mkv StrmSpec Mp3Spec MkvSpec.

(** ** Items *)
Definition is_data (id : bytes) : bool := beqb id file_contents.
(** in an SRS blocks and attached files have no data *)
Definition enc (srs : bool) (i : item) : bytes :=
  match i with
  | Open id w size => header id w size
  | Leaf id w d => header id w (lenN d) ++ (if srs && is_data id then [] else d)
  | Blk b => header (k_id b) (k_w b) (blk_size b) ++ blk_head b ++ (if srs then [] else concat (k_frames b))
  end.
Definition encs (srs : bool) (its : list item) : bytes := concat (map (enc srs) its).
Lemma enc_false i : enc false i = item_bytes i. Proof. now destruct i. Qed.
Lemma encs_false its : encs false its = bytes_of its.
Proof. unfold encs, bytes_of. now rewrite (map_ext _ _ enc_false). Qed.
Lemma encs_cons srs i its : encs srs (i :: its) = enc srs i ++ encs srs its. Proof. reflexivity. Qed.
Lemma encs_app srs a b : encs srs (a ++ b) = encs srs a ++ encs srs b. Proof. unfold encs. now rewrite map_app, concat_app. Qed.
Lemma bytes_cons i its : bytes_of (i :: its) = item_bytes i ++ bytes_of its. Proof. reflexivity. Qed.
Lemma bytes_app a b : bytes_of (a ++ b) = bytes_of a ++ bytes_of b. Proof. unfold bytes_of. now rewrite map_app, concat_app. Qed.
Lemma all_cons p ps : all_items (p :: ps) = items_of p ++ all_items ps. Proof. reflexivity. Qed.
Lemma all_app a b : all_items (a ++ b) = all_items a ++ all_items b. Proof. unfold all_items. now rewrite map_app, concat_app. Qed.
Definition head_of (i : item) : bytes :=
  match i with Open id w size => header id w size | Leaf id w d => header id w (lenN d) | Blk b => header (k_id b) (k_w b) (blk_size b) end.
Definition ek (i : item) (pos : N) : elem :=
  match i with
  | Open id w size => mkE id (Z.of_N size) (header id w size) pos None
  | Leaf id w d => mkE id (Z.of_N (lenN d)) (header id w (lenN d)) pos None
  | Blk b => mkE (k_id b) (Z.of_N (lenN (concat (k_frames b)))) (header (k_id b) (k_w b) (blk_size b)) pos
               (Some (mkB (k_no b) (map Z.of_N (map lenN (k_frames b))) (blk_head b) false))
  end.
Definition no_block (id : bytes) : Prop := id <> block_id /\ id <> simple_block.
(** what the reader needs *)
Definition syn (i : item) : Prop :=
  match i with
  | Open id w size => id_ok id /\ no_block id /\ vint_ok w size
  | Leaf id w d => id_ok id /\ no_block id /\ vint_ok w (lenN d)
  | Blk b => blk_ok b
  end.

(** ** One element *)
Lemma unle_one c : unle [c] = b2n c. Proof. cbn [unle]. lia. Qed.
Lemma id_parts id : id_ok id -> exists c r, id = c :: r /\ get_uint_length (b2n c) = lenN id.
Proof.
  intros (w & v & V & ->). destruct (vint_first w v V) as (c & r & E & L). exists c, r. split; [exact E|]. now rewrite L, lenN_vint.
Qed.
Lemma read_at_is (a b c : bytes) pos : pos = lenN a -> read_at (a ++ b ++ c) pos (Z.of_N (lenN b)) = b.
Proof. intros ->. unfold read_at. replace (Z.of_N (lenN b) <? 0)%Z with false by lia. rewrite N2Z.id. now apply sub_app_exact. Qed.
Lemma block_read (f a : bytes) b r : f = a ++ blk_head b ++ r -> blk_ok b ->
  read_block f (lenN a) (blk_size b) = Ok (mkB (k_no b) (map Z.of_N (map lenN (k_frames b))) (blk_head b) false).
Proof.
  intros E (_ & _ & V & Lt & La & Ht). unfold read_block. destruct (vint_first (k_tw b) (k_no b) V) as (c & t & Ev & L). pose proof (lenN_vint (k_tw b) (k_no b)) as Lv.
  assert (E1 : f = a ++ c :: (t ++ k_time b ++ k_flags b :: k_laces b) ++ r) by (rewrite E; unfold blk_head; rewrite Ev; cbn [app]; now rewrite <- !app_assoc).
  rewrite E1 at 1. rewrite byte_at_app. cbn [bind]. rewrite L. destruct V as (Vw & Vn).
  assert (E2 : f = a ++ vint (k_tw b) (k_no b) ++ (k_time b ++ [k_flags b]) ++ k_laces b ++ r) by (rewrite E; unfold blk_head; rewrite <- !app_assoc; cbn [app]; now rewrite <- ?app_assoc).
  assert (H1 : sub (lenN a) (N.max 1 (N.of_nat (k_tw b))) f = vint (k_tw b) (k_no b)) by (rewrite E2; apply sub_app_exact; [reflexivity|rewrite Lv; lia]). rewrite H1.
  assert (G : get_ebml_uint (vint (k_tw b) (k_no b)) 0 (N.of_nat (k_tw b)) = Ok (k_no b)).
  { pose proof (read_vint (k_tw b) (k_no b) (conj Vw Vn) [] []) as [X _]. cbn [app lenN] in X. rewrite app_nil_r in X. exact X. }
  rewrite G. cbn [bind].
  assert (H2 : sub (lenN a + lenN (vint (k_tw b) (k_no b))) 3 f = k_time b ++ [k_flags b]).
  { rewrite E2, (app_assoc a). apply sub_app_exact; [now rewrite lenN_app|]. rewrite lenN_app, Lt. reflexivity. }
  rewrite H2. assert (L2 : lenN (vint (k_tw b) (k_no b) ++ k_time b ++ [k_flags b]) = N.of_nat (k_tw b) + 3) by (rewrite !lenN_app, Lt, Lv; cbn [lenN]; lia).
  rewrite L2. replace (N.of_nat (k_tw b) + 3 <? 2) with false by lia.
  assert (H3 : byte_at (vint (k_tw b) (k_no b) ++ k_time b ++ [k_flags b]) (N.of_nat (k_tw b) + 3 - 1) = Ok (b2n (k_flags b))).
  { rewrite app_assoc. replace (N.of_nat (k_tw b) + 3 - 1) with (lenN (vint (k_tw b) (k_no b) ++ k_time b)) by (rewrite lenN_app, Lt, Lv; lia). apply byte_at_app. }
  rewrite H3. cbn [bind].
  assert (Et : total (map lenN (k_frames b)) = lenN (concat (k_frames b))).
  { clear. induction (k_frames b) as [|x l IH]; [reflexivity|]. cbn [map total fold_right concat]. fold (total (map lenN l)). now rewrite IH, lenN_app. }
  assert (Eh : blk_head b = (vint (k_tw b) (k_no b) ++ k_time b ++ [k_flags b]) ++ k_laces b) by (unfold blk_head; rewrite <- !app_assoc; reflexivity).
  assert (Es : (Z.of_N (blk_size b) - Z.of_N (N.of_nat (k_tw b) + 3) = Z.of_N (lenN (k_laces b) + total (map lenN (k_frames b))))%Z).
  { unfold blk_size. rewrite Eh, lenN_app, L2, Et. lia. }
  rewrite Es. change LACE_EBML with 6. fold (lace_type b).
  assert (E3 : f = (a ++ vint (k_tw b) (k_no b) ++ k_time b ++ [k_flags b]) ++ k_laces b ++ r) by (rewrite E2, <- !app_assoc; reflexivity).
  assert (L3 : lenN a + (N.of_nat (k_tw b) + 3) = lenN (a ++ vint (k_tw b) (k_no b) ++ k_time b ++ [k_flags b])) by (rewrite lenN_app, L2; reflexivity).
  rewrite L3. pose proof (lengths_thm (lace_type b) (map lenN (k_frames b)) (k_laces b) (a ++ vint (k_tw b) (k_no b) ++ k_time b ++ [k_flags b]) r La) as X.
  rewrite <- E3 in X. rewrite X by (rewrite lenN_map; exact Ht). cbn [bind fst snd].
  assert (H4 : sub (lenN (a ++ vint (k_tw b) (k_no b) ++ k_time b ++ [k_flags b])) (lenN (k_laces b)) f = k_laces b) by (rewrite E3; now apply sub_app_exact).
  assert (Ov : (lace_type b =? 6) && match byte_at f (lenN (a ++ vint (k_tw b) (k_no b) ++ k_time b ++ [k_flags b]) + 1) with Ok 0 => true | _ => false end = false).
  { destruct (N.eqb_spec (lace_type b) 6) as [T|]; [cbn [andb]|reflexivity]. rewrite T in La, Ht. inversion La as [n Hl Hf Hh|n q Hc Hl Hf Hh|l n Hc Hl Hf Hh|n Hl Hf Hh|p w l n z Hp Hb Hc Hl Hf Hh].
    - exfalso. destruct Ht as [Ht|[Ht|Ht]]; [discriminate Ht|discriminate Ht|]. destruct (k_frames b) as [|y [|z l]]; [discriminate Hf|cbn in Ht; lia|discriminate Hf].
    - destruct (vint_first w p Hp) as (c1 & t1 & Ep & Lp). rewrite E3, <- Hh, Ep. cbn [app]. set (u := a ++ _ ++ _ ++ _). replace (u ++ n2b (1 + lenN l) :: c1 :: (t1 ++ z) ++ r) with ((u ++ [n2b (1 + lenN l)]) ++ c1 :: (t1 ++ z) ++ r) by now rewrite <- app_assoc.
      replace (lenN u + 1) with (lenN (u ++ [n2b (1 + lenN l)])) by (rewrite lenN_app; reflexivity). rewrite byte_at_app. destruct (b2n c1) eqn:E0; [|reflexivity]. exfalso. destruct Hp as (Hp & _). change (get_uint_length 0) with 0 in Lp. lia. }
  rewrite Ov, N.add_0_r, H4, <- Eh. reflexivity.
Qed.
Lemma syn_id i : syn i -> id_ok (e_id (ek i 0)) .
Proof.
  destruct i as [id w n|id w d|b]; cbn [syn ek e_id]; [intros H; apply H|intros H; apply H|]. intros ([-> | ->] & _); [exists 1%nat, 33|exists 1%nat, 35]; repeat split; lia.
Qed.
(** an element without a block, by its header *)
Section Next.
Variables (check : bool) (f a id : bytes) (w : nat) (n : N) (r : bytes).
Hypothesis E : f = a ++ header id w n ++ r.
Hypothesis I : id_ok id.
Hypothesis V : vint_ok w n.
Hypothesis C : check = true -> id = segment \/ lenN a + lenN (header id w n) + n <= lenN f.
Lemma next_header : ebml_next check f (lenN a) =
  if beqb id BLOCK || beqb id SIMPLE_BLOCK then
    do b <- read_block f (lenN a + lenN (header id w n)) n;
    Ok (Some (mkE id (Z.of_N n - Z.of_N (lenN (b_header b))) (header id w n) (lenN a) (Some b)))
  else Ok (Some (mkE id (Z.of_N n) (header id w n) (lenN a) None)).
Proof.
  destruct (id_parts id I) as (c & t & Ei & Li). destruct (vint_first w n V) as (c2 & t2 & Ev & Lv). pose proof (lenN_vint w n) as Lw.
  assert (Lh : lenN (header id w n) = lenN id + N.of_nat w) by (unfold header; now rewrite lenN_app, Lw). pose proof (proj1 V) as Vw.
  assert (Lf : lenN f = lenN a + lenN id + N.of_nat w + lenN r) by (rewrite E; rewrite !lenN_app, Lh; lia). assert (L1 : lenN id = 1 + lenN t) by now rewrite Ei, lenN_cons.
  unfold ebml_next. replace (lenN f <? lenN a + 2) with false by lia.
  assert (E1 : f = a ++ [c] ++ (t ++ vint w n ++ r)) by (rewrite E; unfold header; rewrite Ei; cbn [app]; now rewrite <- ?app_assoc).
  assert (S0 : byte_at f (lenN a) = Ok (b2n c)) by (rewrite E1; exact (byte_at_app a c (t ++ vint w n ++ r))). rewrite S0. cbn [bind]. rewrite Li.
  assert (S1 : sub (lenN a) 1 f = [c]) by (rewrite E1; now apply sub_app_exact). rewrite S1.
  assert (S2 : read_at f (lenN a + 1) (Z.of_N (lenN id) - 1) = t).
  { replace (Z.of_N (lenN id) - 1)%Z with (Z.of_N (lenN t)) by lia. rewrite E1, (app_assoc a). apply read_at_is. now rewrite lenN_app. }
  rewrite S2. cbn [app]. rewrite <- Ei.
  assert (E2 : f = (a ++ id) ++ [c2] ++ t2 ++ r) by (rewrite E; unfold header; rewrite Ev; cbn [app]; rewrite <- ?app_assoc; cbn [app]; now rewrite <- ?app_assoc).
  assert (S3 : sub (lenN a + lenN id) 1 f = [c2]) by (rewrite E2; apply sub_app_exact; [now rewrite lenN_app|reflexivity]). rewrite S3. cbv zeta. rewrite unle_one, Lv.
  assert (L2 : N.of_nat w = 1 + lenN t2) by (rewrite <- Lw, Ev, lenN_cons; reflexivity).
  assert (S4 : read_at f (lenN a + lenN id + 1) (Z.of_N (N.of_nat w) - 1) = t2).
  { replace (Z.of_N (N.of_nat w) - 1)%Z with (Z.of_N (lenN t2)) by lia. rewrite E2, (app_assoc (a ++ id)). apply read_at_is. rewrite !lenN_app. cbn [lenN]. lia. }
  rewrite S4. cbn [app]. rewrite <- Ev. replace (c :: t ++ vint w n) with (header id w n) by (unfold header; now rewrite Ei). rewrite Lh, N.eqb_refl. cbn [negb].
  assert (T : takeN (lenN id) (header id w n) = id) by (unfold header; now apply takeN_app_exact). rewrite T.
  assert (G : get_ebml_uint (header id w n) (lenN id) (N.of_nat w) = Ok n).
  { destruct (read_vint w n V id []) as [X _]. rewrite app_nil_r in X. exact X. }
  rewrite G. cbn [bind].
  replace (check && negb (beqb id SEGMENT) && (lenN f <? lenN a + lenN id + N.of_nat w + n)) with false; [reflexivity|].
  destruct check; [|reflexivity]. destruct (C eq_refl) as [-> | X]; [reflexivity|]. replace (lenN f <? lenN a + lenN id + N.of_nat w + n) with false by lia. now rewrite andb_false_r.
Qed.
End Next.
Lemma no_block_is id : no_block id -> beqb id BLOCK || beqb id SIMPLE_BLOCK = false.
Proof.
  intros (A & B). apply orb_false_iff. split; apply not_true_is_false; rewrite beqb_eq; assumption.
Qed.
(** an element can be longer than the file only if nothing is checked *)
Definition fits (i : item) (pos len : N) : Prop :=
  match i with Open id w size => id = segment \/ pos + lenN (header id w size) + size <= len | _ => True end.
Lemma next_item check srs (f a r : bytes) i : f = a ++ enc srs i ++ r -> syn i -> (check = true -> srs = false /\ fits i (lenN a) (lenN f)) ->
  ebml_next check f (lenN a) = Ok (Some (ek i (lenN a))).
Proof.
  intros E I C. destruct i as [id w n|id w d|b]; cbn [enc] in E.
  - destruct I as (A & B & V). rewrite (next_header check f a id w n r E A V); [now rewrite (no_block_is id B)|]. intros X. exact (proj2 (C X)).
  - destruct I as (A & B & V). rewrite <- app_assoc in E. rewrite (next_header check f a id w (lenN d) _ E A V); [now rewrite (no_block_is id B)|]. intros X. right. destruct (C X) as (-> & _). rewrite E. cbn [andb]. rewrite !lenN_app. lia.
  - rewrite <- app_assoc in E. pose proof (syn_id (Blk b) I) as A. cbn [ek e_id] in A. rewrite (next_header check f a (k_id b) (k_w b) (blk_size b) _ E A); [|apply I|].
    + replace (beqb (k_id b) BLOCK || beqb (k_id b) SIMPLE_BLOCK) with true by (destruct I as ([-> | ->] & _); reflexivity).
      rewrite <- app_assoc in E. rewrite <- lenN_app. rewrite (block_read f (a ++ header (k_id b) (k_w b) (blk_size b)) b ((if srs then [] else concat (k_frames b)) ++ r)); [|rewrite E; now rewrite <- ?app_assoc|exact I]. cbn [bind b_header ek]. do 3 f_equal. unfold blk_size. lia.
    + intros X. right. destruct (C X) as (-> & _). rewrite E. rewrite !lenN_app. unfold blk_size. lia.
Qed.
Lemma next_end check (f a r : bytes) : f = a ++ r -> lenN r < 2 -> ebml_next check f (lenN a) = Ok None.
Proof. intros -> H. unfold ebml_next. rewrite lenN_app. now replace (lenN a + lenN r <? lenN a + 2) with true by lia. Qed.

(** ** The loop over items *)
Section Run.
Context {S : Type}.
(** [act'] says if the loop goes on *)
Fixpoint irun (srs : bool) (stop : S -> bool) (act' : S -> N -> item -> result (S * bool)) (its : list item) (pos : N) (s : S) : result S :=
  match its with
  | [] => Ok s
  | i :: its => if stop s then Ok s else do x <- act' s pos i; if snd x then irun srs stop act' its (pos + lenN (enc srs i)) (fst x) else Ok (fst x)
  end.
Definition acts (srs : bool) (act : S -> elem -> result (S * option N)) (act' : S -> N -> item -> result (S * bool)) (f : bytes) (its : list item) : Prop :=
  forall its1 i its2 a b s, its = its1 ++ i :: its2 -> a = encs srs its1 -> f = a ++ enc srs i ++ b -> act s (ek i (lenN a)) = do x <- act' s (lenN a) i; Ok (fst x, if snd x then Some (lenN a + lenN (enc srs i)) else None).
Lemma run_loop check srs stop act act' (f : bytes) all : forall its its1 r s fuel, all = its1 ++ its -> f = encs srs all ++ r -> lenN r < 2 -> (length its < fuel)%nat -> Forall syn its ->
  (check = true -> srs = false /\ forall x i y, all = x ++ i :: y -> fits i (lenN (encs srs x)) (lenN f)) ->
  acts srs act act' f all -> ebml_loop fuel check stop act f (lenN (encs srs its1)) s = irun srs stop act' its (lenN (encs srs its1)) s.
Proof.
  induction its as [|i its IH]; intros its1 r s fuel Ea E R Fu I C A; (destruct fuel as [|fuel]; [cbn [length] in Fu; lia|]); cbn [ebml_loop irun].
  - rewrite (next_end check f (encs srs its1) r); [reflexivity| |exact R]. rewrite E, Ea, app_nil_r. reflexivity.
  - pose proof (Forall_inv I) as Ii; pose proof (Forall_inv_tail I) as Is. assert (E' : f = encs srs its1 ++ enc srs i ++ (encs srs its ++ r)) by (rewrite E, Ea, encs_app, encs_cons, <- !app_assoc; reflexivity).
    rewrite (next_item check srs f (encs srs its1) (encs srs its ++ r) i E' Ii) by (intros X; destruct (C X) as (Y & Z); split; [exact Y|exact (Z its1 i its Ea)]).
    cbn [bind]. destruct (stop s); [reflexivity|]. rewrite (A its1 i its (encs srs its1) (encs srs its ++ r) s Ea eq_refl E'). destruct (act' s (lenN (encs srs its1)) i) as [x|e]; [|reflexivity]. cbn [bind fst snd].
    destruct (snd x); [|reflexivity]. rewrite <- lenN_app. replace (encs srs its1 ++ enc srs i) with (encs srs (its1 ++ [i])) by (rewrite encs_app; f_equal; apply app_nil_r).
    apply (IH (its1 ++ [i]) r); try assumption; [rewrite <- app_assoc; exact Ea|cbn [length] in Fu; lia].
Qed.
End Run.
Lemma header_len id w n : id_ok id -> vint_ok w n -> 2 <= lenN (header id w n).
Proof. intros I V. destruct (id_parts id I) as (c & r & -> & _). unfold header. rewrite lenN_app, lenN_cons, lenN_vint. destruct V. lia. Qed.
Lemma enc_len srs i : syn i -> 2 <= lenN (enc srs i).
Proof.
  intros I. pose proof (syn_id i I) as J. destruct i as [id w n|id w d|b]; cbn [syn enc ek e_id] in *.
  - apply header_len; apply I.
  - rewrite lenN_app. assert (2 <= lenN (header id w (lenN d))) by (apply header_len; apply I). lia.
  - rewrite lenN_app. assert (2 <= lenN (header (k_id b) (k_w b) (blk_size b))) by (apply header_len; [exact J|apply I]). lia.
Qed.
Lemma encs_len srs its : Forall syn its -> 2 * lenN its <= lenN (encs srs its).
Proof. induction 1 as [|i its Hi _ IH]; [reflexivity|]. rewrite encs_cons, lenN_app, lenN_cons. pose proof (enc_len srs i Hi). lia. Qed.
Lemma run_items {S} check srs stop act (act' : S -> N -> item -> result (S * bool)) (f : bytes) its r s : f = encs srs its ++ r -> lenN r < 2 -> Forall syn its ->
  (check = true -> srs = false /\ forall x i y, its = x ++ i :: y -> fits i (lenN (encs srs x)) (lenN f)) ->
  acts srs act act' f its -> ebml_run check stop act f s = irun srs stop act' its 0 s.
Proof.
  intros E R I C A. unfold ebml_run. apply (run_loop check srs stop act act' f its its [] r); try assumption; [reflexivity|]. pose proof (encs_len srs its I) as L.
  assert (lenN f = lenN (encs srs its) + lenN r) by (rewrite E, lenN_app; lia). rewrite !lenN_length in *. lia.
Qed.

(** ** Contents *)
Lemma open_data id w n pos : e_data (ek (Open id w n) pos) = pos + lenN (enc false (Open id w n)).
Proof. unfold e_data. cbn [ek e_start e_header e_block enc]. lia. Qed.
Lemma leaf_data id w d pos : e_data (ek (Leaf id w d) pos) = pos + lenN (header id w (lenN d)).
Proof. unfold e_data. cbn [ek e_start e_header e_block]. lia. Qed.
Lemma blk_data b pos : e_data (ek (Blk b) pos) = pos + lenN (header (k_id b) (k_w b) (blk_size b) ++ blk_head b).
Proof. unfold e_data. cbn [ek e_start e_header e_block b_header]. rewrite lenN_app. lia. Qed.
Lemma same_pos i pos : e_pos (ek i pos) = e_data (ek i pos).
Proof. now destruct i. Qed.
Section Contents.
Variables (f a b : bytes).
Lemma leaf_read srs id w d : f = a ++ enc srs (Leaf id w d) ++ b -> (srs = true -> is_data id = false) ->
  ebml_read srs f (ek (Leaf id w d) (lenN a)) = (d, lenN a + lenN (enc srs (Leaf id w d))).
Proof.
  intros E Hs. assert (E' : f = (a ++ header id w (lenN d)) ++ d ++ b).
  { rewrite E. cbn [enc]. destruct srs; [rewrite Hs by reflexivity|]; cbn [andb]; now rewrite <- !app_assoc. }
  unfold ebml_read. change (is_block (ek (Leaf id w d) (lenN a))) with false. rewrite andb_false_r, same_pos, leaf_data. change (e_length (ek (Leaf id w d) (lenN a))) with (Z.of_N (lenN d)). cbv zeta.
  rewrite E'. rewrite (read_at_is _ d b) by now rewrite lenN_app. f_equal. cbn [enc]. destruct srs; [rewrite Hs by reflexivity|]; cbn [andb]; rewrite lenN_app; lia.
Qed.
Lemma leaf_skip srs id w d : (srs = true -> is_data id = false) -> ebml_skip srs (ek (Leaf id w d) (lenN a)) = lenN a + lenN (enc srs (Leaf id w d)).
Proof.
  intros Hs. unfold ebml_skip. change (is_block (ek (Leaf id w d) (lenN a))) with false. rewrite andb_false_r, same_pos, leaf_data. change (e_length (ek (Leaf id w d) (lenN a))) with (Z.of_N (lenN d)).
  cbn [enc]. destruct srs; [rewrite Hs by reflexivity|]; cbn [andb]; rewrite lenN_app; lia.
Qed.
Lemma blk_read bl : f = a ++ enc false (Blk bl) ++ b -> ebml_read false f (ek (Blk bl) (lenN a)) = (concat (k_frames bl), lenN a + lenN (enc false (Blk bl))).
Proof.
  intros E. assert (E' : f = (a ++ header (k_id bl) (k_w bl) (blk_size bl) ++ blk_head bl) ++ concat (k_frames bl) ++ b) by (rewrite E; cbn [enc]; now rewrite <- !app_assoc).
  unfold ebml_read. cbn [andb]. rewrite same_pos, blk_data. change (e_length (ek (Blk bl) (lenN a))) with (Z.of_N (lenN (concat (k_frames bl)))). rewrite E'. rewrite (read_at_is _ (concat (k_frames bl)) b) by now rewrite !lenN_app.
  f_equal. cbn [enc]. rewrite !lenN_app. lia.
Qed.
Lemma blk_skip bl : ebml_skip false (ek (Blk bl) (lenN a)) = lenN a + lenN (enc false (Blk bl)).
Proof.
  unfold ebml_skip. cbn [andb]. rewrite same_pos, blk_data. change (e_length (ek (Blk bl) (lenN a))) with (Z.of_N (lenN (concat (k_frames bl)))). cbn [enc]. rewrite !lenN_app. lia.
Qed.
End Contents.

(** ** Groups that are gone into or not *)
Definition look (inside : bool) (p : part) : list item :=
  match p with One i => [i] | Group id w its => if inside then Open id w (lenN (bytes_of its)) :: its else [Leaf id w (bytes_of its)] end.
Fixpoint looks (inside : N -> part -> bool) (pos : N) (ps : list part) : list item :=
  match ps with [] => [] | p :: ps => look (inside pos p) p ++ looks inside (pos + lenN (bytes_of (items_of p))) ps end.
Lemma look_all p : look true p = items_of p. Proof. now destruct p. Qed.
Lemma looks_all inside : (forall pos p, inside pos p = true) -> forall ps pos, looks inside pos ps = all_items ps.
Proof. intros H. induction ps as [|p ps IH]; intros pos; [reflexivity|]. cbn [looks]. rewrite H, look_all, IH. reflexivity. Qed.
Definition in_groups (ids : list bytes) (pos : N) (p : part) : bool := match p with One _ => true | Group id _ _ => existsb (beqb id) ids end.
Definition psyn (p : part) : Prop :=
  match p with One i => syn i | Group id w its => id_ok id /\ no_block id /\ vint_ok w (lenN (bytes_of its)) /\ Forall syn its end.
Lemma look_syn b p : psyn p -> Forall syn (look b p).
Proof.
  destruct p as [i|id w its]; cbn [psyn look]; [intros H; constructor; [exact H|constructor]|]. intros (A & B & C & D). destruct b; constructor; try exact D; try constructor; cbn [syn]; auto.
Qed.
Lemma looks_syn c ps : Forall psyn ps -> forall pos, Forall syn (looks c pos ps).
Proof. induction 1 as [|p ps H _ IH]; intros pos; [constructor|]. cbn [looks]. apply Forall_app. split; [now apply look_syn|apply IH]. Qed.
Lemma look_bytes b p : bytes_of (look b p) = bytes_of (items_of p).
Proof. destruct p as [i|id w its]; [reflexivity|]. destruct b; [reflexivity|]. cbn [look items_of]. rewrite !bytes_cons. cbn [item_bytes bytes_of map concat]. now rewrite app_nil_r. Qed.
Lemma looks_bytes c ps : forall pos, bytes_of (looks c pos ps) = file_of ps.
Proof. unfold file_of. induction ps as [|p ps IH]; intros pos; [reflexivity|]. cbn [looks]. now rewrite bytes_app, look_bytes, IH, all_cons, bytes_app. Qed.

(** ** The ids *)
Definition opens : list bytes := [segment; cluster; block_group; tracks; track_entry; encodings; encoding; compression; attachments; attached].
Definition leaves : list bytes := [track_number; codec; algorithm; settings; file_name; file_contents].
Definition plain (id : bytes) : Prop := ~ In id special.
Definition sorted (i : item) : Prop :=
  match i with
  | Open id _ _ => In id opens
  | Leaf id _ d => (plain id \/ In id leaves) /\ (id = track_number \/ id = algorithm -> number_ok d)
  | Blk b => blk_ok b
  end.
Lemma incl_b a b : forallb (fun x => existsb (beqb x) b) a = true -> incl a b.
Proof. intros H x Hx. rewrite forallb_forall in H. specialize (H x Hx). apply existsb_exists in H as (y & Hy & E). apply beqb_eq in E. now subst. Qed.
Lemma plain_in l id : plain id -> forallb (fun x => existsb (beqb x) special) l = true -> existsb (beqb id) l = false.
Proof. intros P H. apply not_true_is_false. intros X. apply existsb_exists in X as (y & Hy & E). apply beqb_eq in E. subst y. exact (P (incl_b l special H id Hy)). Qed.
Lemma plain_is x id : plain id -> existsb (beqb x) special = true -> beqb id x = false.
Proof. intros P H. pose proof (plain_in [x] id P) as X. cbn [forallb existsb] in X. rewrite orb_false_r in X. apply X. now rewrite andb_true_r. Qed.
Lemma special_id id : In id special -> id_ok id.
Proof.
  intros H. assert (G : forall x w, (1 <= w <= 8)%nat -> length x = w -> 2 ^ (7 * N.of_nat w) <= unbe x < 2 * 2 ^ (7 * N.of_nat w) -> id_ok x).
  { intros x w W L (A & B). exists w, (unbe x - 2 ^ (7 * N.of_nat w)). split; [split; [exact W|lia]|]. unfold vint. replace (2 ^ (7 * N.of_nat w) + (unbe x - 2 ^ (7 * N.of_nat w))) with (unbe x) by lia. rewrite <- L. symmetry. apply be_unbe. }
  assert (K : forallb (fun x => (1 <=? lenN x) && (lenN x <=? 8) && (2 ^ (7 * lenN x) <=? unbe x) && (unbe x <? 2 * 2 ^ (7 * lenN x))) special = true) by (vm_compute; reflexivity).
  rewrite forallb_forall in K. specialize (K id H). rewrite !andb_true_iff in K. rewrite lenN_length in K. apply (G id (length id)); [lia|reflexivity|lia].
Qed.
Lemma special_no_block id : existsb (beqb id) [block_id; simple_block] = false -> no_block id.
Proof. cbn [existsb]. rewrite !orb_false_iff. intros (A & B & _). split; intros ->; [rewrite beqb_refl in A|rewrite beqb_refl in B]; discriminate. Qed.
Lemma opens_syn id : In id opens -> id_ok id /\ no_block id.
Proof.
  intros H. split; [apply special_id; revert H; apply (incl_b opens special eq_refl)|]. apply special_no_block. apply not_true_is_false. intros X. apply existsb_exists in X as (y & Hy & E). apply beqb_eq in E. subst y.
  assert (Z : forallb (fun x => negb (existsb (beqb x) [block_id; simple_block])) opens = true) by reflexivity. rewrite forallb_forall in Z. specialize (Z id H). apply negb_true_iff in Z.
  assert (existsb (beqb id) [block_id; simple_block] = true); [|congruence]. apply existsb_exists. exists id. split; [exact Hy|apply beqb_refl].
Qed.
Lemma leaves_no_block id : plain id \/ In id leaves -> no_block id.
Proof.
  intros [P|H]; [split; intros ->; apply P; [do 3 right; now left|do 4 right; now left]|]. split; intros ->; revert H; intros H; repeat (destruct H as [H|H]; [discriminate H|]); destruct H.
Qed.
Lemma item_sorted o l B i : incl o opens -> incl l leaves -> item_ok o l B i -> sorted i /\ syn i.
Proof.
  intros Io Il. destruct i as [id w n|id w d|b]; cbn [item_ok sorted syn].
  - intros (H & V). apply Io in H. split; [exact H|]. destruct (opens_syn id H). auto.
  - intros (H & V & K & Nu). assert (K' : plain id \/ In id leaves) by (destruct K as [K|K]; [now left|right; now apply Il]). split; [now split|]. split; [exact H|]. split; [now apply leaves_no_block|exact V].
  - intros (_ & H). now split.
Qed.
Lemma group_sorted id i : group_ok id i -> sorted i /\ syn i.
Proof. intros [(_ & H) | [(_ & H) | (_ & H)]]; eapply item_sorted; try exact H; apply incl_b; reflexivity. Qed.
Lemma part_syn p : part_ok p -> psyn p /\ Forall sorted (items_of p).
Proof.
  destruct p as [i|id w its]; cbn [part_ok psyn items_of].
  - intros H. destruct (item_sorted [segment] [] False i (incl_b [segment] opens eq_refl) (incl_b [] leaves eq_refl) H) as (A & B). split; [exact B|]. constructor; [exact A|constructor].
  - intros (Hid & V & F & _). assert (Ho : In id opens) by (revert Hid; apply incl_b; reflexivity). destruct (opens_syn id Ho) as (A & B).
    assert (G : Forall (fun i => sorted i /\ syn i) its) by (eapply Forall_impl; [|exact F]; intros i; apply group_sorted).
    split; [split; [exact A|]; split; [exact B|]; split; [exact V|]; eapply Forall_impl; [|exact G]; now intros i (_ & H)|].
    constructor; [exact Ho|]. eapply Forall_impl; [|exact G]; now intros i (H & _).
Qed.
Lemma parts_syn ps : Forall part_ok ps -> Forall psyn ps /\ Forall sorted (all_items ps).
Proof.
  induction 1 as [|p ps H _ (IH1 & IH2)]; [split; constructor|]. destruct (part_syn p H) as (A & B). split; [now constructor|]. rewrite all_cons. apply Forall_app. now split.
Qed.
(** in a sample the sizes can be checked *)
Lemma app_split {A} (a b x y : list A) i : a ++ b = x ++ i :: y -> (exists y1, a = x ++ i :: y1 /\ y = y1 ++ b) \/ (exists x1, x = a ++ x1 /\ b = x1 ++ i :: y).
Proof.
  revert x. induction a as [|q a IH]; intros x E.
  - right. exists x. split; [reflexivity|exact E].
  - destruct x as [|q' x]; cbn [app] in E.
    + left. injection E as -> E. exists a. split; [reflexivity|now symmetry].
    + injection E as -> E. destruct (IH x E) as [(y1 & -> & ->)|(x1 & -> & ->)]; [left; now exists y1|right; now exists x1].
Qed.
Lemma parts_fit ps : Forall part_ok ps -> forall x i y, all_items ps = x ++ i :: y -> fits i (lenN (bytes_of x)) (lenN (file_of ps)).
Proof.
  intros F x i y E. destruct i as [id w n| |]; [|exact I|exact I]. cbn [fits]. unfold file_of. rewrite E, bytes_app, bytes_cons, !lenN_app. cbn [item_bytes].
  revert x E. induction F as [|p ps H _ IH]; intros x E; [destruct x; discriminate E|]. rewrite all_cons in E. apply app_split in E as [(y1 & E & ->)|(x1 & -> & E)].
  - destruct p as [j|gid gw its]; cbn [items_of] in E.
    + destruct x as [|q x]; [|destruct x; discriminate E]. injection E as -> <-. left. destruct H as ([H|[]] & _). now symmetry.
    + right. destruct H as (Hid & V & _ & Hs). destruct x as [|q x]; cbn [app] in E.
      * injection E as -> -> <- ->. rewrite bytes_app, lenN_app. lia.
      * injection E as <- E. specialize (Hs x id w n y1 E). rewrite bytes_app, lenN_app. lia.
  - destruct (IH x1 E) as [IH1|IH1]; [now left|right]. rewrite bytes_app, lenN_app. lia.
Qed.

(** ** Dictionaries *)
Section Dict.
Context {K A : Type} (eqb : K -> K -> bool) (eqb_ok : forall a b, eqb a b = true <-> a = b).
Lemma get_put_same k v (d : list (K * A)) : get eqb k (put eqb k v d) = Ok v.
Proof using eqb_ok.
  induction d as [|(q, w) d IH]; cbn [put get]; [now rewrite (proj2 (eqb_ok k k) eq_refl)|]. destruct (eqb q k) eqn:E; cbn [get]; rewrite E; [reflexivity|exact IH].
Qed.
Lemma get_put_other j k v (d : list (K * A)) : j <> k -> get eqb j (put eqb k v d) = get eqb j d.
Proof using eqb_ok.
  intros N. induction d as [|(q, w) d IH]; cbn [put get].
  - destruct (eqb k j) eqn:E; [|reflexivity]. apply eqb_ok in E. now symmetry in E.
  - destruct (eqb q k) eqn:E; cbn [get].
    + destruct (eqb q j) eqn:E2; [|reflexivity]. apply eqb_ok in E, E2. now subst.
    + now rewrite IH.
Qed.
Lemma get_err k e (d : list (K * A)) : get eqb k d = Err e -> e = KeyError.
Proof. induction d as [|(q, w) d IH]; cbn [get]; [congruence|]. destruct (eqb q k); [discriminate|exact IH]. Qed.
Lemma get_in k v (d : list (K * A)) : get eqb k d = Ok v -> In (k, v) d.
Proof using eqb_ok.
  induction d as [|(q, w) d IH]; cbn [get]; [discriminate|]. destruct (eqb q k) eqn:E; [|right; now apply IH]. apply eqb_ok in E. subst q. intros X. apply ok_inj in X. subst w. now left.
Qed.
Lemma in_get k v (d : list (K * A)) : NoDup (map fst d) -> In (k, v) d -> get eqb k d = Ok v.
Proof using eqb_ok.
  induction d as [|(q, w) d IH]; intros Nd H; [destruct H|]. cbn [map fst] in Nd. inversion Nd as [|? ? Nq Nd']; subst. cbn [get]. destruct H as [H|H].
  - injection H as -> ->. now rewrite (proj2 (eqb_ok k k) eq_refl).
  - destruct (eqb q k) eqn:E; [|now apply IH]. apply eqb_ok in E. subst q. exfalso. apply Nq. apply in_map_iff. now exists (k, v).
Qed.
Lemma keys_put k v (d : list (K * A)) : map fst (put eqb k v d) = match get eqb k d with Ok _ => map fst d | Err _ => map fst d ++ [k] end.
Proof. induction d as [|(q, w) d IH]; [reflexivity|]. cbn [put get]. destruct (eqb q k); [reflexivity|]. cbn [map fst]. rewrite IH. destruct (get eqb k d); reflexivity. Qed.
Lemma put_nodup k v (d : list (K * A)) : NoDup (map fst d) -> NoDup (map fst (put eqb k v d)).
Proof using eqb_ok.
  intros H. rewrite keys_put. destruct (get eqb k d) as [x|e] eqn:G; [exact H|]. apply NoDup_rev in H. rewrite <- (rev_involutive (map fst d ++ [k])). apply NoDup_rev. rewrite rev_app_distr. cbn [rev app]. constructor; [|exact H]. rewrite <- in_rev. intros X.
  apply in_map_iff in X as ((q, w) & Eq & Hi). cbn [fst] in Eq. subst q. rewrite (in_get k w d) in G; [discriminate| |exact Hi]. apply NoDup_rev in H. now rewrite rev_involutive in H.
Qed.
Lemma get_with_key j k v (d : list (K * A)) : get eqb j (with_key eqb k v d) = match get eqb j d with Ok x => Ok x | Err e => if eqb k j then Ok v else Err e end.
Proof using eqb_ok.
  unfold with_key. destruct (get eqb k d) as [x|e] eqn:G.
  - destruct (get eqb j d) as [y|e] eqn:G2; [reflexivity|]. destruct (eqb k j) eqn:E; [|reflexivity]. apply eqb_ok in E. subst. congruence.
  - destruct (eqb k j) eqn:E.
    + apply eqb_ok in E. subst j. rewrite G. apply get_put_same.
    + rewrite get_put_other by (intros ->; rewrite (proj2 (eqb_ok k k) eq_refl) in E; discriminate). now destruct (get eqb j d).
Qed.
Lemma with_key_nodup k v (d : list (K * A)) : NoDup (map fst d) -> NoDup (map fst (with_key eqb k v d)).
Proof using eqb_ok. intros H. unfold with_key. destruct (get eqb k d); [exact H|now apply put_nodup]. Qed.
End Dict.
