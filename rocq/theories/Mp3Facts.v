(** Mp3Facts: reading MP3 files and their SRS files. *)
From Coq Require Import Permutation Sorted.
From Verif Require Import Base BaseFacts SrrFacts Crc CrcFacts RecovFacts MatchFacts SrsRec SrsRecSpec SrsRecFacts Path Srs StrmSpec StrmSrs StrmFacts Mp3 Mp3Spec.

(** ** Blocks one behind the other *)
Fixpoint lay (pos : N) (l : list (text * bytes)) : list mblock :=
  match l with
  | [] => []
  | (ty, d) :: l => mkM (Z.of_N (lenN d)) ty (Z.of_N pos) :: lay (pos + lenN d) l
  end.
Definition flat (l : list (text * bytes)) : bytes := concat (map snd l).
Lemma flat_cons p l : flat (p :: l) = snd p ++ flat l. Proof. reflexivity. Qed.
Lemma flat_app a b : flat (a ++ b) = flat a ++ flat b.
Proof. unfold flat. now rewrite map_app, concat_app. Qed.
Lemma lay_app a : forall b pos, lay pos (a ++ b) = lay pos a ++ lay (pos + lenN (flat a)) b.
Proof.
  induction a as [|[ty d] a IH]; intros b pos; cbn [app lay].
  - change (lenN (flat [])) with 0. now rewrite N.add_0_r.
  - rewrite IH, flat_cons, lenN_app. cbn [snd]. now rewrite N.add_assoc.
Qed.
Definition mlt (a b : mblock) : Prop := (m_start a < m_start b)%Z.
Lemma lay_ge l : forall pos b, In b (lay pos l) -> (Z.of_N pos <= m_start b)%Z.
Proof.
  induction l as [|[ty d] l IH]; intros pos b; cbn [lay]; [intros []|]. intros [<-|H]; [cbn [m_start]; lia|]. apply IH in H. lia.
Qed.
Lemma lay_sorted l : forall pos, Forall (fun p : text * bytes => snd p <> []) l -> StronglySorted mlt (lay pos l).
Proof.
  induction l as [|[ty d] l IH]; intros pos H; cbn [lay]; [constructor|]. inversion H as [|? ? Hd Hl]; subst. constructor; [now apply IH|].
  apply Forall_forall. intros b Hb. apply lay_ge in Hb. unfold mlt. cbn [m_start snd] in *. destruct d as [|c d]; [congruence|]. rewrite lenN_cons in Hb. lia.
Qed.
Lemma insert_perm b l : Permutation (b :: l) (m_insert b l).
Proof.
  induction l as [|c l IH]; cbn [m_insert]; [reflexivity|]. destruct (_ <=? _)%Z; [reflexivity|]. rewrite perm_swap. now constructor.
Qed.
Lemma sort_perm l : Permutation l (m_sort l).
Proof. induction l as [|b l IH]; cbn; [constructor|]. rewrite <- insert_perm. now constructor. Qed.
Definition mle (a b : mblock) : Prop := (m_start a <= m_start b)%Z.
Lemma insert_sorted b l : StronglySorted mle l -> StronglySorted mle (m_insert b l).
Proof.
  induction l as [|c l IH]; intros H; cbn [m_insert]; [repeat constructor|]. inversion H as [|? ? Hs Hf]; subst. destruct (Z.leb_spec (m_start b) (m_start c)).
  - constructor; [exact H|]. constructor; [exact H0|]. eapply Forall_impl; [|exact Hf]. intros a. unfold mle. cbn beta. lia.
  - constructor; [now apply IH|]. apply Forall_forall. intros a Ha. apply (Permutation_in a (Permutation_sym (insert_perm b l))) in Ha as [<-|Ha]; [unfold mle; lia|].
    rewrite Forall_forall in Hf. now apply Hf.
Qed.
Lemma sort_sorted l : StronglySorted mle (m_sort l).
Proof. induction l as [|b l IH]; cbn; [constructor|]. now apply insert_sorted. Qed.
Lemma sorted_eq l1 : forall l2, StronglySorted mle l1 -> StronglySorted mlt l2 -> Permutation l1 l2 -> l1 = l2.
Proof.
  induction l1 as [|a l1 IH]; intros l2 H1 H2 P; [now apply Permutation_nil in P|]. destruct l2 as [|b l2]; [symmetry in P; now apply Permutation_nil in P|].
  inversion H1 as [|? ? S1 F1]; subst. inversion H2 as [|? ? S2 F2]; subst. rewrite Forall_forall in F1, F2.
  assert (a = b).
  { assert (A : In a (b :: l2)) by (eapply Permutation_in; [exact P|now left]). assert (B : In b (a :: l1)) by (eapply Permutation_in; [symmetry; exact P|now left]).
    destruct A as [A|A]; [congruence|]. destruct B as [B|B]; [congruence|]. apply F2 in A. apply F1 in B. unfold mlt, mle in *. lia. }
  subst b. f_equal. apply IH; auto. now apply Permutation_cons_inv in P.
Qed.
Lemma sort_lay l pos parts : Permutation l (lay pos parts) -> Forall (fun p : text * bytes => snd p <> []) parts -> m_sort l = lay pos parts.
Proof.
  intros P H. apply sorted_eq; [apply sort_sorted|now apply lay_sorted|]. now rewrite <- sort_perm.
Qed.
(** reading what is in a block *)
Lemma zread_at (a d c : bytes) pos n : (pos = Z.of_N (lenN a))%Z -> n = Z.of_N (lenN d) -> zread (a ++ d ++ c) pos n = Ok d.
Proof.
  intros -> ->. unfold zread, read_at. replace (Z.of_N (lenN a) <? 0)%Z with false by lia. replace (Z.of_N (lenN d) <? 0)%Z with false by lia.
  rewrite !N2Z.id. f_equal. now apply sub_app_exact.
Qed.
Lemma contents_at (a d c : bytes) ty : m_contents (a ++ d ++ c) (mkM (Z.of_N (lenN d)) ty (Z.of_N (lenN a))) = Ok d.
Proof. unfold m_contents. cbn [m_start m_size]. now apply zread_at. Qed.
Lemma part_at (a d c : bytes) ty n off : (0 <= off)%Z -> (0 <= n)%Z -> (off + n <= Z.of_N (lenN d))%Z ->
  m_part (a ++ d ++ c) (mkM (Z.of_N (lenN d)) ty (Z.of_N (lenN a))) n off = Ok (sub (Z.to_N off) (Z.to_N n) d).
Proof.
  intros H1 H2 H3. unfold m_part. cbn [m_start m_size].
  replace (Z.of_N (lenN a) + Z.of_N (lenN d) <? Z.of_N (lenN a) + off + n)%Z with false by lia.
  replace (a ++ d ++ c) with ((a ++ takeN (Z.to_N off) d) ++ sub (Z.to_N off) (Z.to_N n) d ++ (dropN (Z.to_N n) (dropN (Z.to_N off) d)) ++ c).
  - apply zread_at; [rewrite lenN_app, lenN_takeN; lia|rewrite lenN_sub; lia].
  - rewrite <- app_assoc. f_equal. rewrite (app_assoc (sub _ _ _)). unfold sub. rewrite takeN_dropN, app_assoc, takeN_dropN. reflexivity.
Qed.

(** ** The tags at the end *)
Section Int.
Variable py_int : bytes -> result Z.
Hypothesis Hint : reads_digits py_int.
Lemma ends_drop (p s : bytes) : dropN (lenN p - lenN s) p = s <-> ends s p.
Proof.
  split.
  - intros H. exists (takeN (lenN p - lenN s) p). rewrite <- H at 2. now rewrite takeN_dropN.
  - intros (r & ->). apply dropN_app_exact. rewrite lenN_app. lia.
Qed.
Lemma before_sub (p s : bytes) n : s <> [] -> sub (lenN p - n) (lenN s) p = s -> n <= lenN p -> lenN s <= n -> before_end s p n.
Proof.
  intros Hs H Hn Hl. apply (occurs_occ s p _ Hs) in H. destruct H as (a & b & E & La). exists a, b. split; [exact E|]. rewrite E, !lenN_app in *. lia.
Qed.
Lemma zread_end (p rest : bytes) n : n <= lenN p -> zread (p ++ rest) (Z.of_N (lenN p) - Z.of_N n) (Z.of_N n) = Ok (dropN (lenN p - n) p).
Proof.
  intros H. rewrite <- (takeN_dropN (lenN p - n) p) at 1. rewrite <- app_assoc. apply zread_at; [rewrite lenN_takeN|rewrite lenN_dropN]; lia.
Qed.
Lemma zread_in (p rest : bytes) n k : n <= lenN p -> k <= n -> zread (p ++ rest) (Z.of_N (lenN p) - Z.of_N n) (Z.of_N k) = Ok (sub (lenN p - n) k p).
Proof.
  intros H Hk. unfold sub. rewrite <- (takeN_dropN (lenN p - n) p) at 1. rewrite <- (takeN_dropN k (dropN (lenN p - n) p)) at 1. rewrite <- !app_assoc.
  apply zread_at; [rewrite lenN_takeN|rewrite lenN_takeN, lenN_dropN]; lia.
Qed.
(** the block of a tag that is there *)
Definition tag_parts (ty : text) (o : option bytes) : list (text * bytes) := match o with Some t => [(ty, t)] | None => [] end.

Lemma tag_step (p : bytes) o : 128 <= lenN (p ++ opt o) ->
  match o with Some t => id3v1 t | None => ~ before_end (bstr "TAG") (p ++ opt o) 128 end ->
  step_tag (p ++ opt o) = Ok (lay (lenN p) (tag_parts (str "TAG") o), Z.of_N (lenN p)).
Proof.
  intros L H. unfold step_tag. pose proof (zread_in (p ++ opt o) [] 128 3 L) as R. rewrite app_nil_r in R.
  change (Z.of_N 128) with 128%Z in R. change (Z.of_N 3) with 3%Z in R. rewrite R by lia. clear R. cbn [bind]. destruct o as [t|]; cbn [opt tag_parts] in *.
  - destruct H as (r & -> & Lr). assert (Lt : lenN (p ++ bstr "TAG" ++ r) = lenN p + 128) by (rewrite !lenN_app, Lr; change (lenN (bstr "TAG")) with 3; lia).
    rewrite (sub_app_exact p (bstr "TAG") r) by (rewrite ?Lt; try reflexivity; lia). rewrite beqb_refl, Lt.
    cbn [lay]. replace (lenN (bstr "TAG" ++ r)) with 128 by (rewrite lenN_app, Lr; reflexivity). repeat f_equal; lia.
  - destruct (beqb _ _) eqn:E; [|cbn [lay]; now rewrite app_nil_r]. exfalso. apply H. apply beqb_eq in E. apply before_sub; [discriminate|exact E|exact L|]. change (lenN (bstr "TAG")) with 3. lia.
Qed.
Lemma lyrics2_step (p rest : bytes) o :
  match o with Some t => lyrics2 t | None => ~ ends (bstr "LYRICS200") (p ++ opt o) end ->
  step_lyrics2 py_int ((p ++ opt o) ++ rest) (Z.of_N (lenN (p ++ opt o))) = Ok (lay (lenN p) (tag_parts (str "LYRICS200") o), Z.of_N (lenN p)).
Proof.
  intros H. unfold step_lyrics2. destruct o as [t|]; cbn [opt tag_parts] in *.
  - destruct H as (b & d & -> & Hd). pose proof Hd as (Ld & _). pose proof (Hint d (lenN b) Hd) as I.
    assert (Lt : lenN (b ++ d ++ bstr "LYRICS200") = lenN b + 15) by (rewrite !lenN_app, Ld; change (lenN (bstr "LYRICS200")) with 9; lia).
    pose proof (zread_end (p ++ b ++ d ++ bstr "LYRICS200") rest 15) as R. rewrite !(lenN_app p), !Lt in R. change (Z.of_N 15) with 15%Z in R. rewrite !(lenN_app p), !Lt.
    replace (0 <=? Z.of_N (lenN p + (lenN b + 15)) - 15)%Z with true by lia. rewrite R by lia. cbn [bind].
    replace (p ++ b ++ d ++ bstr "LYRICS200") with ((p ++ b) ++ (d ++ bstr "LYRICS200")) by now rewrite <- app_assoc.
    rewrite (dropN_app_exact (p ++ b)) by (rewrite lenN_app; lia). rewrite (dropN_app_exact d) by lia. rewrite (takeN_app_exact d) by lia. rewrite beqb_refl, I. cbn [bind lay].
    rewrite Lt. repeat f_equal; lia.
  - rewrite app_nil_r in *. destruct (Z.leb_spec 0 (Z.of_N (lenN p) - 15)); [|reflexivity]. pose proof (zread_end p rest 15) as R. change (Z.of_N 15) with 15%Z in R. rewrite R by lia. cbn [bind].
    rewrite dropN_dropN. destruct (beqb _ _) eqn:E; [|reflexivity]. exfalso. apply H. apply beqb_eq in E. apply ends_drop. change (lenN (bstr "LYRICS200")) with 9. etransitivity; [|exact E]. f_equal. lia.
Qed.
Lemma lyrics1_step (p rest : bytes) o :
  match o with
  | Some t => lyrics1 t /\ 5100 <= lenN (p ++ t) /\ forall n, n <= 5100 -> before_end (bstr "LYRICSBEGIN") (p ++ t) n -> n <= lenN t
  | None => ~ ends (bstr "LYRICSEND") (p ++ opt o) end ->
  step_lyrics1 ((p ++ opt o) ++ rest) (Z.of_N (lenN (p ++ opt o))) = Ok (lay (lenN p) (tag_parts (str "LYRICS") o), Z.of_N (lenN p)).
Proof.
  intros H. unfold step_lyrics1. destruct o as [t|]; cbn [opt tag_parts] in *.
  - destruct H as ((Lm & b & Et) & L & First).
    assert (Lt : lenN t = 11 + lenN b + 9) by (rewrite Et, !lenN_app; change (lenN (bstr "LYRICSBEGIN")) with 11; change (lenN (bstr "LYRICSEND")) with 9; lia).
    rewrite lenN_app in L.
    pose proof (zread_end (p ++ t) rest 9) as R. rewrite lenN_app in R. change (Z.of_N 9) with 9%Z in R. rewrite (lenN_app p).
    replace (0 <=? Z.of_N (lenN p + lenN t) - 9)%Z with true by lia. rewrite R by lia. clear R. cbn [bind].
    assert (E9 : dropN (lenN p + lenN t - 9) (p ++ t) = bstr "LYRICSEND").
    { rewrite Et at 2. rewrite !app_assoc. apply dropN_app_exact. rewrite !lenN_app. change (lenN (bstr "LYRICSBEGIN")) with 11. lia. }
    rewrite E9, beqb_refl. pose proof (zread_end (p ++ t) rest 5100) as R. rewrite lenN_app in R. change (Z.of_N 5100) with 5100%Z in R. rewrite R by lia. clear R. cbn [bind].
    set (w := dropN (lenN p + lenN t - 5100) (p ++ t)). pose proof (find_spec (bstr "LYRICSBEGIN") w) as F.
    assert (Lw : lenN w = 5100) by (unfold w; rewrite lenN_dropN, lenN_app; lia).
    assert (O : occ (bstr "LYRICSBEGIN") w (5100 - lenN t)).
    { unfold occ, w. unfold sub. rewrite dropN_dropN. replace (5100 - lenN t + (lenN p + lenN t - 5100)) with (lenN p) by lia. rewrite dropN_app_exact by reflexivity. rewrite Et. now apply takeN_app_exact. }
    destruct (find_sub Byte.eqb (bstr "LYRICSBEGIN") w) as [i|]; [|exfalso; exact (F (5100 - lenN t) ltac:(lia) O)].
    destruct F as [Fo Fm]. assert (Li : i <= 5100 - lenN t) by (apply N.le_ngt; intros X; exact (Fm _ X O)).
    assert (G : 5100 - i <= lenN t).
    { apply First; [lia|]. apply before_sub; [discriminate| |rewrite lenN_app; lia|change (lenN (bstr "LYRICSBEGIN")) with 11; lia].
      unfold occ, w, sub in Fo. rewrite dropN_dropN in Fo. unfold sub. rewrite lenN_app. replace (lenN p + lenN t - (5100 - i)) with (i + (lenN p + lenN t - 5100)) by lia. exact Fo. }
    cbn [lay]. repeat f_equal; lia.
  - rewrite app_nil_r in *. destruct (Z.leb_spec 0 (Z.of_N (lenN p) - 9)); [|reflexivity]. pose proof (zread_end p rest 9) as R. change (Z.of_N 9) with 9%Z in R. rewrite R by lia. cbn [bind].
    destruct (beqb _ _) eqn:E; [|reflexivity]. exfalso. apply H. apply beqb_eq in E. apply ends_drop. exact E.
Qed.
Lemma ape_step (p rest : bytes) o :
  match o with Some t => ape_tag t | None => ~ before_end (bstr "APETAGEX") (p ++ opt o) 32 end ->
  step_ape ((p ++ opt o) ++ rest) (Z.of_N (lenN (p ++ opt o))) = Ok (lay (lenN p) (tag_parts (str "APE") o), Z.of_N (lenN p)).
Proof.
  intros H. unfold step_ape. destruct o as [t|]; cbn [opt tag_parts] in *.
  - destruct H as (h & items & v & r & Et & Hv & Hs & Lr & Lh).
    assert (Lt : lenN t = lenN h + lenN items + 32) by (rewrite Et, !lenN_app, !lenN_le, Lr; change (lenN (bstr "APETAGEX")) with 8; change (N.of_nat 4) with 4; lia).
    pose proof (zread_in (p ++ t) rest 32 8) as R. rewrite (lenN_app p) in *. rewrite Lt in R. rewrite Lt. change (Z.of_N 32) with 32%Z in R. change (Z.of_N 8) with 8%Z in R.
    replace (0 <=? Z.of_N (lenN p + (lenN h + lenN items + 32)) - 32)%Z with true by lia. rewrite R by lia. clear R. cbn [bind].
    assert (Ef : (p ++ t) ++ rest = (p ++ h ++ items) ++ bstr "APETAGEX" ++ le 4 v ++ le 4 (lenN items + 32) ++ r ++ rest) by (rewrite Et, <- !app_assoc; reflexivity).
    assert (E1 : sub (lenN p + (lenN h + lenN items + 32) - 32) 8 (p ++ t) = bstr "APETAGEX").
    { rewrite Et. replace (p ++ h ++ items ++ bstr "APETAGEX" ++ le 4 v ++ le 4 (lenN items + 32) ++ r) with ((p ++ h ++ items) ++ bstr "APETAGEX" ++ (le 4 v ++ le 4 (lenN items + 32) ++ r)) by (rewrite <- !app_assoc; reflexivity).
      apply sub_app_exact; [rewrite !lenN_app; lia|reflexivity]. }
    rewrite E1, beqb_refl. rewrite !Ef.
    assert (U1 : unpack 4 ((p ++ h ++ items) ++ bstr "APETAGEX" ++ le 4 v ++ le 4 (lenN items + 32) ++ r ++ rest) (Z.to_N (Z.of_N (lenN p + (lenN h + lenN items + 32)) - 24)) = Ok v).
    { rewrite app_assoc. apply unpack_at; [rewrite !lenN_app; change (lenN (bstr "APETAGEX")) with 8; lia|exact Hv]. }
    assert (U2 : unpack 4 ((p ++ h ++ items) ++ bstr "APETAGEX" ++ le 4 v ++ le 4 (lenN items + 32) ++ r ++ rest) (Z.to_N (Z.of_N (lenN p + (lenN h + lenN items + 32)) - 20)) = Ok (lenN items + 32)).
    { rewrite (app_assoc (p ++ h ++ items)), (app_assoc ((p ++ h ++ items) ++ _)). apply unpack_at; [rewrite !lenN_app, lenN_le; change (lenN (bstr "APETAGEX")) with 8; change (N.of_nat 4) with 4; lia|exact Hs]. }
    rewrite U1. cbn [bind]. rewrite U2. cbn [bind lay]. rewrite Lt, Lh. destruct (v =? 2000); repeat f_equal; lia.
  - rewrite app_nil_r in *. destruct (Z.leb_spec 0 (Z.of_N (lenN p) - 32)); [|reflexivity]. pose proof (zread_in p rest 32 8) as R. change (Z.of_N 32) with 32%Z in R. change (Z.of_N 8) with 8%Z in R. rewrite R by lia. cbn [bind].
    destruct (beqb _ _) eqn:E; [|reflexivity]. exfalso. apply H. apply beqb_eq in E. apply before_sub; [discriminate|exact E|lia|change (lenN (bstr "APETAGEX")) with 8; lia].
Qed.

(** ** The whole file *)
Lemma starts_take (s l : bytes) : takeN (lenN s) l = s <-> starts s l.
Proof.
  split; [intros H; exists (dropN (lenN s) l); rewrite <- H at 1; now rewrite takeN_dropN|]. intros (r & ->). now apply takeN_app_exact.
Qed.
Lemma id3_front front : Forall id3v2 front -> forall pre rest fuel, (length front < fuel)%nat -> ~ starts (bstr "ID3") rest ->
  id3_loop fuel (pre ++ concat front ++ rest) (lenN pre) = Ok (lay (lenN pre) (map (pair (str "ID3")) front), lenN pre + lenN (concat front)).
Proof.
  induction 1 as [|t front Ht _ IH]; intros pre rest fuel Hf Hr; (destruct fuel as [|fuel]; [cbn in Hf; lia|]); cbn [id3_loop concat map lay].
  - cbn [app]. unfold sub. rewrite dropN_app_exact by reflexivity. destruct (beqb _ _) eqn:E.
    + exfalso. apply Hr. apply beqb_eq in E. apply starts_take. exact E.
    + cbn [lenN]. now rewrite N.add_0_r.
  - destruct Ht as (v & sz & body & Et & Lv & Hb). assert (Ls : lenN sz = 4).
    { destruct Hb as (a & b & c & d & M & _). apply (f_equal lenN) in M. rewrite lenN_map in M. exact M. }
    assert (Lt : lenN t = 10 + lenN body) by (rewrite Et, !lenN_app, Lv, Ls; change (lenN (bstr "ID3")) with 3; lia).
    rewrite <- (app_assoc t).
    assert (E1 : sub (lenN pre) 3 (pre ++ t ++ concat front ++ rest) = bstr "ID3") by (rewrite Et, <- !app_assoc; now apply sub_app_exact).
    assert (E2 : sub (lenN pre + 6) 4 (pre ++ t ++ concat front ++ rest) = sz).
    { rewrite Et, <- !app_assoc. rewrite (app_assoc (bstr "ID3")), (app_assoc pre). apply sub_app_exact; [rewrite !lenN_app, Lv; change (lenN (bstr "ID3")) with 3; lia|lia]. }
    rewrite E1, E2, beqb_refl. pose proof (id3_decode sz (lenN body) [] Hb) as D. rewrite app_nil_r in D. rewrite D. cbn [bind]. rewrite <- Lt.
    rewrite (app_assoc pre). specialize (IH (pre ++ t) rest fuel). rewrite lenN_app in IH. rewrite IH; [|cbn in Hf; lia|exact Hr]. cbn [bind fst snd]. rewrite (lenN_app t), N.add_assoc. reflexivity.
Qed.
Definition ascii (m : bytes) : Prop := forallb (fun c => b2n c <? 128) m = true.
Lemma srs_front l : forall pre rest fuel, Forall mdok l -> Forall (fun md => ascii (fst md)) l -> (length l < fuel)%nat ->
  srs_loop fuel (pre ++ sers l ++ rest) (lenN pre) (Z.of_N (lenN pre + lenN (sers l))) = Ok (lay (lenN pre) (map (fun md => (map b2n (fst md), ser md)) l)).
Proof.
  induction l as [|[m d] l IH]; intros pre rest fuel Hok Ha Hf; (destruct fuel as [|fuel]; [cbn in Hf; lia|]); cbn [srs_loop map lay].
  - change (lenN (sers [])) with 0. now rewrite N.add_0_r, Z.ltb_irrefl.
  - inversion Hok as [|? ? Ho Hos]; subst. inversion Ha as [|? ? Am As]; subst. pose proof (len_ser _ Ho) as Ls. destruct Ho as [Lm Ld]. cbn [fst snd] in *.
    change (sers ((m, d) :: l)) with (ser (m, d) ++ sers l). rewrite (lenN_app (ser _)), Ls.
    replace (Z.of_N (lenN pre) <? _)%Z with true by lia. rewrite <- (app_assoc (ser _)).
    assert (Em : sub (lenN pre) 4 (pre ++ ser (m, d) ++ sers l ++ rest) = m).
    { unfold ser. cbn [fst snd]. rewrite <- !app_assoc. now apply sub_app_exact. }
    assert (Eu : unpack 4 (pre ++ ser (m, d) ++ sers l ++ rest) (lenN pre + 4) = Ok (8 + lenN d)).
    { unfold ser. cbn [fst snd]. rewrite <- !app_assoc. rewrite app_assoc. apply unpack_at; [rewrite lenN_app; lia|exact Ld]. }
    rewrite Em, Eu. unfold ascii in Am. rewrite Am. replace (8 + lenN d =? 0) with false by lia.
    replace (_ <? Z.of_N (8 + lenN d))%Z with false by lia. rewrite (app_assoc pre). specialize (IH (pre ++ ser (m, d)) rest fuel Hos As).
    rewrite lenN_app, Ls in IH. replace (lenN pre + (8 + lenN d + lenN (sers l))) with (lenN pre + (8 + lenN d) + lenN (sers l)) by lia. rewrite IH by (cbn in Hf; lia). reflexivity.
Qed.
Definition tail_parts (tl : trailer) : list (text * bytes) :=
  tag_parts (str "APE") (tl_ape tl) ++ tag_parts (str "LYRICS") (tl_lyrics1 tl) ++ tag_parts (str "LYRICS200") (tl_lyrics2 tl) ++ tag_parts (str "TAG") (tl_tag tl).
Definition parts (front : list bytes) (mids : list (text * bytes)) (tl : trailer) : list (text * bytes) :=
  map (pair (str "ID3")) front ++ mids ++ tail_parts tl.
Lemma flat_tag ty o : flat (tag_parts ty o) = opt o.
Proof. destruct o; unfold flat; cbn; [apply app_nil_r|reflexivity]. Qed.
Lemma flat_front front : flat (map (pair (str "ID3")) front) = concat front.
Proof. unfold flat. rewrite map_map. cbn [snd]. now rewrite map_id. Qed.
Lemma flat_parts front mids tl : flat (parts front mids tl) = mp3_file front (flat mids) tl.
Proof. unfold parts, tail_parts, mp3_file, trail. now rewrite !flat_app, flat_front, !flat_tag. Qed.
Lemma front_nonempty front : Forall id3v2 front -> Forall (fun p : text * bytes => snd p <> []) (map (pair (str "ID3")) front).
Proof. induction 1 as [|t l (v & sz & b & -> & _)]; constructor; [discriminate|assumption]. Qed.
Lemma app_r_ne {A} (a b : list A) : b <> [] -> a ++ b <> [].
Proof. intros H X. now apply app_eq_nil in X as [_ X]. Qed.
Lemma tail_nonempty p tl : fits p tl -> Forall (fun p : text * bytes => snd p <> []) (tail_parts tl).
Proof.
  intros [_ H1 H2 H3 H4]. unfold tail_parts. apply Forall_app. split; [|apply Forall_app; split; [|apply Forall_app; split]].
  - destruct (tl_ape tl) as [t|]; [|constructor]. destruct H4 as (h & i & v & r & -> & _). repeat constructor. cbn [snd]. apply app_r_ne, app_r_ne. discriminate.
  - destruct (tl_lyrics1 tl) as [t|]; [|constructor]. destruct H3 as ((_ & b & ->) & _). repeat constructor. discriminate.
  - destruct (tl_lyrics2 tl) as [t|]; [|constructor]. destruct H2 as (b & d & -> & _). repeat constructor. cbn [snd]. apply app_r_ne, app_r_ne. discriminate.
  - destruct (tl_tag tl) as [t|]; [|constructor]. destruct H1 as (r & -> & _). repeat constructor. discriminate.
Qed.
Lemma perm_parts {A} (i t l2 l1 a m : list A) : Permutation (i ++ t ++ l2 ++ l1 ++ a ++ m) (i ++ m ++ a ++ l1 ++ l2 ++ t).
Proof.
  apply Permutation_app_head. rewrite (Permutation_app_comm m), <- !app_assoc. rewrite (app_assoc a), (app_assoc (a ++ l1)), (app_assoc ((a ++ l1) ++ l2)).
  rewrite (app_assoc t), (app_assoc (t ++ l2)), (app_assoc ((t ++ l2) ++ l1)). apply Permutation_app_tail.
  rewrite (Permutation_app_comm _ a), <- !app_assoc. apply Permutation_app_head. rewrite (Permutation_app_comm t), <- !app_assoc.
  rewrite (Permutation_app_comm l2), <- !app_assoc. apply Permutation_app_head. apply Permutation_app_comm.
Qed.
Lemma length_concat (front : list bytes) : Forall id3v2 front -> (length front <= length (concat front))%nat.
Proof.
  induction 1 as [|t l (v & sz & b & -> & _) _ IH]; [reflexivity|]. cbn [concat length]. rewrite app_length. change (bstr "ID3" ++ v ++ sz ++ b) with ("I" :: "D" :: "3" :: v ++ sz ++ b)%byte. cbn [length]. lia.
Qed.
Lemma blocks_mid front mids tl : Forall id3v2 front -> fits (concat front ++ flat mids) tl -> 4 <= lenN (flat mids) -> ~ starts (bstr "ID3") (flat mids) ->
  (front <> [] -> marker_has_issues (takeN 4 (flat mids)) = false) -> Forall (fun p : text * bytes => snd p <> []) mids ->
  (let f := mp3_file front (flat mids) tl in
   (if beqb (takeN 3 (flat mids)) (bstr "SRS") then srs_loop (S (length f)) f (lenN (concat front)) (Z.of_N (lenN (concat front) + lenN (flat mids)))
    else Ok [mkM (Z.of_N (lenN (flat mids))) (str "MP3") (Z.of_N (lenN (concat front)))]) = Ok (lay (lenN (concat front)) mids)) ->
  mp3_blocks py_int (mp3_file front (flat mids) tl) = Ok (lay 0 (parts front mids tl)).
Proof.
  intros Hf Hfit L4 Hid Hm Hne Hmain. cbn zeta in Hmain. set (mid := flat mids) in *. set (f := mp3_file front mid tl) in *. set (fr := concat front) in *.
  pose proof (tail_nonempty _ _ Hfit) as Hte. destruct Hfit as [F0 F1 F2 F3 F4].
  assert (Ef : f = fr ++ mid ++ opt (tl_ape tl) ++ opt (tl_lyrics1 tl) ++ opt (tl_lyrics2 tl) ++ opt (tl_tag tl)) by reflexivity.
  unfold mp3_blocks.
  assert (H1 : id3_loop (S (length f)) f 0 = Ok (lay 0 (map (pair (str "ID3")) front), lenN fr)).
  { pose proof (id3_front front Hf [] (mid ++ trail tl) (S (length f))) as I. cbn [app lenN] in I. fold fr in I. rewrite N.add_0_l in I. apply I.
    - unfold f, mp3_file. rewrite app_length. pose proof (length_concat _ Hf). fold fr. unfold fr. lia.
    - intros (r & E). apply Hid. apply starts_take. rewrite <- (takeN_app_le mid (trail tl)) by (change (lenN (bstr "ID3")) with 3; lia). rewrite E. now apply takeN_app_exact. }
  rewrite H1. cbn [bind].
  (* the steps *)
  assert (S1 : step_tag f = Ok (lay (lenN (((fr ++ mid) ++ opt (tl_ape tl)) ++ opt (tl_lyrics1 tl)) + lenN (opt (tl_lyrics2 tl))) (tag_parts (str "TAG") (tl_tag tl)), Z.of_N (lenN (((fr ++ mid) ++ opt (tl_ape tl)) ++ opt (tl_lyrics1 tl)) + lenN (opt (tl_lyrics2 tl))))).
  { rewrite <- lenN_app. replace f with (((((fr ++ mid) ++ opt (tl_ape tl)) ++ opt (tl_lyrics1 tl)) ++ opt (tl_lyrics2 tl)) ++ opt (tl_tag tl)) by (rewrite Ef, <- !app_assoc; reflexivity).
    unfold trail in F0, F1. apply tag_step; rewrite <- !app_assoc; rewrite <- !app_assoc in F0, F1; [exact F0|]. destruct (tl_tag tl); exact F1. }
  assert (S2 : step_lyrics2 py_int f (Z.of_N (lenN (((fr ++ mid) ++ opt (tl_ape tl)) ++ opt (tl_lyrics1 tl)) + lenN (opt (tl_lyrics2 tl)))) = Ok (lay (lenN (((fr ++ mid) ++ opt (tl_ape tl)) ++ opt (tl_lyrics1 tl))) (tag_parts (str "LYRICS200") (tl_lyrics2 tl)), Z.of_N (lenN (((fr ++ mid) ++ opt (tl_ape tl)) ++ opt (tl_lyrics1 tl))))).
  { rewrite <- lenN_app. replace f with (((((fr ++ mid) ++ opt (tl_ape tl)) ++ opt (tl_lyrics1 tl)) ++ opt (tl_lyrics2 tl)) ++ opt (tl_tag tl)) by (rewrite Ef, <- !app_assoc; reflexivity).
    apply lyrics2_step. destruct (tl_lyrics2 tl); [exact F2|]. cbn [opt]. rewrite app_nil_r. rewrite <- !app_assoc in *. exact F2. }
  assert (S3 : step_lyrics1 f (Z.of_N (lenN (((fr ++ mid) ++ opt (tl_ape tl)) ++ opt (tl_lyrics1 tl)))) = Ok (lay (lenN ((fr ++ mid) ++ opt (tl_ape tl))) (tag_parts (str "LYRICS") (tl_lyrics1 tl)), Z.of_N (lenN ((fr ++ mid) ++ opt (tl_ape tl))))).
  { replace f with ((((fr ++ mid) ++ opt (tl_ape tl)) ++ opt (tl_lyrics1 tl)) ++ (opt (tl_lyrics2 tl) ++ opt (tl_tag tl))) by (rewrite Ef, <- !app_assoc; reflexivity).
    apply lyrics1_step. destruct (tl_lyrics1 tl) as [t|]; cbn [opt].
    - destruct F3 as (A & B & C). rewrite <- (app_assoc (fr ++ mid)). auto.
    - rewrite app_nil_r. exact F3. }
  assert (S4 : step_ape f (Z.of_N (lenN ((fr ++ mid) ++ opt (tl_ape tl)))) = Ok (lay (lenN (fr ++ mid)) (tag_parts (str "APE") (tl_ape tl)), Z.of_N (lenN (fr ++ mid)))).
  { replace f with (((fr ++ mid) ++ opt (tl_ape tl)) ++ (opt (tl_lyrics1 tl) ++ opt (tl_lyrics2 tl) ++ opt (tl_tag tl))) by (rewrite Ef, <- !app_assoc; reflexivity).
    apply ape_step. destruct (tl_ape tl); [exact F4|]. cbn [opt]. rewrite app_nil_r. exact F4. }
  rewrite S1. cbn [bind]. rewrite S2. cbn [bind]. rewrite S3. cbn [bind]. rewrite S4. cbn [bind].
  assert (M : sub (lenN fr) 4 f = takeN 4 mid).
  { unfold sub, f, mp3_file. fold fr. rewrite dropN_app_exact by reflexivity. now apply takeN_app_le. }
  rewrite M.
  assert (X : match lay 0 (map (pair (str "ID3")) front) with
    | [] => Ok (lay 0 (map (pair (str "ID3")) front), Z.of_N (lenN fr))
    | _ :: _ => if marker_has_issues (takeN 4 mid) then repair f (lay 0 (map (pair (str "ID3")) front)) (Z.of_N (lenN fr)) else Ok (lay 0 (map (pair (str "ID3")) front), Z.of_N (lenN fr))
    end = Ok (lay 0 (map (pair (str "ID3")) front), Z.of_N (lenN fr))).
  { destruct front as [|t front]; [reflexivity|]. rewrite Hm by discriminate. destruct (lay 0 _); reflexivity. }
  rewrite X. clear X. cbn [bind].
  assert (Z4 : zread f (Z.of_N (lenN fr)) 4 = Ok (takeN 4 mid)).
  { unfold zread, read_at. replace (Z.of_N (lenN fr) <? 0)%Z with false by lia. rewrite N2Z.id. f_equal. exact M. }
  rewrite Z4. cbn [bind]. assert (Lm : lenN (takeN 4 mid) = 4) by (rewrite lenN_takeN; lia).
  assert (M3 : takeN 3 (takeN 4 mid) = takeN 3 mid) by (rewrite takeN_takeN; f_equal; lia).
  rewrite M3, N2Z.id, lenN_app.
  replace (Z.of_N (lenN fr + lenN mid) - Z.of_N (lenN fr))%Z with (Z.of_N (lenN mid)) by lia. rewrite Hmain. cbn [bind].
  destruct (takeN 4 mid) as [|a [|b r]]; [discriminate|discriminate|]. f_equal. apply sort_lay.
  - unfold parts, tail_parts. rewrite !lay_app, flat_front, !flat_tag. fold fr mid. rewrite !N.add_0_l, !lenN_app.
    apply perm_parts.
  - unfold parts. apply Forall_app. split; [now apply front_nonempty|]. apply Forall_app. split; assumption.
Qed.
Lemma issues_ok (mid : bytes) : 4 <= lenN mid -> sync mid \/ starts (bstr "RIFF") mid \/ starts (bstr "SRSF") mid -> marker_has_issues (takeN 4 mid) = false.
Proof.
  intros L H. unfold marker_has_issues. replace (lenN (takeN 4 mid) =? 4) with true by (rewrite lenN_takeN; lia). cbn [negb orb]. destruct H as [(b & r & -> & Hb)|[H|H]].
  - replace (starts_sync (takeN 4 (xff :: b :: r))) with true; [reflexivity|]. cbn. unfold is_sync. change (b2n xff =? 255) with true. cbn [andb]. lia.
  - apply starts_take in H. change (lenN (bstr "RIFF")) with 4 in H. rewrite H. reflexivity.
  - apply starts_take in H. change (lenN (bstr "SRSF")) with 4 in H. rewrite H. reflexivity.
Qed.
(** an MP3 file *)
Lemma blocks_audio front audio tl : well_formed front audio tl ->
  mp3_blocks py_int (mp3_file front audio tl) = Ok (lay 0 (parts front [(str "MP3", audio)] tl)).
Proof.
  intros (Hf & (L4 & Hi & Hs & Ha) & Hfit). pose proof (blocks_mid front [(str "MP3", audio)] tl Hf) as B. 
  assert (E : flat [(str "MP3", audio)] = audio) by (unfold flat; cbn; apply app_nil_r). rewrite E in B. apply B; auto.
  - intros X. apply issues_ok; [exact L4|]. destruct (Ha X); auto.
  - repeat constructor. cbn [snd]. destruct audio; [cbn in L4; lia|discriminate].
  - cbn zeta. destruct (beqb _ _) eqn:T; [|reflexivity]. exfalso. apply Hs. apply beqb_eq in T. apply starts_take. exact T.
Qed.
(** an SRS file *)
Lemma blocks_srs front l tl : Forall id3v2 front -> fits (concat front ++ sers l) tl -> Forall mdok l -> Forall (fun md => ascii (fst md)) l ->
  match l with [] => False | md :: _ => fst md = bstr "SRSF" end ->
  mp3_blocks py_int (mp3_file front (sers l) tl) = Ok (lay 0 (parts front (map (fun md => (map b2n (fst md), ser md)) l) tl)).
Proof.
  intros Hf Hfit Hok Has Hl. pose proof (blocks_mid front (map (fun md => (map b2n (fst md), ser md)) l) tl Hf) as B.
  assert (E : flat (map (fun md => (map b2n (fst md), ser md)) l) = sers l) by (unfold flat, sers; rewrite map_map; reflexivity).
  assert (S4 : starts (bstr "SRSF") (sers l)).
  { destruct l as [|[m d] l]; [contradiction|]. cbn [fst] in Hl. subst m. eexists. unfold sers, ser. cbn [map concat fst snd]. rewrite <- app_assoc. reflexivity. }
  assert (L4 : 4 <= lenN (sers l)) by (destruct S4 as (r & ->); rewrite lenN_app; change (lenN (bstr "SRSF")) with 4; lia).
  rewrite E in B. apply B; auto.
  - intros (r & X). destruct S4 as (r' & Y). rewrite Y in X. discriminate.
  - intros _. apply issues_ok; auto.
  - clear -Hok. induction Hok as [|md l Ho _ IH]; cbn [map]; constructor; [|exact IH]. cbn [snd]. apply len_ser in Ho. destruct (ser md); [cbn in Ho; lia|discriminate].
  - cbn zeta. replace (takeN 3 (sers l)) with (bstr "SRS"); [|destruct S4 as (r & ->); reflexivity]. rewrite beqb_refl. unfold mp3_file.
    apply srs_front; [exact Hok|exact Has|]. rewrite !app_length.
    assert (length l <= length (sers l))%nat; [|lia]. clear -Hok. induction Hok as [|md l Ho _ IH]; [cbn; lia|]. unfold sers. cbn [map concat length]. fold (sers l). rewrite app_length.
    pose proof (len_ser md Ho) as L. rewrite lenN_length in L. lia.
Qed.

(** ** Going through the blocks *)
Lemma fold_lay {S} (step : bytes -> S -> mblock -> result S) (step' : S -> text * bytes -> result S) :
  (forall (pre : bytes) (ty : text) (d post : bytes) s, step (pre ++ d ++ post) s (mkM (Z.of_N (lenN d)) ty (Z.of_N (lenN pre))) = step' s (ty, d)) ->
  forall (l : list (text * bytes)) (pre post : bytes) s, foldR (step (pre ++ flat l ++ post)) (lay (lenN pre) l) s = foldR step' l s.
Proof.
  intros H. induction l as [|[ty d] l IH]; intros pre post s; [reflexivity|]. cbn [lay foldR]. rewrite flat_cons. cbn [snd]. rewrite <- (app_assoc d), H.
  destruct (step' s (ty, d)) as [s'|]; [|reflexivity]. cbn [bind]. rewrite (app_assoc pre), <- lenN_app. apply IH.
Qed.
Lemma fold_lay0 {S} (step : bytes -> S -> mblock -> result S) (step' : S -> text * bytes -> result S) l s :
  (forall (pre : bytes) (ty : text) (d post : bytes) s, step (pre ++ d ++ post) s (mkM (Z.of_N (lenN d)) ty (Z.of_N (lenN pre))) = step' s (ty, d)) ->
  foldR (step (flat l)) (lay 0 l) s = foldR step' l s.
Proof. intros H. pose proof (fold_lay step step' H l [] [] s) as F. cbn [app lenN] in F. now rewrite app_nil_r in F. Qed.
Lemma map_lay {B} (f : bytes -> mblock -> result B) (f' : text * bytes -> result B) :
  (forall (pre : bytes) (ty : text) (d post : bytes), f (pre ++ d ++ post) (mkM (Z.of_N (lenN d)) ty (Z.of_N (lenN pre))) = f' (ty, d)) ->
  forall (l : list (text * bytes)) (pre post : bytes), mapR (f (pre ++ flat l ++ post)) (lay (lenN pre) l) = mapR f' l.
Proof.
  intros H. induction l as [|[ty d] l IH]; intros pre post; [reflexivity|]. cbn [lay mapR]. rewrite flat_cons. cbn [snd]. rewrite <- (app_assoc d), H.
  destruct (f' (ty, d)) as [s'|]; [|reflexivity]. cbn [bind]. rewrite (app_assoc pre), <- lenN_app, IH. reflexivity.
Qed.
Lemma foldR_app {A S} (f : S -> A -> result S) a : forall b s, foldR f (a ++ b) s = do s' <- foldR f a s; foldR f b s'.
Proof. induction a as [|x a IH]; intros b s; cbn [app foldR bind]; [reflexivity|]. destruct (f s x); [|reflexivity]. cbn [bind]. apply IH. Qed.
Lemma mapR_app {A B} (f : A -> result B) a : forall b, mapR f (a ++ b) = do x <- mapR f a; do y <- mapR f b; Ok (x ++ y).
Proof.
  induction a as [|c a IH]; intros b; cbn [app mapR bind]; [now destruct (mapR f b)|]. destruct (f c); [|reflexivity]. cbn [bind]. rewrite IH. destruct (mapR f a); [|reflexivity]. cbn [bind]. now destruct (mapR f b).
Qed.
Definition plain_ty (ty : text) : Prop := In ty [str "ID3"; str "APE"; str "LYRICS"; str "LYRICS200"; str "TAG"].
Lemma front_plain front : Forall (fun p : text * bytes => plain_ty (fst p)) (map (pair (str "ID3")) front).
Proof. induction front; constructor; [now left|assumption]. Qed.
Lemma tail_plain tl : Forall (fun p : text * bytes => plain_ty (fst p)) (tail_parts tl).
Proof.
  unfold tail_parts, plain_ty. apply Forall_app. split; [|apply Forall_app; split; [|apply Forall_app; split]].
  - destruct (tl_ape tl); [constructor; [do 1 right; now left|]|]; constructor.
  - destruct (tl_lyrics1 tl); [constructor; [do 2 right; now left|]|]; constructor.
  - destruct (tl_lyrics2 tl); [constructor; [do 3 right; now left|]|]; constructor.
  - destruct (tl_tag tl); [constructor; [do 4 right; now left|]|]; constructor.
Qed.
Definition audio_ty (ty : text) : bool := teqb ty (str "MP3") || teqb ty (str "fLaC").
Lemma plain_audio ty : plain_ty ty -> audio_ty ty = false.
Proof. intros [<-|[<-|[<-|[<-|[<-|[]]]]]]; reflexivity. Qed.

(** ** Profile and create *)
Definition zc (d : bytes) (crc : N) : N := match d with [] => crc | _ => zcrc32 d crc end.
Lemma zc_app (a b : bytes) crc : zc (a ++ b) crc = zc b (zc a crc).
Proof. destruct b as [|y b]; [now rewrite app_nil_r|]. destruct a as [|x a]; [reflexivity|]. exact (zcrc32_app (x :: a) (y :: b) crc). Qed.
Lemma crc_pieces (a d c : bytes) ty : forall fuel read to_read crc, (0 <= read <= Z.of_N (lenN d))%Z -> to_read = 65536%Z \/ read = Z.of_N (lenN d) ->
  (Z.of_N (lenN d) - read <= 65536 * (Z.of_nat fuel - 1))%Z ->
  crc_loop fuel (a ++ d ++ c) (mkM (Z.of_N (lenN d)) ty (Z.of_N (lenN a))) read to_read crc = Ok (zc (dropN (Z.to_N read) d) crc).
Proof.
  induction fuel as [|fuel IH]; intros read to_read crc H1 H2 H3; [lia|]. cbn [crc_loop m_size]. destruct (Z.ltb_spec read (Z.of_N (lenN d))) as [L|L].
  - destruct H2 as [->|H2]; [|lia].
    assert (K : exists n, (0 < n)%Z /\ (if (Z.of_N (lenN d) <? read + 65536)%Z then (Z.of_N (lenN d) - read)%Z else 65536%Z) = n /\ (read + n <= Z.of_N (lenN d))%Z /\ (n = 65536%Z \/ (read + n = Z.of_N (lenN d))%Z)).
    { destruct (Z.ltb_spec (Z.of_N (lenN d)) (read + 65536)); eexists; repeat split; try reflexivity; lia. }
    destruct K as (n & K0 & -> & K1 & K2). rewrite part_at by lia. cbn [bind]. rewrite IH; [|lia|destruct K2; auto|lia]. replace (zcrc32 (sub (Z.to_N read) (Z.to_N n) d) crc) with (zc (sub (Z.to_N read) (Z.to_N n) d) crc).
    2:{ assert (X : lenN (sub (Z.to_N read) (Z.to_N n) d) <> 0) by (rewrite lenN_sub; lia). destruct (sub _ _ d); [now contradiction X|reflexivity]. }
    rewrite <- zc_app. f_equal. f_equal.
    rewrite Z2N.inj_add by lia. rewrite N.add_comm, <- dropN_dropN. unfold sub. now rewrite takeN_dropN.
  - replace (Z.to_N read) with (lenN d) by lia. rewrite dropN_all by reflexivity. reflexivity.
Qed.
Definition profile' (s : N * Z * option track_data) (p : text * bytes) : result (N * Z * option track_data) :=
  let '(crc, meta, t) := s in let '(ty, d) := p in
  if audio_ty ty then Ok (zc d crc, meta, Some {| td_flags := 0; td_number := 1; td_length := lenN d; td_offset := 0; td_signature := takeN 256 d |})
  else Ok (zcrc32 d crc, (meta + Z.of_N (lenN d))%Z, t).
Lemma profile_at pre ty d post s : profile_step (pre ++ d ++ post) s (mkM (Z.of_N (lenN d)) ty (Z.of_N (lenN pre))) = profile' s (ty, d).
Proof.
  destruct s as [[crc meta] t]. unfold profile_step, profile'. change (is_audio _) with (audio_ty ty). destruct (audio_ty ty).
  - cbn [m_size]. replace (Z.of_N (lenN d) <? 0)%Z with false by lia. rewrite crc_pieces; [|lia|now left|rewrite N2Z.id; rewrite Nat2Z.inj_succ, N_nat_Z, N2Z.inj_add, N2Z.inj_div; lia].
    cbn [bind]. change (Z.to_N 0) with 0. rewrite dropN_0, N2Z.id. change (Z.of_N SIG_SIZE) with 256%Z. destruct (Z.ltb_spec 256 (Z.of_N (lenN d))).
    + rewrite part_at by lia. cbn [bind]. change (Z.to_N 0) with 0. rewrite sub_0. reflexivity.
    + rewrite part_at by lia. cbn [bind]. change (Z.to_N 0) with 0. rewrite sub_0, N2Z.id, (takeN_all (lenN d)), (takeN_all 256) by lia. reflexivity.
  - rewrite contents_at. reflexivity.
Qed.
Lemma profile_plain l : Forall (fun p : text * bytes => plain_ty (fst p)) l -> forall c m t, c < 2 ^ 32 -> foldR profile' l (c, m, t) = Ok (zcrc32 (flat l) c, (m + Z.of_N (lenN (flat l)))%Z, t).
Proof.
  induction 1 as [|[ty d] l Hp _ IH]; intros c m t Hc; cbn [foldR].
  - change (flat []) with (@nil byte). cbn [lenN]. change (Z.of_N 0) with 0%Z. rewrite Z.add_0_r, zcrc32_nil by exact Hc. reflexivity.
  - cbn [profile' fst] in *. rewrite (plain_audio _ Hp). cbn [bind]. rewrite IH by (apply zcrc32_lt; exact Hc). rewrite flat_cons. cbn [snd]. rewrite lenN_app, zcrc32_app. f_equal. f_equal. f_equal. lia.
Qed.
Lemma profile_mp3 name front audio tl : well_formed front audio tl -> let f := mp3_file front audio tl in
  mp3_profile py_int name f = Ok ({| fd_flags := NEW_FLAGS; fd_appname := []; fd_sample_name := name; fd_size := lenN f; fd_crc32 := crc32 f |},
    Some {| td_flags := 0; td_number := 1; td_length := lenN audio; td_offset := 0; td_signature := takeN 256 audio |}).
Proof.
  intros W f. unfold mp3_profile. pose proof (blocks_audio _ _ _ W) as B. fold f in B. rewrite B. cbn [bind].
  assert (Ef : flat (parts front [(str "MP3", audio)] tl) = f) by (rewrite flat_parts; unfold flat; cbn [map concat snd]; now rewrite app_nil_r).
  rewrite <- Ef at 1. rewrite (fold_lay0 profile_step profile') by apply profile_at.
  unfold parts. rewrite foldR_app, (profile_plain _ (front_plain front)) by reflexivity. cbn [bind]. rewrite foldR_app. cbn [foldR profile']. change (audio_ty (str "MP3")) with true. cbn [bind].
  replace (zc audio (zcrc32 (flat (map (pair (str "ID3")) front)) 0)) with (zcrc32 audio (zcrc32 (flat (map (pair (str "ID3")) front)) 0)).
  2:{ destruct W as (_ & (L4 & _) & _). destruct audio; [cbn in L4; lia|reflexivity]. }
  rewrite (profile_plain _ (tail_plain tl)) by (repeat apply zcrc32_lt; reflexivity). cbn [bind td_length]. rewrite <- !zcrc32_app, flat_front.
  unfold parts in Ef. rewrite !flat_app, flat_front in Ef. change (flat [(str "MP3", audio)]) with (audio ++ []) in Ef. rewrite app_nil_r in Ef. rewrite <- Ef.
  replace (_ =? _)%Z with true; [reflexivity|]. rewrite !lenN_app. lia.
Qed.
Definition create' (app : text) (fd : file_data) (t : option track_data) (fp : option (N * bytes)) (p : text * bytes) : result bytes :=
  if audio_ty (fst p) then
    do x <- file_block app fd;
    do y <- (match t with Some t => do y <- track_block t; Ok (y ++ stored_print (mp3_block (bstr "SRSP")) fp) | None => Ok [] end);
    Ok (x ++ y)
  else Ok (snd p).
Lemma create_plain app fd t fp l : Forall (fun p : text * bytes => plain_ty (fst p)) l -> mapR (create' app fd t fp) l = Ok (map snd l).
Proof.
  induction 1 as [|[ty d] l Hp _ IH]; [reflexivity|]. cbn [mapR]. unfold create' at 1. cbn [fst] in *. rewrite (plain_audio _ Hp). cbn [bind]. rewrite IH. reflexivity.
Qed.
Lemma create_mp3 app fd t fp front audio tl srs : well_formed front audio tl -> mp3_create py_int app fd (Some t) fp (mp3_file front audio tl) = Ok srs ->
  exists x y, file_block app fd = Ok x /\ track_block t = Ok y /\ srs = mp3_file front (x ++ y ++ stored_print (mp3_block (bstr "SRSP")) fp) tl.
Proof.
  intros W H. unfold mp3_create in H. rewrite (blocks_audio _ _ _ W) in H. cbn [bind] in H.
  assert (Ef : flat (parts front [(str "MP3", audio)] tl) = mp3_file front audio tl) by (rewrite flat_parts; unfold flat; cbn [map concat snd]; now rewrite app_nil_r).
  pose proof (map_lay (create_block app fd (Some t) fp) (create' app fd (Some t) fp)) as M. specialize (M ltac:(intros pre ty d post; unfold create_block, create'; change (is_audio _) with (audio_ty ty); cbn [fst snd]; destruct (audio_ty ty); [reflexivity|apply contents_at])).
  specialize (M (parts front [(str "MP3", audio)] tl) [] []). cbn [Datatypes.app lenN] in M. rewrite app_nil_r, Ef in M. rewrite M in H. clear M.
  unfold parts in H. rewrite mapR_app, (create_plain _ _ _ _ _ (front_plain front)) in H. cbn [bind] in H. rewrite mapR_app, (create_plain _ _ _ _ _ (tail_plain tl)) in H.
  cbn [mapR] in H. unfold create' in H. cbn [fst snd] in H. change (audio_ty (str "MP3")) with true in H.
  destruct (file_block app fd) as [x|]; [|discriminate]. cbn [bind] in H. destruct (track_block t) as [y|]; [|discriminate]. cbn [bind] in H. apply ok_inj in H.
  exists x, y. split; [reflexivity|]. split; [reflexivity|]. rewrite <- H. unfold mp3_file. rewrite concat_app. cbn [Datatypes.app concat].
  fold (flat (map (pair (str "ID3")) front)) (flat (tail_parts tl)). rewrite flat_front. unfold tail_parts, trail. now rewrite !flat_app, !flat_tag.
Qed.

(** ** Loading *)
Definition mload' (s : option file_data * tracks) (p : text * bytes) : result (option file_data * tracks) :=
  let '(ty, d) := p in
  if teqb ty (str "SRSF") then do x <- parse_file_data (dropN 8 d); Ok (Some x, snd s)
  else if teqb ty (str "SRST") then do t <- parse_track (dropN 8 d); Ok (fst s, set_track (td_number t) (track_of t) (snd s))
  else if teqb ty (str "SRSP") then
    do t <- get_track 1 (snd s); do t <- read_print t (dropN 8 d); Ok (fst s, set_track 1 t (snd s))
  else Ok s.
Lemma mload_at pre ty d post s : mload_step (pre ++ d ++ post) s (mkM (Z.of_N (lenN d)) ty (Z.of_N (lenN pre))) = mload' s (ty, d).
Proof. unfold mload_step, mload'. cbn [m_type]. rewrite contents_at. reflexivity. Qed.
Lemma mload_plain l : Forall (fun p : text * bytes => plain_ty (fst p)) l -> forall s, foldR mload' l s = Ok s.
Proof.
  induction 1 as [|[ty d] l Hp _ IH]; intros s; cbn [foldR]; [reflexivity|]. cbn [fst] in Hp.
  replace (mload' s (ty, d)) with (@Ok (option file_data * tracks) s); [cbn [bind]; apply IH|]. destruct Hp as [<-|[<-|[<-|[<-|[<-|[]]]]]]; reflexivity.
Qed.
Lemma drop_ser m d : lenN m = 4 -> dropN 8 (ser (m, d)) = d.
Proof. intros L. unfold ser. cbn [fst snd]. rewrite app_assoc. apply dropN_app_exact. rewrite lenN_app, L, lenN_le. reflexivity. Qed.
(** the block of the fingerprint *)
Definition pblocks (fp : option (N * bytes)) : list (bytes * bytes) :=
  match fp with
  | Some (d, t) => if (d <? 2 ^ 32) && (lenN t + 16 <? 2 ^ 32) then [(bstr "SRSP", le 4 d ++ le 4 (lenN t) ++ t)] else []
  | None => []
  end.
Lemma pblocks_ser fp : stored_print (mp3_block (bstr "SRSP")) fp = sers (pblocks fp).
Proof.
  destruct fp as [[d t]|]; [|reflexivity]. unfold stored_print, pblocks, print_data, pack, mp3_block. cbn [fst snd]. change (2 ^ (8 * N.of_nat 4)) with 4294967296. change (2 ^ 32) with 4294967296.
  destruct (N.ltb_spec d 4294967296); [|reflexivity]. cbn [bind andb]. destruct (N.ltb_spec (lenN t) 4294967296); cbn [bind].
  - unfold pack. change (2 ^ (8 * N.of_nat 4)) with 4294967296. assert (L : lenN (le 4 d ++ le 4 (lenN t) ++ t) = 8 + lenN t) by (rewrite !lenN_app, !lenN_le; change (N.of_nat 4) with 4; lia).
    rewrite L. destruct (N.ltb_spec (8 + (8 + lenN t)) 4294967296); destruct (N.ltb_spec (lenN t + 16) 4294967296); try lia; [|reflexivity].
    cbn [bind]. unfold sers, ser. cbn [map concat fst snd]. rewrite app_nil_r, L. reflexivity.
  - destruct (N.ltb_spec (lenN t + 16) 4294967296); [lia|reflexivity].
Qed.
Lemma pblocks_ok fp : Forall mdok (pblocks fp) /\ Forall (fun md => fst md = bstr "SRSP") (pblocks fp).
Proof.
  destruct fp as [[d t]|]; [|split; constructor]. unfold pblocks. destruct (_ && _) eqn:E; [|split; constructor]. apply andb_true_iff in E as [E1 E2]. split; (constructor; [|constructor]); [|reflexivity].
  split; [reflexivity|]. cbn [snd]. rewrite !lenN_app, !lenN_le. change (N.of_nat 4) with 4. change (2 ^ 32) with 4294967296 in *. lia.
Qed.
Definition mids_of (l : list (bytes * bytes)) : list (text * bytes) := map (fun md => (map b2n (fst md), ser md)) l.
Lemma flat_mids l : flat (mids_of l) = sers l. Proof. unfold flat, sers, mids_of. now rewrite map_map. Qed.
Lemma load_prints fp d (t : track) : exists t', t_td t' = t_td t /\ t_offset t' = t_offset t /\ t_match t' = t_match t /\ t_file t' = t_file t /\
  t_print t' = (match pblocks fp with [] => t_print t | _ => fp end) /\
  foldR mload' (mids_of (pblocks fp)) (Some d, [(1, t)]) = Ok (Some d, [(1, t')]).
Proof.
  destruct fp as [[du fp]|]; [|exists t; auto 10]. unfold pblocks. destruct (_ && _) eqn:E; [|exists t; auto 10]. apply andb_true_iff in E as [E1 E2]. change (2 ^ 32) with 4294967296 in *. cbn [mids_of map foldR fst].
  eexists. split; [|split; [|split; [|split; [|split]]]].
  6:{ unfold mload'. change (teqb (map b2n (bstr "SRSP")) (str "SRSF")) with false. change (teqb (map b2n (bstr "SRSP")) (str "SRST")) with false. change (teqb (map b2n (bstr "SRSP")) (str "SRSP")) with true. cbv iota.
    cbn [snd get_track]. rewrite N.eqb_refl. cbn [bind]. rewrite drop_ser by reflexivity. unfold read_print. rewrite unpack_le0 by (change (2 ^ (8 * N.of_nat 4)) with 4294967296; lia). cbn [bind].
    rewrite unpack_at by (rewrite ?lenN_le; change (2 ^ (8 * N.of_nat 4)) with 4294967296; try reflexivity; lia). cbn [bind]. cbn [set_track fst]. rewrite N.eqb_refl.
    replace (sub 8 (lenN fp) (le 4 du ++ le 4 (lenN fp) ++ fp)) with fp; [reflexivity|]. rewrite app_assoc. unfold sub. rewrite dropN_app_exact by (rewrite lenN_app, !lenN_le; reflexivity). now rewrite takeN_all by lia. }
  all: reflexivity.
Qed.
Definition srs_list (a b : bytes) (fp : option (N * bytes)) : list (bytes * bytes) := [(bstr "SRSF", a); (bstr "SRST", b)] ++ pblocks fp.
Lemma load_mp3 app fd t fp front x y tl : Forall id3v2 front -> file_block app fd = Ok x -> track_block t = Ok y ->
  fits (concat front ++ x ++ y ++ sers (pblocks fp)) tl ->
  has (td_flags t) 8 = false -> td_number t = 1 ->
  exists d a b t', fd_crc32 d = fd_crc32 fd mod 2 ^ 32 /\ x = ser (bstr "SRSF", a) /\ y = ser (bstr "SRST", b) /\
  t_td t' = t /\ t_offset t' = Z.of_N (td_offset t) /\ t_match t' = 0 /\ t_file t' = None /\ 
  t_print t' = (match pblocks fp with [] => None | _ => fp end) /\
  mp3_blocks py_int (mp3_file front (sers (srs_list a b fp)) tl) = Ok (lay 0 (parts front (mids_of (srs_list a b fp)) tl)) /\
  mp3_load_srs py_int (mp3_file front (sers (srs_list a b fp)) tl) = Ok (d, [(1, t')]).
Proof.
  intros Hf Hx Hy Hfit Hfl Hn. unfold file_block in Hx. unfold track_block in Hy. bindinv Hx. bindinv Hy. rename v into a. rename v0 into b.
  apply parse_back in E as (d & P & Pc & _). pose proof (track_round t b [] E0) as R. rewrite app_nil_r in R.
  assert (Wd : has (td_flags t) 8 = true <-> 2 ^ 16 <= td_number t) by (rewrite Hfl, Hn; split; [discriminate|intros X; vm_compute in X; congruence]).
  specialize (R Wd). apply block_ser in Hx as [-> O1]; [|reflexivity]. apply block_ser in Hy as [-> O2]; [|reflexivity].
  assert (Es : sers (srs_list a b fp) = ser (bstr "SRSF", a) ++ ser (bstr "SRST", b) ++ sers (pblocks fp)) by reflexivity.
  destruct (pblocks_ok fp) as [K1 K2].
  assert (B : mp3_blocks py_int (mp3_file front (sers (srs_list a b fp)) tl) = Ok (lay 0 (parts front (mids_of (srs_list a b fp)) tl))).
  { rewrite <- Es in Hfit. apply blocks_srs; [exact Hf|exact Hfit| | |reflexivity].
    - unfold srs_list. apply Forall_app. split; [repeat apply Forall_cons; auto|exact K1].
    - unfold srs_list. apply Forall_app. split; [repeat apply Forall_cons; auto; reflexivity|]. eapply Forall_impl; [|exact K2]. intros md ->. reflexivity. }
  destruct (load_prints fp d (track_of t)) as (t' & T1 & T2 & T3 & T4 & T5 & T6).
  exists d, a, b, t'. split; [exact Pc|]. split; [reflexivity|]. split; [reflexivity|]. split; [exact T1|]. split; [exact T2|]. split; [exact T3|]. split; [exact T4|]. split; [exact T5|]. split; [exact B|].
  unfold mp3_load_srs. rewrite B. cbn [bind]. clear B.
  assert (Ef : flat (parts front (mids_of (srs_list a b fp)) tl) = mp3_file front (sers (srs_list a b fp)) tl) by (rewrite flat_parts, flat_mids; reflexivity).
  rewrite <- Ef, (fold_lay0 mload_step mload') by apply mload_at. unfold parts. rewrite foldR_app, (mload_plain _ (front_plain front)). cbn [bind].
  change (mids_of (srs_list a b fp)) with ([(str "SRSF", ser (bstr "SRSF", a)); (str "SRST", ser (bstr "SRST", b))] ++ mids_of (pblocks fp)). rewrite <- app_assoc. cbn [Datatypes.app foldR]. unfold mload' at 1.
  change (teqb (str "SRSF") (str "SRSF")) with true. cbv iota. rewrite drop_ser, P by reflexivity. cbn [bind]. unfold mload' at 1.
  change (teqb (str "SRST") (str "SRSF")) with false. change (teqb (str "SRST") (str "SRST")) with true. cbv iota. rewrite drop_ser, R by reflexivity. cbn [bind].
  cbn [fst snd set_track]. rewrite Hn, foldR_app. change (Some d, [(1, track_of t)]) with (Some d, ([(1, track_of t)] : tracks)) in T6. match goal with |- context [foldR mload' (mids_of (pblocks fp)) ?x] => change x with (Some d, ([(1, track_of t)] : tracks)) end. setoid_rewrite T6. cbn [bind]. rewrite (mload_plain _ (tail_plain tl)). reflexivity.
Qed.

(** ** Searching, extracting, rebuilding *)
Lemma find_plain l : Forall (fun p : text * bytes => plain_ty (fst p)) l -> forall pos r, find is_audio (lay pos l ++ r) = find is_audio r.
Proof.
  induction 1 as [|[ty d] l Hp _ IH]; intros pos r; cbn [lay app find]; [reflexivity|]. change (is_audio _) with (audio_ty ty). cbn [fst] in Hp. rewrite (plain_audio _ Hp). apply IH.
Qed.
Lemma find_audio front audio tl : find is_audio (lay 0 (parts front [(str "MP3", audio)] tl)) = Some (mkM (Z.of_N (lenN audio)) (str "MP3") (Z.of_N (lenN (concat front)))).
Proof. unfold parts. rewrite lay_app, find_plain by apply front_plain. rewrite flat_front, N.add_0_l. reflexivity. Qed.
Definition rebuild' (ts : tracks) (s : bytes * bool) (p : text * bytes) : result (bytes * bool) :=
  let '(ty, d) := p in
  if teqb ty (str "SRSF") || teqb ty (str "SRST") || teqb ty (str "SRSP") then
    if snd s then Ok s
    else
      do t <- get_track 1 ts;
      match t_file t with None => Err AttributeError | Some d => Ok (fst s ++ d, true) end
  else Ok (fst s ++ d, snd s).
Lemma rebuild_at ts pre ty d post s : rebuild_step ts (pre ++ d ++ post) s (mkM (Z.of_N (lenN d)) ty (Z.of_N (lenN pre))) = rebuild' ts s (ty, d).
Proof. unfold rebuild_step, rebuild'. cbn [m_type]. rewrite contents_at. reflexivity. Qed.
Lemma rebuild_plain ts l : Forall (fun p : text * bytes => plain_ty (fst p)) l -> forall s w, foldR (rebuild' ts) l (s, w) = Ok (s ++ flat l, w).
Proof.
  induction 1 as [|[ty d] l Hp _ IH]; intros s w; cbn [foldR]; [now rewrite app_nil_r|]. cbn [fst] in Hp.
  replace (rebuild' ts (s, w) (ty, d)) with (@Ok (bytes * bool) (s ++ d, w)); [cbn [bind]; rewrite IH, flat_cons; cbn [snd]; now rewrite app_assoc|].
  destruct Hp as [<-|[<-|[<-|[<-|[<-|[]]]]]]; reflexivity.
Qed.
Lemma rebuild_srs ts l : Forall (fun md : bytes * bytes => In (fst md) [bstr "SRSF"; bstr "SRST"; bstr "SRSP"]) l -> forall s, foldR (rebuild' ts) (mids_of l) (s, true) = Ok (s, true).
Proof.
  induction 1 as [|[m d] l Hm _ IH]; intros s; [reflexivity|]. cbn [mids_of map foldR fst] in *. replace (rebuild' ts (s, true) (map b2n m, ser (m, d))) with (@Ok (bytes * bool) (s, true)); [cbn [bind]; apply IH|].
  destruct Hm as [<-|[<-|[<-|[]]]]; reflexivity.
Qed.
Lemma rebuild_mp3 front a b fp tl (t : track) data : mp3_blocks py_int (mp3_file front (sers (srs_list a b fp)) tl) = Ok (lay 0 (parts front (mids_of (srs_list a b fp)) tl)) ->
  t_file t = Some data -> mp3_rebuild py_int [(1, t)] (mp3_file front (sers (srs_list a b fp)) tl) = Ok (mp3_file front data tl, mp3_file front data tl).
Proof.
  intros B Ht. unfold mp3_rebuild. cbn [forallb snd]. rewrite Ht. cbn [andb]. rewrite B. cbn [bind].
  assert (Ef : flat (parts front (mids_of (srs_list a b fp)) tl) = mp3_file front (sers (srs_list a b fp)) tl) by (rewrite flat_parts, flat_mids; reflexivity).
  rewrite <- Ef, (fold_lay0 (fun f => rebuild_step [(1, t)] f) (rebuild' [(1, t)])) by (intros; apply rebuild_at).
  unfold parts. rewrite foldR_app, (rebuild_plain _ _ (front_plain front)). cbn [bind]. rewrite foldR_app.
  change (mids_of (srs_list a b fp)) with ((str "SRSF", ser (bstr "SRSF", a)) :: mids_of ((bstr "SRST", b) :: pblocks fp)). cbn [foldR]. unfold rebuild' at 1.
  change (teqb (str "SRSF") (str "SRSF") || teqb (str "SRSF") (str "SRST") || teqb (str "SRSF") (str "SRSP")) with true. cbn [snd get_track]. rewrite N.eqb_refl. cbn [bind]. rewrite Ht. cbn [bind fst].
  rewrite rebuild_srs; [|constructor; [right; now left|destruct (pblocks_ok fp) as [_ K]; eapply Forall_impl; [|exact K]; intros md ->; do 2 right; now left]]. cbn [bind].
  rewrite (rebuild_plain _ _ (tail_plain tl)). cbn [bind fst]. rewrite flat_front, <- !app_assoc. unfold tail_parts, mp3_file, trail. rewrite !flat_app, !flat_tag. reflexivity.
Qed.

(** ** Search inside the audio *)
Lemma match_pieces (a d c : bytes) ty sig : sig <> [] -> lenN sig <= 256 -> forall fuel boff, (Z.of_N (lenN d) - Z.of_N boff < 65281 * (Z.of_nat fuel - 1))%Z -> fuel <> O ->
  (forall o, o < boff -> ~ occ sig d o) ->
  exists r, match_loop fuel (a ++ d ++ c) (mkM (Z.of_N (lenN d)) ty (Z.of_N (lenN a))) sig (Z.of_N boff) = Ok r /\
  match r with
  | Some z => exists o, z = Z.of_N o /\ occ sig d o /\ forall o', o' < o -> ~ occ sig d o'
  | None => forall o, ~ occ sig d o
  end.
Proof.
  intros Hs L. induction fuel as [|fuel IH]; intros boff Hf Hn0 Hno; [congruence|]. cbn [match_loop m_size]. destruct (Z.leb_spec (Z.of_N boff) (Z.of_N (lenN d))) as [H|H].
  - set (n := Z.min (Z.of_N (lenN d) - Z.of_N boff) 65536). rewrite part_at by lia. cbn [bind]. rewrite N2Z.id. pose proof (find_spec sig (sub boff (Z.to_N n) d)) as F.
    assert (Ed : d = takeN boff d ++ sub boff (Z.to_N n) d ++ dropN (Z.to_N n) (dropN boff d)) by (unfold sub; rewrite takeN_dropN; symmetry; apply takeN_dropN).
    assert (Lb : lenN (takeN boff d) = boff) by (rewrite lenN_takeN; lia). assert (Lw : lenN (sub boff (Z.to_N n) d) = Z.to_N n) by (rewrite lenN_sub; lia).
    assert (T : forall o, boff <= o -> o + lenN sig <= boff + Z.to_N n -> occ sig d o <-> occ sig (sub boff (Z.to_N n) d) (o - boff)).
    { intros o H1 H2. replace (o - boff) with (o - lenN (takeN boff d)) by (rewrite Lb; reflexivity). rewrite Ed at 1. apply occ_part; rewrite ?Lb, ?Lw; assumption. }
    destruct (find_sub Byte.eqb sig _) as [i|].
    + destruct F as [Fo Fm]. eexists. split; [reflexivity|]. exists (boff + i). split; [lia|]. pose proof (occ_len _ _ _ Hs Fo) as Li. rewrite Lw in Li. split.
      * apply T; [lia|lia|]. now replace (boff + i - boff) with i by lia.
      * intros o' Ho'. destruct (N.lt_ge_cases o' boff); [now apply Hno|]. rewrite T by lia. apply Fm. lia.
    + specialize (IH (boff + 65281)). replace (Z.of_N boff + (65536 - Z.of_N SIG_SIZE + 1))%Z with (Z.of_N (boff + 65281)) by (unfold SIG_SIZE; lia). 
      assert (Hno' : forall o, o < boff + 65281 -> ~ occ sig d o).
      { intros o Ho X. destruct (N.lt_ge_cases o boff); [now apply (Hno o)|]. pose proof (occ_len _ _ _ Hs X) as Lo. assert (K : o + lenN sig <= boff + Z.to_N n) by lia.
        rewrite T in X by assumption. apply (F (o - boff)); [rewrite Lw; lia|exact X]. }
      destruct fuel as [|fuel]; [|apply IH; [lia|discriminate|exact Hno']].
      exfalso. lia.
  - eexists. split; [reflexivity|]. intros o X. pose proof (occ_len _ _ _ Hs X). apply (Hno o); [lia|exact X].
Qed.
Lemma match_first (a d c : bytes) ty sig o : sig <> [] -> lenN sig <= 256 -> first_occurs sig d o ->
  match_signature (a ++ d ++ c) (mkM (Z.of_N (lenN d)) ty (Z.of_N (lenN a))) sig = Ok (Some (Z.of_N o)).
Proof.
  intros Hs L [Ho Hm]. unfold match_signature. cbn [m_size].
  destruct (match_pieces a d c ty sig Hs L (S (S (N.to_nat (Z.to_N (Z.of_N (lenN d)) / 65281)))) 0) as (r & R & K).
  - rewrite N2Z.id, !Nat2Z.inj_succ, N_nat_Z, N2Z.inj_div. change (Z.of_N 65281) with 65281%Z. lia.
  - discriminate.
  - intros o' X. lia.
  - change (Z.of_N 0) with 0%Z in R. rewrite R. f_equal. apply (occurs_occ sig d o Hs) in Ho. destruct r as [z|]; [|exfalso; exact (K o Ho)]. destruct K as (o' & -> & K1 & K2). f_equal. f_equal.
    assert (o <= o') by (apply Hm; now apply occurs_occ). destruct (N.lt_ge_cases o o'); [exfalso; now apply (K2 o)|lia].
Qed.

(** ** Restoring *)
Lemma blocks_file front audio tl : mp3_file front audio tl = concat front ++ audio ++ trail tl. Proof. reflexivity. Qed.
Lemma restore_at front audio tl a b fp d (t : track) front' body tl' o :
  mp3_load_srs py_int (mp3_file front (sers (srs_list a b fp)) tl) = Ok (d, [(1, t)]) ->
  mp3_blocks py_int (mp3_file front (sers (srs_list a b fp)) tl) = Ok (lay 0 (parts front (mids_of (srs_list a b fp)) tl)) ->
  fd_crc32 d = crc32 (mp3_file front audio tl) -> td_length (t_td t) = lenN audio -> audio <> [] -> well_formed front' body tl' ->
  mp3_find py_int [(1, t)] (mp3_file front' body tl') = Ok [(1, located t (Z.of_N (lenN (concat front') + o)) (lenN audio))] -> occurs audio body o ->
  mp3_restore py_int (mp3_file front (sers (srs_list a b fp)) tl) (mp3_file front' body tl') = Ok (Rebuilt (mp3_file front audio tl)).
Proof.
  intros HL HB Hc Hlen Hne W HF Ho. unfold mp3_restore, srs_rebuild. rewrite HL. cbn [bind orb]. rewrite HF. cbn [bind existsb snd andb]. unfold not_located. cbn [t_td located t_offset].
  cbn [negb]. rewrite andb_false_r. replace (Z.of_N (lenN (concat front') + o) =? -1)%Z with false by lia. cbn [andb orb].
  unfold mp3_extract. rewrite (blocks_audio _ _ _ W). cbn [bind]. rewrite find_audio. cbn [get_track]. rewrite N.eqb_refl. cbn [bind located t_offset m_start t_match t_td t_print].
  replace (Z.of_N (lenN (concat front') + o) - Z.of_N (lenN (concat front')))%Z with (Z.of_N o) by lia. replace (Z.of_N o <? 0)%Z with false by lia.
  apply (occurs_occ audio body o Hne) in Ho. pose proof (occ_len _ _ _ Hne Ho) as Lo. unfold occ in Ho.
  rewrite blocks_file at 1. rewrite part_at by lia. rewrite !N2Z.id, Ho. cbn [bind set_track]. rewrite N.eqb_refl. cbn [existsb snd orb]. unfold not_extracted. cbn [t_td t_file].
  rewrite Hlen, N.ltb_irrefl, andb_false_r. cbn [orb]. rewrite (rebuild_mp3 front a b fp tl _ audio HB) by reflexivity. cbn [bind fst snd]. rewrite Hc, N.eqb_refl. reflexivity.
Qed.
(** what an SRS of a well formed file is *)
Lemma srs_is app name big offset fp front audio tl srs : well_formed front audio tl ->
  mp3_srs py_int app name big offset fp (mp3_file front audio tl) = Ok srs ->
  exists a b r, srs = mp3_file front (sers (srs_list a b fp)) tl /\ b = r ++ takeN 256 audio /\
  (fits (concat front ++ sers (srs_list a b fp)) tl -> exists d t, fd_crc32 d = crc32 (mp3_file front audio tl) /\
    t_file t = None /\ td_length (t_td t) = lenN audio /\ td_signature (t_td t) = takeN 256 audio /\ t_match t = 0 /\
    t_print t = (match pblocks fp with [] => None | _ => fp end) /\
    mp3_blocks py_int srs = Ok (lay 0 (parts front (mids_of (srs_list a b fp)) tl)) /\ mp3_load_srs py_int srs = Ok (d, [(1, t)])).
Proof.
  intros W H. unfold mp3_srs in H. rewrite (profile_mp3 name _ _ _ W) in H. cbn [bind snd fst] in H. apply create_mp3 in H as (x & y & Hx & Hy & ->); [|exact W].
  set (t := with_stored big offset _) in Hy. pose proof Hx as Hx'. pose proof Hy as Hy'. unfold file_block in Hx'. unfold track_block in Hy'. bindinv Hx'. bindinv Hy'. rename v into a. rename v0 into b.
  apply block_ser in Hx' as [-> O1]; [|reflexivity]. apply block_ser in Hy' as [-> O2]; [|reflexivity]. rewrite pblocks_ser. 
  assert (Eb : exists r, b = r ++ takeN 256 audio).
  { apply track_inv in E0 as (_ & _ & _ & _ & _ & ->). unfold track_layout. eexists. rewrite !app_assoc. reflexivity. }
  destruct Eb as (r & Eb). exists a, b, r. split; [reflexivity|]. split; [exact Eb|].
  intros Hfit. destruct W as (Hf & _). destruct (load_mp3 app _ t fp front _ _ tl Hf Hx Hy Hfit) as (d & a' & b' & t' & Hc & Ea & Eb' & T1 & T2 & T3 & T4 & T5 & HB & HL).
  - unfold t. destruct big; reflexivity.
  - reflexivity.
  - assert (a' = a /\ b' = b) as [-> ->].
    { apply (f_equal (dropN 8)) in Ea, Eb'. rewrite !drop_ser in Ea, Eb' by reflexivity. auto. }
    exists d, t'. rewrite T1. split; [rewrite Hc; cbn [fd_crc32]; apply crc_mod|]. repeat (split; [first [reflexivity|assumption]|]). exact HL.
Qed.
Lemma before_app x (p q : bytes) n : before_end x (p ++ q) n -> n <= lenN q -> before_end x q n.
Proof.
  intros (a & b & E & L) H. exists (dropN (lenN p) a), b. split; [|exact L]. pose proof (f_equal lenN E) as E'. rewrite (lenN_app p), (lenN_app a), L in E'.
  apply (f_equal (dropN (lenN p))) in E. rewrite dropN_app_exact in E by reflexivity. rewrite E, dropN_app. replace (lenN p - lenN a) with 0 by lia. now rewrite dropN_0.
Qed.
Lemma ends_app x (p q : bytes) : ends x (p ++ q) -> lenN x <= lenN q -> ends x q.
Proof.
  intros (a & E) H. exists (dropN (lenN p) a). pose proof (f_equal lenN E) as E'. rewrite !lenN_app in E'.
  apply (f_equal (dropN (lenN p))) in E. rewrite dropN_app_exact in E by reflexivity. rewrite E, dropN_app. replace (lenN p - lenN a) with 0 by lia. now rewrite dropN_0.
Qed.
Lemma fits_tail (p s : bytes) tl : fits s tl -> 128 <= lenN s -> tl_lyrics1 tl = None -> fits (p ++ s) tl.
Proof.
  intros [F0 F1 F2 F3 F4] L Hl. rewrite Hl in *. split; rewrite ?Hl in *.
  - rewrite <- app_assoc, lenN_app. lia.
  - destruct (tl_tag tl); [exact F1|]. intros X. apply F1. rewrite <- app_assoc in X. apply before_app in X; [exact X|]. rewrite lenN_app. lia.
  - destruct (tl_lyrics2 tl); [exact F2|]. intros X. apply F2. rewrite <- app_assoc in X. apply ends_app in X; [exact X|]. rewrite lenN_app. change (lenN (bstr "LYRICS200")) with 9. lia.
  - intros X. apply F3. rewrite <- app_assoc in X. apply ends_app in X; [exact X|]. rewrite lenN_app. change (lenN (bstr "LYRICSEND")) with 9. lia.
  - destruct (tl_ape tl); [exact F4|]. intros X. apply F4. apply before_app in X; [exact X|]. lia.
Qed.
Lemma sig_len (audio : bytes) : 4 <= lenN audio -> lenN (takeN 256 audio) <= 256 /\ 4 <= lenN (takeN 256 audio) /\ lenN (takeN 256 audio) <= lenN audio.
Proof. intros H. rewrite lenN_takeN. lia. Qed.
Lemma find_start (t : track) audio more front' tl' : t_file t = None -> td_length (t_td t) = lenN audio -> td_signature (t_td t) = takeN 256 audio -> 
  well_formed front' (audio ++ more) tl' ->
  mp3_find py_int [(1, t)] (mp3_file front' (audio ++ more) tl') = Ok [(1, located t (Z.of_N (lenN (concat front'))) (lenN audio))].
Proof.
  intros Hfile Hlen Hsig W. unfold mp3_find. rewrite (blocks_audio _ _ _ W). cbn [bind]. rewrite find_audio. cbn [get_track]. rewrite N.eqb_refl. cbn [bind m_size m_start].
  replace (Z.of_N (lenN (audio ++ more)) <? 0)%Z with false by lia. rewrite Hsig, Hlen. assert (Ls : lenN (takeN 256 audio) <= lenN audio) by (rewrite lenN_takeN; lia).
  rewrite blocks_file. rewrite part_at by (rewrite ?lenN_app; lia). cbn [bind]. change (Z.to_N 0) with 0. rewrite sub_0.
  replace (Z.to_N (Z.min (Z.of_N (lenN (audio ++ more))) (Z.of_N (lenN (takeN 256 audio))))) with (lenN (takeN 256 audio)) by (rewrite lenN_app; lia).
  rewrite (takeN_app_le audio more) by exact Ls. assert (E : takeN (lenN (takeN 256 audio)) audio = takeN 256 audio).
  { rewrite <- (takeN_dropN 256 audio) at 2. now apply takeN_app_exact. }
  rewrite E, beqb_refl. cbn [bind set_track]. rewrite N.eqb_refl, N2Z.id. replace (N.min (lenN audio) (lenN (audio ++ more))) with (lenN audio) by (rewrite lenN_app; lia). reflexivity.
Qed.
Theorem mp3_exact_general app name big offset fp front audio tl srs front' more tl' :
  well_formed front audio tl -> mp3_srs py_int app name big offset fp (mp3_file front audio tl) = Ok srs ->
  (forall mid, srs = mp3_file front mid tl -> fits (concat front ++ mid) tl) -> well_formed front' (audio ++ more) tl' ->
  mp3_restore py_int srs (mp3_file front' (audio ++ more) tl') = Ok (Rebuilt (mp3_file front audio tl)).
Proof.
  intros W H Hfit W'. apply srs_is in H as (a & b & r & -> & _ & K); [|exact W]. destruct (K (Hfit _ eq_refl)) as (d & t & Hc & Ht & Hlen & Hsig & _ & _ & HB & HL).
  apply (restore_at _ _ _ _ _ _ d t _ _ _ 0 HL HB Hc Hlen).
  - destruct W as (_ & (L4 & _) & _). destruct audio; [cbn in L4; lia|discriminate].
  - exact W'.
  - rewrite N.add_0_r. now apply find_start.
  - exists [], more. split; reflexivity.
Qed.
Lemma srs_fits front a b r audio fp e tl : b = r ++ takeN 256 audio -> srs_ending audio fp e -> 128 <= lenN e -> tl_lyrics1 tl = None -> fits e tl ->
  fits (concat front ++ sers (srs_list a b fp)) tl.
Proof.
  intros -> He L Hl Hfit. unfold srs_list, sers. rewrite map_app, concat_app. fold (sers (pblocks fp)). rewrite app_assoc. destruct fp as [[d t]|]; cbn [srs_ending] in He.
  - destruct He as (Hd & Hn & ->). unfold pblocks. replace ((d <? 2 ^ 32) && (lenN t + 16 <? 2 ^ 32)) with true by (symmetry; apply andb_true_iff; split; apply N.ltb_lt; assumption).
    set (z := concat front ++ _). unfold sers, ser. cbn [map concat fst snd]. rewrite app_nil_r, !app_assoc. now apply fits_tail.
  - apply sig_take in He. change SIG_SIZE with 256 in He. subst e. change (sers (pblocks None)) with (@nil byte). cbn [map concat]. rewrite !app_nil_r. set (z := ser (bstr "SRSF", a)). unfold ser. cbn [fst snd]. rewrite !app_assoc. now apply fits_tail.
Qed.
Theorem mp3_exact app name big offset fp front audio e tl srs front' more tl' :
  well_formed front audio tl -> mp3_srs py_int app name big offset fp (mp3_file front audio tl) = Ok srs ->
  srs_ending audio fp e -> 128 <= lenN e -> tl_lyrics1 tl = None -> fits e tl -> well_formed front' (audio ++ more) tl' ->
  mp3_restore py_int srs (mp3_file front' (audio ++ more) tl') = Ok (Rebuilt (mp3_file front audio tl)).
Proof.
  intros W H He L Hl Hfit W'. apply (mp3_exact_general app name big offset fp _ _ _ srs _ _ _ W H); [|exact W']. apply srs_is in H as (a & b & r & -> & Eb & _); [|exact W].
  intros mid E. unfold mp3_file in E. apply app_inv_head, app_inv_tail in E. subst mid. eapply srs_fits; eauto.
Qed.
(** ** Data in front of the audio *)
Lemma find_inside (t : track) audio body front' tl' o : t_file t = None -> td_length (t_td t) = lenN audio -> td_signature (t_td t) = takeN 256 audio -> 4 <= lenN audio ->
  well_formed front' body tl' -> ~ sync body -> first_occurs (takeN 256 audio) body o -> o <> 0 -> lenN audio <= lenN body ->
  mp3_find py_int [(1, t)] (mp3_file front' body tl') = Ok [(1, located t (Z.of_N o) (lenN audio))].
Proof.
  intros Hfile Hlen Hsig L4 W Hns Hf Ho Hle. destruct (sig_len audio L4) as (S1 & S2 & S3).
  assert (Hsn : takeN 256 audio <> []) by (intros X; rewrite X in S2; cbn in S2; lia).
  unfold mp3_find. rewrite (blocks_audio _ _ _ W). cbn [bind]. rewrite find_audio. cbn [get_track]. rewrite N.eqb_refl. cbn [bind m_size m_start].
  replace (Z.of_N (lenN body) <? 0)%Z with false by lia. rewrite Hsig, Hlen. rewrite blocks_file. rewrite part_at by lia. cbn [bind]. change (Z.to_N 0) with 0. rewrite sub_0.
  replace (Z.to_N (Z.min (Z.of_N (lenN body)) (Z.of_N (lenN (takeN 256 audio))))) with (lenN (takeN 256 audio)) by lia.
  assert (Ld : 2 <= lenN (takeN (lenN (takeN 256 audio)) body)) by (rewrite lenN_takeN; lia).
  destruct (beqb _ _) eqn:B.
  { exfalso. apply Ho. destruct Hf as [_ Hm]. apply N.le_0_r. apply Hm. apply occurs_occ; [exact Hsn|]. unfold occ. rewrite sub_0. symmetry. now apply beqb_eq. }
  replace (2 <=? lenN (takeN (lenN (takeN 256 audio)) body)) with true by lia.
  replace (starts_sync (takeN (lenN (takeN 256 audio)) body)) with false.
  2:{ symmetry. destruct (starts_sync _) eqn:Y; [|reflexivity]. exfalso. apply Hns. rewrite takeN_firstn in Y. destruct (N.to_nat (lenN (takeN 256 audio))) as [|[|k]] eqn:En; [lia|lia|].
      destruct body as [|c [|e body]]; [discriminate|discriminate|]. cbn [firstn starts_sync] in Y. unfold is_sync in Y. apply andb_true_iff in Y as [Y1 Y2].
      exists e, body. split; [|lia]. f_equal. apply b2n_inj. change (b2n xff) with 255. lia. }
  rewrite (match_first (concat front') body (trail tl') (str "MP3") _ o Hsn S1 Hf). cbn [bind set_track]. rewrite N.eqb_refl, N2Z.id.
  replace (N.min (lenN audio) (lenN body)) with (lenN audio) by lia. reflexivity.
Qed.
Theorem mp3_prepended app name big offset fp front audio sig e tl srs junk more tl' :
  well_formed front audio tl -> mp3_srs py_int app name big offset fp (mp3_file front audio tl) = Ok srs ->
  srs_ending audio fp e -> 128 <= lenN e -> tl_lyrics1 tl = None -> fits e tl -> signature_of audio sig ->
  well_formed [] (junk ++ audio ++ more) tl' -> ~ sync (junk ++ audio ++ more) -> first_occurs sig (junk ++ audio ++ more) (lenN junk) ->
  mp3_restore py_int srs (mp3_file [] (junk ++ audio ++ more) tl') = Ok (Rebuilt (mp3_file front audio tl)).
Proof.
  intros W H He L Hl Hfit Hsig W' Hs Hf. apply sig_take in Hsig. change SIG_SIZE with 256 in Hsig. subst sig.
  destruct junk as [|c junk]; [apply (mp3_exact app name big offset fp front audio e tl srs [] more tl' W H He L); auto|].
  assert (L4 : 4 <= lenN audio) by (destruct W as (_ & (L4 & _) & _); exact L4).
  apply srs_is in H as (a & b & r & -> & Eb & K); [|exact W]. destruct (K (srs_fits _ _ _ _ _ _ _ _ Eb He L Hl Hfit)) as (d & t & Hc & Ht & Hlen & Hsig & _ & _ & HB & HL).
  apply (restore_at _ _ _ _ _ _ d t _ _ _ (lenN (c :: junk)) HL HB Hc Hlen).
  - destruct audio; [cbn in L4; lia|discriminate].
  - exact W'.
  - change (lenN (concat [])) with 0. rewrite N.add_0_l. apply find_inside; auto; [rewrite lenN_cons; lia|rewrite !lenN_app; lia].
  - exists (c :: junk), more. split; reflexivity.
Qed.
(** With a tag in front as well the offset is wrong. *)
Theorem mp3_prepended_tagged app name big offset fp front audio sig e tl srs front' body tl' o :
  well_formed front audio tl -> mp3_srs py_int app name big offset fp (mp3_file front audio tl) = Ok srs ->
  srs_ending audio fp e -> 128 <= lenN e -> tl_lyrics1 tl = None -> fits e tl -> signature_of audio sig ->
  well_formed front' body tl' -> ~ sync body -> occurs audio body o -> first_occurs sig body o -> 0 < o < lenN (concat front') ->
  mp3_restore py_int srs (mp3_file front' body tl') = Err AssertionError.
Proof.
  intros W H He L Hl Hfit Hsig W' Hs Ha Hf Ho. apply sig_take in Hsig. change SIG_SIZE with 256 in Hsig. subst sig.
  assert (L4 : 4 <= lenN audio) by (destruct W as (_ & (L4 & _) & _); exact L4).
  apply srs_is in H as (a & b & r & -> & Eb & K); [|exact W]. destruct (K (srs_fits _ _ _ _ _ _ _ _ Eb He L Hl Hfit)) as (d & t & Hc & Ht & Hlen & Hsig & _ & _ & HB & HL).
  unfold mp3_restore, srs_rebuild. rewrite HL. cbn [bind orb].
  rewrite (find_inside t audio body front' tl' o Ht Hlen Hsig); [|exact L4|exact W'|exact Hs|exact Hf|lia|destruct Ha as (u & v & -> & _); rewrite !lenN_app; lia].
  cbn [bind existsb snd andb]. unfold not_located. cbn [t_td located t_offset].
  cbn [negb]. rewrite andb_false_r. replace (Z.of_N o =? -1)%Z with false by lia. cbn [andb orb].
  unfold mp3_extract. rewrite (blocks_audio _ _ _ W'). cbn [bind]. rewrite find_audio. cbn [get_track]. rewrite N.eqb_refl. cbn [bind located t_offset m_start].
  replace (Z.of_N o - Z.of_N (lenN (concat front')) <? 0)%Z with true by lia. reflexivity.
Qed.
(** ** Only the sample is accepted *)
Theorem mp3_sound app name big offset fp front audio tl srs main out :
  well_formed front audio tl -> mp3_srs py_int app name big offset fp (mp3_file front audio tl) = Ok srs ->
  (forall mid, srs = mp3_file front mid tl -> fits (concat front ++ mid) tl) ->
  mp3_restore py_int srs main = Ok (Rebuilt out) ->
  crc32 out = crc32 (mp3_file front audio tl) /\ exists data, out = mp3_file front data tl /\ lenN data = lenN audio.
Proof.
  intros W H Hfit R. apply srs_is in H as (a & b & r & -> & _ & K); [|exact W]. destruct (K (Hfit _ eq_refl)) as (d & t & Hc & Ht & Hlen & Hsig & Hm & _ & HB & HL).
  assert (Hsn : td_signature (t_td t) <> []).
  { rewrite Hsig. destruct W as (_ & (L4 & _) & _). intros X. apply (f_equal lenN) in X. rewrite lenN_takeN in X. cbn [lenN] in X. lia. }
  unfold mp3_restore, srs_rebuild in R. rewrite HL in R. cbn [bind orb] in R. bindinv R. rename v into ts.
  assert (T : exists t', ts = [(1, t')] /\ t_td t' = t_td t /\ t_file t' = None /\ t_match t' <= lenN audio).
  { unfold mp3_find in E. bindinv E. destruct (find is_audio v) as [bl|]; [|apply ok_inj in E; subst ts; exists t; rewrite Hm; repeat split; auto; lia].
    cbn [get_track] in E. rewrite N.eqb_refl in E. cbn [bind] in E. destruct (_ <? _)%Z in E; [discriminate|]. bindinv E. bindinv E. cbn [set_track] in E. rewrite N.eqb_refl in E. apply ok_inj in E. subst ts.
    exists v1. split; [reflexivity|].
    assert (P : forall z n, n <= lenN audio -> v1 = located t z n -> t_td v1 = t_td t /\ t_file v1 = None /\ t_match v1 <= lenN audio) by (intros z n Hn ->; cbn; auto).
    destruct (beqb _ _) in E2; [apply ok_inj in E2; apply (P _ _ ltac:(rewrite <- Hlen; apply N.le_min_l) (eq_sym E2))|].
    assert (M0 : t_match t <= lenN audio) by (rewrite Hm; lia).
    destruct (_ <=? _) in E2; [|apply ok_inj in E2; exact (P _ _ M0 (eq_sym E2))].
    destruct (starts_sync _) in E2; [apply ok_inj in E2; exact (P _ _ M0 (eq_sym E2))|]. bindinv E2. destruct v2; apply ok_inj in E2; [|exact (P _ _ M0 (eq_sym E2))].
    apply (P _ _ ltac:(rewrite <- Hlen; apply N.le_min_l) (eq_sym E2)). }
  destruct T as (t' & -> & T1 & T2 & T3). destruct (_ && _) in R; [discriminate|]. bindinv R. rename v into ts. rename E0 into X.
  assert (U : exists t2, ts = [(1, t2)] /\ t_td t2 = t_td t /\ match t_file t2 with Some z => lenN z <= lenN audio | None => True end).
  { unfold mp3_extract in X. bindinv X. destruct (find is_audio v) as [bl|]; [|apply ok_inj in X; subst ts; exists t'; rewrite T2; auto].
    cbn [get_track] in X. rewrite N.eqb_refl in X. cbn [bind] in X. destruct (_ <? _)%Z in X; [discriminate|]. bindinv X. cbn [set_track] in X. rewrite N.eqb_refl in X. apply ok_inj in X. subst ts.
    eexists. split; [reflexivity|]. split; [exact T1|]. cbn [t_file]. unfold m_part, zread in E1. destruct (_ <? _)%Z in E1; [discriminate|]. destruct (_ <? _)%Z in E1; [discriminate|]. apply ok_inj in E1. subst v0.
    unfold read_at. replace (Z.of_N (t_match t') <? 0)%Z with false by lia. rewrite lenN_sub. lia. }
  destruct U as (t2 & -> & U1 & U2). cbn [existsb snd orb] in R. unfold not_extracted in R. rewrite U1 in R.
  replace (beqb (td_signature (t_td t)) []) with false in R by (symmetry; destruct (beqb _ _) eqn:Y; [apply beqb_eq in Y; congruence|reflexivity]). cbn [negb andb] in R.
  destruct (t_file t2) as [data|] eqn:Fd; [|discriminate]. rewrite Hlen in R. destruct (N.ltb_spec (lenN data) (lenN audio)); [discriminate|]. cbn [orb] in R.
  rewrite (rebuild_mp3 front a b fp tl t2 data HB Fd) in R. cbn [bind fst snd] in R. destruct (N.eqb_spec (crc32 (mp3_file front data tl)) (fd_crc32 d)) as [C|C]; [|discriminate].
  apply ok_inj in R. injection R as <-. split; [now rewrite C, Hc|]. exists data. split; [reflexivity|lia].
Qed.
(** ** The fingerprint *)
Theorem mp3_fingerprint app name big offset fp front audio tl srs : well_formed front audio tl -> mp3_srs py_int app name big offset fp (mp3_file front audio tl) = Ok srs ->
  (forall mid, srs = mp3_file front mid tl -> fits (concat front ++ mid) tl) -> (forall d s, fp = Some (d, s) -> d < 2 ^ 32 /\ lenN s + 16 < 2 ^ 32) ->
  exists d t, mp3_load_srs py_int srs = Ok (d, [(1, t)]) /\ t_print t = fp.
Proof.
  intros W H Hfit Hs. apply srs_is in H as (a & b & r & -> & _ & K); [|exact W]. destruct (K (Hfit _ eq_refl)) as (d & t & _ & _ & _ & _ & _ & Hp & _ & HL). exists d, t. split; [exact HL|]. rewrite Hp.
  destruct fp as [[du s]|]; [|reflexivity]. destruct (Hs _ _ eq_refl) as [H1 H2]. unfold pblocks. apply N.ltb_lt in H1, H2. rewrite H1, H2. reflexivity.
Qed.
(** ** What can be created *)
Lemma pblocks_size fp ps : print_size fp ps -> lenN (sers (pblocks fp)) = ps.
Proof.
  destruct fp as [[d t]|]; cbn [print_size]; [|intros ->; reflexivity]. intros [H1 H2]. unfold pblocks. destruct (N.ltb_spec d (2 ^ 32)); destruct (N.ltb_spec (lenN t + 16) (2 ^ 32)); cbn [andb].
  - rewrite H1 by (split; assumption). unfold sers, ser. cbn [map concat fst snd]. repeat rewrite ?lenN_app, ?lenN_le. change (lenN (bstr "SRSP")) with 4. change (lenN []) with 0. change (N.of_nat 4) with 4. lia.
  - rewrite H2 by lia. reflexivity.
  - rewrite H2 by lia. reflexivity.
  - rewrite H2 by lia. reflexivity.
Qed.
Theorem mp3_creates app name base (big : bool) offset fp ps front audio tl a n : print_size fp ps -> well_formed front audio tl -> utf8_enc app = Some a -> lenN a < 2 ^ 16 -> after_slash name base -> utf8_enc base = Some n -> lenN n < 2 ^ 16 ->
  lenN audio < (if big then 2 ^ 64 else 2 ^ 32) -> lenN (mp3_file front audio tl) < 2 ^ 64 -> offset < 2 ^ 64 ->
  exists srs, mp3_srs py_int app name big offset fp (mp3_file front audio tl) = Ok srs /\
  lenN srs = lenN (mp3_file front (takeN 256 audio) tl) + 52 + lenN a + lenN n + (if big then 4 else 0) + ps.
Proof.
  intros Hps. rewrite <- (pblocks_size _ _ Hps). clear Hps.
  intros W Ha La Hn En Ln Hl L64 Ho. unfold mp3_srs. rewrite (profile_mp3 name _ _ _ W). cbn [bind snd fst]. unfold mp3_create. rewrite (blocks_audio _ _ _ W). cbn [bind].
  set (fd := {| fd_flags := NEW_FLAGS |}). set (t := with_stored big offset _).
  assert (Ef : flat (parts front [(str "MP3", audio)] tl) = mp3_file front audio tl) by (rewrite flat_parts; unfold flat; cbn [map concat snd]; now rewrite app_nil_r).
  pose proof (map_lay (create_block app fd (Some t) fp) (create' app fd (Some t) fp)) as M. specialize (M ltac:(intros pre ty d post; unfold create_block, create'; change (is_audio _) with (audio_ty ty); cbn [fst snd]; destruct (audio_ty ty); [reflexivity|apply contents_at])).
  specialize (M (parts front [(str "MP3", audio)] tl) [] []). cbn [Datatypes.app lenN] in M. rewrite app_nil_r, Ef in M. rewrite M. clear M.
  unfold parts. rewrite mapR_app, (create_plain _ _ _ _ _ (front_plain front)). cbn [bind]. rewrite mapR_app, (create_plain _ _ _ _ _ (tail_plain tl)).
  cbn [mapR]. unfold create'. cbn [fst snd]. change (audio_ty (str "MP3")) with true. cbv iota. unfold file_block, track_block. rewrite pblocks_ser.
  rewrite (file_accepts app fd base a n Ha La Hn En Ln eq_refl L64). cbn [bind].
  destruct (track_accepts t) as (b & Hb & Lb).
  - destruct big; reflexivity.
  - reflexivity.
  - destruct big; exact Hl.
  - exact Ho.
  - cbn [t with_stored td_signature]. rewrite lenN_takeN. change (2 ^ 16) with 65536. lia.
  - rewrite Hb. unfold mp3_block. rewrite pack_ok; [cbn [bind]; rewrite pack_ok; [eexists; split; [reflexivity|]|]|].
    + rewrite concat_app. cbn [Datatypes.app concat]. fold (flat (map (pair (str "ID3")) front)) (flat (tail_parts tl)). rewrite flat_front.
      replace (flat (tail_parts tl)) with (trail tl) by (unfold tail_parts, trail; now rewrite !flat_app, !flat_tag).
      unfold mp3_file. rewrite !lenN_app, !lenN_le, Lb. change (lenN (bstr "SRSF")) with 4. change (lenN (bstr "SRST")) with 4. cbn [t with_stored td_signature td_number td_flags].
      change (2 ^ 16 <=? 1) with false. unfold file_layout. rewrite !lenN_app, !lenN_le. change (N.of_nat 4) with 4. change (N.of_nat 2) with 2. change (N.of_nat 8) with 8.
      replace (has (if big then N.lor 0 BIG_FILE else 0) 4) with big by (destruct big; reflexivity). destruct big; lia.
    + rewrite Lb. cbn [t with_stored td_signature td_number]. rewrite lenN_takeN. change (2 ^ 16 <=? 1) with false. change (2 ^ (8 * N.of_nat 4)) with 4294967296. destruct (has _ _); lia.
    + unfold file_layout. rewrite !lenN_app, !lenN_le. change (2 ^ (8 * N.of_nat 4)) with 4294967296. change (2 ^ 16) with 65536 in *. lia.
Qed.

(** ** Lyrics3v1 tags *)
(** The SRS of a small sample, or of one with little metadata, is too short to look for the start of the tag. *)
Theorem mp3_lyrics app name big offset fp front audio tl t g srs main : well_formed front audio tl ->
  mp3_srs py_int app name big offset fp (mp3_file front audio tl) = Ok srs ->
  tl_lyrics1 tl = Some t -> tl_lyrics2 tl = None -> tl_tag tl = Some g -> lenN srs < 5228 ->
  mp3_restore py_int srs main = Err OSError.
Proof.
  intros W H Hl1 Hl2 Ht L. apply srs_is in H as (a & b & r0 & -> & _ & _); [|exact W]. destruct W as (Hf & _ & Hfit). destruct Hfit as [_ F1 _ F3 _]. rewrite Ht in F1. rewrite Hl1 in F3. destruct F3 as ((_ & u & Eu) & _).
  unfold mp3_restore, srs_rebuild, mp3_load_srs. replace (mp3_blocks py_int (mp3_file front (sers (srs_list a b fp)) tl)) with (@Err (list mblock) OSError); [reflexivity|]. symmetry.
  assert (Lg : lenN g = 128) by (destruct F1 as (r & -> & Lr); rewrite lenN_app, Lr; reflexivity).
  set (p := (concat front ++ sers (srs_list a b fp)) ++ opt (tl_ape tl)).
  assert (E1 : mp3_file front (sers (srs_list a b fp)) tl = ((p ++ opt (Some t)) ++ opt None) ++ opt (Some g)).
  { unfold mp3_file, trail, p. rewrite Hl1, Hl2, Ht. cbn [opt]. rewrite app_nil_r. cbn [Datatypes.app]. rewrite <- !app_assoc. reflexivity. }
  unfold mp3_blocks.
  assert (I : id3_loop (S (length (mp3_file front (sers (srs_list a b fp)) tl))) (mp3_file front (sers (srs_list a b fp)) tl) 0 = Ok (lay 0 (map (pair (str "ID3")) front), lenN (concat front))).
  { pose proof (id3_front front Hf [] ((sers (srs_list a b fp)) ++ trail tl) (S (length (mp3_file front (sers (srs_list a b fp)) tl)))) as I. cbn [Datatypes.app lenN] in I. rewrite N.add_0_l in I. apply I.
    - unfold mp3_file. rewrite app_length. pose proof (length_concat _ Hf). lia.
    - intros (r & E). discriminate. }
  rewrite I. cbn [bind]. clear I. rewrite E1 in L. rewrite E1.
  rewrite tag_step; [|rewrite lenN_app; cbn [opt]; rewrite Lg; lia|exact F1]. cbn [bind].
  rewrite (lyrics2_step (p ++ opt (Some t)) (opt (Some g)) None).
  2:{ cbn [opt]. rewrite app_nil_r. intros (r & E). rewrite Eu, !app_assoc in E. apply (f_equal (@rev byte)) in E. rewrite !rev_app_distr in E. discriminate. }
  cbn [bind]. unfold step_lyrics1. cbn [opt] in *. rewrite !lenN_app in L. cbn [lenN] in L.
  assert (Lt : 20 <= lenN t) by (rewrite Eu, !lenN_app; change (lenN (bstr "LYRICSBEGIN")) with 11; change (lenN (bstr "LYRICSEND")) with 9; lia).
  assert (Lp : lenN (p ++ t) = lenN p + lenN t) by now rewrite lenN_app. replace (0 <=? Z.of_N (lenN (p ++ t)) - 9)%Z with true by lia.
  rewrite <- (app_assoc (p ++ t)). pose proof (zread_end (p ++ t) ([] ++ g) 9) as R. change (Z.of_N 9) with 9%Z in R. rewrite R by lia. cbn [bind].
  replace (dropN (lenN (p ++ t) - 9) (p ++ t)) with (bstr "LYRICSEND"); [|symmetry; apply (ends_drop (p ++ t) (bstr "LYRICSEND")); exists (p ++ bstr "LYRICSBEGIN" ++ u); rewrite Eu, <- !app_assoc; reflexivity].
  rewrite beqb_refl. unfold zread. replace (Z.of_N (lenN (p ++ t)) - 5100 <? 0)%Z with true by lia. reflexivity.
Qed.
End Int.
(** ** int() *)
Definition digits_int (d : bytes) : result Z :=
  if forallb (fun c => (48 <=? b2n c) && (b2n c <=? 57)) d then Ok (Z.of_N (fold_left (fun a c => 10 * a + (b2n c - 48)) d 0)) else Err ValueError.
Lemma digits_read : reads_digits digits_int.
Proof.
  intros d n (_ & H & ->). unfold digits_int. replace (forallb _ d) with true; [reflexivity|]. symmetry. apply forallb_forall. rewrite Forall_forall in H. intros c Hc. specialize (H c Hc). cbn beta in H. lia.
Qed.
(** ** Reading ends *)
Lemma id3_ends fuel : forall f pos, pos <= lenN f \/ fuel <> O -> lenN f < pos + N.of_nat fuel -> id3_loop fuel f pos <> Err OutOfFuel.
Proof.
  induction fuel as [|fuel IH]; intros f pos H0 H; [lia|]. cbn [id3_loop]. destruct (beqb _ _) eqn:B; [|discriminate]. apply beqb_eq, (f_equal lenN) in B. rewrite lenN_sub in B. change (lenN (bstr "ID3")) with 3 in B.
  destruct (decode_id3_size (sub (pos + 6) 4 f)) as [size|e] eqn:D; cbn [bind].
  - specialize (IH f (pos + (10 + size))). destruct fuel as [|fuel]; [lia|]. destruct (id3_loop (S fuel) f (pos + (10 + size))) as [r|e]; [discriminate|]. cbn [bind]. intros X. apply IH; [now right|lia|congruence].
  - unfold decode_id3_size in D. intros X. injection X as ->. destruct (sub (pos + 6) 4 f) as [|? [|? [|? [|? ?]]]]; cbn in D; congruence.
Qed.
Lemma srs_ends fuel : forall f cur stop, lenN f < cur + N.of_nat fuel -> srs_loop fuel f cur stop <> Err OutOfFuel \/ fuel = O.
Proof.
  induction fuel as [|fuel IH]; intros f cur stop H; [now right|]. left. cbn [srs_loop]. destruct (_ <? _)%Z; [|discriminate]. destruct (unpack 4 f (cur + 4)) as [size|] eqn:U; [|discriminate].
  destruct (forallb _ _); [|discriminate]. destruct (N.eqb_spec size 0); [discriminate|]. destruct (_ <? _)%Z; [discriminate|]. apply unpack_ok_len in U; [|discriminate]. change (N.of_nat 4) with 4 in U.
  destruct (IH f (cur + size) stop ltac:(lia)) as [K|K]; [|lia]. destruct (srs_loop fuel f (cur + size) stop); [discriminate|]. cbn [bind]. intros X. apply K. congruence.
Qed.
Lemma last_ends fuel : forall f cur g i, lenN f < cur + N.of_nat fuel -> last_id3_loop fuel f cur g i <> Err OutOfFuel \/ fuel = O.
Proof.
  induction fuel as [|fuel IH]; intros f cur g i H; [now right|]. left. cbn [last_id3_loop]. destruct (N.ltb_spec cur (lenN f)); [|discriminate]. cbn zeta. destruct (_ =? _)%Z; [|discriminate].
  match goal with |- last_id3_loop fuel f ?c ?g' ?i' <> _ => destruct (IH f c g' i' ltac:(lia)) as [K|K]; [exact K|lia] end.
Qed.
Lemma decode_fuel l : decode_id3_size l <> Err OutOfFuel.
Proof. destruct l as [|? [|? [|? [|? ?]]]]; cbn; discriminate. Qed.
Lemma zread_fuel f p n : zread f p n <> Err OutOfFuel.
Proof. unfold zread. destruct (_ <? _)%Z; discriminate. Qed.
Lemma bind_fuel {A B} (r : result A) (g : A -> result B) : r <> Err OutOfFuel -> (forall a, g a <> Err OutOfFuel) -> bind r g <> Err OutOfFuel.
Proof. destruct r as [a|e]; cbn [bind]; intros H1 H2; [apply H2|]. congruence. Qed.
Lemma unpack_fuel k b o : unpack k b o <> Err OutOfFuel.
Proof. unfold unpack. now destruct (_ =? _). Qed.
Lemma repair_fuel f ids b : repair f ids b <> Err OutOfFuel.
Proof.
  unfold repair. apply bind_fuel.
  - destruct (last_ends (S (length f)) f 0 0 0) as [K|K]; [rewrite lenN_length; lia|exact K|discriminate].
  - intros z. destruct (_ =? _)%Z; [discriminate|]. destruct (_ <=? _)%Z; [|destruct (_ <? _)%Z; [|discriminate]]; (apply bind_fuel; [apply zread_fuel|intros l; apply bind_fuel; [apply decode_fuel|discriminate]]).
Qed.
Theorem mp3_reader_ends py_int f : (forall d, py_int d <> Err OutOfFuel) -> mp3_blocks py_int f <> Err OutOfFuel.
Proof.
  intros Hp. unfold mp3_blocks. apply bind_fuel; [apply id3_ends; [right; discriminate|rewrite lenN_length; lia]|intros [ids begin]].
  apply bind_fuel; [unfold step_tag; apply bind_fuel; [apply zread_fuel|discriminate]|intros [b1 e1]].
  apply bind_fuel; [unfold step_lyrics2; destruct (_ <=? _)%Z; [|discriminate]; apply bind_fuel; [apply zread_fuel|intros l]; destruct (beqb _ _); [|discriminate]; apply bind_fuel; [apply Hp|discriminate]|intros [b2 e2]].
  apply bind_fuel; [unfold step_lyrics1; destruct (_ <=? _)%Z; [|discriminate]; apply bind_fuel; [apply zread_fuel|intros l]; destruct (beqb _ _); [|discriminate]; apply bind_fuel; [apply zread_fuel|intros w; destruct (find_sub _ _ _); discriminate]|intros [b3 e3]].
  apply bind_fuel.
  { unfold step_ape. destruct (_ <=? _)%Z; [|discriminate]; apply bind_fuel; [apply zread_fuel|intros l]; destruct (beqb _ _); [|discriminate].
    apply bind_fuel; [|intros v; apply bind_fuel; [|discriminate]]; apply unpack_fuel. }
  intros [b4 e4]. apply bind_fuel; [destruct ids; [discriminate|]; destruct (marker_has_issues _); [apply repair_fuel|discriminate]|intros [ids' begin']].
  apply bind_fuel; [apply zread_fuel|intros m]. destruct m as [|? [|? ?]]; [discriminate|discriminate|]. apply bind_fuel; [|discriminate].
  destruct (beqb _ _); [|discriminate]. destruct (srs_ends (S (length f)) f (Z.to_N begin') e4) as [K|K]; [rewrite lenN_length; lia|exact K|discriminate].
Qed.

(** ** Examples *)
Lemma not_before s (l : bytes) n : sub (lenN l - n) (lenN s) l <> s -> ~ before_end s l n.
Proof. intros H (a & b & -> & L). apply H. apply sub_app_exact; [|reflexivity]. rewrite (lenN_app a), L. lia. Qed.
Lemma not_ends s (l : bytes) : dropN (lenN l - lenN s) l <> s -> ~ ends s l.
Proof. intros H X. apply H. now apply ends_drop. Qed.
Lemma not_starts s (l : bytes) : takeN (lenN s) l <> s -> ~ starts s l.
Proof. intros H X. apply H. now apply starts_take. Qed.
Definition m_front : list bytes := [bstr "ID3" ++ [x03; x00; x00; x00; x00; x00; x02] ++ bstr "hi"].
Definition m_audio : bytes := [xff; xfb] ++ repN 128 x61.
Definition m_tag : bytes := bstr "TAG" ++ repN 125 x20.
Definition m_ape : bytes := bstr "item" ++ bstr "APETAGEX" ++ le 4 1000 ++ le 4 36 ++ repN 16 x00.
Definition m_lyr : bytes := bstr "LYRICSBEGIN" ++ bstr "000011" ++ bstr "LYRICS200".
Definition m_tl : trailer := mkTrailer (Some m_ape) None (Some m_lyr) None.
Definition m_tl' : trailer := mkTrailer None None None (Some m_tag).
Definition m_name : text := str "/tmp/a.mp3".
Definition m_app : text := str "pyReSample 0.7".
Lemma tag_ok : id3v1 m_tag. Proof. exists (repN 125 x20). split; reflexivity. Qed.
Lemma ape_ok : ape_tag m_ape.
Proof. exists [], (bstr "item"), 1000, (repN 16 x00). repeat (split; [reflexivity|]). reflexivity. Qed.
Lemma lyr_ok : lyrics2 m_lyr.
Proof.
  exists (bstr "LYRICSBEGIN"), (bstr "000011"). split; [reflexivity|]. split; [reflexivity|]. split; [|reflexivity].
  apply Forall_forall. intros c Hc. cbn in Hc. destruct Hc as [<-|[<-|[<-|[<-|[<-|[<-|[]]]]]]]; split; vm_compute; discriminate.
Qed.
Ltac nope := first [apply not_before|apply not_ends|apply not_starts]; vm_compute; discriminate.
Lemma m_fits p : fits (p ++ m_audio) m_tl.
Proof.
  apply fits_tail; [|vm_compute; discriminate|reflexivity]. split.
  - vm_compute. discriminate.
  - cbn [tl_tag m_tl]. nope.
  - exact lyr_ok.
  - cbn [tl_lyrics1 m_tl]. nope.
  - exact ape_ok.
Qed.
Lemma m_fits' p : 32 <= lenN p -> ~ before_end (bstr "APETAGEX") p 32 -> ~ ends (bstr "LYRICS200") p -> ~ ends (bstr "LYRICSEND") p -> fits p m_tl'.
Proof.
  intros L H1 H2 H3. split.
  - rewrite lenN_app. change (lenN (trail m_tl')) with 128. lia.
  - exact tag_ok.
  - cbn [tl_lyrics2 m_tl' tl_ape tl_lyrics1 opt]. cbn [app]. now rewrite app_nil_r.
  - cbn [tl_lyrics1 m_tl' tl_ape opt]. now rewrite app_nil_r.
  - exact H1.
Qed.
Lemma m_id3 : Forall id3v2 m_front.
Proof.
  constructor; [|constructor]. exists [x03; x00; x00], [x00; x00; x00; x02], (bstr "hi"). split; [reflexivity|]. split; [reflexivity|]. exists 0, 0, 0, 2. repeat (split; [reflexivity|]). reflexivity.
Qed.
Lemma m_well : well_formed m_front m_audio m_tl.
Proof.
  split; [exact m_id3|]. split; [|apply m_fits]. split; [vm_compute; discriminate|]. split; [nope|]. split; [nope|]. intros _. left. exists xfb, (repN 128 x61). split; [reflexivity|vm_compute; discriminate].
Qed.
Lemma m_well' : well_formed [] (m_audio ++ bstr "more") m_tl'.
Proof.
  split; [constructor|]. split; [|apply m_fits'; [vm_compute; discriminate|nope|nope|nope]]. split; [vm_compute; discriminate|]. split; [nope|]. split; [nope|]. congruence.
Qed.
Lemma m_sig : signature_of m_audio m_audio.
Proof. split; [exists []; now rewrite app_nil_r|reflexivity]. Qed.
Lemma m_name_ok : after_slash m_name (str "a.mp3").
Proof. split; [|right; exists (str "/tmp"); reflexivity]. cbn. intros H. repeat destruct H as [H|H]; try discriminate. contradiction. Qed.
Definition m_print : option (N * bytes) := Some (215, bstr "AQAAT0mUaEkSRUnCHA_xZ8eDHz9yZId_HM1xwUeeZMef4dFxHMdzPMcPH8eP4zhxHD2OHz-O40eP4ziO43hx_DhyHMeO48eP48jxH8dxHD-OH8ePHz9-HD9-_Dh-_MePHw").
Lemma m_print_size : print_size m_print 146.
Proof. split; [reflexivity|]. intros H. exfalso. apply H. split; [reflexivity|vm_compute; reflexivity]. Qed.
Lemma m_print_fits p : fits (p ++ snd (match m_print with Some p => p | None => (0, []) end)) m_tl.
Proof.
  apply fits_tail; [|vm_compute; discriminate|reflexivity]. split.
  - vm_compute. discriminate.
  - cbn [tl_tag m_tl]. nope.
  - exact lyr_ok.
  - cbn [tl_lyrics1 m_tl]. nope.
  - exact ape_ok.
Qed.
Lemma m_created fp : exists srs, mp3_srs digits_int m_app m_name false 0 fp (mp3_file m_front m_audio m_tl) = Ok srs /\
  forall ps, print_size fp ps -> lenN srs = lenN (mp3_file m_front m_audio m_tl) + 52 + 14 + 5 + ps.
Proof.
  destruct (mp3_creates digits_int digits_read m_app m_name (str "a.mp3") false 0 fp (lenN (sers (pblocks fp))) m_front m_audio m_tl (bstr "pyReSample 0.7") (bstr "a.mp3")) as (srs & H & L); try reflexivity.
  - destruct fp as [[d t]|]; cbn [print_size]; [|reflexivity]. split; intros X; apply pblocks_size; cbn [print_size]; split; tauto.
  - exact m_well.
  - exact m_name_ok.
  - exists srs. split; [exact H|]. intros ps Hps. rewrite L, (pblocks_size _ _ Hps). reflexivity.
Qed.
Lemma ex_mp3 : reads_digits digits_int /\ well_formed m_front m_audio m_tl /\ srs_ending m_audio None m_audio /\ 128 <= lenN m_audio /\ tl_lyrics1 m_tl = None /\ fits m_audio m_tl /\
  (exists e, srs_ending m_audio m_print e /\ 128 <= lenN e /\ fits e m_tl) /\
  well_formed [] (m_audio ++ bstr "more") m_tl' /\
  forall fp, fp = None \/ fp = m_print -> exists srs, mp3_srs digits_int m_app m_name false 0 fp (mp3_file m_front m_audio m_tl) = Ok srs /\
  (forall mid, srs = mp3_file m_front mid m_tl -> fits (concat m_front ++ mid) m_tl).
Proof.
  split; [exact digits_read|]. split; [exact m_well|]. split; [exact m_sig|]. split; [vm_compute; discriminate|]. split; [reflexivity|]. split; [exact (m_fits [])|].
  assert (P : exists e, srs_ending m_audio m_print e /\ 128 <= lenN e /\ fits e m_tl).
  { exists (snd (match m_print with Some p => p | None => (0, []) end)). split; [split; [reflexivity|]; split; [vm_compute|]; reflexivity|]. split; [vm_compute; discriminate|]. exact (m_print_fits []). }
  split; [exact P|]. split; [exact m_well'|].
  intros fp Hfp. destruct (m_created fp) as (srs & H & _). exists srs. split; [exact H|]. intros mid E. apply srs_is in H as (a & b & r & -> & Eb & _); [|exact digits_read|exact m_well].
  unfold mp3_file in E. apply app_inv_head, app_inv_tail in E. subst mid. destruct Hfp as [-> | ->].
  - apply (srs_fits _ _ _ r m_audio None m_audio); [exact Eb|exact m_sig|vm_compute; discriminate|reflexivity|exact (m_fits [])].
  - destruct P as (e & P1 & P2 & P3). now apply (srs_fits _ _ _ r m_audio m_print e).
Qed.
Lemma ex_prepended : well_formed [] (bstr "junk" ++ m_audio ++ bstr "more") m_tl' /\ ~ sync (bstr "junk" ++ m_audio ++ bstr "more") /\ first_occurs m_audio (bstr "junk" ++ m_audio ++ bstr "more") (lenN (bstr "junk")).
Proof.
  split.
  { split; [constructor|]. split; [|apply m_fits'; [vm_compute; discriminate|nope|nope|nope]]. split; [vm_compute; discriminate|]. split; [nope|]. split; [nope|]. congruence. }
  split; [intros (b & r & E & _); discriminate|]. split; [exists (bstr "junk"), (bstr "more"); split; reflexivity|].
  intros o H. apply N.le_ngt. intros L. change (lenN (bstr "junk")) with 4 in L. apply occurs_occ in H; [|discriminate]. unfold occ in H.
  assert (o = 0 \/ o = 1 \/ o = 2 \/ o = 3) as [-> |[-> |[-> | ->]]] by lia; vm_compute in H; discriminate.
Qed.
Definition m_front' : list bytes := [bstr "ID3" ++ [x03; x00; x00; x00; x00; x00; x02] ++ bstr "hi"].
Lemma ex_tagged : well_formed m_front' (bstr "RIFF" ++ m_audio) m_tl' /\ ~ sync (bstr "RIFF" ++ m_audio) /\ occurs m_audio (bstr "RIFF" ++ m_audio) 4 /\
  first_occurs m_audio (bstr "RIFF" ++ m_audio) 4 /\ 0 < 4 < lenN (concat m_front').
Proof.
  assert (O : occurs m_audio (bstr "RIFF" ++ m_audio) 4) by (exists (bstr "RIFF"), []; split; [now rewrite app_nil_r|reflexivity]).
  split.
  { split; [exact m_id3|]. split; [|apply m_fits'; [vm_compute; discriminate|nope|nope|nope]]. split; [vm_compute; discriminate|]. split; [nope|]. split; [nope|]. intros _. right. now exists m_audio. }
  split; [intros (b & r & E & _); discriminate|]. split; [exact O|]. split; [|split; reflexivity]. split; [exact O|].
  intros o H. apply N.le_ngt. intros L. apply occurs_occ in H; [|discriminate]. unfold occ in H.
  assert (o = 0 \/ o = 1 \/ o = 2 \/ o = 3) as [-> |[-> |[-> | ->]]] by lia; vm_compute in H; discriminate.
Qed.
Theorem tagged_witness : exists sample srs main, mp3_srs digits_int m_app m_name false 0 m_print sample = Ok srs /\
  (exists a b, main = a ++ m_audio ++ b) /\ mp3_restore digits_int srs sample = Ok (Rebuilt sample) /\ mp3_restore digits_int srs main = Err AssertionError.
Proof.
  destruct (m_created m_print) as (srs & H & _). destruct ex_mp3 as (_ & _ & _ & _ & _ & _ & (e & P1 & P2 & P3) & _). exists (mp3_file m_front m_audio m_tl), srs, (mp3_file m_front' (bstr "RIFF" ++ m_audio) m_tl').
  split; [exact H|]. split; [exists (concat m_front' ++ bstr "RIFF"), (trail m_tl'); unfold mp3_file; now rewrite <- !app_assoc|]. destruct ex_tagged as (W & S & O & F & L). split.
  - pose proof (mp3_exact digits_int digits_read m_app m_name false 0 m_print m_front m_audio e m_tl srs m_front [] m_tl m_well H) as X. rewrite !app_nil_r in X. apply X; [exact P1|exact P2|reflexivity|exact P3|exact m_well].
  - apply (mp3_prepended_tagged digits_int digits_read m_app m_name false 0 m_print m_front m_audio m_audio e m_tl srs m_front' (bstr "RIFF" ++ m_audio) m_tl' 4 m_well H); [exact P1|exact P2|reflexivity|exact P3|exact m_sig|exact W|exact S|exact O|exact F|exact L].
Qed.
(** the fingerprint or, without it, the signature seems to hold an ID3v1 tag *)
Definition t_audio : bytes := [xff; xfb] ++ repN 126 x00 ++ bstr "TAG" ++ repN 131 x00.
Definition tag_print : option (N * bytes) := Some (215, bstr "AQAA_TAG" ++ repN 125 x41).
Definition no_tl : trailer := mkTrailer None None None None.
Lemma no_fits front (audio : bytes) : 128 <= lenN audio -> ~ before_end (bstr "TAG") (front ++ audio) 128 -> ~ ends (bstr "LYRICS200") (front ++ audio) -> ~ ends (bstr "LYRICSEND") (front ++ audio) -> ~ before_end (bstr "APETAGEX") (front ++ audio) 32 -> fits (front ++ audio) no_tl.
Proof.
  intros L H1 H2 H3 H4. split; cbn [no_tl tl_tag tl_lyrics2 tl_lyrics1 tl_ape trail opt app]; rewrite ?app_nil_r; auto. rewrite lenN_app. lia.
Qed.
Lemma tag_witness_none : well_formed [] t_audio no_tl /\ exists srs, mp3_srs digits_int m_app m_name false 0 None (mp3_file [] t_audio no_tl) = Ok srs /\ mp3_load_srs digits_int srs = Err ValueError.
Proof.
  split.
  - split; [constructor|]. split; [split; [vm_compute; discriminate|]; split; [nope|]; split; [nope|]; congruence|]. apply no_fits; [vm_compute; discriminate|nope|nope|nope|nope].
  - eexists. split; vm_compute; reflexivity.
Qed.
Lemma tag_witness : well_formed [] m_audio no_tl /\ exists srs, mp3_srs digits_int m_app m_name false 0 tag_print (mp3_file [] m_audio no_tl) = Ok srs /\ exists wrong, mp3_restore digits_int srs (mp3_file [] m_audio no_tl) = Ok (Mismatch wrong).
Proof.
  split.
  - split; [constructor|]. split; [split; [vm_compute; discriminate|]; split; [nope|]; split; [nope|]; congruence|]. apply no_fits; [vm_compute; discriminate|nope|nope|nope|nope].
  - eexists. split; [vm_compute; reflexivity|]. exists (mp3_file [] m_audio no_tl ++ bstr "TAG" ++ repN 125 x41). vm_compute. reflexivity.
Qed.
(** a Lyrics3v1 tag *)
Definition l_audio : bytes := [xff; xfb] ++ repN 5100 x00.
Definition l_lyr : bytes := bstr "LYRICSBEGIN" ++ bstr "la" ++ bstr "LYRICSEND".
Definition l_tl : trailer := mkTrailer None (Some l_lyr) None (Some m_tag).
Lemma l_well : well_formed [] l_audio l_tl.
Proof.
  assert (LA : lenN l_audio = 5102) by (unfold l_audio; rewrite lenN_app, lenN_repN; reflexivity).
  assert (T : forall s, s <> [] -> lenN s <= 5100 -> (forall c r, s = c :: r -> c <> x00) -> forall n, n <= 5100 -> before_end s (l_audio ++ l_lyr) n -> n <= lenN l_lyr).
  { intros s Hs Hl Hc n Hn (a & b & E & L). apply N.le_ngt. intros X. destruct s as [|c r]; [congruence|]. apply (Hc c r eq_refl).
    pose proof (f_equal lenN E) as E'. rewrite (lenN_app l_audio), (lenN_app a), L, LA in E'.
    apply (f_equal (dropN (lenN a))) in E. rewrite (dropN_app_exact a) in E by reflexivity. rewrite dropN_app, LA in E. replace (lenN a - 5102) with 0 in E by lia. rewrite dropN_0 in E.
    unfold l_audio in E. rewrite (dropN_app (lenN a)) in E. rewrite (dropN_all (lenN a) [xff; xfb]) in E by (cbn [lenN]; change (lenN l_lyr) with 22 in *; lia). cbn [app] in E.
    rewrite dropN_repN in E. change (lenN [xff; xfb]) with 2 in E. change (lenN l_lyr) with 22 in *. replace (5100 - (lenN a - 2)) with (N.succ (5100 - (lenN a - 2) - 1)) in E by lia. rewrite repN_succ in E. cbn [app] in E. injection E. congruence. }
  split; [constructor|]. split.
  - split; [rewrite LA; lia|]. unfold l_audio. split; [intros (r & E); discriminate|]. split; [intros (r & E); discriminate|]. congruence.
  - cbn [concat]. change ([] ++ l_audio) with l_audio. split.
    + rewrite lenN_app, LA. lia.
    + exact tag_ok.
    + cbn [l_tl tl_lyrics2 tl_ape tl_lyrics1 opt]. cbn [app]. intros X. apply ends_app in X; [|vm_compute; discriminate]. revert X. nope.
    + cbn [l_tl tl_lyrics1 tl_ape opt]. cbn [app]. split; [split; [vm_compute; discriminate|exists (bstr "la"); reflexivity]|]. split; [rewrite lenN_app, LA; lia|].
      intros n. apply T; [discriminate|vm_compute; discriminate|]. intros c r E. injection E as <- _. discriminate.
    + cbn [l_tl tl_ape]. unfold l_audio. replace (repN 5100 x00) with (repN 5000 x00 ++ repN 100 x00) by (rewrite <- repN_app; reflexivity). intros X. rewrite app_assoc in X. apply before_app in X; [|vm_compute; discriminate]. revert X. nope.
Qed.
Theorem lyrics_witness : exists srs, mp3_srs digits_int m_app m_name false 0 m_print (mp3_file [] l_audio l_tl) = Ok srs /\ forall main, mp3_restore digits_int srs main = Err OSError.
Proof.
  assert (LA : lenN l_audio = 5102) by (unfold l_audio; rewrite lenN_app, lenN_repN; reflexivity).
  destruct (mp3_creates digits_int digits_read m_app m_name (str "a.mp3") false 0 m_print 146 [] l_audio l_tl (bstr "pyReSample 0.7") (bstr "a.mp3") m_print_size l_well eq_refl eq_refl m_name_ok eq_refl eq_refl) as (srs & H & L); [rewrite LA; reflexivity|unfold mp3_file; rewrite !lenN_app, LA; reflexivity|reflexivity|].
  - exists srs. split; [exact H|]. intros main. apply (mp3_lyrics digits_int digits_read m_app m_name false 0 m_print [] l_audio l_tl l_lyr m_tag srs main l_well H); [reflexivity|reflexivity|reflexivity|].
    rewrite L. unfold mp3_file. rewrite !lenN_app, lenN_takeN, LA. reflexivity.
Qed.
