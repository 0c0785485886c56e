(** ComprFacts: the proofs about the blocks of compressed archives. *)
From Verif Require Import VolName VolSpec VolFacts.
From Verif Require Import Base BaseFacts SrrFacts Preprar Rarexe Compr ComprSpec.

(** ** The name of the archive *)
Lemma digit_iff c : digit c = true <-> 48 <= c <= 57.
Proof. unfold digit. rewrite Bool.andb_true_iff, !N.leb_le. reflexivity. Qed.
Lemma skip_all ds t : Forall (fun c => 48 <= c <= 57) ds -> (match t with [] => True | c :: _ => digit c = false end) ->
  skip_while digit (ds ++ t) = t.
Proof.
  intros H Ht. induction H as [|c ds Hc H IH]; cbn [app skip_while].
  - destruct t as [|c t]; cbn [skip_while]; [reflexivity|]. now rewrite Ht.
  - rewrite (proj2 (digit_iff c) Hc). exact IH.
Qed.
Lemma skip_parts (t : text) : exists ds, t = ds ++ skip_while digit t /\ Forall (fun c => 48 <= c <= 57) ds.
Proof.
  induction t as [|c t IH]; cbn [skip_while]; [exists []; auto|]. destruct (digit c) eqn:E.
  - destruct IH as (ds & E1 & H). exists (c :: ds). cbn [app]. split; [congruence|]. constructor; [now apply digit_iff|exact H].
  - exists []. auto.
Qed.
Lemma lower_t c : lower1 c = 116 -> digit c = false.
Proof. unfold lower1. intros H. destruct (digit c) eqn:E; [|reflexivity]. apply digit_iff in E. destruct ((65 <=? c) && (c <=? 90)) eqn:E2; lia. Qed.
Definition strip (n : text) : text :=
  match skip_while digit (rev n) with
  | t :: r :: a :: p :: dot :: rest => if teqb (lower [dot; p; a; r; t]) (str ".part") then rev rest else n
  | _ => n
  end.
Lemma part_strip n s : part_form n s -> strip n = s.
Proof.
  intros (p & ds & -> & Hp & Hd). unfold strip. rewrite app_assoc, rev_app_distr.
  destruct p as [|c1 [|c2 [|c3 [|c4 [|c5 [|c6 p]]]]]]; try discriminate Hp.
  assert (H5 : lower1 c5 = 116) by (injection Hp; auto).
  rewrite skip_all.
  - rewrite rev_app_distr. cbn [rev app]. rewrite Hp, teqb_refl. apply rev_involutive.
  - now apply Forall_rev.
  - rewrite rev_app_distr. cbn [rev app]. now apply lower_t.
Qed.
Lemma strip_part n : part_form n (strip n) \/ strip n = n /\ forall x, ~ part_form n x.
Proof.
  assert (K : forall c, (strip n = n /\ match skip_while digit (rev n) with
      | t :: r :: a :: p :: dot :: rest => teqb (lower [dot; p; a; r; t]) (str ".part") = false | _ => True end) ->
      part_form n c -> False).
  { intros c (E & H) Hc. destruct Hc as (p & ds & -> & Hp & Hd). rewrite app_assoc, rev_app_distr in H.
    destruct p as [|c1 [|c2 [|c3 [|c4 [|c5 [|c6 p]]]]]]; try discriminate Hp.
    assert (H5 : lower1 c5 = 116) by (injection Hp; auto).
    rewrite skip_all in H; [|now apply Forall_rev|rewrite rev_app_distr; cbn [rev app]; now apply lower_t].
    rewrite rev_app_distr in H. cbn [rev app] in H. rewrite Hp, teqb_refl in H. discriminate H. }
  destruct (skip_parts (rev n)) as (ds & E & Hd). unfold strip in *.
  destruct (skip_while digit (rev n)) as [|t [|r [|a [|p [|dot rest]]]]] eqn:Es;
    try (right; split; [reflexivity|intros x Hx; exact (K x (conj eq_refl I) Hx)]).
  destruct (teqb (lower [dot; p; a; r; t]) (str ".part")) eqn:Et.
  - left. exists [dot; p; a; r; t], (rev ds). split; [|split; [now apply teqb_eq|now apply Forall_rev]].
    rewrite <- (rev_involutive n), E, rev_app_distr. cbn [rev]. rewrite <- !app_assoc. reflexivity.
  - right. split; [reflexivity|]. intros x Hx. exact (K x (conj eq_refl eq_refl) Hx).
Qed.
Lemma get_set_strip f : get_set f = strip (firstn (length f - 4) f).
Proof. reflexivity. Qed.
Lemma set_spec f s : set_is f s <-> get_set f = s.
Proof.
  rewrite get_set_strip. split.
  - intros (n & e & -> & He & H). assert (En : firstn (length (n ++ e) - 4) (n ++ e) = n).
    { rewrite app_length. destruct He as [He|(-> & He)].
      - rewrite He, Nat.add_sub. rewrite firstn_app, Nat.sub_diag, firstn_all. apply app_nil_r.
      - cbn [length app]. replace (0 + length e - 4)%nat with 0%nat by lia. reflexivity. }
    rewrite En. destruct H as [H|(-> & H)]; [now apply part_strip|].
    destruct (strip_part n) as [H2|(H2 & _)]; [destruct (H _ H2)|exact H2].
  - intros <-. set (n := firstn (length f - 4) f). exists n, (skipn (length f - 4) f). split; [symmetry; apply firstn_skipn|]. split.
    + destruct (Nat.le_gt_cases 4 (length f)) as [H|H].
      * left. rewrite skipn_length. lia.
      * right. subst n. replace (length f - 4)%nat with 0%nat by lia. split; [reflexivity|]. cbn [skipn]. exact H.
    + destruct (strip_part n) as [H|(H1 & H2)]; [now left|right; auto].
Qed.

(** ** The blocks of the archive *)
Lemma before_loop cur X A : (forall b, In b A -> same b cur = false) -> forall res cs,
  exists res' cs', archived_loop cur (A ++ X) res cs [] = archived_loop cur X res' cs' [] /\
    ((cs' = cs /\ Forall (fun b => ~ header b) A) \/
     exists x h y, A = x ++ h :: y /\ header h /\ Forall (fun b => ~ header b) y /\ cs' = get_set (k_name h)).
Proof.
  induction A as [|b A IH]; intros HA res cs; cbn [app archived_loop].
  - exists res, cs. split; [reflexivity|]. left. auto.
  - rewrite (HA b (or_introl eq_refl)). assert (HA' : forall c, In c A -> same c cur = false) by (intros c Hc; apply HA; now right).
    assert (Next : forall cs2, header b -> cs2 = get_set (k_name b) -> forall res2, exists res' cs',
      archived_loop cur (A ++ X) res2 cs2 [] = archived_loop cur X res' cs' [] /\
      ((cs' = cs /\ Forall (fun c => ~ header c) (b :: A)) \/
       exists x h y, b :: A = x ++ h :: y /\ header h /\ Forall (fun c => ~ header c) y /\ cs' = get_set (k_name h))).
    { intros cs2 Hh E res2. destruct (IH HA' res2 cs2) as (res' & cs' & E1 & H). exists res', cs'. split; [exact E1|]. right.
      destruct H as [(E2 & Hn)|(x & h & y & -> & H1 & H2 & H3)].
      - exists [], b, A. split; [reflexivity|]. split; [exact Hh|]. split; [exact Hn|congruence].
      - exists (b :: x), h, y. auto. }
    destruct (N.eqb_spec (k_raw b) S_RAR) as [Er|Er].
    + destruct (teqb (get_set (k_name b)) cs) eqn:Et.
      * apply teqb_eq in Et. apply Next; [exact Er|now symmetry].
      * apply Next; [exact Er|reflexivity].
    + destruct (IH HA' (if k_raw b =? R_FILE then res ++ [b] else res) cs) as (res' & cs' & E1 & H). exists res', cs'. split; [exact E1|].
      destruct H as [(E2 & Hn)|(x & h & y & -> & H1 & H2 & H3)].
      * left. split; [exact E2|]. constructor; [exact Er|exact Hn].
      * right. exists (b :: x), h, y. auto.
Qed.
Lemma in_loop cur X s R : Forall (fun b => header b -> get_set (k_name b) = s) R -> forall res mine,
  archived_loop cur (R ++ X) res s mine =
  archived_loop cur X (res ++ filter file_block R) s (if existsb (fun b => same b cur) R then s else mine).
Proof.
  intros H. induction H as [|b R Hb H IH]; intros res mine; cbn [app archived_loop filter existsb].
  - now rewrite app_nil_r.
  - assert (Eres : (if k_raw b =? R_FILE then res ++ [b] else res) ++ filter file_block R = res ++ (if file_block b then b :: filter file_block R else filter file_block R)).
    { unfold file_block at 2. change R_FILE with 0x74. destruct (k_raw b =? 0x74); [now rewrite <- app_assoc|reflexivity]. }
    rewrite <- Eres. destruct (N.eqb_spec (k_raw b) S_RAR) as [Er|Er].
    + rewrite (Hb Er), teqb_refl, IH. destruct (same b cur); cbn [orb]; [|reflexivity]. now destruct (existsb (fun c => same c cur) R).
    + rewrite IH. destruct (same b cur); cbn [orb]; [|reflexivity]. now destruct (existsb (fun c => same c cur) R).
Qed.
Lemma NoDup_app_l_disj {A} (a b : list A) : NoDup (a ++ b) -> forall x, In x a -> In x b -> False.
Proof.
  intros H x Ha Hb. induction a as [|y a IH]; [destruct Ha|]. cbn [app] in H. inversion H as [|? ? Hn Hd]; subst.
  destruct Ha as [->|Ha]; [apply Hn, in_or_app; now right|now apply IH].
Qed.
Lemma NoDup_app_r {A} (a b : list A) : NoDup (a ++ b) -> NoDup b.
Proof. induction a as [|y a IH]; intros H; [exact H|]. inversion H; subst. now apply IH. Qed.
Lemma same_refl b : same b b = true.
Proof. apply N.eqb_refl. Qed.
Theorem blocks_thm s a r c cur : archive_of s a r c -> In cur r -> ~ header cur -> NoDup (map k_id (a ++ r ++ c)) ->
  archived_blocks (a ++ r ++ c) cur = filter file_block r.
Proof.
  intros (Hs & (h & r' & -> & Hh) & Hr & Ha & Hc) Hin Hncur Hnd. unfold archived_blocks.
  assert (HA : forall b, In b a -> same b cur = false).
  { intros b Hb. destruct (same b cur) eqn:E; [|reflexivity]. exfalso. apply N.eqb_eq in E. rewrite map_app in Hnd.
    apply (NoDup_app_l_disj _ _ Hnd (k_id b)); [now apply in_map|]. rewrite map_app. apply in_or_app. left. rewrite E. now apply in_map. }
  destruct (before_loop cur ((h :: r') ++ c) a HA [] []) as (res & cs & E & H). rewrite E.
  assert (Hcs : teqb (get_set (k_name h)) cs = false).
  { apply teqb_neq. inversion Hr as [|? ? Hhs _]; subst. apply set_spec in Hhs; [|exact Hh]. rewrite Hhs.
    destruct H as [(-> & _)|(x & h' & y & Ea & H1 & H2 & H3)]; [congruence|].
    intros Es. apply (Ha x h' y Ea H1 H2). apply set_spec. congruence. }
  cbn [app archived_loop]. rewrite Hcs. inversion Hr as [|? ? Hhs Hr']; subst. apply set_spec in Hhs; [|exact Hh].
  assert (Ehc : same h cur = false).
  { destruct (same h cur) eqn:E1; [|reflexivity]. exfalso. destruct Hin as [->|Hin]; [contradiction|].
    apply N.eqb_eq in E1. rewrite map_app in Hnd. apply NoDup_app_r in Hnd. cbn [app map] in Hnd. inversion Hnd as [|? ? Hn _]; subst.
    apply Hn. rewrite E1. apply in_map. apply in_or_app. now left. }
  rewrite Ehc. change (k_raw h =? S_RAR) with (k_raw h =? 0x71). rewrite (proj2 (N.eqb_eq _ _) Hh), Hhs.
  assert (Hr2 : Forall (fun b => header b -> get_set (k_name b) = s) r') by (eapply Forall_impl; [|exact Hr']; intros b Hb Hb'; now apply set_spec; auto).
  rewrite (in_loop cur c s r' Hr2). cbn [app].
  assert (Hex : existsb (fun b => same b cur) r' = true).
  { apply existsb_exists. exists cur. split; [|apply same_refl]. destruct Hin as [->|Hin]; [contradiction|exact Hin]. }
  rewrite Hex. assert (Hf : file_block h = false) by (unfold file_block; now rewrite Hh). cbn [filter]. rewrite Hf.
  destruct c as [|h2 c']; [reflexivity|]. destruct Hc as (Hh2 & Hns). cbn [archived_loop].
  assert (Hne : teqb (get_set (k_name h2)) s = false) by (apply teqb_neq; intros Ee; apply Hns; now apply set_spec).
  change (k_raw h2 =? S_RAR) with (k_raw h2 =? 0x71). change (k_raw h2 =? R_FILE) with (k_raw h2 =? 0x74). unfold header in Hh2. rewrite Hh2, Hne. cbn [N.eqb Pos.eqb].
  destruct (same h2 cur); destruct s; congruence.
Qed.

(** ** The blocks beside it *)
Lemma next_at a b c : NoDup (map k_id (a ++ b :: c)) -> next_block b (a ++ b :: c) = hd_error c.
Proof.
  unfold next_block. induction a as [|x a IH]; cbn [app next_loop map]; intros H.
  - rewrite same_refl. destruct c as [|y c]; cbn [next_loop hd_error]; [reflexivity|].
    destruct (same y b) eqn:E; [|reflexivity]. apply N.eqb_eq in E. inversion H as [|? ? Hn _]; subst. destruct Hn. cbn [map]. now left.
  - inversion H as [|? ? Hn Hd]; subst. destruct (same x b) eqn:E; [|now apply IH].
    apply N.eqb_eq in E. destruct Hn. rewrite E. apply in_map. apply in_or_app. right. now left.
Qed.
Lemma prev_at a b c : NoDup (map k_id (a ++ b :: c)) -> previous_block b (a ++ b :: c) = last a b.
Proof.
  unfold previous_block. assert (G : forall a st, NoDup (map k_id (a ++ b :: c)) ->
    prev_loop b (a ++ b :: c) st = last a (match st with None => b | Some s => s end)).
  { clear a. induction a as [|x a IH]; intros st H; cbn [app prev_loop map] in *.
    - rewrite same_refl. cbn [last]. reflexivity.
    - inversion H as [|? ? Hn Hd]; subst. destruct (same x b) eqn:E.
      + apply N.eqb_eq in E. destruct Hn. rewrite E. apply in_map. apply in_or_app. right. now left.
      + rewrite (IH (Some x) Hd). cbn [last]. destruct a as [|y a]; [reflexivity|]. clear.
        revert y. induction a as [|z a IH]; intros y; [reflexivity|]. cbn [last] in *. apply IH. }
  intros H. now apply G.
Qed.

(** ** Sizes *)
Lemma packed_same n l : Forall (fun b => k_name b = n) l -> forall X z, packed_loop n (l ++ X) z = packed_loop n X (z + sum (map k_packed l)).
Proof.
  intros H. induction H as [|b l Hb H IH]; intros X z; cbn [app packed_loop map sum]; [now rewrite N.add_0_r|].
  rewrite Hb, teqb_refl, IH. f_equal. lia.
Qed.
Lemma packed_other n l : Forall (fun b => k_name b <> n) l -> forall X, packed_loop n (l ++ X) 0 = packed_loop n X 0.
Proof.
  intros H. induction H as [|b l Hb H IH]; intros X; cbn [app packed_loop]; [reflexivity|].
  apply teqb_neq in Hb. rewrite Hb. cbn [N.eqb]. apply IH.
Qed.
Theorem packed_thm a f c b : Forall (fun x => k_name x <> k_name b) a -> Forall (fun x => k_name x = k_name b) f ->
  Forall (fun x => k_name x <> k_name b) c -> full_packed_size b (a ++ f ++ c) = sum (map k_packed f).
Proof.
  intros Ha Hf Hc. unfold full_packed_size. rewrite (packed_other _ a Ha), (packed_same _ f Hf), N.add_0_l.
  destruct Hc as [|x c Hx Hc]; [reflexivity|]. cbn [packed_loop]. apply teqb_neq in Hx. rewrite Hx.
  destruct (N.eqb_spec (sum (map k_packed f)) 0) as [->|Hz]; [|reflexivity].
  rewrite <- (app_nil_r c). now rewrite packed_other.
Qed.
Lemma volume_pre p : Forall srr_block p -> forall X z, volume_loop (p ++ X) z = volume_loop X z.
Proof.
  intros H. induction H as [|b p Hb H IH]; intros X z; cbn [app volume_loop]; [reflexivity|].
  unfold srr_block in Hb. cbn [In] in Hb. destruct Hb as [<-|[<-|[<-|[<-|[]]]]]; cbn; apply IH.
Qed.
Lemma srr_existsb b : ~ srr_block b -> existsb (N.eqb (k_raw b)) [0x69; 0x6A; 0x71; 0x6B] = false.
Proof.
  intros H. destruct (existsb (N.eqb (k_raw b)) [0x69; 0x6A; 0x71; 0x6B]) eqn:E; [|reflexivity]. destruct H.
  apply existsb_exists in E. destruct E as (x & Hx & E). apply N.eqb_eq in E. unfold srr_block. rewrite E. cbn [In] in *. tauto.
Qed.
Lemma volume_body l : Forall plain l -> forall X z, volume_loop (l ++ X) z = volume_loop X (z + sum (map block_size l)).
Proof.
  intros H. induction H as [|b l (Hb1 & Hb2 & Hb3) H IH]; intros X z; cbn [app volume_loop map sum]; [now rewrite N.add_0_r|].
  apply N.eqb_neq in Hb2, Hb3. change R_MIN with 0x72. change R_MAX with 0x7B. rewrite Hb2, Hb3, (srr_existsb b Hb1). cbn [andb].
  unfold block_size at 1. change S_PADDING with 0x6C. destruct (k_raw b =? 0x6C); rewrite IH; f_equal; lia.
Qed.
Theorem volume_thm p m body e rest : Forall srr_block p -> k_raw m = 0x72 -> Forall plain body ->
  (exists x, e = [x] /\ k_raw x = 0x7B /\ k_add x = 0) \/ (e = [] /\ 0 < k_head m /\ exists q, Forall srr_block q /\ (rest = q \/ exists m' rest', rest = q ++ m' :: rest' /\ k_raw m' = 0x72)) ->
  volume_size (p ++ (m :: body ++ e) ++ rest) = sum (map block_size (m :: body ++ e)).
Proof.
  intros Hp Hm Hb He. unfold volume_size. rewrite (volume_pre p Hp). cbn [app volume_loop]. change R_MIN with 0x72. change R_MAX with 0x7B. rewrite Hm.
  cbn [N.eqb Pos.eqb andb negb existsb orb]. change S_PADDING with 0x6C. cbn [N.eqb Pos.eqb]. rewrite <- app_assoc, (volume_body body Hb).
  cbn [map sum]. rewrite map_app. assert (Sa : forall x y, sum (x ++ y) = sum x + sum y) by (intros x y; induction x as [|z x IH]; cbn [app sum]; [reflexivity|rewrite IH; lia]).
  rewrite Sa. assert (Bm : block_size m = k_head m + k_add m) by (unfold block_size; now rewrite Hm). rewrite Bm.
  destruct He as [(x & -> & Hx & Hz)|(-> & Hpos & q & Hq & Hrest)].
  - assert (Bx : block_size x = k_head x) by (unfold block_size; rewrite Hx, Hz; cbn [N.eqb Pos.eqb]; lia).
    cbn [app volume_loop map sum]. change R_MIN with 0x72. change R_MAX with 0x7B. rewrite Bx, Hx. cbn [N.eqb Pos.eqb andb]. lia.
  - cbn [app map sum]. destruct Hrest as [->|(m' & rest' & -> & Hm')].
    + rewrite <- (app_nil_r q), (volume_pre q Hq). cbn [volume_loop]. lia.
    + rewrite (volume_pre q Hq). cbn [volume_loop]. change R_MIN with 0x72. rewrite Hm'. cbn [N.eqb Pos.eqb andb].
      destruct (N.eqb_spec (0 + k_head m + k_add m + sum (map block_size body)) 0) as [Hz|Hz]; cbn [negb]; [lia|]. lia.
Qed.

(** ** Dates *)
Fixpoint val (t : text) (a : N) : N := match t with [] => a | c :: t => val t (10 * a + (c - 48)) end.
Lemma lt_digits a : forall b, length a = length b -> Forall (fun c => 48 <= c <= 57) a -> Forall (fun c => 48 <= c <= 57) b ->
  forall u v, u < v -> val a u < val b v.
Proof.
  induction a as [|x a IH]; intros [|y b] Hl Ha Hb u v Huv; try discriminate; cbn [val]; [exact Huv|].
  inversion Ha; inversion Hb; subst. apply IH; [cbn in Hl; lia|assumption|assumption|lia].
Qed.
Lemma text_lt_val a : forall b u, length a = length b -> Forall (fun c => 48 <= c <= 57) a -> Forall (fun c => 48 <= c <= 57) b ->
  text_lt a b = (val a u <? val b u).
Proof.
  induction a as [|x a IH]; intros [|y b] u Hl Ha Hb; try discriminate; cbn [val text_lt].
  - symmetry. apply N.ltb_irrefl.
  - inversion Ha; inversion Hb; subst. destruct (N.lt_trichotomy x y) as [H|[H|H]].
    + rewrite (proj2 (N.ltb_lt x y) H). cbn [orb]. symmetry. apply N.ltb_lt. apply lt_digits; [cbn in Hl; lia|assumption|assumption|lia].
    + subst y. rewrite N.ltb_irrefl, N.eqb_refl. cbn [orb andb]. apply IH; [cbn in Hl; lia|assumption|assumption].
    + replace (x <? y) with false by (symmetry; apply N.ltb_ge; lia). replace (x =? y) with false by (symmetry; apply N.eqb_neq; lia).
      cbn [orb andb]. symmetry. apply N.ltb_ge. apply N.lt_le_incl. apply lt_digits; [cbn in Hl; lia|assumption|assumption|lia].
Qed.
Lemma text_lt_app a : forall b r s, length a = length b -> text_lt (a ++ r) (b ++ s) = text_lt a b || (teqb a b && text_lt r s).
Proof.
  induction a as [|x a IH]; intros [|y b] r s Hl; try discriminate; cbn [app text_lt].
  - reflexivity.
  - rewrite IH by (cbn in Hl; lia). assert (Et : teqb (x :: a) (y :: b) = (x =? y) && teqb a b).
    { destruct (teqb (x :: a) (y :: b)) eqn:E.
      - apply teqb_eq in E. injection E as -> ->. now rewrite N.eqb_refl, teqb_refl.
      - apply teqb_neq in E. destruct (N.eqb_spec x y) as [->|Hn]; [|reflexivity]. cbn [andb]. symmetry. apply teqb_neq. congruence. }
    rewrite Et. destruct (x <? y), (x =? y), (text_lt a b), (teqb a b), (text_lt r s); reflexivity.
Qed.
Lemma d2_digits n : n < 100 -> Forall (fun c => 48 <= c <= 57) (d2 n).
Proof.
  intros H. assert (n / 10 < 10) by (apply N.div_lt_upper_bound; lia). assert (n mod 10 < 10) by (apply N.mod_lt; lia).
  constructor; [lia|]. constructor; [lia|]. constructor.
Qed.
Lemma d2_val n u : n < 100 -> val (d2 n) u = 100 * u + n.
Proof.
  intros H. unfold d2. cbn [val]. pose proof (N.div_mod n 10 ltac:(lia)). lia.
Qed.
Lemma d4_digits n : n < 10000 -> Forall (fun c => 48 <= c <= 57) (d4 n).
Proof.
  intros H. unfold d4. apply Forall_app. split; apply d2_digits; [apply N.div_lt_upper_bound; lia|apply N.mod_lt; lia].
Qed.
Lemma val_app a b u : val (a ++ b) u = val b (val a u).
Proof. revert u. induction a as [|x a IH]; intros u; cbn [app val]; [reflexivity|apply IH]. Qed.
Lemma d4_val n : n < 10000 -> val (d4 n) 0 = n.
Proof.
  intros H. unfold d4. assert (n / 100 < 100) by (apply N.div_lt_upper_bound; lia). assert (n mod 100 < 100) by (apply N.mod_lt; lia).
  rewrite val_app, !d2_val by assumption. pose proof (N.div_mod n 100 ltac:(lia)). lia.
Qed.
Lemma d2_inj a b : a < 100 -> b < 100 -> teqb (d2 a) (d2 b) = (a =? b).
Proof.
  intros Ha Hb. destruct (N.eqb_spec a b) as [->|Hn]; [apply teqb_refl|]. apply teqb_neq. intros E. apply Hn.
  apply (f_equal (fun t => val t 0)) in E. rewrite !d2_val in E by assumption. lia.
Qed.
Lemma d4_inj a b : a < 10000 -> b < 10000 -> teqb (d4 a) (d4 b) = (a =? b).
Proof.
  intros Ha Hb. destruct (N.eqb_spec a b) as [->|Hn]; [apply teqb_refl|]. apply teqb_neq. intros E. apply Hn.
  apply (f_equal (fun t => val t 0)) in E. rewrite !d4_val in E by assumption. exact E.
Qed.
Lemma date_lt a b : day_ok a -> day_ok b -> text_lt (date_text a) (date_text b) = true <-> ~ day_le b a.
Proof.
  destruct a as [[y m] d], b as [[y' m'] d']. intros (H1 & H2 & H3) (G1 & G2 & G3). unfold date_text, day_le.
  assert (Hd2 : forall x z, x < 100 -> z < 100 -> text_lt (d2 x) (d2 z) = (x <? z)).
  { intros x z Hx Hz. rewrite (text_lt_val _ _ 0); [|reflexivity|now apply d2_digits|now apply d2_digits]. now rewrite !d2_val. }
  rewrite text_lt_app by reflexivity. rewrite (text_lt_val (d4 y) (d4 y') 0); [|reflexivity|now apply d4_digits|now apply d4_digits].
  rewrite !d4_val, d4_inj by assumption. rewrite (text_lt_app (str "-") (str "-")) by reflexivity.
  rewrite (text_lt_app (d2 m) (d2 m')) by reflexivity. rewrite (text_lt_app (str "-") (str "-")) by reflexivity.
  rewrite !Hd2, d2_inj by assumption. change (text_lt (str "-") (str "-")) with false. change (teqb (str "-") (str "-")) with true. cbn [orb andb].
  rewrite Bool.orb_true_iff, Bool.andb_true_iff, Bool.orb_true_iff, Bool.andb_true_iff, !N.ltb_lt, !N.eqb_eq. lia.
Qed.
Lemma day_total a b : day_le a b \/ day_le b a.
Proof. destruct a as [[y m] d], b as [[y' m'] d']. unfold day_le. lia. Qed.
Lemma day_trans a b c : day_le a b -> day_le b c -> day_le a c.
Proof. destruct a as [[y m] d], b as [[y' m'] d'], c as [[y2 m2] d2']. unfold day_le. lia. Qed.
Lemma day_refl a : day_le a a.
Proof. destruct a as [[y m] d]. unfold day_le. lia. Qed.
Definition first_day : N * N * N := (1970, 1, 1).
Lemma recent_times_ok l : (forall d, In (Some d) l -> day_ok d) -> forall r, day_ok r ->
  exists r', recent_times l (date_text r) = date_text r' /\ day_ok r' /\ (r' = r \/ In (Some r') l) /\ day_le r r' /\ forall d, In (Some d) l -> day_le d r'.
Proof.
  induction l as [|[d|] l IH]; intros Hl r Hr; cbn [recent_times].
  - exists r. split; [reflexivity|]. split; [exact Hr|]. split; [now left|]. split; [apply day_refl|intros d []].
  - assert (Hd : day_ok d) by (apply Hl; now left). assert (Hl' : forall x, In (Some x) l -> day_ok x) by (intros x Hx; apply Hl; now right).
    pose proof (date_lt r d Hr Hd) as Hlt. destruct (text_lt (date_text r) (date_text d)).
    + destruct (IH Hl' d Hd) as (r' & E & H1 & H2 & H3 & H4). exists r'. split; [exact E|]. split; [exact H1|].
      split; [destruct H2 as [->|H2]; right; [now left|now right]|].
      assert (Hrd : day_le r d) by (destruct (day_total r d) as [H|H]; [exact H|destruct (proj1 Hlt eq_refl H)]).
      split; [exact (day_trans _ _ _ Hrd H3)|]. intros x [Ex|Hx]; [injection Ex as <-; exact H3|now apply H4].
    + destruct (IH Hl' r Hr) as (r' & E & H1 & H2 & H3 & H4). exists r'. split; [exact E|]. split; [exact H1|].
      split; [destruct H2 as [->|H2]; [now left|right; now right]|]. split; [exact H3|].
      intros x [Ex|Hx]; [|now apply H4]. injection Ex as <-. destruct (day_total d r) as [H|H]; [exact (day_trans _ _ _ H H3)|].
      assert (Hdr : day_le d r). { destruct d as [[y m] dd], r as [[y' m'] d']. unfold day_le in *. destruct (N.eq_dec y y'), (N.eq_dec m m'), (N.eq_dec dd d'); try lia; exfalso; assert (X : false = true) by (apply Hlt; lia); discriminate X. }
      exact (day_trans _ _ _ Hdr H3).
  - destruct (IH (fun x Hx => Hl x (or_intror Hx)) r Hr) as (r' & E & H1 & H2 & H3 & H4). exists r'. split; [exact E|]. split; [exact H1|].
    split; [destruct H2 as [->|H2]; [now left|right; now right]|]. split; [exact H3|]. intros x [Ex|Hx]; [discriminate Ex|now apply H4].
Qed.
Lemma recent_loop_ok l : (forall d, times l d -> day_ok d) -> forall r, day_ok r ->
  exists r', recent_loop l (date_text r) = date_text r' /\ day_ok r' /\ (r' = r \/ times l r') /\ day_le r r' /\ forall d, times l d -> day_le d r'.
Proof.
  induction l as [|b l IH]; intros Hl r Hr; cbn [recent_loop].
  - exists r. split; [reflexivity|]. split; [exact Hr|]. split; [now left|]. split; [apply day_refl|]. intros d (b & [] & _).
  - assert (Hl' : forall x, times l x -> day_ok x) by (intros x (b' & H1 & H2); apply Hl; exists b'; split; [now right|exact H2]).
    change R_FILE with 0x74. destruct (N.eqb_spec (k_raw b) 0x74) as [Eb|Eb].
    + destruct (recent_times_ok (k_times b)) with (r := r) as (r1 & E1 & H1 & H2 & H3 & H4); [intros d Hd; apply Hl; exists b; split; [now left|auto]|exact Hr|].
      rewrite E1. destruct (IH Hl' r1 H1) as (r' & E & G1 & G2 & G3 & G4). exists r'. split; [exact E|]. split; [exact G1|].
      split; [|split; [exact (day_trans _ _ _ H3 G3)|]].
      * destruct G2 as [->|(b' & K1 & K2)]; [destruct H2 as [->|H2]; [now left|right; exists b; split; [now left|auto]]|right; exists b'; split; [now right|exact K2]].
      * intros d (b' & [<-|Hb'] & K1 & K2); [exact (day_trans _ _ _ (H4 d K2) G3)|]. apply G4. exists b'. auto.
    + destruct (IH Hl' r Hr) as (r' & E & G1 & G2 & G3 & G4). exists r'. split; [exact E|]. split; [exact G1|].
      split; [destruct G2 as [->|(b' & K1 & K2)]; [now left|right; exists b'; split; [now right|exact K2]]|]. split; [exact G3|].
      intros d (b' & [<-|Hb'] & K1 & K2); [contradiction|]. apply G4. exists b'. auto.
Qed.
Theorem date_thm l : (forall d, times l d -> day_ok d) ->
  exists r, recent_date l = date_text r /\ (r = (1970, 1, 1) \/ times l r) /\ day_le (1970, 1, 1) r /\ forall d, times l d -> day_le d r.
Proof.
  intros H. destruct (recent_loop_ok l H (1970, 1, 1)) as (r & E & _ & H2 & H3 & H4); [repeat split|].
  exists r. split; [exact E|]. auto.
Qed.

(** ** What is compressed *)
Lemma file_not_header b : file_block b = true -> ~ header b.
Proof. unfold file_block, header. intros H E. rewrite E in H. discriminate H. Qed.
Lemma filter_nodup {A B} (f : A -> B) (p : A -> bool) l : NoDup (map f l) -> NoDup (map f (filter p l)).
Proof.
  induction l as [|x l IH]; intros H; [constructor|]. cbn [map] in H. inversion H as [|? ? Hn Hd]; subst. cbn [filter].
  destruct (p x); [|now apply IH]. cbn [map]. constructor; [|now apply IH]. intros Hi. apply Hn.
  apply in_map_iff in Hi. destruct Hi as (y & E & Hy). apply filter_In in Hy. rewrite <- E. now apply in_map.
Qed.
Lemma the_blocks s a r c x b y : archive_of s a r c -> NoDup (map k_id (a ++ r ++ c)) -> filter file_block r = x ++ b :: y ->
  archived_blocks (a ++ r ++ c) b = x ++ b :: y /\ next_block b (x ++ b :: y) = hd_error y /\ NoDup (map k_id (x ++ b :: y)).
Proof.
  intros Ha Hn Hf. assert (Hb : In b (filter file_block r)) by (rewrite Hf; apply in_or_app; right; now left).
  apply filter_In in Hb. destruct Hb as (Hb1 & Hb2). assert (Hd : NoDup (map k_id (x ++ b :: y))).
  { rewrite <- Hf. apply filter_nodup. rewrite map_app in Hn. apply NoDup_app_r in Hn. rewrite map_app in Hn.
    clear -Hn. induction (map k_id r) as [|z l IH]; [constructor|]. cbn [app] in Hn. inversion Hn as [|? ? H1 H2]; subst.
    constructor; [intros H; apply H1, in_or_app; now left|now apply IH]. }
  split; [|split; [now apply next_at|exact Hd]].
  rewrite (blocks_thm s a r c b Ha Hb1 (file_not_header b Hb2) Hn). exact Hf.
Qed.
Theorem first_thm archived s a r c b n y : archive_of s a r c -> NoDup (map k_id (a ++ r ++ c)) -> filter file_block r = b :: n :: y ->
  solid b = false -> solid n = true -> factory archived b (a ++ r ++ c) = Ok (PSolid n).
Proof.
  intros Ha Hn Hf Hs Hs2. destruct (the_blocks s a r c [] b (n :: y) Ha Hn Hf) as (E1 & E2 & _). cbn [app] in E1, E2.
  unfold factory. cbv zeta. rewrite E1. unfold followed_by_solid. unfold next_block in E2. rewrite E2. cbn [hd_error]. now rewrite Hs2, Hs.
Qed.
Theorem later_thm archived s a r c b0 x b y : archive_of s a r c -> NoDup (map k_id (a ++ r ++ c)) -> filter file_block r = b0 :: x ++ b :: y ->
  solid b = true -> In (k_name b0) archived -> exists f, factory archived b (a ++ r ++ c) = Ok (PReuse (k_name b0) f) /\
    forall n, f = Some n <-> hd_error y = Some n /\ solid n = true.
Proof.
  intros Ha Hn Hf Hs Hi. destruct (the_blocks s a r c (b0 :: x) b y Ha Hn Hf) as (E1 & E2 & Hd). cbn [app] in E1, E2.
  unfold factory. cbv zeta. rewrite E1. unfold followed_by_solid. unfold next_block in E2. rewrite E2, Hs. cbn [negb].
  assert (Hne : same b b0 = false).
  { destruct (same b b0) eqn:E; [|reflexivity]. apply N.eqb_eq in E. cbn [app map] in Hd. inversion Hd as [|? ? H1 _]; subst. destruct H1.
    rewrite <- E. apply in_map. apply in_or_app. right. now left. }
  assert (Hk : existsb (teqb (k_name b0)) archived = true) by (apply existsb_exists; exists (k_name b0); split; [exact Hi|apply teqb_refl]).
  rewrite Hne, Hk. destruct (hd_error y) as [n|] eqn:Ey.
  - destruct (solid n) eqn:En.
    + exists (Some n). split; [reflexivity|]. intros n'. split; [intros E; injection E as <-; auto|intros (E & _); exact E].
    + exists None. split; [reflexivity|]. intros n'. split; [discriminate|]. intros (E & H). injection E as <-. congruence.
  - exists None. split; [reflexivity|]. intros n'. split; [discriminate|]. intros (E & _). discriminate E.
Qed.
Theorem alone_thm archived s a r c x b y : archive_of s a r c -> NoDup (map k_id (a ++ r ++ c)) -> filter file_block r = x ++ b :: y ->
  solid b = false -> match y with [] => True | n :: _ => solid n = false end -> factory archived b (a ++ r ++ c) = Ok (PAlone (hd_error y)).
Proof.
  intros Ha Hn Hf Hs Hy. destruct (the_blocks s a r c x b y Ha Hn Hf) as (E1 & E2 & _).
  unfold factory. cbv zeta. rewrite E1. unfold followed_by_solid. pose proof E2 as E3. unfold next_block in E3. rewrite E3, E2, Hs.
  destruct y as [|n y]; cbn [hd_error]; [reflexivity|]. now rewrite Hy.
Qed.
Theorem solid_thm b : solid b = true <-> N.testbit (k_flags b) 4 = true.
Proof.
  unfold solid. rewrite Bool.negb_true_iff, N.eqb_neq. split.
  - intros H. destruct (N.testbit (k_flags b) 4) eqn:E; [reflexivity|]. exfalso. apply H. apply N.bits_inj. intros i. rewrite N.land_spec, N.bits_0. change 0x10 with (2 ^ 4). rewrite N.pow2_bits_eqb. destruct (4 =? i) eqn:I; [apply N.eqb_eq in I; subst i; now rewrite E|apply Bool.andb_false_r].
  - intros E H. assert (X : N.testbit (N.land (k_flags b) 0x10) 4 = true) by (rewrite N.land_spec, E; reflexivity). rewrite H in X. discriminate X.
Qed.
