(** NntpFacts: reading a posted file. *)
From Coq Require FinFun.
From Verif Require Import Base BaseFacts SrrFacts Mkv Nntp NntpSpec.
Local Open Scope Z_scope.

Lemma slice_drop (d : bytes) o : 0 <= o -> slice o (Z.of_N (lenN d)) d = dropN (Z.to_N o) d.
Proof.
  intros H. unfold slice, bound, sub. replace (o <? 0) with false by lia. replace (Z.of_N (lenN d) <? 0) with false by lia. rewrite N2Z.id, N.min_id. destruct (N.le_ge_cases (Z.to_N o) (lenN d)) as [L|L].
  - rewrite N.min_l by exact L. apply takeN_all. rewrite lenN_dropN. lia.
  - rewrite N.min_r by exact L. rewrite N.sub_diag, takeN_0. symmetry. now apply dropN_all.
Qed.
Lemma slice_take (d : bytes) n : 0 <= n -> slice 0 n d = takeN (Z.to_N n) d.
Proof.
  intros H. unfold slice, bound, sub. cbn [Z.ltb Z.compare]. replace (n <? 0) with false by lia. change (Z.to_N 0) with 0%N. rewrite N.min_0_l, dropN_0, N.sub_0_r. destruct (N.le_ge_cases (Z.to_N n) (lenN d)) as [L|L]; [now rewrite N.min_l by exact L|]. rewrite N.min_r by exact L. now rewrite !takeN_all by lia.
Qed.

Lemma bind_ok {A B} (a : M A) (g : A -> M B) s t x : a s = (t, Ok x) -> mbind a g s = g x t.
Proof. intros E. unfold mbind. now rewrite E. Qed.
Lemma state_ok {B} (g : nfile -> M B) s : mbind state g s = g s s.
Proof. reflexivity. Qed.
Lemma ret_ok {A B} (a : A) (g : A -> M B) s : mbind (ret a) g s = g a s.
Proof. reflexivity. Qed.
Lemma change_ok {B} h (g : unit -> M B) s : mbind (change h) g s = g tt (h s).
Proof. reflexivity. Qed.
Lemma from_ok {A B} (a : A) (g : A -> M B) s : mbind (from_result (Ok a)) g s = g a s.
Proof. reflexivity. Qed.
Lemma no_end_magic {B} nm ns ar k o (g : Z -> M B) s : mbind (end_magic nm false ns ar k o) g s = g o s.
Proof. reflexivity. Qed.
Lemma no_marker_magic {B} (g : unit -> M B) s : mbind (marker_magic false) g s = g tt s.
Proof. reflexivity. Qed.
Lemma no_header_magic {B} nm ns ar k o z (g : Z -> M B) s : mbind (header_magic nm false ns ar k o z) g s = g o s.
Proof. reflexivity. Qed.
Lemma data_ok {B} (g : bytes -> M B) s i d : n_data s i = Some d -> mbind (data_at i) g s = g d s.
Proof. intros E. unfold mbind, data_at, state, mbind, ret. now rewrite E. Qed.
Lemma segat_ok {B} (g : segment -> M B) s i d : n_segs s i = Some d -> mbind (seg_at i) g s = g d s.
Proof. intros E. unfold mbind, seg_at, state, mbind, ret. now rewrite E. Qed.
Lemma in_parts k e i : In i (parts k e) <-> (k <= i <= e)%N.
Proof.
  unfold parts. rewrite in_map_iff. split.
  - intros (x & <- & H). apply in_seq in H. lia.
  - intros H. exists (N.to_nat (i - k)). split; [lia|]. apply in_seq. lia.
Qed.
Lemma nodup_parts k e : NoDup (parts k e).
Proof.
  unfold parts. apply FinFun.Injective_map_NoDup; [|apply seq_NoDup]. intros x y H. lia.
Qed.

Lemma within_arith S j k e o eo : 0 < S -> j * S <= (k - 1) * S + o -> (e - 1) * S + eo <= (j + 1) * S -> 0 < eo -> o <= S -> k < e -> e = k + 1 /\ o = S.
Proof. intros HS H1 H2 He Ho Hk. assert (e - 1 < j + 1) by (apply (Zmult_lt_reg_r _ _ S HS); lia). assert (j <= k) by (apply (Zmult_le_reg_r _ _ S); lia). assert (j = k) by lia. subst j. assert (e = k + 1) by lia. lia. Qed.

Section Posted.
Variables (f : bytes) (size : N).
Hypothesis HS : (0 < size <= lenN f)%N.
Let n : N := segments f size.
Let seg (i : N) : bytes := segment_of f size i.

(** ** Segments *)
Lemma count_pos : (1 <= n)%N.
Proof using HS. unfold n, segments. lia. Qed.
Lemma seg_len i : (1 <= i <= n)%N -> (lenN (seg i) = N.min size (lenN f - (i - 1) * size) /\ 0 < lenN (seg i) <= size)%N.
Proof using HS.
  intros H. unfold seg, segment_of. rewrite lenN_sub. split; [reflexivity|]. assert ((i - 1) * size < lenN f)%N by (unfold n, segments in H; nia). lia.
Qed.
Lemma seg_full i : (1 <= i < n)%N -> lenN (seg i) = size.
Proof using HS. intros H. destruct (seg_len i) as [-> _]; [lia|]. unfold n, segments in H. nia. Qed.
Lemma prefix_sub i d r : seg i = d ++ r -> d = sub ((i - 1) * size) (lenN d) f.
Proof.
  intros E. unfold seg, segment_of, sub in E. assert (L : (lenN d <= size)%N) by (apply (f_equal lenN) in E; rewrite lenN_takeN, lenN_app in E; lia).
  unfold sub. rewrite <- (takeN_app_exact d r (lenN d) eq_refl) at 1. rewrite <- E, takeN_takeN. now rewrite N.min_l by exact L.
Qed.

(** ** The object *)
Record good (s : nfile) : Prop := {
  g_count : n_count s = n;
  g_segs : forall i, (1 <= i <= n)%N -> exists g, n_segs s i = Some g /\ s_id g = i /\ s_shift g = None /\ (n_data s i <> None -> s_size g = lenN (seg i));
  g_none : forall i, ~ (1 <= i <= n)%N -> n_segs s i = None;
  g_data : forall i d, n_data s i = Some d -> (1 <= i <= n)%N /\ exists r, seg i = d ++ r }.
Definition held (s : nfile) (i : N) : option N := option_map lenN (n_data s i).
(** what grabbing segments does not change *)
Record grown (s t : nfile) : Prop := {
  w_pos : n_pos t = n_pos s; w_size : n_size t = n_size s; w_first : n_first t = n_first s; w_inactive : n_inactive t = n_inactive s; w_seek : n_seek t = n_seek s;
  w_held : forall i a, held s i = Some a -> exists b, held t i = Some b /\ (a <= b)%N }.
Lemma grown_refl s : grown s s.
Proof. split; try reflexivity. intros i a H. exists a. split; [exact H|lia]. Qed.
Lemma grown_trans s t u : grown s t -> grown t u -> grown s u.
Proof.
  intros [] []. split; try congruence. intros i a H. destruct (w_held0 i a H) as (b & Hb & L). destruct (w_held1 i b Hb) as (c & Hc & L'). exists c. split; [exact Hc|lia].
Qed.
Lemma held_le s i a : good s -> held s i = Some a -> (1 <= i <= n)%N /\ (a <= lenN (seg i))%N.
Proof.
  unfold held. intros G H. destruct (n_data s i) as [d|] eqn:E; [|discriminate H]. cbn [option_map] in H. apply some_inj in H as <-. destruct (g_data s G i d E) as (R & r & Er). split; [exact R|]. rewrite Er, lenN_app. lia.
Qed.
Lemma held_data s i a : good s -> held s i = Some a -> exists d, n_data s i = Some d /\ lenN d = a /\ d = sub ((i - 1) * size) a f.
Proof.
  unfold held. intros G H. destruct (n_data s i) as [d|] eqn:E; [|discriminate H]. cbn [option_map] in H. apply some_inj in H as <-. destruct (g_data s G i d E) as (R & r & Er). exists d. split; [reflexivity|]. split; [reflexivity|]. exact (prefix_sub i d r Er).
Qed.
Lemma held_seg s i a : good s -> held s i = Some a -> exists g, n_segs s i = Some g /\ s_id g = i /\ s_size g = lenN (seg i).
Proof.
  intros G H. destruct (held_le s i a G H) as [R _]. destruct (g_segs s G i R) as (g & Eg & Ei & _ & Es). exists g. split; [exact Eg|]. split; [exact Ei|]. apply Es. unfold held in H. destruct (n_data s i); [discriminate|discriminate H].
Qed.
(** _which_segment *)
Lemma which_ok s p : n_size s = Z.of_N (lenN f) -> n_first s = Z.of_N size -> 0 <= p <= Z.of_N (lenN f) ->
  exists k o, which_segment s p = Ok (k, o) /\ (1 <= k <= n)%N /\ p = (Z.of_N k - 1) * Z.of_N size + o /\ 0 <= o <= Z.of_N (lenN (seg k)) /\ (o = 0 -> p = 0).
Proof using HS.
  intros H1 H2 H. unfold which_segment. rewrite H1, H2. replace (p <? 0) with false by lia. replace (Z.of_N (lenN f) <? p) with false by lia. replace (Z.of_N size =? 0) with false by lia. set (z := Z.of_N size) in *.
  set (q := p / z). set (m := p mod z). assert (E : p = z * q + m) by (apply Z.div_mod; lia). assert (B : 0 <= m < z) by (apply Z.mod_pos_bound; lia). assert (Hq : 0 <= q) by (apply Z.div_pos; lia). assert (Hn : (1 <= n)%N) by exact count_pos.
  eexists. eexists. split; [reflexivity|]. destruct (Z.eqb_spec m 0) as [Em|Em]; [destruct (Z.eqb_spec q 0) as [Eq|Eq]|]; cbn [andb negb].
  - rewrite Eq. change (Z.to_N (0 + 1)) with 1%N. split; [lia|]. split; [nia|]. split; [split; [nia|]; assert (X := seg_len 1 ltac:(lia)); nia|nia].
  - rewrite Z2N.id by lia. assert (R : (1 <= Z.to_N (q + 0) <= n)%N) by (unfold n, segments; nia). split; [exact R|]. split; [nia|]. split; [|nia]. destruct (seg_len _ R) as [-> _]. nia.
  - rewrite Z2N.id by lia. assert (R : (1 <= Z.to_N (q + 1) <= n)%N) by (unfold n, segments; nia). split; [exact R|]. split; [nia|]. split; [|nia]. destruct (seg_len _ R) as [-> _]. nia.
Qed.
Variables (name : text) (article : N -> Z -> result dpart).
Hypothesis HA : forall i lines, (1 <= i <= n)%N -> exists d r, article i lines = Ok (mkD (lenN f) i (lenN (seg i)) d name) /\ seg i = d ++ r /\ (lines <= 1 -> r = []).
(** grabbing a segment *)
Lemma grab_ok s i lines : good s -> (1 <= i <= n)%N -> (held s i <> None -> lines <= 1) ->
  exists t a, grab name article i lines s = (t, Ok tt) /\ good t /\ held t i = Some a /\ (lines <= 1 -> a = lenN (seg i)) /\ (forall j, j <> i -> n_data t j = n_data s j) /\
  (n_inactive s = false -> grown s t) /\ (n_inactive s = true -> n_size t = Z.of_N (lenN f) /\ n_inactive t = false /\ n_pos t = n_pos s /\ n_first t = n_first s /\ n_seek t = n_seek s).
Proof using HA HS.
  intros G R Hl. destruct (HA i lines R) as (d & r & EA & ES & ER). unfold grab. rewrite EA. destruct (g_segs s G i R) as (g & Eg & Ei & Eh & Ed).
  assert (X : exists t, t = set_data (set_seg (if n_inactive s then set_size s (Z.of_N (lenN f)) else s) i (mkSeg (s_id g) (s_bytes g) (lenN (seg i)) (s_shift g))) i d /\ grab name article i lines s = (t, Ok tt)).
  { eexists. split; [reflexivity|]. unfold grab. rewrite EA. unfold mbind, state, ret, change, seg_at. cbn [d_number d_file d_size d_data]. destruct (n_inactive s); cbn; rewrite Eg; cbn; rewrite Eg; reflexivity. }
  destruct X as (t & Et & E). unfold grab in E. rewrite EA in E. exists t, (lenN d). split; [exact E|]. clear E. assert (D : forall j, n_data t j = if (j =? i)%N then Some d else n_data s j) by (intros j; rewrite Et; unfold set_data, set_seg, upd; now destruct (n_inactive s)).
  assert (SG : forall j, n_segs t j = if (j =? i)%N then Some (mkSeg (s_id g) (s_bytes g) (lenN (seg i)) (s_shift g)) else n_segs s j) by (intros j; rewrite Et; unfold set_data, set_seg, upd; now destruct (n_inactive s)).
  split.
  { split.
    - rewrite Et. destruct (n_inactive s); apply (g_count s G).
    - intros j Rj. rewrite SG, D. destruct (N.eqb_spec j i) as [->|Nj]; [|exact (g_segs s G j Rj)]. eexists. split; [reflexivity|]. cbn. auto.
    - intros j Nj. rewrite SG. destruct (N.eqb_spec j i) as [->|_]; [contradiction|]. exact (g_none s G j Nj).
    - intros j d' Hd. rewrite D in Hd. destruct (N.eqb_spec j i) as [->|Nj]; [|exact (g_data s G j d' Hd)]. apply some_inj in Hd as <-. split; [exact R|]. now exists r. }
  split; [unfold held; rewrite D, N.eqb_refl; reflexivity|]. split; [intros L; rewrite ES, (ER L), app_nil_r; reflexivity|].
  split; [intros j Nj; rewrite D; now replace (j =? i)%N with false by lia|]. split.
  - intros Ia. rewrite Ia in Et. split; try (rewrite Et; reflexivity). intros j a Hj. unfold held in *. rewrite D. destruct (N.eqb_spec j i) as [->|Nj]; [|exists a; split; [exact Hj|lia]].
    exists (lenN d). split; [reflexivity|]. destruct (held_le s i a G Hj) as [_ L]. assert (Z0 : lines <= 1) by (apply Hl; unfold held; rewrite Hj; discriminate). rewrite ES, (ER Z0), app_nil_r in L. exact L.
  - intros Ia. rewrite Ia in Et. rewrite Et. now repeat split.
Qed.

(** ** The pieces of read, for files that are not RAR volumes *)
Definition all_whole (s : nfile) : Prop := forall i a, held s i = Some a -> i <> 1%N -> a = lenN (seg i).
Lemma held_same s t i : n_data t i = n_data s i -> held t i = held s i.
Proof. intros E. unfold held. now rewrite E. Qed.
Lemma seg_pos i : (1 <= i <= n)%N -> (0 < lenN (seg i))%N.
Proof using HS. intros R. now apply seg_len. Qed.
Variable new_server : bool.
Lemma more_first_ok s o z a : good s -> n_inactive s = false -> 0 <= o -> 0 <= z -> held s 1 = Some a ->
  exists t b, more_first name false new_server article 1 o z s = (t, Ok o) /\ good t /\ grown s t /\ held t 1 = Some b /\ (o + z <= Z.of_N b \/ b = lenN (seg 1)) /\ (forall j, j <> 1%N -> n_data t j = n_data s j).
Proof using HA HS.
  intros G Ac Ho Hz H. unfold more_first. cbn [N.eqb Pos.eqb]. destruct (held_data s 1 a G H) as (d & Ed & Ld & _). rewrite (data_ok _ s 1%N d Ed). destruct (Z.ltb_spec (Z.of_N (lenN d)) (o + z)) as [L|L].
  - destruct (held_seg s 1 a G H) as (g & Eg & Ei & _). rewrite (segat_ok _ s 1%N g Eg), Ei. destruct (held_le s 1 a G H) as [R _]. destruct (grab_ok s 1 (-1)) as (t & b & Et & Gt & Ht & Lb & Ft & Wt & _); [exact G|exact R|lia|]. rewrite (bind_ok _ _ _ _ _ Et).
    destruct (held_seg t 1 b Gt Ht) as (g' & Eg' & _ & _). rewrite (segat_ok _ t 1%N g' Eg'). destruct (held_data t 1 b Gt Ht) as (d' & Ed' & _). rewrite (data_ok _ t 1%N d' Ed'). cbn [andb]. exists t, b. split; [reflexivity|]. split; [exact Gt|]. split; [exact (Wt Ac)|]. split; [exact Ht|]. split; [right; apply Lb; lia|exact Ft].
  - exists s, a. split; [reflexivity|]. split; [exact G|]. split; [apply grown_refl|]. split; [exact H|]. split; [left; lia|reflexivity].
Qed.
Lemma more_last_ok s e eo a : good s -> n_inactive s = false -> held s e = Some a -> eo <= Z.of_N (lenN (seg e)) ->
  exists t b, more_last name article e 0 eo s = (t, Ok tt) /\ good t /\ grown s t /\ held t e = Some b /\ eo <= Z.of_N b /\ (forall j, j <> e -> n_data t j = n_data s j) /\ (b = a \/ b = lenN (seg e)).
Proof using HA HS.
  intros G Ac H He. unfold more_last. destruct (held_data s e a G H) as (d & Ed & Ld & _). rewrite (data_ok _ s e d Ed). destruct (Z.ltb_spec (Z.of_N (lenN d) + 0) eo) as [L|L].
  - destruct (held_seg s e a G H) as (g & Eg & Ei & _). rewrite (segat_ok _ s e g Eg), Ei. destruct (held_le s e a G H) as [R _]. destruct (grab_ok s e (-1)) as (t & b & Et & Gt & Ht & Lb & Ft & Wt & _); [exact G|exact R|lia|]. specialize (Lb ltac:(lia)). exists t, b. split; [exact Et|]. split; [exact Gt|]. split; [exact (Wt Ac)|]. split; [exact Ht|]. split; [lia|]. split; [exact Ft|now right].
  - exists s, a. split; [reflexivity|]. split; [exact G|]. split; [apply grown_refl|]. split; [exact H|]. split; [lia|]. split; [reflexivity|now left].
Qed.
Lemma sub_cut {A} (l : list A) o a b : (a <= b)%N -> sub o b l = sub o a l ++ sub (o + a) (b - a) l.
Proof. intros H. unfold sub. replace b with (a + (b - a))%N at 1 by lia. rewrite takeN_add, dropN_dropN. now rewrite (N.add_comm a o). Qed.
Lemma set_pos_good s p : good s -> good (set_pos s p).
Proof. intros []. now split. Qed.
(** the loop over the following segments *)
Lemma following_ok e eo fuel : forall s j m data, good s -> (1 <= j <= e)%N -> (e <= n)%N -> (N.to_nat (e - j) + 2 <= fuel)%nat -> 0 < m -> (Z.of_N j - 1) * Z.of_N size + m = (Z.of_N e - 1) * Z.of_N size + eo -> 0 < eo <= Z.of_N (lenN (seg e)) ->
  (forall i, (j <= i < e)%N -> held s i = Some (lenN (seg i))) -> (exists b, held s e = Some b /\ eo <= Z.of_N b) ->
  exists t, following fuel j m data s = (t, Ok (data ++ sub ((j - 1) * size) (Z.to_N m) f)) /\ t = set_pos s (n_pos s + m).
Proof using HA HS.
  induction fuel as [|fuel IH]; intros s j m data G Rj Re Hf Hm Em He Hw (b & Hb & Lb); [lia|]. cbn [following]. replace (m <=? 0) with false by lia.
  assert (HH : exists a, held s j = Some a /\ (j < e -> a = lenN (seg j))%N /\ (j = e -> a = b)). { destruct (N.eq_dec j e) as [->|Nj]; [exists b; split; [exact Hb|]; split; [lia|auto]|]. exists (lenN (seg j)). split; [apply Hw; lia|]. split; [auto|]. intros ->. contradiction. }
  destruct HH as (a & Ha & La & Lb2). destruct (held_seg s j a G Ha) as (g & Eg & _ & Es). rewrite (segat_ok _ s j g Eg). destruct (held_data s j a G Ha) as (d & Ed & Ld & Dd). rewrite (data_ok _ s j d Ed), Es.
  assert (Sj := seg_len j ltac:(lia)). destruct (Z.ltb_spec m (Z.of_N (lenN (seg j)))) as [L|L].
  - assert (j = e) by (destruct (N.eq_dec j e); [assumption|]; assert (X := seg_full j ltac:(lia)); nia). subst j. specialize (Lb2 eq_refl). subst a. rewrite change_ok. destruct fuel as [|fuel]; [lia|]. cbn [following Z.leb Z.compare]. eexists. split; [|reflexivity]. unfold ret. do 3 f_equal.
    rewrite slice_take by lia. rewrite Dd. unfold sub. rewrite takeN_takeN. f_equal. rewrite N.min_l; [reflexivity|]. nia.
  - rewrite change_ok. destruct (N.eq_dec j e) as [->|Nj].
    + assert (Ms : m = Z.of_N (lenN (seg e))) by nia. assert (Bs : b = lenN (seg e)) by (destruct (held_le s e b G Hb); nia). specialize (Lb2 eq_refl). rewrite <- Ms. rewrite Z.sub_diag. destruct fuel as [|fuel]; [lia|]. cbn [following Z.leb Z.compare]. eexists. split; [|reflexivity]. unfold ret. do 3 f_equal. rewrite Dd. f_equal. lia.
    + specialize (La ltac:(lia)). subst a. assert (X := seg_full j ltac:(lia)). rewrite X in *.
      destruct (IH (set_pos s (n_pos s + Z.of_N size)) (j + 1)%N (m - Z.of_N size) (data ++ d)) as (t & Et & ->); try assumption; try lia; [now apply set_pos_good|nia|intros i Hi; apply Hw; lia|now exists b|]. eexists. split; [rewrite Et|].
      * do 2 f_equal. rewrite <- app_assoc. f_equal. rewrite Dd. rewrite (sub_cut f _ size (Z.to_N m)) by lia. replace ((j - 1) * size + size)%N with ((j + 1 - 1) * size)%N by nia. replace (Z.to_N (m - Z.of_N size)) with (Z.to_N m - size)%N by lia. reflexivity.
      * unfold set_pos. cbn. f_equal. lia.
Qed.
Variables (head_lines : N -> N) (less : N -> Z).
Definition plain_lines : Prop := (n <= 2)%N \/ forall i, (head_lines i <= 10)%N.
Lemma need_ok s k e eo te o i : good s -> n_inactive s = false -> (1 <= k <= n)%N -> (1 <= i <= n)%N ->
  exists t a, need name false new_server article head_lines less k e eo te o i s = (t, Ok o) /\ good t /\ grown s t /\ held t i = Some a /\ (0 < a)%N /\ (i <> e -> held s i = None -> a = lenN (seg i)) /\
  (forall j, j <> i -> n_data t j = n_data s j) /\ (plain_lines -> all_whole s -> all_whole t).
Proof using HA HS.
  intros G Ac Rk Ri. unfold need. rewrite state_ok.
  assert (Q : forall u b, good u -> grown s u -> held u i = Some b -> (i <> e -> held s i = None -> b = lenN (seg i)) -> (forall j, j <> i -> n_data u j = n_data s j) -> (plain_lines -> all_whole s -> all_whole u) ->
    exists t a, (get d <- data_at i; get _ <- (match d with [] => get g <- seg_at i; grab name article (s_id g) (-1) | _ => ret tt end); get d <- data_at i; match d with [] => raise AssertionError | _ => ret o end) u = (t, Ok o) /\ good t /\ grown s t /\ held t i = Some a /\ (0 < a)%N /\ (i <> e -> held s i = None -> a = lenN (seg i)) /\
    (forall j, j <> i -> n_data t j = n_data s j) /\ (plain_lines -> all_whole s -> all_whole t)).
  { intros u b Gu Wu Hb Hw Fr Al. destruct (held_data u i b Gu Hb) as (d & Ed & Ld & _). rewrite (data_ok _ u i d Ed). destruct d as [|x d].
    - destruct (held_seg u i b Gu Hb) as (g & Eg & Ei & _). destruct (grab_ok u i (-1)) as (t & a & Et & Gt & Ht & La & Frt & Wt & _); [exact Gu|exact Ri|lia|]. rewrite (w_inactive s u Wu) in Wt. specialize (Wt Ac). specialize (La ltac:(lia)).
      assert (E1 : (get g <- seg_at i; grab name article (s_id g) (-1)) u = (t, Ok tt)) by (rewrite (segat_ok _ u i g Eg), Ei; exact Et). rewrite (bind_ok _ _ _ _ _ E1). destruct (held_data t i a Gt Ht) as (d' & Ed' & Ld' & _). rewrite (data_ok _ t i d' Ed').
      assert (P := seg_pos i Ri). destruct d' as [|y d']; [cbn in Ld'; lia|]. exists t, a. split; [reflexivity|]. split; [exact Gt|]. split; [exact (grown_trans _ _ _ Wu Wt)|]. split; [exact Ht|]. split; [lia|]. split; [intros _ _; exact La|].
      split; [intros j Nj; rewrite (Frt j Nj); exact (Fr j Nj)|]. intros PL AW j c Hc Nj. destruct (N.eq_dec j i) as [->|Nji]; [rewrite Ht in Hc; apply some_inj in Hc as <-; exact La|]. rewrite (held_same u t j (Frt j Nji)) in Hc. exact (Al PL AW j c Hc Nj).
    - rewrite ret_ok, (data_ok _ u i _ Ed). exists u, b. split; [reflexivity|]. split; [exact Gu|]. split; [exact Wu|]. split; [exact Hb|]. split; [rewrite <- Ld, lenN_cons; lia|]. auto. }
  destruct (n_data s i) as [d|] eqn:Ed.
  - rewrite ret_ok. apply (Q s (lenN d)); [exact G|apply grown_refl|unfold held; now rewrite Ed| |auto|auto]. intros _ X. unfold held in X. rewrite Ed in X. discriminate X.
  - destruct (g_segs s G i Ri) as (g & Eg & Ei & _ & _). rewrite Eg. rewrite andb_false_r. cbn [andb]. set (amount := if _ : bool then _ else _).
    assert (HN : held s i = None) by (unfold held; now rewrite Ed). destruct (grab_ok s i amount) as (t & a & Et & Gt & Ht & La & Frt & Wt & _); [exact G|exact Ri|now rewrite HN|]. specialize (Wt Ac).
    assert (E1 : (get _ <- grab name article (s_id g) amount; ret o) s = (t, Ok o)) by (rewrite Ei, (bind_ok _ _ _ _ _ Et); reflexivity). rewrite (bind_ok _ _ _ _ _ E1). apply (Q t a); [exact Gt|exact Wt|exact Ht| |exact Frt|].
    + intros Ne _. apply La. unfold amount. replace (i =? e)%N with false by lia. cbn [andb]. lia.
    + intros PL AW j c Hc Nj. destruct (N.eq_dec j i) as [->|Nji]; [|rewrite (held_same s t j (Frt j Nji)) in Hc; exact (AW j c Hc Nj)]. rewrite Ht in Hc. apply some_inj in Hc as <-. apply La. unfold amount. rewrite (g_count s G). destruct PL as [PL|PL].
      * replace ((i =? e)%N && negb (k =? 1)%N && negb (k =? n)%N) with false by lia. lia.
      * replace (10 <? head_lines (s_id g))%N with false by (specialize (PL (s_id g)); lia). destruct ((i =? e)%N && negb (k =? 1)%N && negb (k =? n)%N); lia.
Qed.
Lemma needs_ok k e eo te o l : forall s, good s -> n_inactive s = false -> (1 <= k <= n)%N -> (forall i, In i l -> 1 <= i <= n)%N -> NoDup l ->
  exists t, needs name false new_server article head_lines less k e eo te o l s = (t, Ok o) /\ good t /\ grown s t /\ (forall i, In i l -> exists a, held t i = Some a /\ (0 < a)%N /\ (i <> e -> held s i = None -> a = lenN (seg i))) /\
  (forall j, ~ In j l -> n_data t j = n_data s j) /\ (plain_lines -> all_whole s -> all_whole t).
Proof using HA HS.
  induction l as [|i l IH]; intros s G Ac Rk Rl ND; cbn [needs]; [exists s; split; [reflexivity|]; split; [exact G|]; split; [apply grown_refl|]; split; [intros i []|]; auto|].
  destruct (need_ok s k e eo te o i G Ac Rk (Rl i (or_introl eq_refl))) as (u & a & Eu & Gu & Wu & Hu & Pu & Lu & Fu & Au). rewrite (bind_ok _ _ _ _ _ Eu). apply NoDup_cons_iff in ND as [Ni ND].
  destruct (IH u Gu) as (t & Et & Gt & Wt & Ht & Ft & At); [now rewrite (w_inactive _ _ Wu)|exact Rk|intros j Hj; apply Rl; now right|exact ND|]. exists t. split; [exact Et|]. split; [exact Gt|]. split; [exact (grown_trans _ _ _ Wu Wt)|]. split; [|split; [|auto]].
  - intros j [<-|Hj].
    + exists a. rewrite (held_same u t i (Ft i Ni)). auto.
    + destruct (Ht j Hj) as (b & Hb & Pb & Lb). exists b. split; [exact Hb|]. split; [exact Pb|]. intros Ne Hs. apply Lb; [exact Ne|]. rewrite (held_same s u j); [exact Hs|]. apply Fu. intros ->. contradiction.
  - intros j Hj. rewrite Ft, Fu; [reflexivity|intros ->; apply Hj; now left|intros X; apply Hj; now right].
Qed.

Lemma wanted_range p z : 0 <= p <= Z.of_N (lenN f) -> -1 <= z -> 0 <= wanted f p z.
Proof. intros H1 H2. unfold wanted, len. destruct (Z.eqb_spec z (-1)); lia. Qed.
Lemma read_ok s z : good s -> n_inactive s = false -> n_size s = Z.of_N (lenN f) -> n_first s = Z.of_N size -> 0 <= n_pos s < Z.of_N (lenN f) -> -1 <= z -> n_pos s + wanted f (n_pos s) z <= Z.of_N (lenN f) ->
  (plain_lines /\ all_whole s \/ exists j, j * Z.of_N size <= n_pos s /\ n_pos s + wanted f (n_pos s) z <= (j + 1) * Z.of_N size) ->
  exists t, n_read name false new_server article head_lines less z s = (t, Ok (sub (Z.to_N (n_pos s)) (Z.to_N (wanted f (n_pos s) z)) f)) /\ good t /\ n_pos t = n_pos s + wanted f (n_pos s) z /\
  n_inactive t = false /\ n_size t = n_size s /\ n_first t = n_first s /\ (plain_lines -> all_whole s -> all_whole t).
Proof using HA HS.
  intros G Ac Sz Fi Hp Hz He Cond. unfold n_read. rewrite state_ok, Ac, ret_ok, state_ok. replace (n_pos s =? n_size s) with false by lia. replace (n_size s =? 0) with false by lia. replace (z <? -1) with false by lia. replace (n_size s <? n_pos s) with false by lia.
  destruct (which_ok s (n_pos s) Sz Fi) as (k & o & Ek & Rk & Pk & Ok_ & Zk); [lia|]. rewrite Ek, from_ok.
  destruct (g_segs s G k Rk) as (g & Eg & _ & Eh & _). rewrite Eg, Eh. assert (Ew : (if z =? -1 then n_size s - n_pos s else z) = wanted f (n_pos s) z) by (unfold wanted, len; now rewrite Sz). rewrite Ew. assert (Hw := wanted_range (n_pos s) z ltac:(lia) Hz). set (w := wanted f (n_pos s) z) in *. set (p := n_pos s) in *. rewrite Z.add_0_r.
  destruct (which_ok s (p + w) Sz Fi) as (e & eo & Ee & Re & Pe & Oe & Ze); [lia|]. rewrite Ee, from_ok.
  assert (Sk := proj2 (seg_len k Rk)). assert (Se := proj2 (seg_len e Re)). assert (Hke : (k <= e)%N).
  { destruct (N.le_gt_cases k e) as [L|L]; [exact L|]. exfalso. assert (X := seg_full e ltac:(lia)). assert (o = 0 \/ 0 < o) as [Z1|Z1] by lia; [specialize (Zk Z1)|]; nia. }
  assert (EO : (k < e)%N -> 0 < eo). { intros L. destruct (Z.eq_dec eo 0) as [Z0|]; [|lia]. specialize (Ze Z0). clear - L Ze Pe Z0 HS Rk. nia. }
  destruct (needs_ok k e eo (z =? -1) o (parts k e) s G Ac Rk) as (t1 & E1 & G1 & W1 & H1 & F1 & A1); [intros i Hi; apply in_parts in Hi; lia|apply nodup_parts|].
  rewrite (bind_ok _ _ _ _ _ E1). rewrite no_end_magic.
  assert (Ac1 : n_inactive t1 = false) by (now rewrite (w_inactive _ _ W1)).
  assert (X2 : exists t2, more_first name false new_server article k o w t1 = (t2, Ok o) /\ good t2 /\ grown t1 t2 /\ (k = 1%N -> exists b, held t2 1 = Some b /\ (o + w <= Z.of_N b \/ b = lenN (seg 1))) /\ (forall j, j <> 1%N -> n_data t2 j = n_data t1 j)).
  { destruct (N.eq_dec k 1) as [K1|K1].
    - destruct (H1 1%N) as (a & Ha & _); [apply in_parts; lia|]. rewrite K1. destruct (more_first_ok t1 o w a G1 Ac1 ltac:(lia) Hw Ha) as (t2 & b & E2 & G2 & W2 & H2 & L2 & F2). exists t2. repeat (split; [assumption|]). split; [intros _; exists b; now split|exact F2].
    - exists t1. unfold more_first. replace (k =? 1)%N with false by lia. split; [reflexivity|]. split; [exact G1|]. split; [apply grown_refl|]. split; [contradiction|reflexivity]. }
  destruct X2 as (t2 & E2 & G2 & W2 & H2 & F2). rewrite (bind_ok _ _ _ _ _ E2). rewrite Z.sub_diag. assert (Ac2 : n_inactive t2 = false) by (now rewrite (w_inactive _ _ W2)).
  destruct (H1 e) as (a1 & Ha1 & Pa1 & _); [apply in_parts; lia|]. destruct (w_held _ _ W2 e a1 Ha1) as (a2 & Ha2 & La2).
  destruct (more_last_ok t2 e eo a2 G2 Ac2 Ha2 ltac:(lia)) as (t3 & b3 & E3 & G3 & W3 & H3 & L3 & F3 & D3). rewrite (bind_ok _ _ _ _ _ E3). rewrite no_marker_magic, no_header_magic, change_ok.
  assert (W := grown_trans _ _ _ (grown_trans _ _ _ W1 W2) W3).
  assert (AW : plain_lines -> all_whole s -> all_whole t3).
  { intros PL Aw i c Hc Ni. specialize (A1 PL Aw). destruct (N.eq_dec i e) as [->|Ne]; [|rewrite (held_same t2 t3 i (F3 i Ne)), (held_same t1 t2 i (F2 i Ni)) in Hc; exact (A1 i c Hc Ni)]. rewrite H3 in Hc. apply some_inj in Hc as <-. destruct D3 as [->|D3]; [|exact D3]. rewrite (held_same t1 t2 e (F2 e Ni)) in Ha2. exact (A1 e a2 Ha2 Ni). }
  assert (Wh : forall i, (k <= i < e)%N -> exists a, held t3 i = Some a /\ (Z.of_N a - o < w -> (k < i)%N \/ o < Z.of_N size -> a = lenN (seg i))).
  { intros i Hi. destruct (H1 i) as (a & Ha & Pa & La); [apply in_parts; lia|]. assert (Ei : held t3 i = held t2 i) by (apply held_same, F3; lia). destruct (N.eq_dec i 1) as [I1|I1].
    - assert (K1 : k = 1%N) by lia. destruct (H2 K1) as (b & Hb & Lb). rewrite I1 in *. exists b. split; [now rewrite Ei|]. intros Lt _. destruct Lb as [Lb|Lb]; [lia|exact Lb].
    - rewrite (held_same t1 t2 i (F2 i I1)) in Ei. exists a. split; [now rewrite Ei|]. intros _ Oi. destruct (held s i) as [a0|] eqn:E0; [|apply La; [lia|reflexivity]]. destruct Cond as [[PL Aw]|(j & J1 & J2)].
      + exact (A1 PL Aw i a Ha I1).
      + exfalso. specialize (EO ltac:(lia)). assert (Sf := seg_full k ltac:(lia)). destruct (within_arith (Z.of_N size) j (Z.of_N k) (Z.of_N e) o eo); lia. }
  assert (Hk : exists ak, held t3 k = Some ak /\ (k = e -> eo <= Z.of_N ak)). { destruct (N.eq_dec k e) as [->|Nk]; [exists b3; auto|]. destruct (Wh k ltac:(lia)) as (a & Ha & _). exists a. split; [exact Ha|]. intros ->. contradiction. }
  destruct Hk as (ak & Hk & Lk). destruct (held_data t3 k ak G3 Hk) as (d & Ed & Ld & Dd). rewrite (data_ok _ (set_seek t3 false) k d Ed), slice_drop by lia.
  assert (Bg : dropN (Z.to_N o) d = sub (Z.to_N p) (ak - Z.to_N o) f).
  { rewrite Dd. unfold sub. rewrite dropN_takeN, dropN_dropN. f_equal. f_equal. assert (PN : Z.to_N p = ((k - 1) * size + Z.to_N o)%N) by (clear - Pk Ok_ Rk; nia). rewrite PN. apply N.add_comm. }
  assert (Lg : lenN (dropN (Z.to_N o) d) = (ak - Z.to_N o)%N) by (rewrite lenN_dropN, Ld; reflexivity). rewrite Lg. destruct (held_le t3 k ak G3 Hk) as [_ Lak].
  destruct (Z.leb_spec w (Z.of_N (ak - Z.to_N o))) as [Lw|Lw].
  - rewrite change_ok. eexists. split; [unfold ret; rewrite slice_take by exact Hw; rewrite Bg; unfold sub; rewrite takeN_takeN, N.min_l by lia; reflexivity|].
    split; [destruct G3; now split|]. cbn. rewrite (w_pos _ _ W), (w_inactive _ _ W), (w_size _ _ W), (w_first _ _ W). repeat (split; [reflexivity || assumption|]). exact AW.
  - assert (Nke : k <> e) by (intros ->; specialize (Lk eq_refl); assert (eo = o + w) by nia; lia). assert (Sf := seg_full k ltac:(lia)).
    assert (Ds : Z.of_N (ak - Z.to_N o) = Z.of_N size - o).
    { destruct (Wh k ltac:(lia)) as (a & Ha & La). rewrite Hk in Ha. apply some_inj in Ha as <-. destruct (Z.ltb_spec o (Z.of_N size)) as [Lo|Lo]; [rewrite (La ltac:(lia) ltac:(now right)) in *; lia|lia]. }
    rewrite change_ok, state_ok. set (u := set_pos (set_seek t3 false) (n_pos (set_seek t3 false) + Z.of_N (ak - Z.to_N o))). assert (Gu : good u) by (destruct G3; now split).
    assert (EZ : w - (Z.of_N (ak - Z.to_N o) + (o - o)) = w - (Z.of_N size - o)) by lia. rewrite EZ.
    destruct (following_ok e eo (S (S (N.to_nat (n_count u)))) u (k + 1)%N (w - (Z.of_N size - o)) []) as (t4 & E4 & ->).
    + exact Gu.
    + lia.
    + lia.
    + rewrite (g_count u Gu). lia.
    + lia.
    + nia.
    + split; [|lia]. specialize (EO ltac:(lia)). lia.
    + intros i Hi. destruct (Wh i ltac:(lia)) as (a & Ha & La). change (held u i) with (held t3 i). rewrite Ha. f_equal. apply La; [|left; lia]. destruct (held_le t3 i a G3 Ha) as [Ri Li]. destruct (seg_len i Ri) as [_ X]. specialize (EO ltac:(lia)). clear - Li X Hi Pk Pe EO HS. nia.
    + exists b3. split; [exact H3|exact L3].
    + rewrite (bind_ok _ _ _ _ _ E4), state_ok. cbn [n_size n_pos set_pos set_seek u]. rewrite (w_size _ _ W), (w_pos _ _ W). fold p. replace (n_size s <? p + Z.of_N (ak - Z.to_N o) + (w - (Z.of_N size - o))) with false by lia. rewrite change_ok. eexists. split.
      * unfold ret. do 3 f_equal. rewrite Bg. cbn [app]. rewrite (sub_cut f (Z.to_N p) (ak - Z.to_N o) (Z.to_N w)) by lia. f_equal. assert (PN : (Z.to_N p + (ak - Z.to_N o) = (k + 1 - 1) * size)%N) by (clear - Pk Ok_ Rk Ds; nia). rewrite PN. f_equal. lia.
      * split; [destruct G3; now split|]. cbn. rewrite (w_size _ _ W), (w_first _ _ W). split; [lia|]. repeat (split; [reflexivity|]). exact AW.
Qed.

(** ** Every call *)
Lemma first_ok s lines : good s -> n_inactive s = true -> (forall i, n_data s i = None) ->
  exists t, read_first name article lines s = (t, Ok tt) /\ good t /\ n_inactive t = false /\ n_size t = Z.of_N (lenN f) /\ n_first t = Z.of_N size /\ n_pos t = n_pos s /\ all_whole t.
Proof.
  intros G Ia Nd. assert (R : (1 <= 1 <= n)%N) by (assert (X := count_pos); lia). destruct (g_segs s G 1%N R) as (g & Eg & Ei & _ & _). unfold read_first. rewrite (segat_ok _ s 1%N g Eg), Ei.
  destruct (grab_ok s 1 lines) as (t & a & Et & Gt & Ht & _ & Ft & _ & Wt); [exact G|exact R|unfold held; rewrite Nd; now intros []|]. destruct (Wt Ia) as (Z1 & Z2 & Z3 & Z4 & Z5). rewrite (bind_ok _ _ _ _ _ Et). destruct (held_seg t 1 a Gt Ht) as (g' & Eg' & _ & Es'). rewrite (segat_ok _ t 1%N g' Eg').
  assert (P := seg_pos 1 R). replace (s_size g' =? 0)%N with false by lia. rewrite ret_ok, (segat_ok _ t 1%N g' Eg'). eexists. split; [reflexivity|]. split; [destruct Gt; now split|]. split; [reflexivity|]. split; [exact Z1|].
  split; [cbn; rewrite Es'; f_equal; destruct (seg_len 1 R) as [X _]; lia|]. split; [exact Z3|]. intros i b Hb Ni. change (held t i = Some b) in Hb. unfold held in Hb. rewrite (Ft i Ni), Nd in Hb. discriminate Hb.
Qed.
Record stands (s : nfile) (pos : Z) : Prop := {
  st_good : good s; st_pos : n_pos s = pos; st_range : 0 <= pos <= Z.of_N (lenN f);
  st_state : n_inactive s = true /\ pos = 0 /\ (forall i, n_data s i = None) \/ n_inactive s = false /\ n_size s = Z.of_N (lenN f) /\ n_first s = Z.of_N size;
  st_whole : plain_lines -> all_whole s }.
Lemma woken s pos lines : stands s pos -> exists t, (get s <- state; (if n_inactive s then read_first name article lines else ret tt)) s = (t, Ok tt) /\ stands t pos /\ n_inactive t = false /\ n_size t = Z.of_N (lenN f) /\ n_first t = Z.of_N size.
Proof.
  intros [G P R [(Ia & P0 & Nd)|(Ia & Sz & Fi)] W].
  - destruct (first_ok s lines G Ia Nd) as (t & Et & Gt & It & St & Ft & Pt & Wt). exists t. rewrite state_ok, Ia. split; [exact Et|]. split; [|now repeat split]. split; [exact Gt|now rewrite Pt|exact R| |auto]. right. now repeat split.
  - exists s. rewrite state_ok, Ia. split; [reflexivity|]. split; [|now repeat split]. split; try assumption. right. now repeat split.
Qed.
Lemma read_woken z s t : (get s <- state; (if n_inactive s then read_first name article (-1) else ret tt)) s = (t, Ok tt) -> n_inactive t = false -> n_read name false new_server article head_lines less z s = n_read name false new_server article head_lines less z t.
Proof.
  intros E It. rewrite state_ok in E. unfold n_read. rewrite !(state_ok _ s), !(state_ok _ t), It. destruct (n_inactive s) eqn:Ia.
  - assert (E' : (if z =? -1 then read_first name article (-1) else first_grab name false article) s = (t, Ok tt)) by (destruct (z =? -1); exact E). rewrite (bind_ok _ _ _ _ _ E'). reflexivity.
  - injection E as <-. reflexivity.
Qed.
Definition one_part (pos : Z) (c : ncall) : Prop := match c with NRead z => exists j, j * Z.of_N size <= pos /\ pos + wanted f pos z <= (j + 1) * Z.of_N size | _ => True end.
Lemma call_ok s pos c : stands s pos -> (plain_lines \/ one_part pos c) ->
  snd (n_call name false new_server article head_lines less s c) = snd (plain f pos c) /\ stands (fst (n_call name false new_server article head_lines less s c)) (fst (plain f pos c)).
Proof.
  intros H C. destruct c as [off w| |z|]; cbn [n_call plain].
  - destruct (woken s pos (-1) H) as (t & Et & Ht & It & St & Ft). unfold n_seek_to. rewrite state_ok. destruct (n_inactive s && (off =? 0) && match w with FromStart => true | FromHere => n_pos s =? 0 | FromEnd => false end) eqn:Q.
    + apply andb_true_iff in Q as [Q Q3]. apply andb_true_iff in Q as [Q1 Q2]. destruct (st_state _ _ H) as [(_ & P0 & _)|(X & _)]; [|congruence]. subst pos. assert (Ed : off + match w with FromStart => 0 | FromHere => 0 | FromEnd => len f end = 0) by (destruct w; lia || discriminate Q3).
      rewrite Ed. replace ((0 <? 0) || (len f <? 0)) with false by (unfold len; lia). cbn. split; [reflexivity|]. destruct H as [G P R S W]. split; try assumption; [destruct G; now split|reflexivity].
    + rewrite state_ok in Et. assert (Et' : (if n_inactive s then first_grab name false article else ret tt) s = (t, Ok tt)) by exact Et. rewrite (bind_ok _ _ _ _ _ Et'), state_ok, St. destruct (st_range _ _ Ht) as [R1 R2]. rewrite (st_pos _ _ Ht).
      set (x := off + match w with FromStart => 0 | FromHere => pos | FromEnd => len f end). assert (Ex : match w with FromStart => off | FromHere => pos + off | FromEnd => Z.of_N (lenN f) + off end = x) by (unfold x, len; destruct w; lia). rewrite Ex. unfold len. destruct (x <? 0) eqn:L1; [cbn [orb]; now split|]. destruct (Z.of_N (lenN f) <? x) eqn:L2; [cbn [orb]; now split|].
      cbn. split; [reflexivity|]. destruct Ht as [G P R S W]. split; try assumption; [destruct G; now split|reflexivity|lia|]. right. now repeat split.
  - destruct H as [G P R S W]. cbn. rewrite P. split; [reflexivity|]. now split.
  - destruct (woken s pos (-1) H) as (t & Et & Ht & It & St & Ft). rewrite (read_woken z s t Et It). assert (P := st_pos _ _ Ht). destruct (st_range _ _ Ht) as [R1 R2]. unfold len. destruct (Z.eqb_spec pos (Z.of_N (lenN f))) as [Pe|Pe].
    + unfold n_read. rewrite state_ok, It, ret_ok, state_ok. replace (n_pos t =? n_size t) with true by lia. cbn. now split.
    + destruct (Z.ltb_spec z (-1)) as [Lz|Lz].
      * unfold n_read. rewrite state_ok, It, ret_ok, state_ok. replace (n_pos t =? n_size t) with false by lia. replace (n_size t =? 0) with false by lia. replace (z <? -1) with true by lia. now split.
      * destruct (Z.ltb_spec (Z.of_N (lenN f)) (pos + wanted f pos z)) as [Lw|Lw].
        -- unfold n_read. rewrite state_ok, It, ret_ok, state_ok. replace (n_pos t =? n_size t) with false by lia. replace (n_size t =? 0) with false by lia. replace (z <? -1) with false by lia. replace (n_size t <? n_pos t) with false by lia.
           destruct (which_ok t (n_pos t) St Ft) as (k & o & Ek & _); [lia|]. rewrite Ek, from_ok. assert (Ew : (if z =? -1 then n_size t - n_pos t else z) = wanted f pos z) by (unfold wanted, len; rewrite P, St; reflexivity). rewrite Ew, P.
           assert (E2 : which_segment t (pos + wanted f pos z) = Err IndexError) by (unfold which_segment; rewrite St; replace (pos + wanted f pos z <? 0) with false by lia; now replace (Z.of_N (lenN f) <? pos + wanted f pos z) with true by lia). rewrite E2. now split.
        -- destruct (read_ok t z) as (u & Eu & Gu & Pu & Iu & Su & Fu & Wu); try assumption; try lia; [apply Ht|now rewrite P| |].
           { rewrite P. destruct C as [C|C]; [left; split; [exact C|apply Ht, C]|right; exact C]. }
           rewrite Eu, P. cbn [as_reply fst snd]. split; [reflexivity|]. split; [exact Gu|now rewrite Pu, P|split; [|exact Lw]; assert (X := wanted_range pos z ltac:(lia) ltac:(lia)); lia| |intros PL; apply Wu; [exact PL|apply Ht, PL]]. right. split; [exact Iu|]. split; congruence.
  - destruct (woken s pos 2 H) as (t & Et & Ht & It & St & Ft). unfold n_file_size. rewrite state_ok. rewrite state_ok in Et. rewrite (bind_ok _ _ _ _ _ Et), state_ok, St. now split.
Qed.
Lemma calls_ok cs : forall s pos, stands s pos -> (plain_lines \/ apart f size pos cs) -> n_calls name false new_server article head_lines less s cs = plains f pos cs.
Proof.
  induction cs as [|c cs IH]; intros s pos H C; [reflexivity|]. cbn [n_calls plains]. destruct (call_ok s pos c H) as [E H'].
  { destruct C as [C|C]; [now left|right]. cbn [apart] in C. destruct C as [C _]. destruct c; exact C || exact I. }
  rewrite E. f_equal. apply IH; [exact H'|]. destruct C as [C|C]; [now left|right]. cbn [apart] in C. apply C.
Qed.
Lemma fold_segs l : forall g0 i, let g := fold_left (fun g p => upd g (fst p) (mkSeg (fst p) (snd p) 0 None)) l g0 in
  (In i (map fst l) -> exists b, g i = Some (mkSeg i b 0 None)) /\ (~ In i (map fst l) -> g i = g0 i).
Proof.
  induction l as [|[k b] l IH]; intros g0 i; cbn [fold_left map fst snd In]; [split; [intros []|reflexivity]|]. destruct (IH (upd g0 k (mkSeg k b 0 None)) i) as [A B]. destruct (in_dec N.eq_dec i (map fst l)) as [Hi|Hi].
  - split; [intros _; exact (A Hi)|]. intros X. now destruct X; right.
  - cbn zeta. rewrite (B Hi). unfold upd. split.
    + intros [->|X]; [|contradiction]. rewrite N.eqb_refl. now exists b.
    + intros X. now replace (i =? k)%N with false by (symmetry; apply N.eqb_neq; intros ->; apply X; now left).
Qed.
Lemma fold_count (l : list (N * N)) : forall m0, let m := fold_left (fun m p => if (m <? fst p)%N then fst p else m) l m0 in
  (m0 <= m)%N /\ (forall i, In i (map fst l) -> i <= m)%N /\ (m = m0 \/ In m (map fst l)).
Proof.
  induction l as [|[k b] l IH]; intros m0; cbn [fold_left map fst In]; [split; [lia|]; split; [intros i []|now left]|]. destruct (IH (if (m0 <? k)%N then k else m0)) as (A & B & C). cbn zeta in *. set (m := fold_left _ l _) in *. destruct (N.ltb_spec m0 k) as [L|L].
  - split; [lia|]. split; [intros i [<-|Hi]; [exact A|exact (B i Hi)]|]. destruct C as [C|C]; [right; left; congruence|right; now right].
  - split; [lia|]. split; [intros i [<-|Hi]; [lia|exact (B i Hi)]|]. destruct C as [C|C]; [now left|right; now right].
Qed.
Lemma new_stands nzb : complete nzb f size -> stands (n_new nzb) 0.
Proof.
  intros Cn. assert (Np := count_pos). fold n in Np. split; [|reflexivity|lia|left; now repeat split|intros _ i a Ha; discriminate Ha]. split.
  - cbn [n_count n_new]. destruct (fold_count nzb 0%N) as (_ & B & C). cbn zeta in *. set (m := fold_left _ nzb _) in *. assert (X : In n (map fst nzb)) by (apply Cn; fold n; lia). specialize (B n X). destruct C as [C|C]; [lia|]. apply Cn in C. fold n in C. lia.
  - intros i R. destruct (fold_segs nzb (fun _ => None) i) as [A _]. destruct (A (proj2 (Cn i) R)) as (b & Eb). eexists. split; [exact Eb|]. repeat split. now intros [].
  - intros i R. destruct (fold_segs nzb (fun _ => None) i) as [_ B]. apply B. intros X. apply R. now apply Cn.
  - intros i d Hd. discriminate Hd.
Qed.
End Posted.
Lemma posted_reads name new_server article head_lines less f size nzb cs : posted article name f size -> complete nzb f size ->
  ((segments f size <= 2)%N \/ (forall i, (head_lines i <= 10)%N) \/ apart f size 0 cs) ->
  n_calls name false new_server article head_lines less (n_new nzb) cs = plains f 0 cs.
Proof.
  intros [HS HA] Cn C. apply (calls_ok f size HS name article HA); [now apply (new_stands f size HS name article HA head_lines)|]. destruct C as [C|[C|C]]; [left; now left|left; now right|now right].
Qed.
