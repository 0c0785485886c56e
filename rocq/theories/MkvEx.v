(** MkvEx: an MKV sample, a movie it is from, and samples that cannot be rebuilt. *)
From Verif Require Import Base BaseFacts Crc SrsRec SrsRecSpec Srs Ebml EbmlSpec EbmlFacts StrmSpec Mp3Spec Mkv MkvSpec MkvRead MkvSrs MkvLoad MkvMain MkvMore.
From Verif Require AviEx.
Import AviEx(starts_b, starts_at, starts_at_is, not_beqb).

(** ** Deciding the hypotheses *)
Definition inb (x : bytes) (l : list bytes) : bool := existsb (beqb x) l.
Lemma inb_is x l : inb x l = true <-> In x l.
Proof. unfold inb. rewrite existsb_exists. split; [intros (y & Hy & E); apply beqb_eq in E; now subst|]. intros H. exists x. split; [exact H|now apply beqb_eq]. Qed.
Definition vint_okb (w : nat) (v : N) : bool := (1 <=? w)%nat && (w <=? 8)%nat && (v <? 2 ^ (7 * N.of_nat w)).
Lemma vint_ok_is w v : vint_okb w v = true -> vint_ok w v.
Proof. unfold vint_okb, vint_ok. rewrite !andb_true_iff. intros ((A & B) & C). split; lia. Qed.
Definition id_okb (id : bytes) : bool := let w := length id in let v := unbe id - 2 ^ (7 * N.of_nat w) in vint_okb w v && beqb id (vint w v).
Lemma id_ok_is id : id_okb id = true -> id_ok id.
Proof. unfold id_okb. cbv zeta. rewrite andb_true_iff. intros (A & B). apply vint_ok_is in A. apply beqb_eq in B. eexists. eexists. split; [exact A|exact B]. Qed.
Definition laced_b (t : N) (sizes : list N) (laces : bytes) : bool :=
  if t =? 0 then match sizes, laces with [_], [] => true | _, _ => false end
  else if t =? 2 then match sizes with [] => false | _ => (lenN (removelast sizes) <? 256) && beqb laces (n2b (lenN (removelast sizes)) :: concat (map xiph_code (removelast sizes))) end
  else false.
Lemma laced_is t sizes laces : laced_b t sizes laces = true -> laced t sizes laces.
Proof.
  unfold laced_b. destruct (N.eqb_spec t 0) as [->|_]; [destruct sizes as [|n [|m l]]; destruct laces; try discriminate; intros _; constructor|]. destruct (N.eqb_spec t 2) as [->|_]; [|discriminate]. destruct sizes as [|n l]; [discriminate|]. rewrite andb_true_iff. intros (A & B). apply beqb_eq in B.
  rewrite B. rewrite (app_removelast_last 0 (l := n :: l)) at 1 by discriminate. constructor. lia.
Qed.
Definition blk_okb (b : blk) : bool :=
  inb (k_id b) [block_id; simple_block] && vint_okb (k_w b) (blk_size b) && vint_okb (k_tw b) (k_no b) && (lenN (k_time b) =? 2) &&
  laced_b (lace_type b) (map lenN (k_frames b)) (k_laces b).
Lemma blk_ok_is b : blk_okb b = true -> blk_ok b.
Proof.
  unfold blk_okb. rewrite !andb_true_iff. intros ((((A & B) & C) & D) & E). apply inb_is in A as [A|[A|[]]]; (split; [auto|]); (split; [now apply vint_ok_is|]); (split; [now apply vint_ok_is|]); (split; [lia|]); (split; [now apply laced_is|]);
    unfold laced_b in E; destruct (N.eqb_spec (lace_type b) 0); [now left| |now left|]; destruct (N.eqb_spec (lace_type b) 2); [right; now left|discriminate E|right; now left|discriminate E].
Qed.
Definition number_okb (d : bytes) : bool := (1 <=? lenN d) && (lenN d <=? 8) && (unbe d <? 2 ^ (7 * lenN d)).
Definition item_okb (opens leaves : list bytes) (blocks : bool) (i : item) : bool :=
  match i with
  | Open id w size => inb id opens && vint_okb w size
  | Leaf id w d => id_okb id && vint_okb w (lenN d) && (negb (inb id special) || inb id leaves) && (negb (inb id [track_number; algorithm]) || number_okb d)
  | Blk b => blocks && blk_okb b
  end.
Lemma item_ok_is opens leaves blocks i : item_okb opens leaves blocks i = true -> item_ok opens leaves (blocks = true) i.
Proof.
  destruct i as [id w size|id w d|b]; cbn [item_okb item_ok]; rewrite !andb_true_iff.
  - intros (A & B). split; [now apply inb_is|now apply vint_ok_is].
  - intros (((A & B) & C) & D). split; [now apply id_ok_is|]. split; [now apply vint_ok_is|]. split.
    + apply orb_true_iff in C as [C|C]; [left|right; now apply inb_is]. intros X. apply inb_is in X. rewrite X in C. discriminate.
    + intros X. assert (Y : inb id [track_number; algorithm] = true) by (apply inb_is; destruct X as [X|X]; rewrite X; [now left|right; now left]). rewrite Y in D. unfold number_okb in D. cbn [negb orb] in D. unfold number_ok. lia.
  - intros (A & B). split; [exact A|now apply blk_ok_is].
Qed.
Lemma item_ok_mono opens leaves (P Q : Prop) i : (P -> Q) -> item_ok opens leaves P i -> item_ok opens leaves Q i.
Proof. intros H. destruct i; cbn [item_ok]; tauto. Qed.
Definition group_okb (id : bytes) (i : item) : bool :=
  beqb id tracks && item_okb [track_entry; encodings; encoding; compression] [track_number; codec; algorithm; settings] false i ||
  beqb id attachments && item_okb [attached] [file_name; file_contents] false i ||
  beqb id cluster && item_okb [block_group] [] true i.
Lemma group_ok_is id i : group_okb id i = true -> group_ok id i.
Proof.
  unfold group_okb. rewrite !orb_true_iff, !andb_true_iff, !beqb_eq. intros [[(A & B)|(A & B)]|(A & B)]; apply item_ok_is in B.
  - left. split; [exact A|]. now apply (item_ok_mono _ _ (false = true)).
  - right. left. split; [exact A|]. now apply (item_ok_mono _ _ (false = true)).
  - right. right. split; [exact A|]. now apply (item_ok_mono _ _ (true = true)).
Qed.
Fixpoint fit_b (its : list item) : bool := match its with [] => true | i :: r => match i with Open _ _ size => size <=? lenN (bytes_of r) | _ => true end && fit_b r end.
Lemma fit_are its : fit_b its = true -> forall a i w size b, its = a ++ Open i w size :: b -> size <= lenN (bytes_of b).
Proof.
  induction its as [|j r IH]; intros H a i w size b E; [destruct a; discriminate|]. cbn [fit_b] in H. apply andb_true_iff in H as (H1 & H2). destruct a as [|x a]; cbn [app] in E.
  - injection E as -> ->. lia.
  - apply (IH H2 a i w). congruence.
Qed.
Definition part_okb (p : part) : bool :=
  match p with
  | One i => item_okb [segment] [] false i
  | Group id w its => inb id [tracks; attachments; cluster] && vint_okb w (lenN (bytes_of its)) && forallb (group_okb id) its && fit_b its
  end.
Lemma part_ok_is p : part_okb p = true -> part_ok p.
Proof.
  destruct p as [i|id w its]; cbn [part_okb part_ok].
  - intros H. apply item_ok_is in H. now apply (item_ok_mono _ _ (false = true)).
  - rewrite !andb_true_iff. intros (((A & B) & C) & D). split; [now apply inb_is|]. split; [now apply vint_ok_is|]. split; [|now apply fit_are]. apply Forall_forall. intros i Hi. rewrite forallb_forall in C. now apply group_ok_is, C.
Qed.
Lemma parts_ok_are ps : forallb part_okb ps = true -> Forall part_ok ps.
Proof. intros H. rewrite forallb_forall in H. apply Forall_forall. intros p Hp. now apply part_ok_is, H. Qed.
Definition group_inb (ids : list bytes) (p : part) : bool := match p with One _ => false | Group id _ _ => inb id ids end.
Lemma group_in_is ids p : group_inb ids p = true <-> group_in ids p.
Proof.
  destruct p as [i|id w its]; cbn [group_inb]; [split; [discriminate|intros (id & w & its & X & _); discriminate X]|]. rewrite inb_is. split; [intros H; now exists id, w, its|]. intros (id' & w' & its' & X & H). congruence.
Qed.
Fixpoint before_b (a b : list bytes) (ps : list part) : bool := match ps with [] => true | p :: r => (negb (group_inb b p) || negb (existsb (group_inb a) r)) && before_b a b r end.
Lemma before_are a b ps : before_b a b ps = true -> before a b ps.
Proof.
  induction ps as [|p0 ps IH]; intros H x p y q z E Hb Ha; [destruct x; discriminate|]. cbn [before_b] in H. apply andb_true_iff in H as (H1 & H2). destruct x as [|x0 x]; cbn [app] in E.
  - assert (E1 : p0 = p) by congruence. assert (E2 : ps = y ++ q :: z) by congruence. subst p0 ps. apply group_in_is in Hb. rewrite Hb in H1. cbn [negb orb] in H1. apply negb_true_iff in H1. apply group_in_is in Ha. rewrite existsb_app in H1. cbn [existsb] in H1. rewrite Ha, orb_true_r in H1. discriminate.
  - apply (IH H2 x p y q z); [congruence|exact Hb|exact Ha].
Qed.
Fixpoint numbered_b (seen : bool) (its : list item) : bool :=
  match its with
  | [] => true
  | i :: r => (seen || match i with Open id _ _ => negb (beqb id compression) | Leaf id _ _ => negb (inb id [codec; algorithm; settings]) | Blk _ => true end) &&
              numbered_b (seen || match i with Leaf id _ _ => beqb id track_number | _ => false end) r
  end.
Lemma numbered_are its : forall p seen, (seen = true -> exists n, listed n p) -> numbered_b seen its = true -> forall x i y, its = x ++ i :: y -> about_track i -> exists n, listed n (p ++ x).
Proof.
  induction its as [|j r IH]; intros p seen Hs H x i y E Ab; [destruct x; discriminate|]. cbn [numbered_b] in H. apply andb_true_iff in H as (H1 & H2). destruct x as [|x0 x]; cbn [app] in E.
  - assert (E1 : j = i) by congruence. subst j. rewrite app_nil_r. apply orb_true_iff in H1 as [H1|H1]; [now apply Hs|]. exfalso. destruct i as [id w n|id w d|b]; cbn [about_track] in Ab.
    + subst id. discriminate H1.
    + apply inb_is in Ab. rewrite Ab in H1. discriminate H1.
    + exact Ab.
  - assert (E1 : j = x0) by congruence. subst x0. replace (p ++ j :: x) with ((p ++ [j]) ++ x) by (now rewrite <- app_assoc). refine (IH (p ++ [j]) _ _ H2 x i y _ Ab); [|congruence].
    intros X. apply orb_true_iff in X as [X|X]; [destruct (Hs X) as (n & Hn); exists n; apply listed_app; now left|]. destruct j as [|id w d|]; try discriminate. apply beqb_eq in X. exists (unbe d). apply listed_app. right. now apply listed_one.
Qed.
Lemma numbered_is its : numbered_b false its = true -> numbered its.
Proof. intros H x i y E Ab. exact (numbered_are its [] false ltac:(discriminate) H x i y E Ab). Qed.
Definition name_eqb (a b : option bytes) : bool := match a, b with Some a, Some b => beqb a b | None, None => true | _, _ => false end.
Fixpoint names_ok (l : list (option bytes)) : bool := match l with [] => true | None :: _ => false | x :: l => negb (existsb (name_eqb x) l) && names_ok l end.
Lemma names_are l : names_ok l = true -> ~ In None l /\ NoDup l.
Proof.
  induction l as [|[x|] l IH]; cbn [names_ok]; [split; [intros []|constructor]| |discriminate]. rewrite andb_true_iff. intros (A & B). destruct (IH B) as (I1 & I2). split; [intros [X|X]; [discriminate X|now apply I1]|]. constructor; [|exact I2]. intros X. apply negb_true_iff in A. assert (existsb (name_eqb (Some x)) l = true); [|congruence]. apply existsb_exists. exists (Some x). split; [exact X|]. now apply beqb_eq.
Qed.
(** the tracks there are *)
Definition numbers (its : list item) : list N := flat_map (fun i => match i with Leaf id _ d => if beqb id track_number then [unbe d] else [] | Blk b => [k_no b] | _ => [] end) its.
Lemma numbers_are n its : has_track n its <-> In n (numbers its).
Proof.
  unfold numbers. rewrite in_flat_map. split.
  - intros [(w & d & I & E)|(b & I & E)]; [exists (Leaf track_number w d)|exists (Blk b)]; (split; [exact I|]); left; exact E.
  - intros (i & I & H). destruct i as [|id w d|b]; [destruct H| |destruct H as [H|[]]; right; now exists b]. destruct (beqb id track_number) eqn:E; [|destruct H]. apply beqb_eq in E. subst id. destruct H as [H|[]]. left. now exists w, d.
Qed.
Definition listed_b (its : list item) : list N := flat_map (fun i => match i with Leaf id _ d => if beqb id track_number then [unbe d] else [] | _ => [] end) its.
Lemma listed_is n its : In n (listed_b its) -> listed n its.
Proof. unfold listed_b. rewrite in_flat_map. intros (i & I & H). destruct i as [|id w d|b]; [destruct H| |destruct H]. destruct (beqb id track_number) eqn:E; [|destruct H]. apply beqb_eq in E. subst id. destruct H as [H|[]]. now exists w, d. Qed.
Definition leaf_b (p : part) : bool := match p with One (Leaf _ _ _) => true | _ => false end.
Definition segment_b (p : part) : bool := match p with One (Open id _ _) => beqb id segment | _ => false end.
Definition has_data (its : list item) (n : N) : bool := match data_of n its with [] => false | _ => true end.
Definition mkv_okb (a : list part) (w : nat) (size : N) (b : list part) : bool :=
  let ps := a ++ One (Open segment w size) :: b in
  forallb part_okb ps && forallb leaf_b a && forallb (fun p => negb (segment_b p)) b && before_b [tracks] [cluster; attachments] ps && numbered_b false (all_items ps) && names_ok (map fst (files_of (all_items ps))) &&
  forallb (fun n => n <? 2 ^ 16) (numbers (all_items ps)) && forallb (fun i => match i with Blk b => has_data (all_items ps) (k_no b) | _ => true end) (all_items ps).
Lemma mkv_ok_is a w size b : mkv_okb a w size b = true -> mkv_ok (a ++ One (Open segment w size) :: b).
Proof.
  unfold mkv_okb. cbv zeta. set (ps := a ++ _). rewrite !andb_true_iff. intros (((((((H1 & H2) & H3) & H4) & H5) & H6) & H7) & H8). split; [now apply parts_ok_are|]. split; [|split; [now apply before_are|split; [now apply numbered_is|split; [now apply names_are|split]]]].
  - exists a, w, size, b. split; [reflexivity|]. split.
    + apply Forall_forall. intros p Hp. rewrite forallb_forall in H2. specialize (H2 p Hp). destruct p as [[|id w' d|]|]; try discriminate. now exists id, w', d.
    + intros w' n X. rewrite forallb_forall in H3. specialize (H3 _ X). discriminate H3.
  - intros n Hn. apply numbers_are in Hn. rewrite forallb_forall in H7. specialize (H7 n Hn). lia.
  - intros bl Hb. rewrite forallb_forall in H8. specialize (H8 _ Hb). cbn in H8. unfold has_data in H8. destruct (data_of (k_no bl) (all_items ps)); discriminate.
Qed.
Definition movie_okb (ps : list part) : bool :=
  forallb part_okb ps && before_b [tracks; attachments] [cluster] ps && numbered_b false (all_items ps) && names_ok (map fst (files_of (all_items ps))) &&
  forallb (fun i => match i with Blk b => existsb (N.eqb (k_no b)) (listed_b (all_items ps)) | _ => true end) (all_items ps).
Lemma movie_ok_is ps r : movie_okb ps = true -> lenN r < 2 -> movie_ok (file_of ps ++ r) ps.
Proof.
  unfold movie_okb. rewrite !andb_true_iff. intros ((((H1 & H2) & H3) & H4) & H5) L. split; [now exists r|]. split; [now apply parts_ok_are|]. split; [now apply before_are|]. split; [now apply numbered_is|]. split; [now apply names_are|].
  intros b Hb. rewrite forallb_forall in H5. specialize (H5 _ Hb). cbn in H5. apply existsb_exists in H5 as (n & Hn & E). apply N.eqb_eq in E. subst n. now apply listed_is.
Qed.
(** the frames of the movie as they are in the sample; the place [k] among them *)
Fixpoint same_b (inmain insample : bytes) (l l' : list (N * bytes)) : bool :=
  match l, l' with
  | [], [] => true
  | x :: l, y :: l' => (fst x =? fst y) && beqb (inmain ++ snd x) (insample ++ snd y) && same_b inmain insample l l'
  | _, _ => false
  end.
Lemma same_are m s l : forall l', same_b m s l l' = true -> Forall2 (same_frame m s) l l'.
Proof.
  induction l as [|x l IH]; intros [|y l']; try discriminate; [constructor|]. cbn [same_b]. rewrite !andb_true_iff. intros ((A & B) & C). constructor; [|now apply IH]. split; [lia|now apply beqb_eq].
Qed.
Definition comparable_b (n : N) (its ms : list item) (l : list (N * bytes)) : bool :=
  same_b (header_of n ms) (header_of n its) (frames_at n 0 ms) l && forallb (fun x => negb (lenN (snd x) =? 0)) (frames_at n 0 ms).
Lemma comparable_is n its ms l : comparable_b n its ms l = true -> comparable n its ms l.
Proof.
  unfold comparable_b. rewrite andb_true_iff. intros (A & B). split; [now apply same_are|]. apply Forall_forall. intros x Hx. rewrite forallb_forall in B. specialize (B x Hx). intros E. rewrite E in B. discriminate.
Qed.
Fixpoint banned (x t : bytes) (a : list (N * bytes)) : bool :=
  match a with [] => true | y :: a2 => ((lenN (snd y) =? 0) || negb (starts_with Byte.eqb (takeN (lenN t) (snd y ++ joined a2 ++ x)) t)) && banned x t a2 end.
Lemma banned_are x t a : banned x t a = true -> forall a1 y a2, a = a1 ++ y :: a2 -> snd y <> [] -> ~ starts (takeN (lenN t) (snd y ++ joined a2 ++ x)) t.
Proof.
  induction a as [|y0 a IH]; intros H a1 y a2 E Ny S; [destruct a1; discriminate|]. cbn [banned] in H. apply andb_true_iff in H as (H1 & H2). destruct a1 as [|z a1]; cbn [app] in E.
  - assert (E1 : y0 = y) by congruence. assert (E2 : a = a2) by congruence. subst y0 a. apply orb_true_iff in H1 as [H1|H1]; [destruct (snd y); [now destruct Ny|rewrite lenN_cons in H1; lia]|]. apply starts_b in S. rewrite S in H1. discriminate.
  - apply (IH H2 a1 y a2); [congruence|exact Ny|exact S].
Qed.
Definition held_b (d : bytes) (l : list (N * bytes)) (k : nat) (o : N) : bool :=
  match skipn k l with (p, x) :: b => (p =? o) && negb (lenN x =? 0) && starts_at d (x ++ joined b) | [] => false end.
Lemma held_is d l k o : held_b d l k o = true -> held d l o.
Proof.
  unfold held_b. destruct (skipn k l) as [|(p, x) b] eqn:E; [discriminate|]. rewrite !andb_true_iff. intros ((A & B) & C). exists (firstn k l), x, b. split; [rewrite <- (firstn_skipn k l) at 1; rewrite E; do 3 f_equal; lia|]. split; [intros ->; discriminate B|now apply starts_at_is].
Qed.
Definition first_held_b (d : bytes) (l : list (N * bytes)) (k : nat) (o : N) : bool :=
  match skipn k l with (p, x) :: b => (p =? o) && negb (lenN x =? 0) && starts_at d (x ++ joined b) && banned x (takeN 256 d) (firstn k l) | [] => false end.
Lemma first_held_is d l k o : first_held_b d l k o = true -> first_held d l o.
Proof.
  unfold first_held_b. destruct (skipn k l) as [|(p, x) b] eqn:E; [discriminate|]. rewrite !andb_true_iff. intros (((A & B) & C) & D). exists (firstn k l), x, b. split; [rewrite <- (firstn_skipn k l) at 1; rewrite E; do 3 f_equal; lia|]. split; [intros ->; discriminate B|]. split; [now apply starts_at_is|now apply banned_are].
Qed.
Definition file_eqb (a b : option bytes * bytes) : bool := name_eqb (fst a) (fst b) && beqb (snd a) (snd b).
Lemma file_eqb_is a b : file_eqb a b = true -> a = b.
Proof. destruct a as ([a|], x), b as ([b|], y); unfold file_eqb; cbn [fst snd name_eqb]; rewrite ?andb_true_iff, ?beqb_eq; try (intros (X & _); discriminate X); intros (A & B); congruence. Qed.
Definition files_in (its ms : list item) : bool := forallb (fun x => existsb (file_eqb x) (files_of ms)) (files_of its).
Lemma files_in_is its ms : files_in its ms = true -> incl (files_of its) (files_of ms).
Proof. unfold files_in. intros H x Hx. rewrite forallb_forall in H. specialize (H x Hx). apply existsb_exists in H as (y & Hy & E). apply file_eqb_is in E. now subst. Qed.
Section InMovie.
Variables (P : bytes -> list (N * bytes) -> N -> Prop) (p : bytes -> list (N * bytes) -> nat -> N -> bool).
Hypothesis Hp : forall d l k o, p d l k o = true -> P d l o.
Definition in_movie_b (its ms : list item) (at_ : N -> N) (k : N -> nat) (l : N -> list (N * bytes)) : bool :=
  forallb (fun n => negb (has_data its n) || comparable_b n its ms (l n) && p (data_of n its) (l n) (k n) (at_ n)) (numbers its) && files_in its ms.
Lemma in_movie_is its ms at_ k l : in_movie_b its ms at_ k l = true -> in_movie P its ms at_.
Proof.
  unfold in_movie_b. rewrite andb_true_iff. intros (A & B). split; [|now apply files_in_is]. intros n Hn. assert (I : In n (numbers its)).
  { destruct (in_dec N.eq_dec n (numbers its)) as [I|I]; [exact I|]. exfalso. apply Hn, no_data. intros X. apply I. now apply numbers_are. }
  rewrite forallb_forall in A. specialize (A n I). unfold has_data in A. destruct (data_of n its) eqn:D; [now destruct Hn|]. cbn [negb orb] in A. apply andb_true_iff in A as (A1 & A2). exists (l n). split; [now apply comparable_is|now apply Hp with (k := k n)].
Qed.
End InMovie.
Definition alike_b (its ms : list item) : bool := forallb (fun n => beqb (header_of n ms) (header_of n its) || beqb (header_of n ms) []) (numbers its).
Lemma alike_is its ms : alike_b its ms = true -> alike its ms.
Proof.
  intros H n Hn. unfold alike_b in H. rewrite forallb_forall in H. destruct (in_dec N.eq_dec n (numbers its)) as [I|I]; [|exfalso; apply Hn, no_data; intros X; apply I; now apply numbers_are]. specialize (H n I). apply orb_true_iff in H as [H|H]; apply beqb_eq in H; [now left|now right].
Qed.

(** ** A sample *)
Definition leaf (id : bytes) (d : bytes) : item := Leaf id 1 d.
Definition nest (id : bytes) (its : list item) : list item := Open id 1 (lenN (bytes_of its)) :: its.
Definition blk1 (n : N) (x : string) : item := Blk (mkBlk simple_block 1 1 n [x00; x05] x80 [] [bstr x]).
(** Xiph lacing *)
Definition blk2 (n : N) (x y : string) : item := Blk (mkBlk block_id 1 1 n [x00; x05] x02 [x01; n2b (lenN (bstr x))] [bstr x; bstr y]).
Definition ebml_head : part := One (leaf (el [0x1A; 0x45; 0xDF; 0xA3]) (bstr "matroska")).
Definition info : part := One (leaf (el [0x15; 0x49; 0xA9; 0x66]) (bstr "info")).
Definition track1 (strip : list item) : list item := nest track_entry (leaf track_number [x01] :: leaf codec (bstr "V_MPEG4") :: strip).
Definition track2 : list item := nest track_entry [leaf track_number [x02]; leaf codec (bstr "A_AAC")].
Definition strips (d : string) : list item := nest encodings (nest encoding (nest compression [leaf algorithm [x03]; leaf settings (bstr d)])).
Definition attach (l : list (string * string)) : part := Group attachments 1 (concat (map (fun x => nest attached [leaf file_name (bstr (fst x)); leaf file_contents (bstr (snd x))]) l)).
Definition clu (its : list item) : part := Group cluster 1 (leaf (el [0xE7]) [x07] :: its).
Definition e_rest : list part :=
  [info; Group tracks 1 (track1 (strips "hd") ++ track2); attach [("a.ttf", "font")%string]; clu [blk1 1 "abc"; Open block_group 1 10; blk2 2 "X" "YZ"]; clu [blk1 1 "defg"]].
Definition e_ps : list part := [ebml_head] ++ One (Open segment 2 (lenN (file_of e_rest))) :: e_rest.
Lemma e_ok : mkv_ok e_ps.
Proof. apply mkv_ok_is. vm_compute. reflexivity. Qed.
Definition e_ap : text := str "pyReSample 0.7".
Definition e_name : text := str "/tmp/a.mkv".
Definition e_its : list item := all_items e_ps.
Example e_streams : numbers e_its = [1; 2; 1; 2; 1] /\ data_of 1 e_its = bstr "abcdefg" /\ data_of 2 e_its = bstr "XYZ" /\ header_of 1 e_its = bstr "hd" /\ files_of e_its = [(Some (bstr "a.ttf"), bstr "font")].
Proof. vm_compute. auto. Qed.
Lemma e_created : exists srs, mkv_srs e_ap e_name false (fun _ => 0) (file_of e_ps) = Ok srs /\ lenN srs = lenN (file_of e_ps) + 97 - 14.
Proof. eexists. split; [vm_compute; reflexivity|]. vm_compute. reflexivity. Qed.
Lemma e_utf8 : forall w d, In (Leaf file_name w d) e_its -> exists t, utf8_enc t = Some d.
Proof.
  intros w d H. exists (str "a.ttf"). assert (F : forallb (fun i => match i with Leaf id _ d => negb (beqb id file_name) || beqb d (bstr "a.ttf") | _ => true end) e_its = true) by (vm_compute; reflexivity). rewrite forallb_forall in F. specialize (F _ H). apply beqb_eq in F. rewrite F. vm_compute. reflexivity.
Qed.
(** ** The movie: nothing is removed from the frames *)
Definition e_mrest : list part :=
  [Group tracks 1 (track1 [] ++ track2); attach [("b.ttf", "other"); ("a.ttf", "font")]%string; clu [blk1 1 "hdabx"; blk2 2 "W" "Q"]; clu [blk1 1 "hdabc"; blk1 2 "XY"; blk1 1 "hdde"; blk1 2 "Z."]; clu [blk1 1 "hdfgh"; blk1 2 "more"]].
Definition e_mps : list part := [ebml_head] ++ One (Open segment 2 (lenN (file_of e_mrest))) :: e_mrest.
Definition e_ms : list item := all_items e_mps.
Definition e_main : bytes := file_of e_mps ++ [x00].
Lemma e_movie : movie_ok e_main e_mps.
Proof. apply movie_ok_is; vm_compute; reflexivity. Qed.
Definition e_k (n : N) : nat := if n =? 1 then 1%nat else 2%nat.
Definition e_at (n : N) : N := fst (nth (e_k n) (frames_at n 0 e_ms) (0, [])).
Definition e_l (n : N) : list (N * bytes) := if n =? 1 then map (fun x => (fst x, dropN 2 (snd x))) (frames_at n 0 e_ms) else frames_at n 0 e_ms.
Lemma e_in : in_movie first_held e_its e_ms e_at /\ in_movie held e_its e_ms e_at /\ alike e_its e_ms.
Proof.
  split; [apply (in_movie_is _ _ first_held_is) with (k := e_k) (l := e_l); vm_compute; reflexivity|]. split; [apply (in_movie_is _ _ held_is) with (k := e_k) (l := e_l); vm_compute; reflexivity|apply alike_is; vm_compute; reflexivity].
Qed.
Lemma e_tracks : let ts := [(2, mkT (m_td (new_mtrack 2)) 0 0 [] (Some (bstr "XYZ..")) []); (7, new_mtrack 7); (1, mkT (m_td (new_mtrack 1)) 0 0 [] (Some (bstr "abcdefg")) [])] : mtracks in
  let atts := [(bstr "none", None); (bstr "a.ttf", Some (bstr "font"))] in
  NoDup (map fst ts) /\ NoDup (map fst atts) /\ (forall b, In (Blk b) e_its -> exists t d, In (k_no b, t) ts /\ m_file t = Some d /\ starts (data_of (k_no b) e_its) d) /\
  forall nm d, In (Some nm, d) (files_of e_its) -> In (nm, Some d) atts.
Proof.
  cbv zeta. split; [|split; [|split]].
  - apply NoDup_cons; [intros [X|[X|[]]]; discriminate X|]. apply NoDup_cons; [intros [X|[]]; discriminate X|]. apply NoDup_cons; [intros []|constructor].
  - apply NoDup_cons; [intros [X|[]]; discriminate X|]. apply NoDup_cons; [intros []|constructor].
  - intros b Hb. assert (F : forallb (fun i => match i with Blk b => (k_no b =? 1) || (k_no b =? 2) | _ => true end) e_its = true) by (vm_compute; reflexivity). rewrite forallb_forall in F. specialize (F _ Hb). cbv iota beta in F. apply orb_true_iff in F as [F|F]; apply N.eqb_eq in F; rewrite F.
    + eexists. eexists. split; [right; right; left; reflexivity|]. split; [reflexivity|]. apply starts_at_is. vm_compute. reflexivity.
    + eexists. eexists. split; [left; reflexivity|]. split; [reflexivity|]. apply starts_at_is. vm_compute. reflexivity.
  - intros nm d H. destruct e_streams as (_ & _ & _ & _ & E). rewrite E in H. destruct H as [H|[]]. injection H as <- <-. right. now left.
Qed.

(** ** Samples that are not rebuilt *)
Definition sample (b : list part) : list part := [ebml_head] ++ One (Open segment 2 (lenN (file_of b))) :: b.
(** the attachments are behind the clusters *)
Definition w_behind : list part := sample [Group tracks 1 (track1 []); clu [blk1 1 "abc"]; attach [("a", "x")%string]].
Lemma behind_witness : exists ps srs, mkv_ok ps /\ mkv_srs (str "pyReSample 0.7") (str "/tmp/a.mkv") false (fun _ => 0) (file_of ps) = Ok srs /\
  mkv_restore false srs (file_of ps) = Err KeyError.
Proof. exists w_behind. eexists. split; [apply mkv_ok_is; vm_compute; reflexivity|]. split; [vm_compute; reflexivity|]. vm_compute. reflexivity. Qed.
(** the same name twice *)
Definition w_twice : list part := sample [Group tracks 1 (track1 []); attach [("a", "x"); ("a", "y")]%string; clu [blk1 1 "abc"]].
Lemma twice_witness : exists ps srs, Forall part_ok ps /\ before [tracks; attachments] [cluster] ps /\ numbered (all_items ps) /\ ~ In None (map fst (files_of (all_items ps))) /\
  mkv_srs (str "pyReSample 0.7") (str "/tmp/a.mkv") false (fun _ => 0) (file_of ps) = Ok srs /\ mkv_restore false srs (file_of ps) = Err AssertionError.
Proof.
  exists w_twice. eexists. split; [apply parts_ok_are; vm_compute; reflexivity|]. split; [apply before_are; vm_compute; reflexivity|]. split; [apply numbered_is; vm_compute; reflexivity|].
  split; [vm_compute; intros [X|[X|[]]]; discriminate X|]. split; [vm_compute; reflexivity|]. vm_compute. reflexivity.
Qed.
(** a number of 128 or more in one byte *)
Definition blk129 : item := Blk (mkBlk simple_block 1 2 129 [x00; x05] x80 [] [bstr "abc"]).
Definition w_number : list part := sample [Group tracks 1 (nest track_entry [leaf track_number [n2b 129]; leaf codec (bstr "V")]); clu [blk129]].
Lemma number_witness : exists ps srs, before [tracks; attachments] [cluster] ps /\ numbered (all_items ps) /\ files_ok (all_items ps) /\ (forall b, In (Blk b) (all_items ps) -> blk_ok b /\ listed (k_no b) (all_items ps)) /\
  mkv_srs (str "pyReSample 0.7") (str "/tmp/a.mkv") false (fun _ => 0) (file_of ps) = Ok srs /\ mkv_restore false srs (file_of ps) = Err KeyError.
Proof.
  exists w_number. eexists. split; [apply before_are; vm_compute; reflexivity|]. split; [apply numbered_is; vm_compute; reflexivity|]. split; [apply names_are; vm_compute; reflexivity|]. split.
  - intros b Hb. assert (F : forallb (fun i => match i with Blk b => blk_okb b && existsb (N.eqb (k_no b)) (listed_b (all_items w_number)) | _ => true end) (all_items w_number) = true) by (vm_compute; reflexivity). rewrite forallb_forall in F. specialize (F _ Hb). cbv iota beta in F. apply andb_true_iff in F as (F1 & F2). split; [now apply blk_ok_is|]. apply existsb_exists in F2 as (n & Hn & E). apply N.eqb_eq in E. subst n. now apply listed_is.
  - split; [vm_compute; reflexivity|]. vm_compute. reflexivity.
Qed.
(** what begins like the sample hides the sample *)
Definition w_hidden : list part := sample [Group tracks 1 (track1 []); clu [blk1 1 "x"; blk1 1 "xy"]].
Definition w_hides : list part := sample [Group tracks 1 (track1 []); clu [blk1 1 "x"; blk1 1 "x"; blk1 1 "xy"]].
Lemma hidden_witness : exists ps srs ms at_, mkv_ok ps /\ mkv_srs (str "pyReSample 0.7") (str "/tmp/a.mkv") false (fun _ => 0) (file_of ps) = Ok srs /\
  movie_ok (file_of ms) ms /\ in_movie held (all_items ps) (all_items ms) at_ /\ alike (all_items ps) (all_items ms) /\ mkv_restore false srs (file_of ms) = Ok (Abort 3).
Proof.
  exists w_hidden. eexists. exists w_hides, (fun n => fst (nth 1 (frames_at n 0 (all_items w_hides)) (0, []))). split; [apply mkv_ok_is; vm_compute; reflexivity|]. split; [vm_compute; reflexivity|].
  split; [rewrite <- (app_nil_r (file_of w_hides)); apply movie_ok_is; vm_compute; reflexivity|]. split; [apply (in_movie_is _ _ held_is) with (k := fun _ => 1%nat) (l := fun n => frames_at n 0 (all_items w_hides)); vm_compute; reflexivity|].
  split; [apply alike_is; vm_compute; reflexivity|]. vm_compute. reflexivity.
Qed.
(** something is removed from the frames of the movie, less from the ones of the sample *)
Definition w_strips : list part := sample [Group tracks 1 (track1 (strips "hd")); clu [blk1 1 "abc"; blk1 1 "de"]].
Definition w_strips2 : list part := sample [Group tracks 1 (track1 (strips "h")); clu [blk1 1 "dabc"; blk1 1 "dde"]].
Lemma strips_witness : exists ps srs ms at_, mkv_ok ps /\ mkv_srs (str "pyReSample 0.7") (str "/tmp/a.mkv") false (fun _ => 0) (file_of ps) = Ok srs /\
  movie_ok (file_of ms) ms /\ in_movie first_held (all_items ps) (all_items ms) at_ /\ mkv_restore false srs (file_of ms) = Ok (Abort 3).
Proof.
  exists w_strips2. eexists. exists w_strips, (fun n => fst (nth 0 (frames_at n 0 (all_items w_strips)) (0, []))). split; [apply mkv_ok_is; vm_compute; reflexivity|]. split; [vm_compute; reflexivity|].
  split; [rewrite <- (app_nil_r (file_of w_strips)); apply movie_ok_is; vm_compute; reflexivity|]. split; [apply (in_movie_is _ _ first_held_is) with (k := fun _ => 0%nat) (l := fun n => map (fun x => (fst x, bstr "d" ++ snd x)) (frames_at n 0 (all_items w_strips))); vm_compute; reflexivity|]. vm_compute. reflexivity.
Qed.
(** without a segment *)
Definition w_none : list part := [ebml_head; Group tracks 1 (track1 []); clu [blk1 1 "abc"]].
Lemma none_witness : exists ps srs, Forall part_ok ps /\ movie_ok (file_of ps) ps /\ mkv_srs (str "pyReSample 0.7") (str "/tmp/a.mkv") false (fun _ => 0) (file_of ps) = Ok srs /\
  mkv_restore false srs (file_of ps) = Err AttributeError.
Proof.
  exists w_none. eexists. split; [apply parts_ok_are; vm_compute; reflexivity|]. split; [rewrite <- (app_nil_r (file_of w_none)); apply movie_ok_is; vm_compute; reflexivity|]. split; [vm_compute; reflexivity|]. vm_compute. reflexivity.
Qed.
Lemma e_stored : (forall n, has_track n e_its -> e_at n <> 0 /\ lenN (data_of n e_its) <= 1000000) /\ exists srs, mkv_srs e_ap e_name false e_at (file_of e_ps) = Ok srs.
Proof.
  split; [|eexists; vm_compute; reflexivity]. intros n Hn. apply numbers_are in Hn. assert (F : forallb (fun n => negb (e_at n =? 0) && (lenN (data_of n e_its) <=? 1000000)) (numbers e_its) = true) by (vm_compute; reflexivity). rewrite forallb_forall in F. specialize (F n Hn). lia.
Qed.
