(** RetryFacts: a file after init_data is as good as a new one. *)
From Verif Require Import Base BaseFacts SrrFacts Mkv Nntp NntpFacts Retry RetrySpec.
Local Open Scope Z_scope.

Definition idb (g : segment) : N * N := (s_id g, s_bytes g).
Definition none_shift (o : option (Z * Z)) : Prop := match o with None => True | Some (m, _) => m = 0 end.

Section Same.
Variables (base : N -> option (N * N)) (count : N) (seek : Prop).
Hypothesis Hbase : forall i p, base i = Some p -> fst p = i.
(** the same but for sizes of segments that are not there, shifts by nothing and perhaps the memory of a seek *)
Definition seg_same (has : Prop) (g h : segment) : Prop :=
  idb g = idb h /\ (has -> s_size g = s_size h) /\ (s_shift g = s_shift h \/ none_shift (s_shift g) /\ none_shift (s_shift h)).
Definition same (s t : nfile) : Prop :=
  (forall i, option_map idb (n_segs s i) = base i /\ option_map idb (n_segs t i) = base i) /\
  (forall i g h, n_segs s i = Some g -> n_segs t i = Some h -> seg_same (n_data s i <> None) g h) /\
  (forall i, n_data s i = n_data t i) /\ n_count s = count /\ n_count t = count /\
  n_size s = n_size t /\ n_pos s = n_pos t /\ n_first s = n_first t /\ n_inactive s = n_inactive t /\ n_end s = n_end t /\ (seek -> n_seek s = n_seek t).
Definition rel {A} (H : N -> Prop) (a b : M A) (Q : A -> A -> Prop) : Prop :=
  forall s t, same s t -> (forall i, H i -> n_data s i <> None) ->
    same (fst (a s)) (fst (b t)) /\ (forall i, n_data s i <> None -> n_data (fst (a s)) i <> None) /\
    match snd (a s), snd (b t) with Ok x, Ok y => Q x y | Err e, Err e' => e = e' | _, _ => False end.
Definition add (i : N) (H : N -> Prop) : N -> Prop := fun j => j = i \/ H j.

Lemma rel_bind {A B} H (a b : M A) (f g : A -> M B) Q Q' : rel H a b Q -> (forall x y, Q x y -> rel H (f x) (g y) Q') -> rel H (mbind a f) (mbind b g) Q'.
Proof.
  intros Ha Hf s t S Hs. specialize (Ha s t S Hs). unfold mbind. destruct (a s) as (s', ra), (b t) as (t', rb). cbn [fst snd] in Ha. destruct Ha as (S' & K & E). destruct ra as [x|e], rb as [y|e']; try contradiction.
  - destruct (Hf x y E s' t' S') as (S2 & K2 & E2); [auto|]. auto.
  - cbn. auto.
Qed.
Lemma rel_ret {A} H (x y : A) (Q : A -> A -> Prop) : Q x y -> rel H (ret x) (ret y) Q.
Proof. intros E s t S Hs. cbn. auto. Qed.
Lemma rel_raise {A} H e (Q : A -> A -> Prop) : rel H (raise e) (raise e) Q.
Proof. intros s t S Hs. cbn. auto. Qed.
Lemma rel_from {A} H (r : result A) : rel H (from_result r) (from_result r) eq.
Proof. intros s t S Hs. cbn. split; [exact S|]. split; [auto|]. now destruct r. Qed.
Lemma rel_state {B} (H : N -> Prop) (f g : nfile -> M B) Q : (forall s t, same s t -> (forall i, H i -> n_data s i <> None) -> rel H (f s) (g t) Q) -> rel H (mbind state f) (mbind state g) Q.
Proof. intros E s t S Hs. rewrite !state_ok. now apply E. Qed.
Lemma rel_change H (h : nfile -> nfile) : (forall s t, same s t -> same (h s) (h t)) -> (forall s i, n_data s i <> None -> n_data (h s) i <> None) -> rel H (change h) (change h) eq.
Proof. intros E K s t S Hs. cbn. auto. Qed.
Lemma rel_more {A} (H H' : N -> Prop) (a b : M A) Q : (forall i, H' i -> H i) -> rel H' a b Q -> rel H a b Q.
Proof. intros E Ha s t S Hs. apply Ha; auto. Qed.
Lemma rel_data {B} H i (f g : bytes -> M B) Q : (forall d, rel (add i H) (f d) (g d) Q) -> rel H (mbind (data_at i) f) (mbind (data_at i) g) Q.
Proof.
  intros E s t S Hs. pose proof S as (_ & _ & D & _). specialize (D i). destruct (n_data s i) as [d|] eqn:Es.
  - rewrite (data_ok f s i d Es), (data_ok g t i d (eq_sym D)). apply E; [exact S|]. intros j [-> | Hj]; [now rewrite Es|auto].
  - unfold mbind, data_at, state, mbind. rewrite Es, <- D. cbn. auto.
Qed.
Lemma rel_seg {B} H i (f g : segment -> M B) Q :
  (forall x y, base i = Some (idb x) -> s_id x = i -> s_id y = i -> s_bytes x = s_bytes y -> seg_same (H i) x y -> rel H (f x) (g y) Q) -> rel H (mbind (seg_at i) f) (mbind (seg_at i) g) Q.
Proof.
  intros E s t S Hs. pose proof S as (B0 & G & _). destruct (B0 i) as [Bs Bt]. destruct (n_segs s i) as [x|] eqn:Es, (n_segs t i) as [y|] eqn:Et; cbn in Bs, Bt; try congruence.
  - rewrite (segat_ok f s i x Es), (segat_ok g t i y Et). pose proof (Hbase i _ (eq_sym Bs)) as Ix. pose proof (Hbase i _ (eq_sym Bt)) as Iy. cbn in Ix, Iy. apply E; auto.
    + assert (idb x = idb y) as X by congruence. now inversion X.
    + destruct (G i x y Es Et) as (X & Z & W). split; [exact X|]. split; [|exact W]. intros Hi. apply Z. auto.
  - unfold mbind, seg_at, state, mbind. rewrite Es, Et. cbn. auto.
Qed.

(** ** Changes *)
Ltac whole S := destruct S as (S1 & S2 & S3 & S4 & S5 & S6 & S7 & S8 & S9 & S10 & S11).
Lemma same_pos s t p : same s t -> same (set_pos s p) (set_pos t p).
Proof. intros S. whole S. repeat (split; [assumption|]). split; [reflexivity|]. repeat (split; [assumption|]). assumption. Qed.
Lemma same_first s t p : same s t -> same (set_first s p) (set_first t p).
Proof. intros S. whole S. repeat (split; [assumption|]). split; [reflexivity|]. repeat (split; [assumption|]). assumption. Qed.
Lemma same_active s t : same s t -> same (set_active s) (set_active t).
Proof. intros S. whole S. repeat (split; [assumption|]). split; [reflexivity|]. repeat (split; [assumption|]). assumption. Qed.
Lemma same_size s t p : same s t -> same (set_size s p) (set_size t p).
Proof. intros S. whole S. repeat (split; [assumption|]). split; [reflexivity|]. repeat (split; [assumption|]). split; [reflexivity|]. now split. Qed.
Lemma same_end s t : same s t -> same (set_end s) (set_end t).
Proof. intros S. whole S. repeat (split; [assumption|]). split; [reflexivity|]. assumption. Qed.
Lemma same_seek s t b : same s t -> same (set_seek s b) (set_seek t b).
Proof. intros S. whole S. repeat (split; [assumption|]). now intros. Qed.
(** a segment that is stored *)
Lemma same_store s t i x y sz d : same s t -> n_segs s i = Some x -> n_segs t i = Some y ->
  same (set_data (set_seg s i (mkSeg (s_id x) (s_bytes x) sz (s_shift x))) i d) (set_data (set_seg t i (mkSeg (s_id y) (s_bytes y) sz (s_shift y))) i d).
Proof.
  intros S Ex Ey. whole S. split; [|split; [|split]].
  - intros j. cbn. unfold upd. destruct (S1 j) as [A B]. destruct (N.eqb_spec j i) as [-> | Hj]; [|now split]. rewrite Ex in A. rewrite Ey in B. cbn in A, B. now split.
  - intros j g h. cbn. unfold upd. destruct (N.eqb_spec j i) as [-> | Hj]; [|now apply S2]. intros Hg Hh. apply some_inj in Hg, Hh. subst g h. destruct (S2 i x y Ex Ey) as (A & B & C). split; [exact A|]. split; [reflexivity|exact C].
  - intros j. cbn. unfold upd. destruct (N.eqb j i); [reflexivity|apply S3].
  - cbn. repeat (split; [assumption|]). assumption.
Qed.
Lemma same_shift s t i x y p : same s t -> base i = Some (idb x) -> idb x = idb y -> ((n_data s i <> None) -> s_size x = s_size y) ->
  same (set_seg s i (mkSeg (s_id x) (s_bytes x) (s_size x) (Some p))) (set_seg t i (mkSeg (s_id y) (s_bytes y) (s_size y) (Some p))).
Proof.
  intros S Bx E Hsz. whole S. split; [|split].
  - intros j. cbn. unfold upd. destruct (N.eqb_spec j i) as [-> | Hj]; [|apply S1]. cbn. rewrite Bx. split; [reflexivity|]. now rewrite E.
  - intros j g h. cbn. unfold upd. destruct (N.eqb_spec j i) as [-> | Hj]; [|now apply S2]. intros Hg Hh. apply some_inj in Hg, Hh. subst g h. split; [exact E|]. split; [exact Hsz|]. now left.
  - cbn. repeat (split; [assumption|]). assumption.
Qed.

Section Server.
Variables (name : text) (rar new_server : bool) (v : server) (less : N -> Z).
Hypothesis Hv : right v.
Let article := fst v.
Let head_lines := snd v.
Notation grab := (grab name article).
Lemma grab_same i l s t : base i <> None -> same s t ->
  same (fst (grab i l s)) (fst (grab i l t)) /\ (forall j, n_data s j <> None -> n_data (fst (grab i l s)) j <> None) /\ snd (grab i l s) = snd (grab i l t) /\
  (snd (grab i l s) = Ok tt -> n_data (fst (grab i l s)) i <> None).
Proof.
  intros Hi S. unfold Nntp.grab. destruct (article i l) as [d|e] eqn:Ea; [|cbn; split; [exact S|]; split; [auto|]; split; [reflexivity|discriminate]].
  rewrite !state_ok. pose proof (Hv i l d Ea) as Hn.
  set (s1 := if n_inactive s then set_size s (Z.of_N (d_file d)) else s). set (t1 := if n_inactive t then set_size t (Z.of_N (d_file d)) else t).
  assert (same s1 t1) as S'. { unfold s1, t1. replace (n_inactive t) with (n_inactive s) by apply S. destruct (n_inactive s); [now apply same_size|exact S]. }
  assert (forall B (g : unit -> M B) u, mbind (if n_inactive u then change (fun s => set_size s (Z.of_N (d_file d))) else ret tt) g u = g tt (if n_inactive u then set_size u (Z.of_N (d_file d)) else u)) as E by (intros; destruct (n_inactive u); reflexivity).
  rewrite !E. fold s1 t1. assert (n_data s1 = n_data s /\ n_segs s1 = n_segs s /\ n_segs t1 = n_segs t) as (D1 & G1 & G2) by (unfold s1, t1; destruct (n_inactive s), (n_inactive t); auto).
  pose proof S' as (B0 & _). destruct (B0 i) as [Bs Bt]. destruct (n_segs s1 i) as [x|] eqn:Ex; [|cbn in Bs; congruence]. destruct (n_segs t1 i) as [y|] eqn:Ey; [|cbn in Bt; congruence].
  rewrite Hn. replace (n_segs s i) with (Some x) by congruence. replace (n_segs t i) with (Some y) by congruence. rewrite !ret_ok, (segat_ok _ s1 i x Ex), (segat_ok _ t1 i y Ey), !change_ok. cbn [change fst snd].
  split; [now apply same_store|]. rewrite <- D1. cbn. unfold upd. split; [|split; [reflexivity|]].
  - intros j Hj. destruct (N.eqb j i); [discriminate|exact Hj].
  - intros _. now rewrite N.eqb_refl.
Qed.
Lemma rel_grab {B} H i l (f g : M B) Q : base i <> None -> rel (add i H) f g Q -> rel H (mbind (grab i l) (fun _ => f)) (mbind (grab i l) (fun _ => g)) Q.
Proof.
  intros Hi E s t S Hs. destruct (grab_same i l s t Hi S) as (S' & K & R & W). unfold mbind. destruct (grab i l s) as (s', rs), (grab i l t) as (t', rt). cbn [fst snd] in S', K, R, W. subst rt. destruct rs as [[]|e]; [|cbn; auto].
  destruct (E s' t' S') as (S2 & K2 & E2); [intros j [-> | Hj]; auto|]. auto.
Qed.
Lemma rel_grab_last H i l : base i <> None -> rel H (grab i l) (grab i l) eq.
Proof.
  intros Hi s t S Hs. destruct (grab_same i l s t Hi S) as (S' & K & R & W). split; [exact S'|]. split; [exact K|]. rewrite <- R. now destruct (snd (grab i l s)).
Qed.
Notation read_first := (read_first name article).
Notation basic_header := (basic_header name article).
Notation header_type := (header_type name article).
Notation header_flags := (header_flags name article).
Notation rar_header := (rar_header name article).
Notation magic_loop := (magic_loop name article).
Notation do_magic := (do_magic name new_server article).
Lemma base_some i (x : segment) : base i = Some (idb x) -> base i <> None.
Proof. congruence. Qed.
Lemma rel_read_first H l : rel H (read_first l) (read_first l) eq.
Proof.
  unfold Nntp.read_first. apply rel_seg. intros x y Bx -> -> _ _. apply base_some in Bx. apply rel_grab; [exact Bx|]. apply rel_seg. intros x' y' _ -> -> _ (_ & Z & _). rewrite Z by now left.
  apply rel_bind with (Q := eq). { destruct (s_size y' =? 0)%N; [now apply rel_grab_last|now apply rel_ret]. }
  intros [] _ _. apply rel_seg. intros a b _ _ _ _ (_ & W & _). rewrite W by now left. apply rel_change; [|auto]. intros s t S. now apply same_active, same_first.
Qed.
Lemma rel_first_grab H : rel H (first_grab name rar article) (first_grab name rar article) eq.
Proof. apply rel_read_first. Qed.
Lemma rel_file_size H : rel H (n_file_size name article) (n_file_size name article) eq.
Proof.
  unfold n_file_size. apply rel_state. intros s t S _. apply rel_bind with (Q := eq). { replace (n_inactive t) with (n_inactive s) by apply S. destruct (n_inactive s); [apply rel_read_first|now apply rel_ret]. }
  intros [] _ _. apply rel_state. intros s' t' S' _. apply rel_ret. apply S'.
Qed.
Lemma rel_when {A} H (b b' : bool) (f g : M A) : b = b' -> rel H f f eq -> rel H g g eq -> rel H (if b then f else g) (if b' then f else g) eq.
Proof. intros <- Hf Hg. now destruct b. Qed.
(** a segment of the NZB *)
Lemma rel_segs {B} H s t i (f g : segment -> M B) (a b : M B) Q : same s t ->
  (forall x y, base i = Some (idb x) -> s_id x = i -> s_id y = i -> s_bytes x = s_bytes y -> (s_shift x = s_shift y \/ none_shift (s_shift x) /\ none_shift (s_shift y)) -> rel H (f x) (g y) Q) -> rel H a b Q ->
  rel H (match n_segs s i with Some x => f x | None => a end) (match n_segs t i with Some y => g y | None => b end) Q.
Proof.
  intros S E Hab. pose proof S as (B0 & G & _). destruct (B0 i) as [Bs Bt]. destruct (n_segs s i) as [x|] eqn:Es, (n_segs t i) as [y|] eqn:Et; cbn in Bs, Bt; try congruence; [|exact Hab].
  pose proof (Hbase i _ (eq_sym Bs)) as Ix. pose proof (Hbase i _ (eq_sym Bt)) as Iy. destruct (G i x y Es Et) as (_ & _ & W). apply E; auto. assert (idb x = idb y) as X by congruence. now inversion X.
Qed.
Lemma rel_basic_header H k o : rel H (basic_header k o) (basic_header k o) eq.
Proof.
  unfold Nntp.basic_header. apply rel_data. intros d. destruct (lenN (slice o (o + 7) d) =? 7)%N; [now apply rel_ret|]. apply rel_state. intros s t S _. replace (n_data t (k + 1)%N) with (n_data s (k + 1)%N) by apply S. destruct (n_data s (k + 1)%N); [now apply rel_ret|].
  apply rel_segs; [exact S| |now apply rel_ret]. intros x y Bx -> -> _ _. apply base_some in Bx. apply rel_grab; [exact Bx|]. apply rel_state. intros s' t' S' _. replace (n_data t' (k + 1)%N) with (n_data s' (k + 1)%N) by apply S'. destruct (n_data s' (k + 1)%N); [now apply rel_ret|apply rel_raise].
Qed.
Lemma rel_header_type H k o : rel H (header_type k o) (header_type k o) eq.
Proof. unfold Nntp.header_type. apply rel_bind with (Q := eq); [apply rel_basic_header|]. intros x _ <-. now apply rel_ret. Qed.
Lemma rel_header_flags H k o : rel H (header_flags k o) (header_flags k o) eq.
Proof. unfold Nntp.header_flags. apply rel_bind with (Q := eq); [apply rel_basic_header|]. intros x _ <-. now apply rel_ret. Qed.
Lemma rel_rar_header H k o : rel H (rar_header k o) (rar_header k o) eq.
Proof. unfold Nntp.rar_header. apply rel_bind with (Q := eq); [apply rel_header_type|]. intros x _ <-. now apply rel_ret. Qed.
(** a segment that gets a shift; it is there *)
Lemma rel_shift {B} (H : N -> Prop) i (x y : segment) p (f g : unit -> M B) Q : base i = Some (idb x) -> idb x = idb y -> s_size x = s_size y -> rel H (f tt) (g tt) Q ->
  rel H (mbind (change (fun s => set_seg s i (mkSeg (s_id x) (s_bytes x) (s_size x) (Some p)))) f) (mbind (change (fun s => set_seg s i (mkSeg (s_id y) (s_bytes y) (s_size y) (Some p)))) g) Q.
Proof.
  intros Bx E Z Hf s t S Hs. rewrite !change_ok. apply (Hf (set_seg s i _) (set_seg t i _)); [|exact Hs]. now apply same_shift.
Qed.
Lemma rel_magic_loop (H : N -> Prop) k n o l : H n -> rel H (magic_loop k n o l) (magic_loop k n o l) eq.
Proof.
  intros Hn. induction l as [|h l IH]; cbn [Nntp.magic_loop]; [now apply rel_ret|]. apply rel_bind with (Q := eq); [apply rel_rar_header|]. intros b _ <-. destruct b; [|exact IH]. destruct (h =? 0); [now apply rel_ret|].
  apply rel_seg. intros x y Bx Ix Iy Eb (E & Z & W).
  assert (match s_shift x with Some (m, _) => m + h | None => h end = match s_shift y with Some (m, _) => m + h | None => h end) as ->.
  { destruct W as [-> | [W1 W2]]; [reflexivity|]. destruct (s_shift x) as [[m ?]|], (s_shift y) as [[m' ?]|]; cbn in W1, W2; subst; lia. }
  apply rel_shift; auto. now apply rel_ret.
Qed.
Lemma rel_do_magic (H : N -> Prop) k n o a : H n -> rel H (do_magic k n o a) (do_magic k n o a) eq.
Proof. apply rel_magic_loop. Qed.
Notation need := (need name rar new_server article head_lines less).
Notation needs := (needs name rar new_server article head_lines less).
Lemma rel_need H k e eo te o i : rel H (need k e eo te o i) (need k e eo te o i) eq.
Proof.
  unfold Nntp.need. apply rel_state. intros s t S _. apply rel_bind with (Q := eq).
  - replace (n_data t i) with (n_data s i) by apply S. destruct (n_data s i); [now apply rel_ret|]. apply rel_segs; [exact S| |apply rel_raise]. intros x y Bx -> -> -> _. replace (n_count t) with (n_count s) by (whole S; congruence). apply base_some in Bx. apply rel_grab; [exact Bx|]. destruct ((i =? k)%N && rar); [|now apply rel_ret]. apply rel_do_magic. now left.
  - intros z _ <-. apply rel_data. intros d. apply rel_bind with (Q := eq).
    + destruct d; [|now apply rel_ret]. apply rel_seg. intros x y Bx -> -> _ _. apply base_some in Bx. now apply rel_grab_last.
    + intros [] _ _. apply rel_data. intros d'. destruct d'; [apply rel_raise|now apply rel_ret].
Qed.
Lemma rel_needs H k e eo te l : forall o, rel H (needs k e eo te o l) (needs k e eo te o l) eq.
Proof.
  induction l as [|i l IH]; intros o; cbn [Nntp.needs]; [now apply rel_ret|]. apply rel_bind with (Q := eq); [apply rel_need|]. intros x _ <-. apply IH.
Qed.
Lemma rel_end_magic H k o : rel H (end_magic name rar new_server article k o) (end_magic name rar new_server article k o) eq.
Proof.
  unfold Nntp.end_magic. apply rel_state. intros s t S _. replace (n_size t) with (n_size s) by apply S. replace (n_pos t) with (n_pos s) by apply S. replace (n_end t) with (n_end s) by apply S.
  set (left := n_size s - n_pos s). destruct (rar && existsb (Z.eqb left) [20; 18; 7; 9; 11; 13; 14; 16; 26] && negb (n_end s)); [|now apply rel_ret].
  apply rel_bind with (Q := eq). { apply rel_change; [apply same_end|auto]. } intros [] _ _. apply rel_data. intros d. apply rel_bind with (Q := eq); [apply rel_header_flags|]. intros fl _ <-. destruct (N.ldiff fl 0xC00F =? 0)%N; [|now apply rel_ret].
  set (number := 7 + _ + _ + _). apply rel_bind with (Q := eq).
  - destruct (number =? left); [|now apply rel_ret]. apply rel_seg. intros x y Bx Ix Iy Eb (E & Z & W). rewrite Z by now left. apply rel_data. intros d'. apply rel_do_magic. right. now left.
  - intros z _ <-. destruct ((number + 6 =? left) && (left =? 26)); [|now apply rel_ret]. apply rel_do_magic. now left.
Qed.
Lemma rel_more_first H k o sz : rel H (more_first name rar new_server article k o sz) (more_first name rar new_server article k o sz) eq.
Proof.
  unfold Nntp.more_first. destruct (N.eqb_spec k 1) as [-> | Hk]; [|now apply rel_ret]. apply rel_data. intros d. destruct (Z.of_N (lenN d) <? o + sz); [|now apply rel_ret]. apply rel_seg. intros x y Bx -> -> _ _. apply base_some in Bx. apply rel_grab; [exact Bx|].
  apply rel_seg. intros x' y' _ _ _ _ (_ & Z & _). rewrite Z by now left. apply rel_data. intros d'. destruct (rar && negb (s_size y' =? lenN d')%N); [|now apply rel_ret]. apply rel_do_magic. now left.
Qed.
Lemma rel_more_last H e od eo : rel H (more_last name article e od eo) (more_last name article e od eo) eq.
Proof.
  unfold Nntp.more_last. apply rel_data. intros d. destruct (Z.of_N (lenN d) + od <? eo); [|now apply rel_ret]. apply rel_seg. intros x y Bx -> -> _ _. apply base_some in Bx. now apply rel_grab_last.
Qed.
Lemma same_data s t i d : same s t -> n_data s i <> None -> same (set_data s i d) (set_data t i d).
Proof.
  intros S Hd. whole S. split; [exact S1|]. split; [|split].
  - intros j g h. cbn. unfold upd. intros Eg Eh. destruct (S2 j g h Eg Eh) as (A & B & C). split; [exact A|]. split; [|exact C]. destruct (N.eqb_spec j i) as [-> | Hj]; auto.
  - intros j. cbn. unfold upd. destruct (N.eqb j i); [reflexivity|apply S3].
  - cbn. repeat (split; [assumption|]). assumption.
Qed.
Lemma rel_marker_magic H : rel H (marker_magic rar) (marker_magic rar) eq.
Proof.
  unfold Nntp.marker_magic. apply rel_state. intros s t S _. replace (n_pos t) with (n_pos s) by apply S. destruct (rar && (n_pos s =? 0)); [|now apply rel_ret]. apply rel_data. intros d. destruct (filter _ _) as [|n l]; [now apply rel_ret|].
  intros s' t' S' Hs. cbn. split; [apply same_data; [exact S'|]; apply Hs; now left|]. split; [|reflexivity]. intros j Hj. unfold upd. destruct (N.eqb j 1); [discriminate|exact Hj].
Qed.
Hypothesis Hseek : rar = false \/ seek.
Lemma rel_first_data {A} H k (a : M A) : (forall s, n_data s k = None -> a s = (s, Err KeyError)) -> rel (add k H) a a eq -> rel H a a eq.
Proof.
  intros E Ha s t S Hs. destruct (n_data s k) as [d|] eqn:Ed.
  - apply Ha; [exact S|]. intros j [-> | Hj]; [now rewrite Ed|auto].
  - rewrite (E s Ed). rewrite (E t); [cbn; auto|]. rewrite <- Ed. symmetry. apply S.
Qed.
Lemma rel_header_magic H k o sz : rel H (header_magic name rar new_server article k o sz) (header_magic name rar new_server article k o sz) eq.
Proof.
  unfold Nntp.header_magic. apply rel_state. intros s t S _. replace (rar && (sz =? 7) && n_seek t) with (rar && (sz =? 7) && n_seek s). 2: { destruct Hseek as [-> | K]; [reflexivity|]. whole S. now rewrite (S11 K). }
  destruct (rar && (sz =? 7) && n_seek s); [|now apply rel_ret]. apply rel_bind with (Q := eq).
  { apply rel_first_data with (k := k); [|apply rel_do_magic; now left]. intros u Hu. unfold Nntp.do_magic. unfold test_range. cbn [Nntp.magic_loop]. unfold Nntp.rar_header, Nntp.header_type, Nntp.basic_header, data_at, state, mbind. rewrite Hu. reflexivity. }
  intros a _ <-. apply rel_bind with (Q := eq); [apply rel_header_flags|]. intros fl _ <-. apply rel_bind with (Q := eq); [apply rel_header_type|]. intros ty _ <-. destruct (flag_mask ty); now apply rel_ret.
Qed.
Lemma rel_move H (f g : nfile -> Z) : (forall s t, same s t -> f s = g t) -> rel H (change (fun s => set_pos s (f s))) (change (fun s => set_pos s (g s))) eq.
Proof. intros E s t S Hs. cbn. split; [|auto]. rewrite (E s t S). now apply same_pos. Qed.
Lemma rel_following fuel : forall H next sz data, rel H (following fuel next sz data) (following fuel next sz data) eq.
Proof.
  induction fuel as [|fuel IH]; intros H next sz data; cbn [following]; [apply rel_raise|]. destruct (sz <=? 0); [now apply rel_ret|].
  intros s t S Hs. pose proof S as (B0 & G & D & _). destruct (B0 next) as [Bs Bt]. destruct (n_segs s next) as [x|] eqn:Es, (n_segs t next) as [y|] eqn:Et; cbn in Bs, Bt; try congruence.
  - rewrite (segat_ok _ s next x Es), (segat_ok _ t next y Et). revert s t S Hs B0 G D Bs Bt Es Et. intros s t S Hs B0 G D Bs Bt Es Et. destruct (G next x y Es Et) as (_ & Z & _). specialize (D next). destruct (n_data s next) as [d|] eqn:Ed.
    + rewrite (data_ok _ s next d Ed), (data_ok _ t next d (eq_sym D)), Z by discriminate. clear Z. revert s t S Hs B0 G D Bs Bt Es Et Ed. intros s t S Hs _ _ _ _ _ _ _ _. revert s t S Hs.
      change (rel H (if sz <? Z.of_N (s_size y) then mbind (change (fun s => set_pos s (n_pos s + sz))) (fun _ => following fuel (next + 1) 0 (data ++ slice 0 sz d)) else mbind (change (fun s => set_pos s (n_pos s + Z.of_N (s_size y)))) (fun _ => following fuel (next + 1) (sz - Z.of_N (s_size y)) (data ++ d)))
        (if sz <? Z.of_N (s_size y) then mbind (change (fun s => set_pos s (n_pos s + sz))) (fun _ => following fuel (next + 1) 0 (data ++ slice 0 sz d)) else mbind (change (fun s => set_pos s (n_pos s + Z.of_N (s_size y)))) (fun _ => following fuel (next + 1) (sz - Z.of_N (s_size y)) (data ++ d))) eq).
      destruct (sz <? Z.of_N (s_size y)); (apply rel_bind with (Q := eq); [apply rel_move; intros s t S; f_equal; apply S|intros; apply IH]).
    + unfold mbind, data_at, state, mbind. rewrite Ed, <- D. cbn. auto.
  - unfold mbind, seg_at, state, mbind. rewrite Es, Et. cbn. auto.
Qed.
Lemma which_same s t o : same s t -> which_segment s o = which_segment t o.
Proof. intros S. whole S. unfold which_segment. now rewrite S6, S8. Qed.
Lemma rel_read H sz : rel H (n_read name rar new_server article head_lines less sz) (n_read name rar new_server article head_lines less sz) eq.
Proof.
  unfold n_read. apply rel_state. intros s0 t0 S0 _. apply rel_bind with (Q := eq).
  { replace (n_inactive t0) with (n_inactive s0) by apply S0. destruct (n_inactive s0); [|now apply rel_ret]. destruct (sz =? -1); [apply rel_read_first|apply rel_first_grab]. }
  intros [] _ _. apply rel_state. intros s t S _. pose proof S as S'. whole S'. rewrite <- S6, <- S7.
  destruct (n_pos s =? n_size s); [now apply rel_ret|]. destruct (n_size s =? 0); [apply rel_raise|]. destruct (sz <? -1); [apply rel_raise|]. destruct (n_size s <? n_pos s); [apply rel_raise|].
  rewrite <- (which_same s t (n_pos s) S). apply rel_bind with (Q := eq); [apply rel_from|]. intros (k, orig) _ <-.
  assert (match n_segs s k with Some g => match s_shift g with Some (m, o) => if n_pos s <? o then 0 else m | None => 0 end | None => 0 end =
          match n_segs t k with Some g => match s_shift g with Some (m, o) => if n_pos s <? o then 0 else m | None => 0 end | None => 0 end) as E.
  { destruct (S1 k) as [Bs Bt]. destruct (n_segs s k) as [x|] eqn:Es, (n_segs t k) as [y|] eqn:Et; cbn in Bs, Bt; try congruence. destruct (S2 k x y Es Et) as (_ & _ & [-> | [W1 W2]]); [reflexivity|].
    destruct (s_shift x) as [[m u]|], (s_shift y) as [[m' u']|]; cbn in W1, W2; subst; repeat match goal with |- context [if ?b then _ else _] => destruct b end; reflexivity. }
  rewrite <- E. clear E. rewrite <- (which_same s t _ S). apply rel_bind with (Q := eq); [apply rel_from|]. intros (e, eo) _ <-.
  apply rel_bind with (Q := eq); [apply rel_needs|]. intros o1 _ <-. apply rel_bind with (Q := eq); [apply rel_end_magic|]. intros o2 _ <-. apply rel_bind with (Q := eq); [apply rel_more_first|]. intros o3 _ <-. apply rel_bind with (Q := eq); [apply rel_more_last|]. intros [] _ _. apply rel_bind with (Q := eq); [apply rel_marker_magic|]. intros [] _ _.
  apply rel_bind with (Q := eq); [apply rel_header_magic|]. intros o4 _ <-. apply rel_bind with (Q := eq). { apply rel_change; [intros; now apply same_seek|auto]. } intros [] _ _.
  apply rel_data. intros d. destruct (_ <=? _).
  - apply rel_bind with (Q := eq); [|intros [] _ _; now apply rel_ret]. apply rel_move. intros u w S'. f_equal. apply S'.
  - apply rel_bind with (Q := eq). { apply rel_move. intros u w S'. f_equal. apply S'. } intros [] _ _. apply rel_state. intros s' t' S' _. replace (n_count t') with (n_count s') by (destruct S' as (_ & _ & _ & X & Y & _); congruence). apply rel_bind with (Q := eq); [apply rel_following|]. intros data _ <-.
    apply rel_state. intros s2 t2 S'' _. replace (n_size t2) with (n_size s2) by apply S''. replace (n_pos t2) with (n_pos s2) by apply S''. destruct (n_size s2 <? n_pos s2); [apply rel_raise|]. apply rel_bind with (Q := eq); [|intros [] _ _; now apply rel_ret]. apply rel_change; [apply same_active|auto].
Qed.
Lemma rel_seek H off o : rel H (n_seek_to name rar article off o) (n_seek_to name rar article off o) eq.
Proof.
  unfold n_seek_to. apply rel_state. intros s t S _. replace (n_inactive t) with (n_inactive s) by apply S. replace (n_pos t) with (n_pos s) by apply S. match goal with |- rel _ (if ?b then _ else _) _ _ => destruct b end.
  - apply rel_bind with (Q := eq); [|intros [] _ _; now apply rel_ret]. apply rel_move. reflexivity.
  - apply rel_bind with (Q := eq). { destruct (n_inactive s); [apply rel_first_grab|now apply rel_ret]. } intros [] _ _. apply rel_state. intros s' t' S' _. replace (n_size t') with (n_size s') by apply S'. replace (n_pos t') with (n_pos s') by apply S'.
    destruct (_ <? 0); [apply rel_raise|]. destruct (_ <? _); [apply rel_raise|]. apply rel_bind with (Q := eq); [|intros [] _ _; now apply rel_ret]. apply rel_change; [|auto]. intros. now apply same_seek, same_pos.
Qed.
Lemma reply_same {A} (f : A -> nreply) (a : M A) s t : rel (fun _ => False) a a eq -> same s t -> same (fst (as_reply f (a s))) (fst (as_reply f (a t))) /\ snd (as_reply f (a s)) = snd (as_reply f (a t)).
Proof.
  intros Ha S. destruct (Ha s t S) as (S' & _ & E); [contradiction|]. cbn. split; [exact S'|]. destruct (snd (a s)), (snd (a t)); try contradiction; now subst.
Qed.
Notation n_call := (n_call name rar new_server article head_lines less).
Lemma call_same c s t : same s t -> same (fst (n_call s c)) (fst (n_call t c)) /\ snd (n_call s c) = snd (n_call t c).
Proof.
  intros S. destruct c; cbn [Nntp.n_call].
  - apply reply_same; [apply rel_seek|exact S].
  - cbn. split; [exact S|]. f_equal. apply S.
  - apply reply_same; [apply rel_read|exact S].
  - apply reply_same; [apply rel_file_size|exact S].
Qed.
Lemma run_same {A} (p : reader A) : forall s t, same s t ->
  same (fst (n_run name rar less new_server v p s)) (fst (n_run name rar less new_server v p t)) /\ snd (n_run name rar less new_server v p s) = snd (n_run name rar less new_server v p t).
Proof.
  induction p as [r|c k IH]; intros s t S; cbn [n_run]; [now split|]. destruct (call_same c s t S) as [S' E]. fold article head_lines. rewrite <- E. now apply IH.
Qed.
End Server.
End Same.

(** ** Trying again *)
Definition nzb_base (nzb : list (N * N)) (i : N) : option (N * N) := option_map idb (n_segs (n_new nzb) i).
Lemma new_base nzb i p : nzb_base nzb i = Some p -> fst p = i.
Proof.
  unfold nzb_base, n_new. cbn [n_segs]. enough (forall (f : N -> option segment), (forall j g, f j = Some g -> s_id g = j) -> forall j g, fold_left (fun f p => upd f (fst p) (mkSeg (fst p) (snd p) 0 None)) nzb f j = Some g -> s_id g = j) as K.
  { destruct (fold_left _ nzb _ i) as [g|] eqn:E; [|discriminate]. intros X. apply some_inj in X. subst p. apply K in E; [exact E|]. discriminate. }
  induction nzb as [|q nzb IH]; intros f Hf; cbn [fold_left]; [exact Hf|]. apply IH. intros j g. unfold upd. destruct (N.eqb_spec j (fst q)) as [-> | Hj]; [|apply Hf]. intros X. apply some_inj in X. now subst g.
Qed.
Definition kept (nzb : list (N * N)) (s : nfile) : Prop := (forall i, option_map idb (n_segs s i) = nzb_base nzb i) /\ n_count s = n_count (n_new nzb).
Notation like nzb := (same (nzb_base nzb) (n_count (n_new nzb))).
Lemma same_kept nzb seek s t : like nzb seek s t -> kept nzb s.
Proof. intros (S1 & _ & _ & S4 & _). split; [|exact S4]. intros i. apply S1. Qed.
Lemma new_like nzb seek : like nzb seek (n_new nzb) (n_new nzb).
Proof.
  split; [intros i; now split|]. split; [|now repeat split]. intros i g h Eg Eh. rewrite Eg in Eh. apply some_inj in Eh. subst h. split; [reflexivity|]. split; [reflexivity|now left].
Qed.
Lemma new_shift nzb i g : n_segs (n_new nzb) i = Some g -> s_shift g = None.
Proof.
  unfold n_new. cbn [n_segs]. enough (forall (f : N -> option segment), (forall j g, f j = Some g -> s_shift g = None) -> forall j g, fold_left (fun f p => upd f (fst p) (mkSeg (fst p) (snd p) 0 None)) nzb f j = Some g -> s_shift g = None) as K.
  { apply K. discriminate. }
  clear. induction nzb as [|q nzb IH]; intros f Hf; cbn [fold_left]; [exact Hf|]. apply IH. intros j g. unfold upd. destruct (N.eqb_spec j (fst q)) as [-> | Hj]; [|apply Hf]. intros X. apply some_inj in X. now subst g.
Qed.
Lemma init_like nzb s : kept nzb s -> like nzb False (init_data s) (n_new nzb).
Proof.
  intros [K C]. split; [|split].
  - intros i. split; [|reflexivity]. cbn. rewrite <- K. destruct (n_segs s i); reflexivity.
  - intros i g h Eg Eh. pose proof (new_shift nzb i h Eh) as W. specialize (K i). unfold nzb_base in K. rewrite Eh in K. cbn [init_data n_segs] in Eg. destruct (n_segs s i) as [x|]; [|discriminate]. apply some_inj in Eg. subst g. cbn in K. apply some_inj in K. split; [exact K|]. split; [cbn; congruence|]. right. now rewrite W.
  - cbn. repeat (split; [assumption || reflexivity|]). now intros.
Qed.

Lemma run_then {A B} name rar less ns v (p : reader A) (q : A -> reader B) : forall s,
  n_run name rar less ns v (first_then p q) s = let x := n_run name rar less ns v p s in match snd x with Ok a => n_run name rar less ns v (q a) (fst x) | Err e => (fst x, Err e) end.
Proof. induction p as [[a|e]|c k IH]; intros s; cbn [first_then n_run]; [reflexivity..|]. apply IH. Qed.
Lemma seeks_then {A B} (p : reader A) (q : A -> reader B) : seeks_end p -> seeks_end (first_then p q).
Proof.
  intros (k & -> & Hk). exists (fun r => first_then (k r) q). split; [reflexivity|]. intros r. destruct (Hk r) as (w & -> & Hw). exists (fun r => first_then (w r) q). split; [reflexivity|]. intros e. now rewrite Hw.
Qed.
Lemma bind_err {A B} (a : M A) (g : A -> M B) s t e : a s = (t, Err e) -> mbind a g s = (t, Err e).
Proof. intros E. unfold mbind. now rewrite E. Qed.
Lemma seek_end_seeks name rar ns v less s : match snd (n_call name rar ns (fst v) (snd v) less s (NSeek 0 FromEnd)) with NError _ => True | _ => n_seek (fst (n_call name rar ns (fst v) (snd v) less s (NSeek 0 FromEnd))) = true end.
Proof.
  unfold n_call, n_seek_to. rewrite state_ok. rewrite andb_false_r. set (a := if n_inactive s then _ else _). unfold as_reply. destruct (a s) as (s', [x|e]) eqn:Ea; [|rewrite (bind_err _ _ _ _ _ Ea); exact I]. rewrite (bind_ok _ _ _ _ _ Ea), state_ok. destruct (_ <? 0); [exact I|]. destruct (_ <? _); [exact I|]. reflexivity.
Qed.
Lemma init_run {A} name rar less v (p : reader A) nzb s : right v -> rar = false \/ seeks_end p -> kept nzb s ->
  snd (n_run name rar less true v p (init_data s)) = snd (n_run name rar less true v p (n_new nzb)) /\ kept nzb (fst (n_run name rar less true v p (init_data s))).
Proof.
  intros Hv Hp K. pose proof (init_like nzb s K) as S. destruct Hp as [-> | (k & -> & Hk)].
  - destruct (run_same _ _ False (new_base nzb) name false true v less Hv (or_introl eq_refl) p _ _ S) as [S' E]. split; [exact E|]. now apply same_kept in S'.
  - cbn [n_run n_call fst snd]. destruct (Hk (NPos 0)) as (q & E & Hq). replace (n_pos (init_data s)) with 0 by reflexivity. replace (n_pos (n_new nzb)) with 0 by reflexivity. rewrite E. cbn [n_run].
    set (x := n_call _ _ _ _ _ _ (init_data s) _). set (y := n_call _ _ _ _ _ _ (n_new nzb) _).
    assert (like nzb False (fst x) (fst y) /\ snd x = snd y) as [S' Er]. { apply reply_same; [|exact S]. apply (rel_seek _ _ _ (new_base nzb) name rar v Hv). }
    rewrite <- Er. pose proof (seek_end_seeks name rar true v less (init_data s)) as X. pose proof (seek_end_seeks name rar true v less (n_new nzb)) as Y. fold x in X. fold y in Y. rewrite <- Er in Y.
    destruct (snd x) as [z|d|e] eqn:Ex.
    + assert (like nzb True (fst x) (fst y)) as S2. { destruct S' as (S1 & S2 & S3 & S4 & S5 & S6 & S7 & S8 & S9 & S10 & _). repeat (split; [assumption|]). intros _. congruence. }
      destruct (run_same _ _ True (new_base nzb) name rar true v less Hv (or_intror I) (q (NPos z)) _ _ S2) as [S3 E3]. split; [exact E3|]. now apply same_kept in S3.
    + assert (like nzb True (fst x) (fst y)) as S2. { destruct S' as (S1 & S2 & S3 & S4 & S5 & S6 & S7 & S8 & S9 & S10 & _). repeat (split; [assumption|]). intros _. congruence. }
      destruct (run_same _ _ True (new_base nzb) name rar true v less Hv (or_intror I) (q (NData d)) _ _ S2) as [S3 E3]. split; [exact E3|]. now apply same_kept in S3.
    + rewrite Hq. cbn [n_run]. split; [reflexivity|]. now apply same_kept in S'.
Qed.
Lemma new_kept {A} name rar less ns v (p : reader A) nzb : right v -> kept nzb (fst (n_run name rar less ns v p (n_new nzb))).
Proof.
  intros Hv. destruct (run_same _ _ True (new_base nzb) name rar ns v less Hv (or_intror I) p _ _ (new_like nzb True)) as [S' _]. now apply same_kept in S'.
Qed.
Lemma caught_temporary {A} e : caught e = true <-> temporary (Err (A := A) e).
Proof.
  unfold temporary. split.
  - destruct e; try discriminate; intros _; auto.
  - intros [H|[H|H]]; inversion H; reflexivity.
Qed.
Lemma pick_mod fuel count : 1 <= count -> forall nb, 0 <= nb -> (Z.to_nat nb < fuel)%nat -> pick fuel count nb = Ok (nb mod count).
Proof.
  intros Hc. induction fuel as [|fuel IH]; intros nb Hn Hf; [lia|]. cbn [pick]. destruct (Z.ltb_spec (count - 1) nb) as [L|L].
  - replace (nb - count <? 0) with false by lia. rewrite IH by lia. f_equal. replace nb with (nb - count + 1 * count) at 2 by lia. now rewrite Z.mod_add by lia.
  - f_equal. symmetry. apply Z.mod_small. lia.
Qed.
Definition no_server : server := (fun _ _ => Err KeyError, fun _ => 0%N).
Lemma pick_turn extra i : extra <> [] -> pick_server extra (Z.of_nat i) = Ok (nth (i mod length extra) extra no_server).
Proof.
  intros He. assert (length extra <> O) as Hl by (destruct extra; [contradiction|discriminate]). unfold pick_server. rewrite pick_mod by lia. cbn [bind]. rewrite <- Nat2Z.inj_mod, Nat2Z.id. pose proof (Nat.mod_upper_bound i (length extra) Hl) as Hi.
  destruct (nth_error extra (i mod length extra)) as [v|] eqn:E; [now rewrite (nth_error_nth extra _ no_server E)|]. apply nth_error_None in E. lia.
Qed.

Section Settles.
Variables (name : text) (rar : bool) (less : N -> Z) (extra : list server) (nzb : list (N * N)).
Context {R A : Type}.
Variables (opened : reader R) (read_all : R -> reader A).
Hypothesis (He : extra <> []).
Hypothesis (Hr : Forall right extra).
Hypothesis (Hs : rar = false \/ seeks_end opened).
Let p : reader A := first_then opened read_all.
Let anew (v : server) : result A := snd (n_run name rar less true v p (n_new nzb)).
Let turn (i : nat) : server := nth (i mod length extra) extra no_server.
Lemma turn_right i : right (turn i).
Proof using He Hr.
  assert (length extra <> O) as Hl by (destruct extra; [contradiction|discriminate]). rewrite Forall_forall in Hr. apply Hr. apply nth_In. now apply Nat.mod_upper_bound.
Qed.
Lemma retry_settles retries : forall n i fuel s, (i + n = retries + 1)%nat -> (n < fuel)%nat -> kept nzb s ->
  settles (map (fun j => anew (turn j)) (seq i (S n))) (retry name rar less extra opened read_all fuel (Z.of_nat retries) (Z.of_nat i) (turn i) (init_data s)).
Proof using He Hr Hs.
  assert (rar = false \/ seeks_end p) as Hp by (destruct Hs as [H|H]; [now left|right; now apply seeks_then]).
  induction n as [|n IH]; intros i fuel s Hi Hf K; (destruct fuel as [|fuel]; [lia|]); cbn [retry]; fold p; destruct (init_run name rar less (turn i) p nzb s (turn_right i) Hp K) as [E K']; rewrite E; cbn [seq map].
  - replace (Z.of_nat i <=? Z.of_nat retries) with false by lia. fold (anew (turn i)). destruct (anew (turn i)) as [a|e]; [constructor|]. destruct (caught e); constructor.
  - replace (Z.of_nat i <=? Z.of_nat retries) with true by lia. fold (anew (turn i)). destruct (anew (turn i)) as [a|e].
    + apply settles_here. intros [H|[H|H]]; discriminate H.
    + destruct (caught e) eqn:Ec.
      * replace (Z.of_nat i + 1) with (Z.of_nat (S i)) by lia. rewrite pick_turn by exact He. cbn [bind]. fold (turn (S i)). apply settles_next; [now apply caught_temporary|discriminate|]. apply (IH (S i) fuel); [lia|lia|exact K'].
      * apply settles_here. intros H. apply caught_temporary in H. congruence.
Qed.
Variable original : server.
Hypothesis Ho : right original.
Lemma usenet_settles n : ~ temporary (snd (n_run name rar less false original opened (n_new nzb))) ->
  settles (snd (n_run name rar less false original p (n_new nzb)) :: map anew (turns extra (n + 2))) (rarreader_usenet name rar less original extra opened read_all (Z.of_nat n) (n_new nzb)).
Proof using He Hr Hs Ho.
  intros Ht. unfold rarreader_usenet. unfold p at 1. rewrite run_then. cbv zeta. set (x := n_run name rar less false original opened (n_new nzb)) in *. destruct (snd x) as [r|e] eqn:Ex.
  - set (y := n_run name rar less false original (read_all r) (fst x)). destruct (snd y) as [a|e] eqn:Ey.
    + apply settles_here. intros [H|[H|H]]; discriminate H.
    + destruct (caught e) eqn:Ec.
      * change 0 with (Z.of_nat 0) at 1. rewrite pick_turn by exact He. cbn [bind]. apply settles_next; [now apply caught_temporary|replace (n + 2)%nat with (S (n + 1)) by lia; discriminate|].
        unfold turns. rewrite map_map. replace (n + 2)%nat with (S (n + 1)) by lia. change 0 with (Z.of_nat 0). apply retry_settles; [lia|lia|]. pose proof (new_kept name rar less false original p nzb Ho) as K. unfold p in K. rewrite run_then in K. cbv zeta in K. fold x in K. rewrite Ex in K. exact K.
      * apply settles_here. intros H. apply caught_temporary in H. congruence.
  - apply settles_here. intros [H|[H|H]]; apply Ht; inversion H; unfold temporary; auto.
Qed.
End Settles.
