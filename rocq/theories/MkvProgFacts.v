(** MkvProgFacts: the code of MkvProg.v on a file gives what Mkv.v and MkvRetry.v say. *)
From Verif Require Import Base BaseFacts SrsRec Srs SrrFacts Ebml EbmlFacts Mkv MkvRetry MkvProg StreamSpec Prog ProgSpec ProgFacts AviProgFacts TermFacts.

(** ** Numbers *)
Lemma byte_sub c pos : byte_at (sub pos 1 c) 0 = byte_at c pos.
Proof.
  unfold byte_at, unpack. rewrite sub_sub by reflexivity. now rewrite N.add_0_r.
Qed.
Lemma byte_len c pos n : byte_at c pos = Ok n -> pos < lenN c /\ lenN (sub pos 1 c) = 1.
Proof.
  unfold byte_at, unpack. change (N.of_nat 1) with 1. destruct (N.eqb_spec (lenN (sub pos 1 c)) 1) as [E|E]; [|discriminate]. intros _. split; [|exact E].
  unfold sub in E. rewrite lenN_takeN, lenN_dropN in E. lia.
Qed.
Lemma byte_ok c pos : run (flat_op c) pos p_byte = do b <- byte_at c pos; Ok (b, pos + 1).
Proof.
  unfold p_byte. step. change 1%Z with (Z.of_N 1). rewrite read_at_pos, byte_sub. destruct (byte_at c pos) as [b|e] eqn:E; [|reflexivity].
  apply byte_len in E as [_ E]. rewrite E. reflexivity.
Qed.
Lemma uint_loop_ok c n : forall pos size, run (flat_op c) pos (p_uint_loop n size) = do r <- uint_loop c n pos size; Ok (r, pos + N.of_nat n).
Proof.
  induction n as [|n IH]; intros pos size; cbn [p_uint_loop uint_loop].
  - step. now rewrite N.add_0_r.
  - rewrite run_bind, byte_ok. destruct (byte_at c pos) as [b|e]; [|reflexivity]. cbn [bind fst snd]. rewrite IH. destruct (uint_loop c n _ _); [|reflexivity]. cbn [bind]. do 2 f_equal. lia.
Qed.
Lemma uint_ok c pos : run (flat_op c) pos p_uint = do r <- get_ebml_uint_stream c pos; Ok (r, pos + N.max 1 (snd r)).
Proof.
  unfold p_uint, get_ebml_uint_stream. rewrite run_bind, byte_ok. destruct (byte_at c pos) as [b|e]; [|reflexivity]. cbn [bind fst snd].
  rewrite run_bind, uint_loop_ok. destruct (uint_loop c _ _ _) as [n|e]; [|reflexivity]. cbn [bind fst snd]. rewrite run_ret. do 2 f_equal. lia.
Qed.
Lemma xiph_ok c : forall fuel pos size n, run (flat_op c) pos (p_xiph fuel size n) = do r <- xiph_size fuel c pos size; Ok ((fst r, n + (snd r - pos)), snd r).
Proof.
  induction fuel as [|fuel IH]; intros pos size n; [reflexivity|]. cbn [p_xiph xiph_size]. rewrite run_bind, byte_ok. destruct (byte_at c pos) as [b|e]; [|reflexivity]. cbn [bind fst snd].
  destruct (b =? 255).
  - rewrite IH. destruct (xiph_size fuel c (pos + 1) (size + b)) as [[s q]|e] eqn:E; [|reflexivity]. cbn [bind fst snd]. do 3 f_equal.
    assert (G : forall f p s0 r, xiph_size f c p s0 = Ok r -> p < snd r).
    { induction f as [|f IHf]; intros p s0 r; [discriminate|]. cbn [xiph_size]. destruct (byte_at c p); [|discriminate]. cbn [bind]. destruct (a =? 255); intros H; [apply IHf in H; lia|]. apply ok_inj in H. subst r. cbn. lia. }
    apply G in E. cbn [snd] in E. lia.
  - rewrite run_ret. cbn [bind fst snd]. do 3 f_equal. lia.
Qed.
Lemma xiph_after c : forall fuel pos size r, xiph_size fuel c pos size = Ok r -> pos < snd r.
Proof.
  induction fuel as [|f IHf]; intros p s0 r; [discriminate|]. cbn [xiph_size]. destruct (byte_at c p); [|discriminate]. cbn [bind]. destruct (a =? 255); intros H; [apply IHf in H; lia|]. apply ok_inj in H. subst r. cbn. lia.
Qed.

(** ** The laces *)
Lemma lace_ok c lace count dl : forall n pos i sizes consumed, lace = LACE_NONE \/ lace = LACE_FIXED \/ lace = LACE_XIPH \/ i <> 0 ->
  match lace_loop n lace count dl c pos i sizes consumed with
  | Ok r => consumed <= snd r /\ run (flat_op c) pos (p_lace n (lenN c) lace count dl i sizes consumed) = Ok (r, pos + (snd r - consumed))
  | Err e => run (flat_op c) pos (p_lace n (lenN c) lace count dl i sizes consumed) = Err e
  end.
Proof.
  assert (Le : N.to_nat (lenN c) = length c) by (rewrite lenN_length; apply Nat2N.id).
  induction n as [|n IH]; intros pos i sizes consumed HI; cbn [p_lace lace_loop]; cbv zeta.
  - cbn [snd]. split; [lia|]. rewrite run_ret. do 2 f_equal. lia.
  - assert (HJ : lace = LACE_NONE \/ lace = LACE_FIXED \/ lace = LACE_XIPH \/ i + 1 <> 0) by lia.
    assert (Z0 : forall size, match lace_loop n lace count dl c (pos + 0) (i + 1) (sizes ++ [size]) (consumed + 0) with
      | Ok r => consumed <= snd r /\ run (flat_op c) pos (p_lace n (lenN c) lace count dl (i + 1) (sizes ++ [size]) (consumed + 0)) = Ok (r, pos + (snd r - consumed))
      | Err e => run (flat_op c) pos (p_lace n (lenN c) lace count dl (i + 1) (sizes ++ [size]) (consumed + 0)) = Err e end).
    { intros size. rewrite !N.add_0_r. exact (IH pos (i + 1) (sizes ++ [size]) consumed HJ). }
    assert (Zk : forall size k, match lace_loop n lace count dl c (pos + k) (i + 1) (sizes ++ [size]) (consumed + k) with
      | Ok r => consumed <= snd r /\ run (flat_op c) (pos + k) (p_lace n (lenN c) lace count dl (i + 1) (sizes ++ [size]) (consumed + k)) = Ok (r, pos + (snd r - consumed))
      | Err e => run (flat_op c) (pos + k) (p_lace n (lenN c) lace count dl (i + 1) (sizes ++ [size]) (consumed + k)) = Err e end).
    { intros size k. pose proof (IH (pos + k) (i + 1) (sizes ++ [size]) (consumed + k) HJ) as G. destruct (lace_loop n lace count dl c (pos + k) _ _ _) as [r|e]; [|exact G].
      destruct G as [G1 G2]. split; [lia|]. rewrite G2. do 2 f_equal. lia. }
    destruct (N.eqb_spec lace LACE_NONE) as [|N1]; [apply Z0|]. destruct (N.eqb_spec lace LACE_FIXED) as [|N2]; [apply Z0|]. destruct (N.eqb_spec lace LACE_XIPH) as [|N3].
    + destruct (i + 1 <? count); [|apply Z0]. rewrite run_bind, xiph_ok, Le. destruct (xiph_size (S (length c)) c pos 0) as [r|x] eqn:E; [|reflexivity]. cbn [bind fst snd].
      apply xiph_after in E. rewrite N.add_0_l. pose proof (Zk (Z.of_N (fst r)) (snd r - pos)) as G. replace (pos + (snd r - pos)) with (snd r) in * by lia. exact G.
    + destruct (N.eqb_spec i 0) as [->|Ni].
      * destruct HI as [HI|[HI|[HI|HI]]]; congruence.
      * destruct (i + 1 <? count); [|apply Z0]. rewrite run_bind, uint_ok. destruct (get_ebml_uint_stream c pos) as [[len bc]|x]; [|reflexivity]. cbn [bind fst snd].
        destruct (N.eqb_spec bc 0) as [->|Nb]; [reflexivity|]. replace (N.max 1 bc) with bc by lia. apply Zk.
Qed.
(** where it is behind the laces *)
Definition extra (c : bytes) (lace pos : N) : N := if (lace =? LACE_EBML) && match byte_at c (pos + 1) with Ok 0 => true | _ => false end then 1 else 0.
Lemma lengths_ok c lace dl pos : lace = LACE_NONE \/ lace = LACE_FIXED \/ lace = LACE_XIPH \/ lace = LACE_EBML ->
  run (flat_op c) pos (p_frame_lengths (lenN c) lace dl) = do r <- block_frame_lengths lace dl c pos; Ok (r, pos + snd r + extra c lace pos).
Proof.
  intros HL. unfold p_frame_lengths, block_frame_lengths. destruct (N.eqb_spec lace LACE_NONE) as [->|N1].
  - pose proof (lace_ok c LACE_NONE 1 dl 1 pos 0 [] 0 (or_introl eq_refl)) as G. destruct (lace_loop 1 LACE_NONE 1 dl c pos 0 [] 0) as [r|e]; [|exact G].
    destruct G as [_ G]. rewrite G. cbn [bind]. do 2 f_equal. change (extra c LACE_NONE pos) with 0. lia.
  - rewrite run_bind, byte_ok. destruct (byte_at c pos) as [b|e]; [|reflexivity]. cbn [bind fst snd].
    destruct (N.eqb_spec lace LACE_EBML) as [->|N2].
    + unfold extra. change (LACE_EBML =? LACE_EBML) with true. cbn [andb]. replace (N.to_nat (b + 1)) with (S (N.to_nat b)) by lia. cbn [p_lace lace_loop]. cbv zeta.
      change (LACE_EBML =? LACE_NONE) with false. change (LACE_EBML =? LACE_FIXED) with false. change (LACE_EBML =? LACE_XIPH) with false. change (0 =? 0) with true. cbv iota.
      rewrite run_bind, uint_ok. unfold get_ebml_uint_stream. destruct (byte_at c (pos + 1)) as [x|e] eqn:Ex; [|reflexivity]. cbn [bind].
      destruct (uint_loop c _ _ _) as [u|e]; [|reflexivity]. cbn [bind fst snd].
      assert (Hx : x < 256).
      { apply unpack_lt in Ex. exact Ex. }
      assert (K : N.max 1 (get_uint_length x) = get_uint_length x + match x with 0 => 1 | _ => 0 end).
      { destruct (N.eq_dec x 0) as [->|Nx]; [reflexivity|]. rewrite length_log by lia. assert (N.log2 x < 8) by (apply N.log2_lt_pow2; lia). destruct x; lia. }
      pose proof (lace_ok c LACE_EBML (b + 1) dl (N.to_nat b) (pos + 1 + N.max 1 (get_uint_length x)) (0 + 1) ([] ++ [Z.of_N u]) (1 + get_uint_length x)) as G.
      destruct (lace_loop _ _ _ _ _ _ _ _ _) as [r|e].
      * destruct G as [G1 G2]; [right; right; right; discriminate|]. rewrite G2. cbn [bind]. do 2 f_equal. rewrite K. destruct x; lia.
      * rewrite G; [reflexivity|right; right; right; discriminate].
    + assert (E0 : extra c lace pos = 0) by (unfold extra; now replace (lace =? LACE_EBML) with false by lia). rewrite E0.
      pose proof (lace_ok c lace (b + 1) dl (N.to_nat (b + 1)) (pos + 1) 0 [] 1) as G. destruct (lace_loop _ _ _ _ _ _ _ _ _) as [r|e].
      * destruct G as [G1 G2]; [tauto|]. rewrite G2. cbn [bind]. do 2 f_equal. lia.
      * rewrite G; [reflexivity|tauto].
Qed.
Lemma lace_type_cases flags : let l := N.land flags LACE_EBML in l = LACE_NONE \/ l = LACE_FIXED \/ l = LACE_XIPH \/ l = LACE_EBML.
Proof.
  unfold LACE_NONE, LACE_FIXED, LACE_XIPH, LACE_EBML. cbv zeta. assert (E : N.land flags 6 = N.land (flags mod 8) 6).
  { change 8 with (2 ^ 3). rewrite <- N.land_ones, <- N.land_assoc. reflexivity. }
  rewrite E. assert (H : flags mod 8 < 8) by (apply N.mod_lt; discriminate). remember (flags mod 8) as m. clear - H.
  assert (C : m = 0 \/ m = 1 \/ m = 2 \/ m = 3 \/ m = 4 \/ m = 5 \/ m = 6 \/ m = 7) by lia.
  destruct C as [C|[C|[C|[C|[C|[C|[C|C]]]]]]]; rewrite C; vm_compute; tauto.
Qed.
Lemma sub_split (c : bytes) pos a b : sub pos a c ++ sub (pos + a) b c = sub pos (a + b) c.
Proof. unfold sub. rewrite takeN_add, dropN_dropN. do 3 f_equal. lia. Qed.

(** ** It stays inside the file *)
Inductive reads_only {A} : prog A -> Prop :=
| ro_ret a : reads_only (Ret a)
| ro_raise e : reads_only (Raise e)
| ro_read n k : (forall a, reads_only (k a)) -> reads_only (Call (ORead n) k).
Lemma ro_bind {A B} (p : prog A) (k : A -> prog B) : reads_only p -> (forall a, reads_only (k a)) -> reads_only (pbind p k).
Proof. intros H K. induction H as [a|e|n q H IH]; cbn [pbind]; [apply K|apply ro_raise|apply ro_read; exact IH]. Qed.
Lemma ro_lift {A} (r : result A) : reads_only (lift r).
Proof. destruct r; [apply ro_ret|apply ro_raise]. Qed.
Lemma ro_byte : reads_only p_byte.
Proof. unfold p_byte. apply ro_bind; [|intros a; apply ro_lift]. apply ro_read. intros a. destruct a; (apply ro_ret || apply ro_raise). Qed.
Lemma ro_uint_loop n : forall size, reads_only (p_uint_loop n size).
Proof. induction n as [|n IH]; intros size; cbn [p_uint_loop]; [apply ro_ret|]. apply ro_bind; [apply ro_byte|]. intros a. apply IH. Qed.
Lemma ro_uint : reads_only p_uint.
Proof. apply ro_bind; [apply ro_byte|]. intros a. apply ro_bind; [apply ro_uint_loop|]. intros b. apply ro_ret. Qed.
Lemma ro_xiph fuel : forall size n, reads_only (p_xiph fuel size n).
Proof. induction fuel as [|fuel IH]; intros size n; cbn [p_xiph]; [apply ro_raise|]. apply ro_bind; [apply ro_byte|]. intros a. destruct (a =? 255); [apply IH|apply ro_ret]. Qed.
Lemma ro_lace len lace count dl n : forall i sizes consumed, reads_only (p_lace n len lace count dl i sizes consumed).
Proof.
  induction n as [|n IH]; intros i sizes consumed; cbn [p_lace]; cbv zeta; [apply ro_ret|]. destruct (lace =? LACE_NONE); [apply IH|]. destruct (lace =? LACE_FIXED); [apply IH|]. destruct (lace =? LACE_XIPH).
  - destruct (_ <? _); [|apply IH]. apply ro_bind; [apply ro_xiph|]. intros a. apply IH.
  - destruct (i =? 0); [apply ro_bind; [apply ro_uint|]; intros a; apply IH|]. destruct (_ <? _); [|apply IH]. apply ro_bind; [apply ro_uint|]. intros [a bc]. destruct (bc =? 0); [apply ro_raise|apply IH].
Qed.
Lemma ro_lengths len lace dl : reads_only (p_frame_lengths len lace dl).
Proof. unfold p_frame_lengths. destruct (_ =? _); [apply ro_lace|]. apply ro_bind; [apply ro_byte|]. intros a. apply ro_lace. Qed.
Lemma reads_in {A} c (p : prog A) : reads_only p -> forall pos a q, pos <= lenN c -> run (flat_op c) pos p = Ok (a, q) -> q <= lenN c.
Proof.
  induction 1 as [x|e|n k H IH]; intros pos a q L; cbn [run].
  - intros E. apply ok_inj in E. now injection E as _ <-.
  - discriminate.
  - cbn [flat_op]. apply IH. unfold read_at. destruct (n <? 0)%Z; rewrite ?lenN_takeN, ?lenN_dropN, ?lenN_sub; lia.
Qed.
Lemma block_ok c pos n : pos <= lenN c ->
  run (flat_op c) pos (p_read_block (lenN c) pos n) = do b <- read_block c pos n; Ok (b, pos + lenN (b_header b) + if b_over b then 1 else 0).
Proof.
  intros P. unfold read_block, p_read_block. rewrite run_bind, run_read. cbn [bind fst snd]. change (read_at c pos 1) with (read_at c pos (Z.of_N 1)). rewrite read_at_pos, run_bind, run_lift, byte_sub.
  destruct (byte_at c pos) as [d|e] eqn:E1; [|reflexivity]. cbn [bind fst snd]. apply byte_len in E1 as [Lp L1]. rewrite L1. set (k := get_uint_length d).
  set (head := sub pos (N.max 1 k) c).
  assert (R : run (flat_op c) (pos + 1) (if 1 <? k then p_read (Z.of_N k - 1) else Ret []) = Ok (sub (pos + 1) (N.max 1 k - 1) c, pos + lenN head)).
  { assert (H0 : head = sub pos 1 c ++ sub (pos + 1) (N.max 1 k - 1) c) by (rewrite sub_split; unfold head; f_equal; lia). rewrite H0, lenN_app, L1.
    destruct (N.ltb_spec 1 k) as [H|H].
    - rewrite run_read. replace (Z.of_N k - 1)%Z with (Z.of_N (N.max 1 k - 1)) by lia. rewrite read_at_pos. do 2 f_equal. lia.
    - rewrite run_ret. replace (N.max 1 k - 1) with 0 by lia. unfold sub at 1 2. cbn [takeN lenN]. rewrite !takeN_0. cbn [lenN]. do 2 f_equal. }
  rewrite run_bind, R. cbn [bind fst snd]. assert (H0 : sub pos 1 c ++ sub (pos + 1) (N.max 1 k - 1) c = head) by (rewrite sub_split; unfold head; f_equal; lia). rewrite H0. clear R H0.
  rewrite run_bind, run_lift. destruct (get_ebml_uint head 0 k) as [no|e]; [|reflexivity]. cbn [bind fst snd].
  rewrite run_bind, run_read. change 3%Z with (Z.of_N 3). rewrite read_at_pos. cbn [bind fst snd]. set (more := sub (pos + lenN head) 3 c).
  replace (pos + lenN head + lenN more) with (pos + lenN (head ++ more)) by (rewrite lenN_app; lia).
  assert (LH : pos + lenN (head ++ more) <= lenN c) by (unfold more, head; rewrite lenN_app, !lenN_sub; lia).
  remember (head ++ more) as h eqn:Eh. clear Eh head more. destruct (lenN h <? 2); [reflexivity|].
  rewrite run_bind, run_lift. destruct (byte_at h (lenN h - 1)) as [flags|e]; [|reflexivity]. cbn [bind fst snd].
  rewrite run_bind, lengths_ok by apply lace_type_cases. set (lace := N.land flags LACE_EBML). set (dl := (Z.of_N n - Z.of_N (lenN h))%Z).
  destruct (block_frame_lengths lace dl c (pos + lenN h)) as [r|e] eqn:Er; [|reflexivity].
  pose proof (lengths_ok c lace dl (pos + lenN h) (lace_type_cases flags)) as LO. rewrite Er in LO. cbn [bind] in LO.
  apply (reads_in c _ (ro_lengths _ _ _) _ _ _ LH) in LO. cbn [bind fst snd].
  unfold extra in *. set (over := (lace =? LACE_EBML) && match byte_at c (pos + lenN h + 1) with Ok 0 => true | _ => false end) in *. set (x := if over then 1 else 0) in *.
  assert (Q : run (flat_op c) (pos + lenN h + snd r + x) (if 0 <? snd r then pbind (p_seek (- Z.of_N (snd r)) FromHere) (fun _ => p_read (Z.of_N (snd r))) else Ret []) =
    Ok (sub (pos + lenN h + x) (snd r) c, pos + lenN h + snd r + x)).
  { destruct (N.ltb_spec 0 (snd r)) as [H|H].
    - rewrite run_bind, run_seek. cbv zeta. replace (Z.of_N (pos + lenN h + snd r + x) + - Z.of_N (snd r))%Z with (Z.of_N (pos + lenN h + x)) by lia.
      replace (Z.of_N (pos + lenN h + x) <? 0)%Z with false by lia. cbn [bind fst snd]. rewrite N2Z.id, run_read, read_at_pos. do 2 f_equal. rewrite lenN_sub. lia.
    - rewrite run_ret. replace (snd r) with 0 by lia. unfold sub. now rewrite takeN_0. }
  rewrite run_bind, Q. cbn [bind fst snd]. rewrite run_bind, run_tell. cbn [bind fst snd]. rewrite run_ret. set (y := sub (pos + lenN h + x) (snd r) c).
  assert (Ly : lenN y = snd r) by (unfold y; rewrite lenN_sub; lia). cbn [b_header b_over]. rewrite lenN_app, Ly.
  replace (pos + (lenN h + snd r) <? pos + lenN h + snd r + x) with over by (unfold x; destruct over; lia). do 2 f_equal. unfold x. lia.
Qed.
Lemma read_in c pos n : pos <= lenN c -> pos + lenN (read_at c pos n) <= lenN c.
Proof. intros L. unfold read_at. destruct (n <? 0)%Z; rewrite ?lenN_sub, ?lenN_dropN; lia. Qed.
(** what is known of an element that has been read *)
Definition seen (e : elem) : Prop := (0 <= Z.of_N (e_pos e) + e_length e)%Z /\ (e_pos e = e_data e \/ id_in [BLOCK; SIMPLE_BLOCK] e = true).
Lemma next_ok c pos :
  match ebml_next false c pos with
  | Ok (Some e) => run (flat_op c) pos (p_next (lenN c)) = Ok (Some e, e_pos e) /\ seen e
  | Ok None => exists q, run (flat_op c) pos (p_next (lenN c)) = Ok (None, q)
  | Err x => run (flat_op c) pos (p_next (lenN c)) = Err x
  end.
Proof.
  assert (G : exists q, run (flat_op c) pos (p_next (lenN c)) = (do o <- ebml_next false c pos; Ok (o, match o with Some e => e_pos e | None => q end)) /\
    match ebml_next false c pos with Ok (Some e) => seen e | _ => True end).
  2:{ destruct G as (q & -> & G). destruct (ebml_next false c pos) as [[e|]|x]; cbn [bind]; [now split|now exists q|reflexivity]. }
  unfold p_next, ebml_next. rewrite run_bind, run_tell. cbn [bind fst snd]. destruct (N.ltb_spec (lenN c) (pos + 2)) as [H|H]; [exists pos; now split|].
  rewrite run_bind, run_read. cbn [bind fst snd]. change (read_at c pos 1) with (read_at c pos (Z.of_N 1)). rewrite read_at_pos.
  assert (L1 : lenN (sub pos 1 c) = 1) by (rewrite lenN_sub; lia). rewrite L1. pose proof (byte_sub c pos) as B. remember (sub pos 1 c) as x eqn:Ex. destruct x as [|x0 x1] eqn:Ex2; [discriminate|]. rewrite <- Ex2 in *. clear x0 x1 Ex2.
  rewrite run_bind, run_lift, B. destruct (byte_at c pos) as [a|e]; [|exists pos; now split]. cbn [bind fst snd]. set (k := get_uint_length a).
  rewrite run_bind, run_read. cbn [bind fst snd]. assert (P1 := read_in c (pos + 1) (Z.of_N k - 1)). set (y := read_at c (pos + 1) (Z.of_N k - 1)) in *.
  set (id := x ++ y). replace (pos + 1 + lenN y) with (pos + lenN id) in * by (unfold id; rewrite lenN_app; lia). specialize (P1 ltac:(lia)).
  rewrite run_bind, run_read. cbn [bind fst snd]. change (read_at c (pos + lenN id) 1) with (read_at c (pos + lenN id) (Z.of_N 1)). rewrite read_at_pos. assert (P2 := read_in c (pos + lenN id) (Z.of_N 1) P1). rewrite read_at_pos in P2.
  remember (sub (pos + lenN id) 1 c) as z eqn:Ez. destruct z as [|z0 z1] eqn:Ez2; [eexists; now split|].
  assert (Lz : lenN z = 1). { assert (lenN z <= 1) by (rewrite Ez2, Ez, lenN_sub; lia). assert (lenN z <> 0) by (rewrite Ez2, lenN_cons; lia). lia. }
  rewrite <- Ez2 in *. clear z0 z1 Ez2. rewrite Lz in *. assert (Bz : byte_at z 0 = Ok (unle z)).
  { unfold byte_at, unpack. change (N.of_nat 1) with 1. rewrite sub_0. rewrite takeN_all by lia. now rewrite Lz. }
  rewrite run_bind, run_lift, Bz. cbn [bind fst snd]. set (d := get_uint_length (unle z)).
  rewrite run_bind, run_read. cbn [bind fst snd]. assert (P3 := read_in c (pos + lenN id + 1) (Z.of_N d - 1) P2). set (w := read_at c (pos + lenN id + 1) (Z.of_N d - 1)) in *.
  set (h := id ++ z ++ w). replace (pos + lenN id + 1 + lenN w) with (pos + lenN h) in * by (unfold h; rewrite !lenN_app; lia).
  destruct (negb (k + d =? lenN h)); [exists pos; now split|]. rewrite run_bind, run_lift. destruct (get_ebml_uint h k d) as [n|e]; [|exists pos; now split]. cbn [bind fst snd andb].
  destruct (beqb (takeN k h) BLOCK || beqb (takeN k h) SIMPLE_BLOCK) eqn:Ebl.
  - rewrite run_bind, block_ok by exact P3. destruct (read_block c (pos + lenN h) n) as [b|e]; [|exists pos; now split]. cbn [bind fst snd]. rewrite run_ret. exists pos. split.
    + cbn [bind]. do 2 f_equal. unfold e_pos, e_data. cbn [e_block e_start e_header]. destruct (b_over b); lia.
    + unfold seen, e_pos, e_data. cbn [e_block e_start e_header e_length]. split; [destruct (b_over b); lia|]. right. unfold id_in. cbn [existsb e_id]. now rewrite orb_false_r.
  - rewrite run_ret. exists pos. split.
    + cbn [bind]. do 2 f_equal. unfold e_pos, e_data. cbn [e_block e_start e_header]. lia.
    + unfold seen, e_pos, e_data. cbn [e_block e_start e_header e_length]. split; [lia|now left].
Qed.
Lemma contents_ok c e : run (flat_op c) (e_pos e) (p_contents e) = Ok (ebml_read false c e).
Proof. unfold p_contents, ebml_read. cbn [andb]. apply run_read. Qed.
Lemma skip_ok c e : seen e -> run (flat_op c) (e_pos e) (p_skip e) = Ok (tt, ebml_skip false e).
Proof. intros (S & _). unfold p_skip, ebml_skip. cbn [andb]. rewrite run_seek. cbv zeta. now replace (Z.of_N (e_pos e) + e_length e <? 0)%Z with false by lia. Qed.

(** ** The loop *)
Definition act_ok {S} (c : bytes) (act : S -> elem -> result (S * option N)) (pact : S -> elem -> prog S) : Prop :=
  forall s e, seen e -> match act s e with
                        | Ok (s', Some p) => run (flat_op c) (e_pos e) (pact s e) = Ok (s', p)
                        | Ok (_, None) => False
                        | Err x => run (flat_op c) (e_pos e) (pact s e) = Err x
                        end.
Lemma loop_ok {S} c stop (act : S -> elem -> result (S * option N)) pact : act_ok c act pact -> forall fuel pos s,
  (do r <- run (flat_op c) pos (p_loop fuel (lenN c) stop pact s); Ok (fst r)) = ebml_loop fuel false stop act c pos s.
Proof.
  intros A. induction fuel as [|fuel IH]; intros pos s; [reflexivity|]. cbn [p_loop ebml_loop]. rewrite run_bind. pose proof (next_ok c pos) as G.
  destruct (ebml_next false c pos) as [[e|]|x]; cbn [bind].
  - destruct G as [-> Se]. cbn [bind fst snd]. destruct (stop s); [reflexivity|]. rewrite run_bind. pose proof (A s e Se) as G. destruct (act s e) as [[s' [p|]]|x].
    + rewrite G. cbn [bind fst snd]. apply IH.
    + destruct G.
    + rewrite G. reflexivity.
  - destruct G as [q ->]. reflexivity.
  - rewrite G. reflexivity.
Qed.
Lemma run_ok {S A} c stop (act : S -> elem -> result (S * option N)) pact (k : S -> A) s : act_ok c act pact ->
  (do r <- run (flat_op c) 0 (ask x <- p_run stop pact s; Ret (k x)); Ok (fst r)) = do x <- ebml_run false stop act c s; Ok (k x).
Proof.
  intros H. unfold ebml_run. rewrite <- (loop_ok c stop act pact H). replace (1 + length c)%nat with (1 + N.to_nat (lenN c))%nat by (rewrite lenN_length; now rewrite Nat2N.id).
  unfold p_run. rewrite run_bind, run_bind, run_size. cbn [bind fst snd]. rewrite run_bind. change 0%Z with (Z.of_N 0). rewrite run_start. cbn [bind fst snd].
  destruct (run (flat_op c) 0 _) as [[x q]|e]; reflexivity.
Qed.

(** ** The steps *)
Lemma get_fst {A} k (c : list (N * A)) : existsb (N.eqb k) (map fst c) = match get N.eqb k c with Ok _ => true | Err _ => false end.
Proof. induction c as [|[q v] c IH]; [reflexivity|]. cbn [map existsb get fst]. rewrite (N.eqb_sym k q). destruct (q =? k); [reflexivity|exact IH]. Qed.
Lemma child_pos e l : seen e -> id_in l e = true -> existsb (fun i => existsb (beqb i) [BLOCK; SIMPLE_BLOCK]) l = false -> e_pos e = e_data e.
Proof.
  intros (_ & [H|H]) I N; [exact H|]. exfalso. unfold id_in in *. apply existsb_exists in I as (i & Ii & E). apply beqb_eq in E. rewrite E in H.
  assert (X : existsb (fun i => existsb (beqb i) [BLOCK; SIMPLE_BLOCK]) l = true) by (apply existsb_exists; now exists i). congruence.
Qed.
Lemma find_ok c : act_ok c (find_both c) p_find_step.
Proof.
  intros [s cu] e Se. unfold find_both, p_find_step, find_step, extra_step. cbn [fst snd]. match goal with |- context [id_in ?l e] => destruct (id_in l e) eqn:Ei end.
  - cbn [bind fst snd]. rewrite run_ret. now rewrite (child_pos e _ Se Ei) by reflexivity.
  - destruct (e_block e) as [b|] eqn:Eb.
    + unfold find_block, p_find_block, extra_block. set (k := b_track b). set (ts := with_key N.eqb k (new_mtrack k) (f_tracks s)). set (m := mkM _ _ _).
      change (with_key N.eqb k [] (mm_strip (f_main s))) with (mm_strip m).
      rewrite run_bind, run_lift. destruct (get N.eqb k ts) as [t|x]; [|reflexivity]. cbn [bind fst snd].
      rewrite run_bind, run_lift. set (g := @get N (list byte) N.eqb k (mm_strip m)). change (@get N bytes N.eqb k (mm_strip m)) with g. destruct g as [strip|x]; [|reflexivity]. cbn [bind fst snd].
      set (same := beqb (m_strip t) strip). set (forsample := if same then [] else strip). set (formain := if same then [] else m_strip t).
      destruct (searching t) eqn:Es.
      * rewrite run_bind, contents_ok. cbn [bind fst snd]. reflexivity.
      * rewrite get_fst, run_bind. destruct (get N.eqb (td_number (m_td t)) cu) as [l|x].
        -- rewrite run_bind, contents_ok. cbn [bind fst snd]. rewrite run_ret. cbn [bind fst snd]. destruct (counting t); reflexivity.
        -- rewrite run_bind, skip_ok by exact Se. cbn [bind fst snd]. rewrite run_ret. cbn [bind fst snd]. destruct (counting t); reflexivity.
    + destruct (id_in in_tracks e).
      * rewrite run_bind, contents_ok. cbn [bind fst snd]. rewrite run_bind, run_lift. destruct (main_track _ _ _); reflexivity.
      * destruct (id_is TRACKCODEC e).
        -- rewrite run_bind, contents_ok. cbn [bind fst snd]. rewrite run_bind, run_lift. destruct (get _ _ _); reflexivity.
        -- rewrite run_bind, skip_ok by exact Se. reflexivity.
Qed.
Lemma extract_ok c start : act_ok c (extract_step start c) (p_extract_step start).
Proof.
  intros s e Se. unfold extract_step, p_extract_step. match goal with |- context [id_in ?l e] => destruct (id_in l e) eqn:Ei end.
  - rewrite run_ret. now rewrite (child_pos e _ Se Ei) by reflexivity.
  - destruct (e_block e) as [b|] eqn:Eb.
    + unfold extract_block, p_extract_block. destruct (get N.eqb (b_track b) (x_tracks s)) as [t|x].
      * rewrite run_bind, run_lift. destruct (get N.eqb (b_track b) (mm_strip (x_main s))) as [strip|x]; [|reflexivity]. cbn [bind fst snd].
        destruct (_ <? _)%Z; rewrite run_bind; [rewrite contents_ok|rewrite skip_ok by exact Se]; reflexivity.
      * rewrite run_bind, skip_ok by exact Se. reflexivity.
    + destruct (id_is CLUSTER e) eqn:Ec.
      * destruct (_ <? _)%Z; [rewrite run_bind, skip_ok by exact Se; reflexivity|]. rewrite run_ret. rewrite (child_pos e [CLUSTER] Se); [reflexivity| |reflexivity]. unfold id_in. cbn [existsb]. unfold id_is in Ec. now rewrite Ec.
      * destruct (id_in in_tracks e).
        -- rewrite run_bind, contents_ok. cbn [bind fst snd]. rewrite run_bind, run_lift. destruct (main_track _ _ _); reflexivity.
        -- destruct (id_is ATTACHED_FILE_NAME e); [rewrite run_bind, contents_ok; reflexivity|]. destruct (id_is ATTACHED_FILE_DATA e).
           ++ destruct (x_cur s) as [name|]; [|reflexivity]. rewrite run_bind, run_lift. destruct (get beqb name (x_atts s)) as [[d|]|x]; [reflexivity| |reflexivity]. cbn [bind fst snd]. rewrite run_bind, contents_ok. reflexivity.
           ++ rewrite run_bind, skip_ok by exact Se. reflexivity.
Qed.

Theorem mkv_find_same f path archived main c ts : movie f path archived main -> open_run f path archived (p_mkv_find c ts) = mkv_find_all c ts main.
Proof.
  intros M. rewrite (open_same f path archived main _ M). unfold p_mkv_find, mkv_find_all. rewrite (run_ok main _ _ _ (fun s => (f_tracks (fst s), snd s)) _ (find_ok main)). reflexivity.
Qed.
Theorem mkv_extract_same f path archived main ts : movie f path archived main -> open_run f path archived (p_mkv_extract ts) = mkv_extract ts main.
Proof.
  intros M. rewrite (open_same f path archived main _ M). unfold p_mkv_extract, mkv_extract. rewrite (run_ok main _ _ _ (fun s => (x_tracks s, x_atts s)) _ (extract_ok main (start_offset ts))). reflexivity.
Qed.
Lemma tries_ext V set a b : (forall v : V, a v = b v) -> forall l v, check_tracks V set a l v = check_tracks V set b l v.
Proof.
  intros E. induction l as [|[k os] l IH]; intros v; [apply E|]. cbn [check_tracks]. revert v. induction os as [|o os IHo]; intros v; [reflexivity|].
  destruct (set k o v) as [w|x]; [|reflexivity]. cbn [bind]. rewrite IH. destruct (check_tracks V set b l w) as [[[|] u]|x]; cbn [bind fst snd]; [reflexivity|apply IHo|reflexivity].
Qed.
Theorem mkv_restore_same f path archived main no_stored srs : movie f path archived main ->
  mkv_restore_at f path archived no_stored srs = mkv_restore_all no_stored srs main.
Proof.
  intros M. unfold mkv_restore_at, mkv_restore_all, mkv_restore_from. destruct (mkv_load_srs srs) as [[[fd ts] cut]|x]; [|reflexivity]. cbn [bind]. cbv zeta.
  rewrite (mkv_find_same f path archived main _ _ M). set (search := negb _ || no_stored || _). destruct (if search then _ else _) as [[ts2 c]|x]; [|reflexivity]. cbn [bind].
  destruct (search && _); [reflexivity|]. rewrite (mkv_extract_same f path archived main _ M). destruct (mkv_extract ts2 main) as [[ts3 atts]|x]; [|reflexivity]. cbn [bind].
  destruct (existsb _ ts3); [reflexivity|]. destruct fd as [fd|]; [|reflexivity]. destruct (rebuild_files _ _ _ _ _) as [v|x]; [|reflexivity]. cbn [bind].
  destruct (negb _ && _); [|reflexivity]. destruct (guesses ts3 c) as [g|x]; [|reflexivity]. cbn [bind]. rewrite (tries_ext _ _ (attempt_at f path archived fd srs) (attempt fd srs main)); [reflexivity|].
  intros w. unfold attempt_at, attempt. now rewrite (mkv_extract_same f path archived main _ M).
Qed.
