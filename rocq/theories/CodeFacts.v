(** UTF-16 names and MS-DOS time stamps. *)
From Verif Require Import Base BaseFacts Rar RarSpec NameFacts CodeSpec.

Lemma utf16_units_utf16 t : Forall scalar t -> utf16_units (utf16 t) = t.
Proof.
  induction 1 as [|c t Hc _ IH]; [reflexivity|]. unfold utf16 in *. cbn [map concat].
  unfold utf16_1. destruct (N.ltb_spec c 0x10000) as [H|H].
  - cbn [app utf16_units]. unfold scalar in Hc.
    destruct (N.leb_spec 0xD800 c), (N.ltb_spec c 0xDC00); cbn [andb]; try lia;
    destruct (N.leb_spec 0xDC00 c), (N.ltb_spec c 0xE000); cbn [andb]; try lia; (f_equal; exact IH).
  - unfold scalar in Hc. cbn [app utf16_units].
    set (u := 0xD800 + (c - 0x10000) / 1024). set (v := 0xDC00 + (c - 0x10000) mod 1024).
    assert (0xD800 <= u < 0xDC00) by (unfold u; lia). assert (0xDC00 <= v < 0xE000) by (unfold v; lia).
    destruct (N.leb_spec 0xD800 u), (N.ltb_spec u 0xDC00); cbn [andb]; try lia.
    destruct (N.leb_spec 0xDC00 v), (N.ltb_spec v 0xE000); cbn [andb]; try lia.
    f_equal; [unfold u, v; lia|exact IH].
Qed.

Lemma decode_text std hi enc ops t :
  enc_groups enc ops -> nops_ok std 0 ops -> Forall scalar t -> nops_units std hi 0 ops = utf16 t ->
  unicode_decode std (hi :: enc) = Ok t.
Proof.
  intros He Ho Ht E. rewrite (unicode_decode_ok std hi enc ops He Ho), E. f_equal. now apply utf16_units_utf16.
Qed.

(** every name has an encoding *)
Definition pair_op (u : N) : nop := NPair (n2b (u mod 256)) (n2b (u / 256)).
Lemma pair_units std hi l : forall pos, Forall (fun u => u < 65536) l ->
  nops_units std hi pos (map pair_op l) = l.
Proof.
  induction l as [|u l IH]; intros pos H; [reflexivity|]. inversion_clear H.
  cbn [map nops_units pair_op nop_units app]. rewrite IH by assumption. f_equal.
  rewrite !b2n_n2b by lia. lia.
Qed.
Lemma pair_ok std l : forall pos, nops_ok std pos (map pair_op l).
Proof. induction l as [|u l IH]; intros pos; cbn [map nops_ok]; [exact I|]. split; [exact I|apply IH]. Qed.
Lemma pair_groups n : forall l, (List.length l <= n)%nat -> exists enc, enc_groups enc (map pair_op l).
Proof.
  induction n as [n IH] using lt_wf_ind. intros l Hl.
  destruct l as [|a [|b [|c [|d l]]]].
  - eexists; constructor.
  - exists (xaa :: nop_bytes (pair_op a)). now apply eg_one.
  - exists (xaa :: nop_bytes (pair_op a) ++ nop_bytes (pair_op b)). now apply eg_two.
  - exists (xaa :: nop_bytes (pair_op a) ++ nop_bytes (pair_op b) ++ nop_bytes (pair_op c)). now apply eg_three.
  - cbn [List.length] in Hl. destruct (IH (n - 4)%nat) with (l := l) as [enc He]; [lia|lia|].
    eexists. cbn [map]. apply (eg_four xaa); try reflexivity. exact He.
Qed.
Lemma utf16_lt t : Forall scalar t -> Forall (fun u => u < 65536) (utf16 t).
Proof.
  induction 1 as [|c t Hc _ IH]; [constructor|]. unfold utf16 in *. cbn [map concat].
  apply Forall_app. split; [|exact IH]. unfold utf16_1, scalar in *.
  destruct (N.ltb_spec c 0x10000); repeat constructor; lia.
Qed.
Lemma some_encoding std hi t : Forall scalar t ->
  exists enc ops, enc_groups enc ops /\ nops_ok std 0 ops /\ nops_units std hi 0 ops = utf16 t.
Proof.
  intros H. destruct (pair_groups _ (utf16 t) (Nat.le_refl _)) as [enc He].
  exists enc, (map pair_op (utf16 t)). split; [exact He|]. split; [apply pair_ok|].
  apply pair_units. now apply utf16_lt.
Qed.

(** ** Time stamps *)
Lemma dos_decode y mo d h mi s2 :
  dos_ok y mo d h mi s2 -> parse_dos_time (dos_stamp y mo d h mi s2) = (y, mo, d, h, mi, 2 * s2).
Proof.
  unfold dos_ok, dos_stamp. intros (Hy & Hmo & Hd & Hh & Hmi & Hs). unfold parse_dos_time.
  change 0x1F with (N.ones 5). change 0x3F with (N.ones 6). change 0x0F with (N.ones 4).
  change 0x7F with (N.ones 7). rewrite !N.land_ones, !N.shiftr_div_pow2.
  change (2 ^ 5) with 32. change (2 ^ 6) with 64. change (2 ^ 4) with 16. change (2 ^ 7) with 128.
  set (n := s2 + 32 * (mi + 64 * (h + 32 * (d + 32 * (mo + 16 * (y - 1980)))))).
  assert (E1 : n mod 32 = s2) by (unfold n; lia).
  assert (E2 : n / 32 = mi + 64 * (h + 32 * (d + 32 * (mo + 16 * (y - 1980))))) by (unfold n; lia).
  rewrite E1, E2. clear E1 E2.
  set (n2 := mi + 64 * (h + 32 * (d + 32 * (mo + 16 * (y - 1980))))).
  assert (E1 : n2 mod 64 = mi) by (unfold n2; lia).
  assert (E2 : n2 / 64 = h + 32 * (d + 32 * (mo + 16 * (y - 1980)))) by (unfold n2; lia).
  rewrite E1, E2. clear E1 E2.
  set (n3 := h + 32 * (d + 32 * (mo + 16 * (y - 1980)))).
  assert (E1 : n3 mod 32 = h) by (unfold n3; lia).
  assert (E2 : n3 / 32 = d + 32 * (mo + 16 * (y - 1980))) by (unfold n3; lia).
  rewrite E1, E2. clear E1 E2.
  set (n4 := d + 32 * (mo + 16 * (y - 1980))).
  assert (E1 : n4 mod 32 = d) by (unfold n4; lia).
  assert (E2 : n4 / 32 = mo + 16 * (y - 1980)) by (unfold n4; lia).
  rewrite E1, E2. clear E1 E2.
  assert (E1 : (mo + 16 * (y - 1980)) mod 16 = mo) by lia.
  assert (E2 : (mo + 16 * (y - 1980)) / 16 = y - 1980) by lia.
  rewrite E1, E2.
  repeat (apply f_equal2; [|try lia]); try lia; try reflexivity.
Qed.
Lemma dos_all stamp : stamp < 4294967296 ->
  exists y mo d h mi s2, dos_ok y mo d h mi s2 /\ stamp = dos_stamp y mo d h mi s2.
Proof.
  intros H. unfold dos_ok, dos_stamp.
  exists (1980 + stamp / 33554432), (stamp / 2097152 mod 16), (stamp / 65536 mod 32),
    (stamp / 2048 mod 32), (stamp / 32 mod 64), (stamp mod 32).
  repeat split; lia.
Qed.
