(** FlagsFacts: the dictionary size switch and size. *)
From Verif Require Import Base BaseFacts VolSpec Flags FlagsSpec.

Lemma land_field flags k : k < 8 -> N.land flags (32 * k) = 32 * N.land (dict_field flags) k.
Proof.
  intros H. unfold dict_field. rewrite !(N.mul_comm 32). change 32 with (2 ^ 5). rewrite <- N.shiftr_div_pow2, <- !N.shiftl_mul_pow2.
  change 8 with (2 ^ 3). rewrite <- N.land_ones, <- N.land_assoc.
  replace (N.land (N.ones 3) k) with k.
  2:{ rewrite N.land_comm, N.land_ones. symmetry. apply N.mod_small. exact H. }
  apply N.bits_inj. intros i. rewrite N.land_spec. destruct (N.lt_ge_cases i 5) as [L|L].
  - rewrite !N.shiftl_spec_low by exact L. apply andb_false_r.
  - rewrite !N.shiftl_spec_high' by exact L. rewrite N.land_spec, N.shiftr_spec'. do 2 f_equal. lia.
Qed.
Lemma field_cases flags : In (dict_field flags) [0; 1; 2; 3; 4; 5; 6; 7].
Proof. unfold dict_field. assert (flags / 32 mod 8 < 8) by (apply N.mod_lt; lia). cbn [In]. lia. Qed.
Ltac by_field flags :=
  unfold dict_parameter, dict_size, get_dictionary, DICT4096, DICT2048, DICT1024, DICT512, DICT256, DICT128, DICT64;
  rewrite ?(land_field flags 6 eq_refl : N.land flags 0xc0 = _), ?(land_field flags 5 eq_refl : N.land flags 0xa0 = _),
    ?(land_field flags 4 eq_refl : N.land flags 0x80 = _), ?(land_field flags 3 eq_refl : N.land flags 0x60 = _),
    ?(land_field flags 2 eq_refl : N.land flags 0x40 = _), ?(land_field flags 1 eq_refl : N.land flags 0x20 = _),
    ?(land_field flags 7 eq_refl : N.land flags 0xe0 = _), ?N.land_0_r;
  let H := fresh in pose proof (field_cases flags) as H; cbn [In] in H;
  repeat (destruct H as [H|H]; [rewrite <- H in *; clear H|]); [..|destruct H].

Theorem dict_thm flags : dict_field flags <> 7 ->
  dict_parameter flags = str "-md" ++ [65 + dict_field flags] /\
  dict_size flags = Some (2 ^ (16 + dict_field flags)) /\
  exists t, get_dictionary flags = Ok (str "Dictionary size " ++ t ++ str " KiB") /\ decimal (2 ^ (6 + dict_field flags)) t.
Proof.
  intros F. by_field flags; try (exfalso; apply F; reflexivity); (split; [reflexivity|]; split; [reflexivity|]).
  1,2,3,4,5,6,7: [> exists (str "64")|exists (str "128")|exists (str "256")|exists (str "512")|exists (str "1024")|exists (str "2048")|exists (str "4096")].
  all: split; [reflexivity|].
  1: exists 2%nat. 2,3,4: exists 3%nat. 5,6,7: exists 4%nat.
  all: split; [reflexivity|split; [reflexivity|discriminate]].
Qed.
Theorem dict_dir flags : dict_field flags = 7 ->
  get_dictionary flags = Ok (str "File is a directory") /\ dict_parameter flags = str "-mdG" /\ dict_size flags = Some (4096 * 1024).
Proof. intros F. by_field flags; try discriminate F. auto. Qed.
Theorem method_thm m : (exists d, m = 0x30 + d /\ d <= 5 /\ compression_parameter m = Ok (str "-m" ++ dec 1 d)) \/
  ((m < 0x30 \/ 0x35 < m) /\ compression_parameter m = Err KeyError).
Proof.
  destruct (N.lt_ge_cases m 0x30) as [L|L]; [right|destruct (N.lt_ge_cases 0x35 m) as [R|R]; [right|left]].
  - split; [lia|]. unfold compression_parameter. repeat (match goal with |- context [m =? ?k] => replace (m =? k) with false by lia end). reflexivity.
  - split; [lia|]. unfold compression_parameter. repeat (match goal with |- context [m =? ?k] => replace (m =? k) with false by lia end). reflexivity.
  - exists (m - 0x30). split; [lia|]. split; [lia|]. assert (H : In m [0x30; 0x31; 0x32; 0x33; 0x34; 0x35]) by (cbn [In]; lia).
  cbn [In] in H. repeat (destruct H as [<-|H]; [reflexivity|]). destruct H.
Qed.
